(** C33 (X25519 part: key agreement) and C42 (hybrid key exchange). *)
Require Import Verif.Base Verif.L_Base Verif.L_Blocks Verif.L_Hmac Verif.M_Util Verif.L_Util Verif.T_Util Verif.S_X25519 Verif.M_X25519.
Require Import Verif.S_Sha3 Verif.S_MlKem Verif.S_MlKemAsm Verif.M_MlKem Verif.L_MlKemSample Verif.L_MlKem Verif.L_MlKemKem Verif.T_MlKem Verif.M_Kx.
Require Import Verif.S_Ed.
Require Verif.L_X25519.
Require Import ZifyNat.
Local Opaque X25519.

Lemma le_words b : bytes b -> zlen b = 32 -> u64x4 (le_to_u64s b) /\ u64s_to_le (le_to_u64s b) = b.
Proof.
  intros B L. split; [|apply (C48_le_round_trip_bytes 4); auto; lia]. destruct (C48_le_value 4 b ltac:(lia) ltac:(lia) B) as (A1 & A2 & A3). split; auto. unfold zlen in *. lia.
Qed.
Local Transparent X25519.
Lemma X25519_bytes k u : bytes (X25519 k u) /\ zlen (X25519 k u) = 32.
Proof. unfold X25519. destruct (fold_left _ _ _) as [[[x2 z2] ?] ?]. split; [apply le_bytes_bytes|]. unfold zlen. rewrite le_bytes_length. reflexivity. Qed.
Local Opaque X25519.
Lemma limbs_zero v : u64x4 v -> (limbs_val v =? limbs_val [0; 0; 0; 0]) = list_eqb (u64s_to_le v) (repeat 0 32).
Proof.
  intros [L H]. change (limbs_val [0; 0; 0; 0]) with 0. destruct (Z.eqb_spec (limbs_val v) 0) as [E|E].
  - assert (v = [0; 0; 0; 0]) as ->. { apply limbs_val_inj; auto. repeat (apply Forall_cons; [unfold u64; lia|]); constructor. } reflexivity.
  - symmetry. apply list_eqb_neq. intros E2. apply E. rewrite <- (C48_le_round_trip_words v H), E2. reflexivity.
Qed.

Section X.
Variable xmul : list Z -> list Z -> list Z.
Variable xbase : list Z -> list Z.
Hypothesis Hx : x25519_asm_ok xmul xbase.

(** An X25519 private key made from the 32 bytes [k] has the RFC 7748 public key, and its Diffie-Hellman
    operation with any 32-byte share is RFC 7748's, failing exactly on an all-zero result; a share of any
    other length is rejected. *)
Theorem C33_x25519_exact : forall k, bytes k -> zlen k = 32 -> exists sk, x_static_from_slice k = Ok sk /\ x_static_as_bytes sk = k /\
  (forall fill, fill 32 = Ok k -> x_new_random fill = Ok sk) /\
  x_public_as_bytes (x_public_key xbase sk) = X25519 k u_nine /\
  forall share, bytes share ->
    (zlen share = 32 -> exists pk, x_public_from_slice share = Ok pk /\ x_public_as_bytes pk = share /\
       x_diffie_hellman xmul sk pk = if list_eqb (X25519 k share) (repeat 0 32) then Err NotOnCurve else Ok (X25519 k share)) /\
    (zlen share <> 32 -> x_public_from_slice share = Err WrongLength).
Proof.
  intros k Bk Lk. destruct (le_words k Bk Lk) as [U E]. exists (le_to_u64s k). unfold x_static_from_slice, x_public_from_slice, le_slice_to_u64s, x_static_as_bytes, x_public_as_bytes. change (4 * 8) with 32.
  rewrite (proj2 (Z.eqb_eq _ _) Lk). sp; auto.
  - intros fill Ef. unfold x_new_random. rewrite Ef. reflexivity.
  - unfold x_public_key. rewrite (xbase_ok _ _ Hx) by auto. rewrite E. apply le_words; apply X25519_bytes.
  - intros share Bs. split; intros Ls.
    + rewrite (proj2 (Z.eqb_eq _ _) Ls). destruct (le_words share Bs Ls) as [US ES]. exists (le_to_u64s share). sp; auto.
      unfold x_diffie_hellman. rewrite (xmul_ok _ _ Hx) by auto. rewrite E, ES. unfold bignum_eq. destruct (X25519_bytes k share) as [B1 B2].
      destruct (le_words _ B1 B2) as [U2 E2]. rewrite limbs_zero by auto. rewrite E2. reflexivity.
    + rewrite (proj2 (Z.eqb_neq _ _) Ls). reflexivity.
Qed.
(** What RFC 7748's function computes: applied to the u-coordinate of a point of the curve that is neither neutral
    nor of order two, the u-coordinate of the multiple of that point. *)
Theorem C33_x25519_multiplies : forall k P, on_ed edwards25519 P -> P <> ed_zero -> ed_add edwards25519 P P <> ed_zero ->
  X25519 k (le_bytes 32 (u_of P)) = le_bytes 32 (u_of (ed_mul edwards25519 (decode_scalar k) P)).
Proof. exact L_X25519.X25519_is. Qed.

(** Two X25519 keys agree: each side's operation on the other's public key succeeds with the same result, the
    u-coordinate of the product of both private keys times the base point. *)
Theorem C33_x25519_agreement : forall ka kb ska skb pka pkb,
  bytes ka -> zlen ka = 32 -> bytes kb -> zlen kb = 32 -> x_static_from_slice ka = Ok ska -> x_static_from_slice kb = Ok skb ->
  x_public_from_slice (x_public_as_bytes (x_public_key xbase ska)) = Ok pka -> x_public_from_slice (x_public_as_bytes (x_public_key xbase skb)) = Ok pkb ->
  let s := le_bytes 32 (u_of (ed_mul edwards25519 (decode_scalar ka * decode_scalar kb) (ed_b edwards25519))) in
  x_diffie_hellman xmul ska pkb = Ok s /\ x_diffie_hellman xmul skb pka = Ok s.
Proof.
  intros ka kb ska skb pka pkb Ba La Bb Lb Ea Eb Fa Fb s.
  destruct (C33_x25519_exact ka Ba La) as (s1 & E1 & _ & _ & P1 & D1). destruct (C33_x25519_exact kb Bb Lb) as (s2 & E2 & _ & _ & P2 & D2).
  assert (s1 = ska) by congruence. assert (s2 = skb) by congruence. subst s1 s2.
  destruct (X25519_bytes ka u_nine) as [B1 L1]. destruct (X25519_bytes kb u_nine) as [B2 L2].
  destruct (D1 _ B2) as [X1 _]. destruct (X1 L2) as (q1 & Q1 & _ & R1). destruct (D2 _ B1) as [X2 _]. destruct (X2 L1) as (q2 & Q2 & _ & R2).
  rewrite P1, Q2 in Fa. rewrite P2, Q1 in Fb. injection Fa as <-. injection Fb as <-. rewrite R1, R2.
  rewrite !(proj2 (list_eqb_neq _ _) (L_X25519.X25519_shared_not_zero _ _)), (L_X25519.X25519_commutes kb ka), L_X25519.X25519_shared. split; reflexivity.
Qed.
End X.
Print Assumptions C33_x25519_exact.
Print Assumptions C33_x25519_multiplies.
Print Assumptions C33_x25519_agreement.

(** ** C42 *)
(** Splitting a share returns what was concatenated, and nothing else splits; for either order. *)
Theorem C42_split_concat : forall l n share pq cl, 0 <= l_classical l -> 0 <= n ->
  layout_split l share n = Some (pq, cl) <-> share = layout_concat l pq cl /\ zlen pq = n /\ zlen cl = l_classical l.
Proof.
  intros l n share pq cl Hl Hn. unfold layout_split, layout_concat. split.
  - destruct (Z.eqb_spec (zlen share) (l_classical l + n)) as [E|E]; cbn [negb]; [|discriminate]. destruct (l_pq_first l); intros X; injection X as <- <-; rewrite ztake_zdrop; (split; [auto|]).
    + rewrite zlen_ztake, zlen_zdrop; lia.
    + rewrite zlen_ztake, zlen_zdrop; lia.
  - intros (-> & L1 & L2). destruct (l_pq_first l).
    + rewrite zlen_app. rewrite (proj2 (Z.eqb_eq _ _)) by lia. cbn [negb]. rewrite ztake_app_eq, zdrop_app_eq by lia. reflexivity.
    + rewrite zlen_app. rewrite (proj2 (Z.eqb_eq _ _)) by lia. cbn [negb]. rewrite ztake_app_eq, zdrop_app_eq by lia. reflexivity.
Qed.
Print Assumptions C42_split_concat.
Lemma split_none l n share : zlen share <> l_classical l + n -> layout_split l share n = None.
Proof. intros H. unfold layout_split. rewrite (proj2 (Z.eqb_neq _ _) H). reflexivity. Qed.
(** Shares of any length but the one of the group are rejected, by the server (1216 bytes) and by the
    client (1120 bytes), before anything else happens. *)
Theorem C42_wrong_length : forall cl pq fc fp share a, 
  (zlen share <> 1216 -> hybrid_start_and_complete cl pq x25519mlkem768_layout fc fp share = Err InvalidKeyShare) /\
  (hybrid_start cl pq x25519mlkem768_layout fc fp = Ok a -> zlen share <> 1120 -> ak_complete a share = Err InvalidKeyShare).
Proof.
  intros cl pq fc fp share a. split.
  - intros H. unfold hybrid_start_and_complete. rewrite split_none by exact H. reflexivity.
  - unfold hybrid_start. destruct (kx_start cl fc) as [c| |]; cbn [bind]; try discriminate. destruct (kx_start pq fp) as [p| |]; cbn [bind]; try discriminate.
    intros E H. injection E as <-. cbn [ak_complete]. rewrite split_none by exact H. reflexivity.
Qed.
Print Assumptions C42_wrong_length.

(** client and server, running group [g], end up with the same secret *)
Definition agrees (start : res active) (respond : list Z -> res (list Z * list Z)) : Prop :=
  forall a pub secret, start = Ok a -> respond (ak_pub a) = Ok (pub, secret) -> ak_complete a pub = Ok secret.
(** the group's shares have the lengths the layout says *)
Definition share_lengths (g : kx_group) (fc fs : rng) (client server : Z) : Prop :=
  (forall a, kx_start g fc = Ok a -> zlen (ak_pub a) = client) /\
  (forall share p s, kx_start_and_complete g fs share = Ok (p, s) -> zlen p = server).
(** When the components agree the hybrid agrees, whatever the components and the order. *)
Theorem C42_hybrid_agreement : forall cl pq l fcc fcp fsc fsp, 0 <= l_classical l -> 0 <= l_pq_client l -> 0 <= l_pq_server l ->
  share_lengths cl fcc fsc (l_classical l) (l_classical l) -> share_lengths pq fcp fsp (l_pq_client l) (l_pq_server l) ->
  agrees (kx_start cl fcc) (kx_start_and_complete cl fsc) -> agrees (kx_start pq fcp) (kx_start_and_complete pq fsp) ->
  agrees (hybrid_start cl pq l fcc fcp) (hybrid_start_and_complete cl pq l fsc fsp).
Proof.
  intros cl pq l fcc fcp fsc fsp H1 H2 H3 [LC1 LC2] [LP1 LP2] AC AP a pub secret. unfold hybrid_start.
  destruct (kx_start cl fcc) as [c| |] eqn:EC; cbn [bind]; try discriminate. destruct (kx_start pq fcp) as [p| |] eqn:EP; cbn [bind]; try discriminate.
  intros E. injection E as <-. cbn [ak_pub ak_complete]. unfold hybrid_start_and_complete.
  rewrite (proj2 (C42_split_concat l (l_pq_client l) _ (ak_pub p) (ak_pub c) H1 H2)) by (sp; auto).
  destruct (kx_start_and_complete cl fsc (ak_pub c)) as [[cp cs]| |] eqn:RC; cbn [bind]; try discriminate.
  destruct (kx_start_and_complete pq fsp (ak_pub p)) as [[pp ps]| |] eqn:RP; cbn [bind fst snd]; try discriminate.
  intros E. injection E as <- <-. rewrite (proj2 (C42_split_concat l (l_pq_server l) _ pp cp H1 H3)) by (sp; eauto).
  rewrite (AC c cp cs eq_refl RC). cbn [bind]. rewrite (AP p pp ps eq_refl RP). reflexivity.
Qed.
Print Assumptions C42_hybrid_agreement.

(** X25519MLKEM768 itself.  [kc], [seed]: the client's random bytes; [ks], [m]: the server's.  The premise on
    [KPKE_Decrypt] says that the ML-KEM ciphertext decrypts (it fails with probability below 2^-164). *)
Section Concrete.
Variable xmul : list Z -> list Z -> list Z.
Variable xbase : list Z -> list Z.
Hypothesis Hx : x25519_asm_ok xmul xbase.
Variable kf : list Z -> list Z -> list Z.
Variable kf4 kf2 : list (list Z) -> list Z -> list (list Z).
Variable a : asm.
Variable ord : list nat.
Hypothesis Hkf : keccak_asm_ok kf.
Hypothesis Hkf4 : keccak4_asm_ok kf4.
Hypothesis Hkf2 : keccak2of4_asm_ok kf2.
Hypothesis Ha : asm_ok ord a.

Lemma x_start fill k : fill 0%nat 32 = Ok k -> bytes k -> zlen k = 32 -> exists act, x25519_start xmul xbase fill = Ok act /\ ak_pub act = X25519 k u_nine /\
  forall share, bytes share -> zlen share = 32 -> ak_complete act share = if list_eqb (X25519 k share) (repeat 0 32) then Err InvalidKeyShare else Ok (X25519 k share).
Proof.
  intros E B L. destruct (C33_x25519_exact xmul xbase Hx k B L) as (sk & _ & _ & N & P & D). unfold x25519_start. rewrite (N _ E). cbn [map_err bind]. eexists. split; [reflexivity|]. cbn [ak_pub ak_complete]. split; auto.
  intros share Bs Ls. destruct (D share Bs) as [D1 _]. destruct (D1 Ls) as (pk & -> & _ & D2). cbn [bind]. rewrite D2. destruct (list_eqb _ _); reflexivity.
Qed.
Lemma canonical_own it dk seed fuel : bytes seed -> zlen seed = 64 -> 0 <= it -> matrix_sampled it (fst (HashG (ztake 32 seed ++ [3]))) -> 2 * it <= Z.of_nat fuel ->
  keygen_internal kf kf4 kf2 a fuel seed = Ok dk -> exists e, ek_from_bytes kf kf4 a fuel (ek_as_bytes (encapsulation_key dk)) = Ok e /\ ek_as_bytes e = ek_as_bytes (encapsulation_key dk) /\
    usable_ek kf kf4 kf2 a it e.
Proof.
  intros B L Hi HM HF HK. destruct (keygen_good kf kf4 kf2 a ord Hkf Hkf4 Hkf2 Ha seed it fuel B L Hi HM HF) as (dk' & E & SP & G & _). assert (dk' = dk) by congruence. subst dk'. clear E.
  destruct (C36_generated_canonical kf kf4 kf2 a ord Hkf Hkf4 Hkf2 Ha seed it fuel B L Hi HM HF) as (dk' & E & CN & LE). assert (dk' = dk) by congruence. subst dk'. clear E.
  pose proof G as [GS [T1 T2] [R1 R2] GM _]. assert (BE : bytes (ek_as_bytes (encapsulation_key dk))) by (apply Forall_app; split; auto).
  assert (DR : zdrop 1152 (ek_as_bytes (encapsulation_key dk)) = ek_rho (dk_ek dk)) by (unfold ek_as_bytes, encapsulation_key; apply zdrop_app_eq; auto).
  assert (MS : matrix_sampled it (zdrop 1152 (ek_as_bytes (encapsulation_key dk)))) by (rewrite DR; auto).
  destruct (proj1 (C36_from_bytes_iff_canonical kf kf4 a ord Hkf Hkf4 Ha _ it fuel BE LE Hi MS HF) CN) as (e & E1 & E2).
  exists e. sp; auto. left. exists (ek_as_bytes (encapsulation_key dk)), fuel. sp; auto.
Qed.
Lemma encaps_lengths it e m K c : ek_good ord it e -> bytes m -> zlen m = 32 -> Encaps_internal it (ek_as_bytes e) m = (K, c) -> zlen K = 32 /\ zlen c = 1088.
Proof.
  intros G Bm Lm E. unfold Encaps_internal in E. pose proof G as [_ [T1 T2] [R1 R2] _ _].
  destruct (sha3_256_facts kf Hkf (ek_as_bytes e)) as [BH LH]; [apply Forall_app; auto|].
  pose proof (hashG_parts kf Hkf (m ++ HashH (ek_as_bytes e)) ltac:(apply Forall_app; auto)) as HP. destruct (HashG (m ++ HashH (ek_as_bytes e))) as [K0 r].
  destruct HP as (K1 & K2 & R3 & R4 & _ & _). injection E as <- <-. destruct (kpke_encrypt_ok kf kf4 kf2 Hkf Hkf4 Hkf2 a ord Ha it e m r G Bm Lm R3 R4) as (_ & L & _). auto.
Qed.
Definition x25519mlkem768_start (fuel : nat) := hybrid_start (x25519_group xmul xbase) (mlkem_group kf kf4 kf2 a fuel) x25519mlkem768_layout.
Definition x25519mlkem768_respond (fuel : nat) := hybrid_start_and_complete (x25519_group xmul xbase) (mlkem_group kf kf4 kf2 a fuel) x25519mlkem768_layout.
Theorem C42_x25519mlkem768_agreement : forall it fuel kc seed ks m fcc fcp fsc fsp dk,
  bytes kc -> zlen kc = 32 -> bytes seed -> zlen seed = 64 -> bytes ks -> zlen ks = 32 -> bytes m -> zlen m = 32 ->
  fcc 0%nat 32 = Ok kc -> fcp 0%nat 64 = Ok seed -> fsc 0%nat 32 = Ok ks -> fsp 0%nat 32 = Ok m ->
  0 <= it -> matrix_sampled it (fst (HashG (ztake 32 seed ++ [3]))) -> 2 * it <= Z.of_nat fuel -> keygen_internal kf kf4 kf2 a fuel seed = Ok dk ->
  let ek := ek_as_bytes (encapsulation_key dk) in
  let '(K, c) := Encaps_internal it ek m in
  KPKE_Decrypt (dk_pke dk) c = m ->
  exists act, x25519mlkem768_start fuel fcc fcp = Ok act /\ ak_pub act = ek ++ X25519 kc u_nine /\ zlen (ak_pub act) = 1216 /\
    let s := X25519 ks (X25519 kc u_nine) in
    x25519mlkem768_respond fuel fsc fsp (ak_pub act) = Ok (c ++ X25519 ks u_nine, K ++ s) /\
      zlen (c ++ X25519 ks u_nine) = 1120 /\ zlen (K ++ s) = 64 /\
      ak_complete act (c ++ X25519 ks u_nine) = Ok (K ++ s).
Proof.
  intros it fuel kc seed ks m fcc fcp fsc fsp dk Bkc Lkc Bs Ls Bks Lks Bm Lm F1 F2 F3 F4 Hi HM HF HK ek.
  destruct (keygen_good kf kf4 kf2 a ord Hkf Hkf4 Hkf2 Ha seed it fuel Bs Ls Hi HM HF) as (dk' & E & _ & G & _). assert (dk' = dk) by congruence. subst dk'. clear E.
  destruct (canonical_own it dk seed fuel Bs Ls Hi HM HF HK) as (e & E1 & E2 & UE). fold ek in E1, E2.
  destruct (Encaps_internal it ek m) as [K c] eqn:EE. intros HD.
  destruct (encaps_lengths it (dk_ek dk) m K c G Bm Lm EE) as [LK Lc].
  pose proof G as [_ [T1 T2] [R1 R2] _ _]. assert (LE : zlen ek = 1184) by (unfold ek, ek_as_bytes, encapsulation_key; rewrite zlen_app; lia).
  destruct (x_start fcc kc F1 Bkc Lkc) as (ac & A1 & A2 & A3). destruct (x_start fsc ks F3 Bks Lks) as (as_ & B1 & B2 & B3).
  destruct (X25519_bytes kc u_nine) as [XB1 XL1]. destruct (X25519_bytes ks u_nine) as [XB2 XL2].
  assert (MS : mlkem_start kf kf4 kf2 a fuel fcp = Ok (mkActive ek (fun peer => if zlen peer =? 1088 then decaps_internal kf kf4 kf2 a dk peer else Err InvalidKeyShare))).
  { unfold mlkem_start, generate. rewrite F2. cbn [bind]. rewrite HK. reflexivity. }
  assert (MR : mlkem_start_and_complete kf kf4 kf2 a fuel fsp ek = Ok (c, K)).
  { unfold mlkem_start_and_complete. rewrite (proj2 (Z.eqb_eq _ _) LE). cbn [negb]. rewrite E1. cbn [map_err bind]. unfold encaps. rewrite F4. cbn [bind].
    rewrite (C37_encaps kf kf4 kf2 a ord Hkf Hkf4 Hkf2 Ha it e m Hi UE Bm Lm). rewrite E2, EE. reflexivity. }
  assert (DK : decaps_internal kf kf4 kf2 a dk c = Ok K).
  { apply (C37_agreement kf kf4 kf2 a ord Hkf Hkf4 Hkf2 Ha seed it fuel dk m K c); auto.
    rewrite (encaps_good kf kf4 kf2 a ord Hkf Hkf4 Hkf2 Ha it (encapsulation_key dk) m G Bm Lm). fold ek. rewrite EE. reflexivity. }
  unfold x25519mlkem768_start, x25519mlkem768_respond. unfold hybrid_start. cbn [kx_start x25519_group mlkem_group]. rewrite A1. cbn [bind]. rewrite MS. cbn [bind].
  eexists. split; [reflexivity|]. cbn [ak_pub ak_complete]. unfold layout_concat, x25519mlkem768_layout. cbn [l_pq_first l_pq_server]. rewrite A2. split; [reflexivity|]. split; [rewrite zlen_app; lia|].
  fold x25519mlkem768_layout. cbv zeta. set (s := X25519 ks (X25519 kc u_nine)).
  unfold hybrid_start_and_complete. cbn [l_pq_client x25519mlkem768_layout].
  rewrite (proj2 (C42_split_concat x25519mlkem768_layout 1184 (ek ++ X25519 kc u_nine) ek (X25519 kc u_nine) ltac:(cbn; lia) ltac:(lia))) by (sp; auto).
  cbn [kx_start_and_complete x25519_group mlkem_group]. unfold default_start_and_complete. rewrite B1. cbn [bind]. rewrite B3 by auto. fold s.
  pose proof (proj2 (list_eqb_neq _ _) (L_X25519.X25519_shared_not_zero ks kc)) as ES. fold s in ES. rewrite ES. cbn [bind]. rewrite MR. cbn [bind fst snd]. rewrite B2. unfold layout_concat. cbn [l_pq_first x25519mlkem768_layout].
  destruct (X25519_bytes ks (X25519 kc u_nine)) as [_ SL]. fold s in SL. split; [reflexivity|]. split; [rewrite zlen_app; lia|]. split; [rewrite zlen_app; lia|].
  rewrite (proj2 (C42_split_concat x25519mlkem768_layout 1088 (c ++ X25519 ks u_nine) c (X25519 ks u_nine) ltac:(cbn; lia) ltac:(lia))) by (sp; auto).
  rewrite A3 by auto. rewrite (L_X25519.X25519_commutes kc ks). fold s. rewrite ES. cbn [bind]. rewrite (proj2 (Z.eqb_eq _ _) Lc), DK. reflexivity.
Qed.
End Concrete.
Print Assumptions C42_x25519mlkem768_agreement.

(** *** hypotheses are met *)
Example C33_ex_contract : x25519_asm_ok (fun s p => le_to_u64s (X25519 (u64s_to_le s) (u64s_to_le p))) (fun s => le_to_u64s (X25519 (u64s_to_le s) u_nine)).
Proof. constructor; intros; reflexivity. Qed.
Example C42_ex_split : layout_split x25519mlkem768_layout (repeat 1 1184 ++ repeat 2 32) 1184 = Some (repeat 1 1184, repeat 2 32).
Proof. reflexivity. Qed.
(** two toy groups that agree, in both orders *)
Definition toy (n c : Z) : kx_group :=
  {| kx_start := fun _ => Ok (mkActive [n] (fun p => Ok (n :: p))); kx_start_and_complete := fun _ s => Ok ([c], s ++ [c]) |}.
Example C42_ex_agree : forall b r, agrees (hybrid_start (toy 1 2) (toy 3 4) (Build_layout 1 1 1 b) r r) (hybrid_start_and_complete (toy 1 2) (toy 3 4) (Build_layout 1 1 1 b) r r).
Proof.
  intros b r. apply C42_hybrid_agreement; cbn [l_classical l_pq_client l_pq_server]; try lia; try (split; intros; cbn in *; repeat match goal with H : Ok _ = Ok _ |- _ => injection H as <- end; try reflexivity);
    try (intros x y z H1 H2; cbn in *; injection H1 as <-; injection H2 as <- <-; reflexivity).
  all: match goal with H : Ok _ = Ok (?p, _) |- zlen ?p = 1 => injection H as <- <-; reflexivity end.
Qed.
