(** ECDSA signing: the nonce is the one of RFC 6979, and the signature is
    that of the specification. *)
Require Import Verif.Base Verif.L_Base Verif.M_Sha2 Verif.M_Hmac Verif.S_Hmac Verif.L_Hash Verif.L_Hmac.
Require Import Verif.M_Asn1 Verif.M_Pkix Verif.S_Der Verif.S_Pkix Verif.L_Asn1 Verif.L_Asn1Int Verif.L_Pkix Verif.T_Asn1.
Require Import Verif.M_Ec Verif.S_Curve Verif.S_Ec Verif.L_Fp Verif.L_Curve Verif.L_EcKey Verif.T_Ec.
Require Import Verif.M_Ecdsa Verif.S_Ecdsa Verif.L_Ecdsa.
Require Import ZifyNat Znumtheory.

Section Stream.
Context (Hs : list Z -> list Z) (B len : Z).
(** the generator state after [j] requests *)
Fixpoint kv_at (KV : list Z * list Z) (j : nat) : list Z * list Z :=
  match j with O => KV | S j => kv_at (snd (Generate Hs B len KV)) j end.
Definition cand (KV : list Z * list Z) (j : nat) : Z := be_val (fst (Generate Hs B len (kv_at KV j))).

Lemma kv_at_add KV i : forall j, kv_at KV (i + j) = kv_at (kv_at KV i) j.
Proof. revert KV. induction i as [|i IH]; intros KV j; cbn [Nat.add kv_at]; auto. Qed.
Lemma cand_add KV i j : cand (kv_at KV i) j = cand KV (i + j).
Proof. unfold cand. rewrite kv_at_add. reflexivity. Qed.

Lemma last_generates j : forall KV, last (Generates Hs B (repeat len (S j)) KV) [] = fst (Generate Hs B len (kv_at KV j)).
Proof.
  induction j as [|j IH]; intros KV.
  - cbn [repeat Generates kv_at]. destruct (Generate Hs B len KV). reflexivity.
  - change (repeat len (S (S j))) with (len :: repeat len (S j)). cbn [kv_at]. specialize (IH (snd (Generate Hs B len KV))). rewrite <- IH.
    cbn [Generates]. destruct (Generate Hs B len KV) as [o KV']. cbn [snd]. cbn [repeat Generates].
    destruct (Generate Hs B len KV') as [o' KV'']. reflexivity.
Qed.
End Stream.

Section Sign.
Variable c : curve.
Variable E : ec.
Hypothesis I : ec_impl c E.
Let n := c_n c.
Let G := Some (c_g c).
Local Notation len := (ec_bytes E).
Local Notation R := (radix E).
Context (H : hash_alg) (Hs : list Z -> list Z) (lim : Z) (HI : implements H Hs lim).
Local Notation KV d := (d_k d, d_v d).
Local Notation cand := (cand Hs (ha_block H) len).
Local Notation kv_at := (kv_at Hs (ha_block H) len).
Local Notation dok := (d_ok H).

Lemma generate_bytes m K V : bytes (fst (Generate Hs (ha_block H) m (K, V))).
Proof.
  unfold Generate. assert (GL : forall f V t, bytes t -> bytes (snd (gen_loop Hs (ha_block H) f m K V t))).
  { induction f as [|f IH]; intros V' t BT; cbn [gen_loop]; [exact BT|]. destruct (zlen t <? m); [|exact BT].
    apply IH. apply bytes_app. split; [exact BT|]. unfold HMAC. apply (im_bytes _ _ _ HI). }
  specialize (GL (Z.to_nat m) V [] (Forall_nil _)). destruct (gen_loop Hs (ha_block H) (Z.to_nat m) m K V []) as [V' t].
  cbn [fst snd] in *. apply bytes_ztake. exact GL.
Qed.

Definition in_range (k : Z) : Prop := 1 <= k < n.

Lemma source_step d : dok d ->
  (2 ^ 48 <= d_reseed_counter d /\ fst (drbg_source H d len) = Panic) \/
  exists d', drbg_source H d len = (Ok (fst (Generate Hs (ha_block H) len (KV d))), d') /\ dok d' /\
    d_reseed_counter d' = d_reseed_counter d + 1 /\ KV d' = snd (Generate Hs (ha_block H) len (KV d)).
Proof.
  intros D. destruct (Z_lt_dec (d_reseed_counter d) (2 ^ 48)) as [L|L].
  - right. destruct (fill_ok H Hs lim HI d (repeat 0 (Z.to_nat len)) D L) as (d' & w & F & D' & C' & GN).
    replace (zlen (repeat 0 (Z.to_nat len))) with len in GN
      by (unfold zlen; rewrite repeat_length; pose proof (len_pos c E I); lia).
    exists d'. unfold drbg_source. rewrite F, GN. auto.
  - left. split; [lia|]. unfold drbg_source, drbg_fill. change 0x1000000000000 with (2 ^ 48).
    destruct (Z.ltb_spec (d_reseed_counter d) (2 ^ 48)); [lia|]. reflexivity.
Qed.

Lemma gen_loop_ok m : forall d, dok d -> let (r, d') := sk_generate_loop E (drbg_source H) m d in
  exists i, (forall j, (j < i)%nat -> ~ in_range (cand (KV d) j)) /\
    (((i < m)%nat /\ in_range (cand (KV d) i) /\ r = Ok (cand (KV d) i) /\ dok d' /\
       KV d' = kv_at (KV d) (S i) /\ d_reseed_counter d' = d_reseed_counter d + Z.of_nat (S i)) \/
     (i = m /\ r = Err RngFailed) \/
     ((i < m)%nat /\ r = Panic /\ 2 ^ 48 <= d_reseed_counter d + Z.of_nat i)).
Proof.
  induction m as [|m IH]; intros d D; cbn [sk_generate_loop].
  - exists 0%nat. split; [intros j HJ; lia|]. right. left. auto.
  - destruct (source_step d D) as [(LC & SP)|(d1 & ST & D1 & C1 & K1)].
    + destruct (drbg_source H d len) as [o d1]. cbn [fst] in SP. subst o. exists 0%nat. split; [intros j HJ; lia|].
      right. right. split; [lia|]. split; [reflexivity|lia].
    + rewrite ST. set (b := fst (Generate Hs (ha_block H) len (KV d))) in *.
      assert (BB : bytes b) by apply generate_bytes.
      assert (C0 : cand (KV d) 0 = be_val b) by reflexivity.
      assert (CS : forall j, cand (KV d) (S j) = cand (KV d1) j).
      { intros j. rewrite K1. unfold L_EcdsaSign.cand. cbn [L_EcdsaSign.kv_at]. reflexivity. }
      assert (KS : forall j, kv_at (KV d) (S j) = kv_at (KV d1) j) by (intros j; rewrite K1; reflexivity).
      destruct (private_key_decode c E I b BB) as (D1' & D2' & D3'). fold n in D1', D2'.
      destruct (Z_le_dec 1 (be_val b)) as [L1|L1]; [destruct (Z_lt_dec (be_val b) n) as [L2|L2]|].
      * assert (OK : sk_from_bytes E b = Ok (be_val b)) by (apply D1'; auto). rewrite OK.
        exists 0%nat. split; [intros j HJ; lia|]. left. rewrite C0. unfold in_range.
        split; [lia|]. split; [lia|]. split; [reflexivity|]. split; [exact D1|]. split; [rewrite KS; reflexivity|lia].
      * assert (RJ : exists e, sk_from_bytes E b = Err e).
        { destruct (Z_lt_dec (be_val b) (256 ^ len)); eexists; [apply D2'; right; lia|apply D3'; lia]. }
        destruct RJ as [e RJ]. rewrite RJ. specialize (IH d1 D1). destruct (sk_generate_loop E (drbg_source H) m d1) as [r d'].
        destruct IH as (i & I1 & I2). exists (S i). split.
        { intros [|j] HJ; [rewrite C0; unfold in_range; lia|]. rewrite CS. apply I1. lia. }
        rewrite CS, KS. destruct I2 as [(A1 & A2 & A3 & A4 & A5 & A6)|[(A1 & A2)|(A1 & A2 & A3)]].
        -- left. repeat (split; [first [assumption|lia]|]). lia.
        -- right. left. split; [lia|exact A2].
        -- right. right. split; [lia|]. split; [exact A2|lia].
      * assert (RJ : sk_from_bytes E b = Err OutOfRange) by (apply D2'; left; pose proof (be_val_nonneg b BB); lia).
        rewrite RJ. specialize (IH d1 D1). destruct (sk_generate_loop E (drbg_source H) m d1) as [r d'].
        destruct IH as (i & I1 & I2). exists (S i). split.
        { intros [|j] HJ; [rewrite C0; unfold in_range; lia|]. rewrite CS. apply I1. lia. }
        rewrite CS, KS. destruct I2 as [(A1 & A2 & A3 & A4 & A5 & A6)|[(A1 & A2)|(A1 & A2 & A3)]].
        -- left. repeat (split; [first [assumption|lia]|]). lia.
        -- right. left. split; [lia|exact A2].
        -- right. right. split; [lia|]. split; [exact A2|lia].
Qed.

(** the first usable candidate, after [j0] unusable ones *)
Lemma nonce_loop_ok fuel : forall d, dok d ->
  match nonce_loop E H fuel d with
  | None => exists j, (fuel <= j)%nat /\ forall i, (i < j)%nat -> ~ nonce_usable c (cand (KV d) i)
  | Some (Ok (k, r)) => exists j x y, k = cand (KV d) j /\ nonce_usable c k /\
      (forall i, (i < j)%nat -> ~ nonce_usable c (cand (KV d) i)) /\
      pt_mul c k G = Some (x, y) /\ r = x mod n
  | Some (Err e) => e = RngFailed /\ exists j, (forall i, (i < j)%nat -> ~ nonce_usable c (cand (KV d) i)) /\
      forall i, (i < 64)%nat -> ~ in_range (cand (KV d) (j + i))
  | Some Panic => exists j, 2 ^ 48 <= d_reseed_counter d + Z.of_nat j /\ forall i, (i < j)%nat -> ~ nonce_usable c (cand (KV d) i)
  end.
Proof.
  induction fuel as [|fuel IH]; intros d D; cbn [nonce_loop].
  - exists 0%nat. split; [lia|]. intros i HI'. lia.
  - unfold sk_generate. pose proof (gen_loop_ok 64 d D) as GL. destruct (sk_generate_loop E (drbg_source H) 64 d) as [o d'].
    destruct GL as (i & RJ & [(A1 & A2 & A3 & A4 & A5 & A6)|[(A1 & A2)|(A1 & A2 & A3)]]); subst o.
    + set (k := cand (KV d) i) in *. destruct (public_point_ok c E I k A2) as (a & x & y & SP & M & AI).
      unfold sk_public_x_scalar. rewrite SP. cbn [bind]. rewrite (aff_x_scalar_ok c E I a x y AI). fold n.
      assert (PRE : forall j, (j < i)%nat -> ~ nonce_usable c (cand (KV d) j)) by (intros j HJ [U _]; exact (RJ j HJ U)).
      destruct (Z.eqb_spec (x mod n) 0) as [Z0|Z0].
      * specialize (IH d' A4). rewrite A5 in IH.
        assert (NU : forall j', (forall i', (i' < j')%nat -> ~ nonce_usable c (cand (kv_at (KV d) (S i)) i')) ->
          forall j, (j < S i + j')%nat -> ~ nonce_usable c (cand (KV d) j)).
        { intros j' HJ' j HJ. destruct (lt_eq_lt_dec j i) as [[LT| ->]|GT].
          - apply PRE. exact LT.
          - fold k. intros (_ & x' & y' & M' & N'). fold n G in M', N'. unfold G in *. rewrite M in M'. injection M' as <- <-. contradiction.
          - replace j with (S i + (j - S i))%nat by lia. rewrite <- cand_add. apply HJ'. lia. }
        destruct (nonce_loop E H fuel d') as [[[k' r']|e'|]|].
        -- destruct IH as (j & x' & y' & B1 & B2 & B3 & B4 & B5). exists (S i + j)%nat, x', y'. rewrite <- cand_add.
           split; [exact B1|]. split; [exact B2|]. split; [apply NU, B3|]. auto.
        -- destruct IH as (B1 & j & B2 & B3). split; [exact B1|]. exists (S i + j)%nat. split; [apply NU, B2|].
           intros i' HI'. replace (S i + j + i')%nat with (S i + (j + i'))%nat by lia. rewrite <- cand_add. apply B3, HI'.
        -- destruct IH as (j & B1 & B2). exists (S i + j)%nat. split; [lia|apply NU, B2].
        -- destruct IH as (j & B1 & B2). exists (S i + j)%nat. split; [lia|apply NU, B2].
      * exists i, x, y. split; [reflexivity|]. split; [|auto]. split; [exact A2|]. exists x, y. auto.
    + split; [reflexivity|]. exists 0%nat. split; [intros j HJ; lia|]. intros j HJ. apply RJ. lia.
    + exists i. split; [exact A3|]. intros j HJ [U _]. exact (RJ j HJ U).
Qed.

(** *** signing *)
Lemma sign_ok fuel d message random buf : len <= 48 -> in_range d -> Forall bytes message -> zlen (concat message) < lim ->
  bytes random -> zlen random < 2 ^ 31 -> len * 2 <= zlen buf ->
  let e := the_e c E Hs message in
  let candidate := nonce_candidate Hs (ha_block H) (ha_out H) len d e random in
  match sign_with_random E H fuel d message random buf with
  | None => exists j, (fuel <= j)%nat /\ forall i, (i < j)%nat -> ~ nonce_usable c (candidate i)
  | Some (Ok (out, l)) => exists j r s, l = len * 2 /\ out = fixed_sig len r s ++ zdrop l buf /\
      nonce_usable c (candidate j) /\ (forall i, (i < j)%nat -> ~ nonce_usable c (candidate i)) /\
      1 <= r < n /\ ecdsa_signature c d e (candidate j) r s
  | Some (Err x) => x = RngFailed /\ exists j, (forall i, (i < j)%nat -> ~ nonce_usable c (candidate i)) /\
      forall i, (i < 64)%nat -> ~ in_range (candidate (j + i)%nat)
  | Some Panic => exists j, 2 ^ 48 <= Z.of_nat (S j) /\ forall i, (i < j)%nat -> ~ nonce_usable c (candidate i)
  end.
Proof.
  intros L48 DR BM LM BR LR LB e candidate. unfold sign_with_random.
  destruct (Z.ltb_spec (zlen buf) (len * 2)); [lia|].
  destruct (hash_message c H Hs lim HI message BM LM) as (ctx & U & F). rewrite U. cbn [bind]. rewrite F. cbn [bind].
  unfold sk_encode, MAX_SCALAR_LEN, need. destruct (Z.ltb_spec 48 len); [lia|]. cbn [bind].
  rewrite (hash_to_scalar_ok c E I) by apply (im_bytes _ _ _ HI). cbn [bind]. fold (the_e c E Hs message). fold e.
  pose proof (nR c E I) as NR. fold n in NR. pose proof (len_pos c E I) as LP.
  assert (L1 : zlen (sk_to_bytes E d) = len) by apply (to_be_len c E I).
  assert (L2 : zlen (to_be E e) = len) by apply (to_be_len c E I).
  destruct (drbg_new_ok H Hs lim HI (sk_to_bytes E d) (to_be E e) random) as (g & GN & GD & GC & GK).
  { apply to_be_bytes. } { apply to_be_bytes. } { exact BR. }
  { rewrite !zlen_app, L1, L2. destruct (im_sizes _ _ _ HI) as (_ & _ & _ & LL). lia. }
  { intros Q. apply (f_equal (@zlen Z)) in Q. rewrite zlen_app, L1 in Q. change (zlen (@nil Z)) with 0 in Q.
    pose proof (zlen_nonneg (to_be E e ++ random)). lia. }
  rewrite GN. cbn [bind].
  assert (CE : forall j, candidate j = cand (KV g) j).
  { intros j. unfold candidate, nonce_candidate. change (be_bytes (Z.to_nat len)) with (to_be E). fold (sk_to_bytes E d).
    rewrite <- GK. rewrite last_generates. reflexivity. }
  pose proof (nonce_loop_ok fuel g GD) as NL. destruct (nonce_loop E H fuel g) as [[[k r]|x|]|].
  - destruct NL as (j & x & y & B1 & B2 & B3 & B4 & B5).
    assert (ER : 0 <= e < n) by apply (the_e_range c E I).
    assert (RR : 1 <= r < n).
    { destruct B2 as (_ & x' & y' & M & NZ). fold G in M. rewrite B4 in M. injection M as <- <-. fold n in NZ.
      pose proof (n34 c E I) as N34. fold n in N34. pose proof (Z.mod_pos_bound x n ltac:(lia)). lia. }
    destruct (raw_sign_ok c E I d k e r DR (proj1 B2) ER ltac:(fold n; lia)) as (S1 & S2). fold n in S1, S2.
    set (s := raw_ecdsa_sign E d k e r) in *. exists j, r, s. split; [reflexivity|].
    split.
    { unfold splice. change (ztake 0 buf) with (@nil Z). cbn [app]. rewrite Z.add_0_l, zlen_app, !(to_be_len c E I).
      replace (len + len) with (len * 2) by lia. reflexivity. }
    rewrite CE, <- B1. split; [exact B2|]. split; [intros i HI'; rewrite CE; apply B3, HI'|]. split; [exact RR|].
    split; [exists x, y; split; [exact B4|exact B5]|]. split; [exact S1|]. exact S2.
  - destruct NL as (B1 & j & B2 & B3). split; [exact B1|]. exists j. split; intros i HI'; rewrite CE; auto.
  - destruct NL as (j & B1 & B2). exists j. split; [lia|]. intros i HI'. rewrite CE. auto.
  - destruct NL as (j & B1 & B2). exists j. split; [lia|]. intros i HI'. rewrite CE. auto.
Qed.

(** to ASN.1 *)
Lemma der_sig_small b r s : len <= 48 -> der_sig b r s -> 0 <= r < 256 ^ len -> 0 <= s < 256 ^ len -> zlen b <= 104.
Proof.
  intros LE (ri & si & IR & IS & <- & <- & ->) HR HS. pose proof (len_pos c E I) as LP.
  pose proof (int_len ri len IR ltac:(lia) HR) as LR. pose proof (int_len si len IS ltac:(lia) HS) as LS.
  clear - LR LS LE. cbn [tree_EcdsaSigValue der_enc SEQ map concat]. unfold INT. cbn [der_enc].
  pose proof (zlen_nonneg ri). pose proof (zlen_nonneg si).
  assert (T : forall t b, zlen b <= 49 -> zlen (tlv t b) = 2 + zlen b).
  { intros t b HB. unfold tlv, der_length. destruct (Z.ltb_spec (zlen b) 128); [|lia]. rewrite zlen_cons, zlen_app. change (zlen [zlen b]) with 1. lia. }
  assert (T1 := T 2 ri ltac:(lia)). assert (T2 := T 2 si ltac:(lia)). rewrite app_nil_r.
  assert (LB : zlen (tlv 2 ri ++ tlv 2 si) <= 102) by (rewrite zlen_app; lia).
  unfold tlv at 1, der_length. destruct (Z.ltb_spec (zlen (tlv 2 ri ++ tlv 2 si)) 128); [|lia].
  rewrite zlen_cons, zlen_app. pose proof (zlen_nonneg (tlv 2 ri ++ tlv 2 si)). change (zlen [zlen (tlv 2 ri ++ tlv 2 si)]) with 1. lia.
Qed.

Lemma fixed_to_asn1_ok r s out : len <= 48 -> 0 <= r < 256 ^ len -> 0 <= s < 256 ^ len -> exists b, der_sig b r s /\ zlen b <= 104 /\
  fixed_to_asn1 E (fixed_sig len r s) out =
    if zlen out <? zlen b then Err UnexpectedEof else Ok (b ++ zdrop (zlen b) out, zlen b).
Proof.
  intros LE HR HS. destruct (fixed_parts c E I r s HR HS) as (FB & FL & FR & FS). pose proof (len_pos c E I) as LP.
  destruct (halves c E I _ FB FL) as (L1 & L2 & B1 & B2 & _).
  destruct (C01_integer_new_positive (48 + 1) (ztake len (fixed_sig len r s)) B1 ltac:(lia)) as (ri & N1 & IR & V1 & _).
  destruct (C01_integer_new_positive (48 + 1) (zdrop len (fixed_sig len r s)) B2 ltac:(lia)) as (si & N2 & IS & V2 & _).
  rewrite FR in V1. rewrite FS in V2. set (b := der_enc (tree_EcdsaSigValue (ri, si))).
  assert (DS : der_sig b r s) by (exists ri, si; auto). pose proof (der_sig_small b r s LE DS HR HS) as BL.
  exists b. split; [exact DS|]. split; [exact BL|].
  unfold fixed_to_asn1, MAX_SCALAR_LEN. rewrite N1, N2. cbn [bind].
  rewrite (exact_encode_into _ _ _ exact_EcdsaSigValue) by (first [split; assumption | fold b; lia]). fold b.
  destruct (Z.ltb_spec (zlen out) (zlen b)) as [LT|GE]; cbn [bind]; [reflexivity|].
  unfold need. rewrite zlen_app. pose proof (zlen_nonneg b). rewrite zlen_zdrop by lia. destruct (Z.ltb_spec (zlen b + (zlen out - zlen b)) (zlen b)); [lia|]. reflexivity.
Qed.
End Sign.
