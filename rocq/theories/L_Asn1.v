(** Lemmas about the DER codec model. *)
Require Import Verif.Base Verif.L_Base Verif.M_Asn1 Verif.M_Pkix Verif.S_Der.
Require Import ZifyNat.

(** ** length octets *)
Lemma be_bytes_S k v : be_bytes (S k) v = be_bytes k (v/256) ++ [v mod 256].
Proof. reflexivity. Qed.

Lemma be_digits_bytes k : forall f n, (k <= f)%nat ->
  (k = O /\ n = 0) \/ 256 ^ (Z.of_nat k - 1) <= n < 256 ^ Z.of_nat k /\ (0 < k)%nat ->
  be_digits f n = be_bytes k n.
Proof.
  induction k; intros f n Hf H.
  - destruct H as [[_ ->]|[_ H]]; [|lia]. destruct f; reflexivity.
  - destruct H as [[? _]|[H _]]; [discriminate|].
    destruct f; [lia|]. cbn [be_digits]. rewrite be_bytes_S.
    assert (0 < n). { eapply Z.lt_le_trans; [|apply H]. apply Z.pow_pos_nonneg; lia. }
    destruct (Z.leb_spec n 0); [lia|]. f_equal. apply IHk; [lia|].
    destruct k.
    + left. split; auto. apply Z.div_small. change (256 ^ Z.of_nat 1) with 256 in H. lia.
    + right. split; [|lia]. rewrite (Nat2Z.inj_succ (S k)) in H.
      replace (Z.succ (Z.of_nat (S k)) - 1) with (Z.succ (Z.of_nat (S k) - 1)) in H by lia.
      rewrite !Z.pow_succ_r in H by lia. split.
      * apply Z.div_le_lower_bound; lia.
      * apply Z.div_lt_upper_bound; lia.
Qed.

Lemma le_bytes_app j k v : le_bytes (k + j) v = le_bytes k v ++ le_bytes j (v / 256 ^ Z.of_nat k).
Proof.
  revert v; induction k; intros.
  - cbn [Nat.add le_bytes app]. change (256 ^ Z.of_nat 0) with 1. rewrite Z.div_1_r. reflexivity.
  - cbn [Nat.add le_bytes app]. rewrite IHk, Nat2Z.inj_succ, Z.pow_succ_r by lia.
    rewrite Z.div_div by (try lia; apply Z.pow_pos_nonneg; lia). reflexivity.
Qed.
Lemma be_bytes_app j k v : be_bytes (j + k) v = be_bytes j (v / 256 ^ Z.of_nat k) ++ be_bytes k v.
Proof. unfold be_bytes. rewrite Nat.add_comm, le_bytes_app, rev_app_distr. reflexivity. Qed.

Lemma len_bytes_spec n : 0 < n -> n < 2 ^ 64 ->
  exists k, len_bytes n = Z.of_nat k /\ (0 < k <= 8)%nat /\ 256 ^ (Z.of_nat k - 1) <= n < 256 ^ Z.of_nat k.
Proof.
  intros H1 H2. exists (Z.to_nat (len_bytes n)).
  assert (Hl : 0 <= Z.log2 n < 64). { split; [apply Z.log2_nonneg|]. apply Z.log2_lt_pow2; lia. }
  unfold len_bytes. remember (Z.log2 n) as l.
  assert (1 <= (l+1+7)/8 <= 8).
  { split; [apply Z.div_le_lower_bound; lia | apply Z.lt_succ_r, Z.div_lt_upper_bound; lia]. }
  rewrite Z2Nat.id by lia. split; [reflexivity|]. split; [lia|].
  pose proof (Z.log2_spec n H1) as [A B]. rewrite <- Heql in *.
  set (k := (l+1+7)/8) in *.
  assert (8*k <= l+8 < 8*k+8). { subst k. pose proof (Z.div_mod (l+1+7) 8). pose proof (Z.mod_pos_bound (l+1+7) 8). lia. }
  change 256 with (2^8). rewrite <- !Z.pow_mul_r by lia. split.
  - eapply Z.le_trans; [|exact A]. apply Z.pow_le_mono_r; lia.
  - eapply Z.lt_le_trans; [exact B|]. apply Z.pow_le_mono_r; lia.
Qed.

Lemma zdrop_be_bytes k n : (k <= 8)%nat -> zdrop (8 - Z.of_nat k) (be_bytes 8 n) = be_bytes k n.
Proof.
  intro. replace 8%nat with ((8-k)+k)%nat at 1 by lia. rewrite be_bytes_app.
  apply zdrop_app_eq. unfold zlen. rewrite be_bytes_length. lia.
Qed.

Lemma der_length_small n : 0 <= n < 128 -> der_length n = [n].
Proof. intros. unfold der_length. destruct (Z.ltb_spec n 128); [auto|lia]. Qed.
Lemma der_length_big n k : 128 <= n -> (k <= 16)%nat -> (0 < k)%nat ->
  256 ^ (Z.of_nat k - 1) <= n < 256 ^ Z.of_nat k -> der_length n = (128 + Z.of_nat k) :: be_bytes k n.
Proof.
  intros. unfold der_length. destruct (Z.ltb_spec n 128); [lia|].
  rewrite (be_digits_bytes k) by (auto; lia). unfold zlen. rewrite be_bytes_length. reflexivity.
Qed.
Lemma der_length_81 n : 128 <= n < 256 -> der_length n = [0x81; n].
Proof.
  intros. rewrite (der_length_big n 1) by (cbn; lia).
  cbn [be_bytes le_bytes rev app]. unfold be_bytes; cbn [le_bytes rev app]. rewrite Z.mod_small by lia. reflexivity.
Qed.
Lemma der_length_82 n : 256 <= n < 65536 -> der_length n = [0x82; n/256; n mod 256].
Proof.
  intros. rewrite (der_length_big n 2) by (cbn; lia).
  unfold be_bytes; cbn [le_bytes rev app].
  rewrite (Z.mod_small (n/256)); [reflexivity|].
  split; [apply Z.div_le_lower_bound; lia|apply Z.div_lt_upper_bound; lia].
Qed.


Lemma zlen_der_length n : 0 <= n < 2^64 ->
  zlen (der_length n) =
  if n <=? 0x7f then 1 else if n <=? 0xff then 2 else if n <=? 0xffff then 3
  else if n <=? 0xffffff then 4 else if n <=? 0xffffffff then 5 else zlen (der_length n).
Proof.
  intros H.
  destruct (Z.leb_spec n 0x7f); [rewrite der_length_small; [reflexivity|lia]|].
  destruct (len_bytes_spec n) as (k & E & Hk & B); try lia.
  rewrite (der_length_big n k) by lia.
  rewrite zlen_cons, zlen_be_bytes.
  destruct (Z.leb_spec n 0xff).
  { destruct k as [|[|k]]; try lia.
    exfalso. assert (256 ^ 1 <= 256 ^ (Z.of_nat (S (S k)) - 1)) by (apply Z.pow_le_mono_r; lia). lia. }
  assert (HH: forall j, (k > j)%nat -> 256 ^ Z.of_nat j <= n).
  { intros j Hj. eapply Z.le_trans; [|apply B]. apply Z.pow_le_mono_r; lia. }
  assert (LL: forall j, (k <= j)%nat -> n < 256 ^ Z.of_nat j).
  { intros j Hj. eapply Z.lt_le_trans; [apply B|]. apply Z.pow_le_mono_r; lia. }
  assert (D: forall j, (k <= j)%nat \/ (k > j)%nat) by lia.
  repeat match goal with |- context [Z.leb ?a ?b] => destruct (Z.leb_spec a b) end; try reflexivity.
  - destruct (D 1%nat) as [d|d]; [apply LL in d; change (256 ^ Z.of_nat 1) with 256 in d; lia|].
    destruct (D 2%nat) as [d'|d']; [lia|apply HH in d'; change (256 ^ Z.of_nat 2) with 65536 in d'; lia].
  - destruct (D 2%nat) as [d|d]; [apply LL in d; change (256 ^ Z.of_nat 2) with 65536 in d; lia|].
    destruct (D 3%nat) as [d'|d']; [lia|apply HH in d'; change (256 ^ Z.of_nat 3) with 16777216 in d'; lia].
  - destruct (D 3%nat) as [d|d]; [apply LL in d; change (256 ^ Z.of_nat 3) with 16777216 in d; lia|].
    destruct (D 4%nat) as [d'|d']; [lia|apply HH in d'; change (256 ^ Z.of_nat 4) with 4294967296 in d'; lia].
Qed.

Lemma zlen_der_length_pos n : 1 <= zlen (der_length n).
Proof. unfold der_length. destruct (n <? 128); cbv zeta; rewrite zlen_cons;
  match goal with |- _ <= 1 + zlen ?l => pose proof (zlen_nonneg l) end; lia. Qed.

Lemma zlen_tlv t b : zlen (tlv t b) = 1 + zlen (der_length (zlen b)) + zlen b.
Proof. unfold tlv. zl. lia. Qed.

Lemma tlv_fits t b : zlen (tlv t b) <= 65539 <-> zlen b <= 65535.
Proof.
  rewrite zlen_tlv. pose proof (zlen_nonneg b). pose proof (zlen_der_length_pos (zlen b)).
  destruct (Z.ltb_spec (zlen b) (2^64)); [|lia].
  rewrite zlen_der_length by lia.
  repeat match goal with |- context [Z.leb ?a ?b] => destruct (Z.leb_spec a b) end; try lia.
Qed.

Lemma encoded_length_for_spec n t b : n = zlen b -> zlen (tlv t b) < 2^32 ->
  encoded_length_for n = Ok (zlen (tlv t b)).
Proof.
  intros -> H. rewrite zlen_tlv in *. pose proof (zlen_nonneg b).
  pose proof (zlen_der_length_pos (zlen b)).
  rewrite zlen_der_length in * by lia.
  unfold encoded_length_for.
  repeat match goal with |- context [Z.leb ?a ?b] => destruct (Z.leb_spec a b) end; try (f_equal; lia).
Qed.

(** ** parser *)
Lemma lor_shift8 hi lo : byte_ok hi -> byte_ok lo -> Z.lor (Z.shiftl hi 8) lo = hi*256+lo.
Proof.
  intros. unfold byte_ok in *. rewrite (lor_add hi lo 8) by lia. lia.
Qed.

Lemma byte_val b : byte_ok b -> 0 <= b < 256. Proof. auto. Qed.

Lemma take_len_ok n rest : 0 <= n <= 65535 -> take_len (der_length n ++ rest) = Ok (n, rest).
Proof.
  intros H. destruct (Z.ltb_spec n 128).
  - rewrite der_length_small by lia. cbn [app]. unfold take_len; cbn [one_byte bind].
    destruct (Z.leb_spec n 0x7f); [reflexivity|lia].
  - destruct (Z.ltb_spec n 256).
    + rewrite der_length_81 by lia. cbn [app]. unfold take_len; cbn [one_byte bind Z.leb Z.eqb Z.compare Pos.compare Pos.compare_cont Pos.eqb].
      destruct (Z.ltb_spec n 0x80); [lia|reflexivity].
    + rewrite der_length_82 by lia. cbn [app]. unfold take_len; cbn [one_byte bind Z.leb Z.eqb Z.compare Pos.compare Pos.compare_cont Pos.eqb].
      pose proof (Z.div_mod n 256). pose proof (Z.mod_pos_bound n 256).
      rewrite lor_shift8; unfold byte_ok; try lia.
      replace (n / 256 * 256 + n mod 256) with n by lia.
      cbv zeta. destruct (Z.ltb_spec n 0x100); [lia|reflexivity].
Qed.

Lemma take_len_inv p n rest : bytes p -> take_len p = Ok (n, rest) ->
  p = der_length n ++ rest /\ 0 <= n <= 65535.
Proof.
  intros Hb H. unfold take_len in H. binv H. destruct x as [b p1].
  destruct p; [discriminate|]. cbn in E. injection E as -> ->.
  apply bytes_cons in Hb as [Hb1 Hb]. unfold byte_ok in Hb1.
  destruct (Z.leb_spec b 0x7f).
  - injection H as -> ->. rewrite der_length_small by lia. split; [reflexivity|lia].
  - destruct (Z.eqb_spec b 0x81).
    + binv H. destruct x as [l p2]. destruct p1; [discriminate|]. cbn in E. injection E as -> ->.
      apply bytes_cons in Hb as [Hb2 Hb]. unfold byte_ok in Hb2.
      destruct (Z.ltb_spec l 0x80); [discriminate|]. injection H as -> ->.
      rewrite der_length_81 by lia. subst b. split; [reflexivity|lia].
    + destruct (Z.eqb_spec b 0x82); [|discriminate].
      binv H. destruct x as [hi p2]. destruct p1; [discriminate|]. cbn in E. injection E as -> ->.
      apply bytes_cons in Hb as [Hb2 Hb].
      binv H. destruct x as [lo p3]. destruct p2; [discriminate|]. cbn in E. injection E as -> ->.
      apply bytes_cons in Hb as [Hb3 Hb].
      rewrite lor_shift8 in H by auto. unfold byte_ok in *. cbv zeta in H.
      destruct (Z.ltb_spec (hi*256+lo) 0x100); [discriminate|]. injection H as <- ->.
      rewrite der_length_82 by lia. subst b.
      replace ((hi*256+lo)/256) with hi by (rewrite Z.div_add_l, (Z.div_small lo); lia).
      replace ((hi*256+lo) mod 256) with lo by (rewrite Z.add_comm, Z.mod_add, Z.mod_small; lia).
      split; [reflexivity|lia].
Qed.

Lemma take_ok t b rest : zlen b <= 65535 -> take t (tlv t b ++ rest) = Ok (b, rest).
Proof.
  intros H. pose proof (zlen_nonneg b). unfold take, tlv. cbn [app one_byte bind].
  unfold tag_acceptable. rewrite Z.eqb_refl. cbn [negb].
  rewrite <- app_assoc, take_len_ok by lia. cbn [bind].
  destruct (Z.ltb_spec (zlen (b++rest)) (zlen b)).
  { zl. pose proof (zlen_nonneg rest). lia. }
  destruct (Z.ltb_spec (zlen b) 0); [lia|].
  rewrite ztake_app, zdrop_app. reflexivity.
Qed.

Lemma take_inv t p b rest : bytes p -> take t p = Ok (b, rest) ->
  p = tlv t b ++ rest /\ zlen b <= 65535 /\ bytes b /\ bytes rest.
Proof.
  intros Hb H. unfold take in H. binv H. destruct x as [tg p1]. destruct p; [discriminate|].
  cbn in E. injection E as -> ->. apply bytes_cons in Hb as [Hb1 Hb].
  unfold tag_acceptable in H. destruct (Z.eqb_spec t tg); [|discriminate]. subst tg. cbn [negb] in H.
  binv H. destruct x as [n p2]. pose proof (take_len_inv _ _ _ Hb E) as [-> Hn].
  destruct (Z.ltb_spec (zlen p2) n); [discriminate|].
  destruct (Z.ltb_spec n 0); [discriminate|].
  injection H as <- <-.
  apply bytes_app in Hb as [_ Hb].
  unfold tlv. rewrite zlen_ztake by lia. rewrite <- app_comm_cons, <- app_assoc, ztake_zdrop.
  split; [reflexivity|]. split; [lia|]. split; [apply bytes_ztake|apply bytes_zdrop]; auto.
Qed.

Lemma take_len_nonneg p n r : bytes p -> take_len p = Ok (n, r) -> 0 <= n.
Proof. intros Hb H. apply take_len_inv in H; auto. lia. Qed.
Lemma one_byte_total p : one_byte p <> Panic.
Proof. destruct p; discriminate. Qed.
Lemma take_len_total p : take_len p <> Panic.
Proof.
  unfold take_len. destruct p as [|b p]; cbn [one_byte bind]; [discriminate|].
  destruct (b <=? 0x7f); [discriminate|].
  destruct (b =? 0x81). { destruct p as [|c p]; cbn [one_byte bind]; [discriminate|]. destruct (c <? 0x80); discriminate. }
  destruct (b =? 0x82); [|discriminate].
  destruct p as [|c p]; cbn [one_byte bind]; [discriminate|].
  destruct p as [|d p]; cbn [one_byte bind]; [discriminate|].
  cbv zeta. destruct (_ <? 0x100); discriminate.
Qed.
Lemma take_total t p : bytes p -> take t p <> Panic.
Proof.
  intros Hb. unfold take. destruct p as [|b p]; cbn [one_byte bind]; [discriminate|].
  destruct (negb _); [discriminate|].
  apply bytes_cons in Hb as [_ Hb].
  destruct (take_len p) as [[n r]|e|] eqn:E; cbn [bind]; [|discriminate|].
  - pose proof (take_len_nonneg _ _ _ Hb E). destruct (_ <? n); [discriminate|].
    destruct (Z.ltb_spec n 0); [lia|discriminate].
  - exfalso. exact (take_len_total _ E).
Qed.

(** ** encoder *)
Definition adv (e : encoder) (s : list Z) : encoder :=
  {| e_done := e_done e ++ s; e_out := zdrop (zlen s) (e_out e); e_written := e_written e + zlen s |}.
Definition enc_app (e : encoder) (s : list Z) : res encoder :=
  if zlen (e_out e) <? zlen s then Err UnexpectedEof else Ok (adv e s).

Lemma zdrop_zdrop {A} a b (l:list A) : 0 <= a -> 0 <= b -> zdrop a (zdrop b l) = zdrop (b+a) l.
Proof.
  intros. unfold zdrop. rewrite Z2Nat.inj_add by lia.
  generalize (Z.to_nat a) (Z.to_nat b). clear. intros n m. revert l; induction m; intros; cbn; auto.
  destruct l; auto. apply skipn_nil.
Qed.
Lemma adv_adv e s1 s2 : adv (adv e s1) s2 = adv e (s1++s2).
Proof.
  unfold adv; cbn. rewrite app_assoc, zlen_app, Z.add_assoc, zdrop_zdrop by apply zlen_nonneg. reflexivity.
Qed.
Lemma adv_nil e : adv e [] = e.
Proof. destruct e as [d o w]; unfold adv; cbn [e_done e_out e_written]. change (zlen (@nil Z)) with 0. rewrite app_nil_r, zdrop_0, Z.add_0_r. reflexivity. Qed.
Lemma enc_app_nil e : enc_app e [] = Ok e.
Proof. unfold enc_app. rewrite adv_nil. change (zlen (@nil Z)) with 0. pose proof (zlen_nonneg (e_out e)).
  destruct (Z.ltb_spec (zlen (e_out e)) 0); [lia|auto]. Qed.
Lemma enc_app_app {B} e s1 s2 (k : encoder -> res B) :
  bind (enc_app e s1) (fun e => bind (enc_app e s2) k) = bind (enc_app e (s1++s2)) k.
Proof.
  unfold enc_app. rewrite zlen_app. pose proof (zlen_nonneg s2). pose proof (zlen_nonneg s1).
  destruct (Z.ltb_spec (zlen (e_out e)) (zlen s1)).
  - destruct (Z.ltb_spec (zlen (e_out e)) (zlen s1 + zlen s2)); [reflexivity|lia].
  - cbn [bind]. rewrite adv_adv. cbn [adv e_out]. rewrite zlen_zdrop by lia.
    destruct (Z.ltb_spec (zlen (e_out e) - zlen s1) (zlen s2)),
      (Z.ltb_spec (zlen (e_out e)) (zlen s1 + zlen s2)); try lia; reflexivity.
Qed.
Lemma enc_push_app e b : enc_push e b = enc_app e [b].
Proof.
  unfold enc_push, enc_app, adv. destruct (e_out e) eqn:E.
  - reflexivity.
  - rewrite zlen_cons. pose proof (zlen_nonneg l). change (zlen [b]) with 1.
    destruct (Z.ltb_spec (1 + zlen l) 1); [lia|]. reflexivity.
Qed.
Lemma bind_Ok_r {A} (x : res A) : bind x (fun a => Ok a) = x.
Proof. destruct x; reflexivity. Qed.
Lemma enc_push_all_app l : forall e, enc_push_all e l = enc_app e l.
Proof.
  induction l; intros; cbn [enc_push_all].
  - now rewrite enc_app_nil.
  - rewrite enc_push_app. transitivity (bind (enc_app e [a]) (fun e => bind (enc_app e l) (fun x => Ok x))).
    + destruct (enc_app e [a]); cbn [bind]; auto. rewrite IHl, bind_Ok_r. reflexivity.
    + rewrite enc_app_app, bind_Ok_r. reflexivity.
Qed.

Lemma enc_begin_spec e t n : 0 <= n < 2^64 ->
  enc_begin e t n = let! e := enc_app e (t :: der_length n) in enc_split e n.
Proof.
  intros H. unfold enc_begin. rewrite enc_push_app.
  destruct (Z.leb_spec n 0x7f).
  - rewrite der_length_small by lia. change [t; n] with ([t] ++ [n]). rewrite <- enc_app_app.
    destruct (enc_app e [t]); cbn [bind]; auto. rewrite enc_push_app. reflexivity.
  - destruct (len_bytes_spec n) as (k & -> & Hk & B); try lia.
    rewrite (der_length_big n k) by lia. rewrite Z.mod_small by lia.
    transitivity (bind (enc_app e [t]) (fun e0 => bind (enc_app e0 ([128 + Z.of_nat k] ++ be_bytes k n)) (fun e => enc_split e n))).
    + destruct (enc_app e [t]); cbn [bind]; auto.
      rewrite enc_push_app. rewrite <- enc_app_app.
      destruct (enc_app a [128 + Z.of_nat k]); cbn [bind]; auto.
      rewrite enc_push_all_app, zdrop_be_bytes by lia. reflexivity.
    + rewrite enc_app_app. reflexivity.
Qed.

(** A sub-encoder writing exactly the announced number of bytes. *)
Lemma enc_begin_body {B} e t body (k : encoder * encoder -> res B) : zlen body < 2^64 ->
  (forall p s, k (p, s) = k (p, s)) ->
  bind (enc_begin e t (zlen body)) k =
  if zlen (e_out e) <? zlen (tlv t body) then Err UnexpectedEof
  else k ({| e_done := e_done e ++ t :: der_length (zlen body);
             e_out := zdrop (zlen (tlv t body)) (e_out e);
             e_written := e_written e + zlen (tlv t body) |},
          {| e_done := []; e_out := ztake (zlen body) (zdrop (zlen (t :: der_length (zlen body))) (e_out e));
             e_written := e_written e + zlen (t :: der_length (zlen body)) |}).
Proof.
  intros H _. pose proof (zlen_nonneg body).
  rewrite enc_begin_spec by lia. unfold enc_app.
  assert (E: zlen (tlv t body) = zlen (t :: der_length (zlen body)) + zlen body)
    by (unfold tlv; zl; lia).
  rewrite E. set (h := t :: der_length (zlen body)) in *. pose proof (zlen_nonneg h).
  destruct (Z.ltb_spec (zlen (e_out e)) (zlen h)).
  - destruct (Z.ltb_spec (zlen (e_out e)) (zlen h + zlen body)); [reflexivity|lia].
  - cbn [bind]. unfold enc_split. cbn [adv e_out e_done e_written]. rewrite zlen_zdrop by lia.
    destruct (Z.ltb_spec (zlen (e_out e) - zlen h) (zlen body)),
      (Z.ltb_spec (zlen (e_out e)) (zlen h + zlen body)); try lia; [reflexivity|].
    cbn [bind]. rewrite zdrop_zdrop by lia. rewrite Z.add_assoc. reflexivity.
Qed.

(** ** codecs meeting their specification *)
Record good {A} (c : codec A) (sp : A -> Z -> list Z) (wf : A -> Prop)
  (follow : A -> Z -> list Z -> Prop) : Prop := {
  g_sound : forall t p a rest, bytes p -> c_parse c t p = Ok (a, rest) ->
     wf a /\ follow a t rest /\ p = sp a t ++ rest /\ zlen (sp a t) <= 65539;
  g_complete : forall t a rest, wf a -> follow a t rest -> zlen (sp a t) <= 65539 ->
     c_parse c t (sp a t ++ rest) = Ok (a, rest);
  g_enc : forall a t e, wf a -> zlen (sp a t) < 2^32 ->
     exists w, c_encode c a t e = let! e := enc_app e (sp a t) in Ok (e, w e);
  g_len : forall a t, wf a -> zlen (sp a t) < 2^32 -> c_len c a = Ok (zlen (sp a t));
  g_total : forall t p, bytes p -> c_parse c t p <> Panic }.

Definition any_follow {A} : A -> Z -> list Z -> Prop := fun _ _ _ => True.

Lemma zlen_tlv_gt t b : zlen b < zlen (tlv t b).
Proof. rewrite zlen_tlv. pose proof (zlen_der_length_pos (zlen b)). lia. Qed.

Lemma encode_prim_spec body t e : zlen (tlv t body) < 2^32 ->
  encode_prim body t e = let! e := enc_app e (tlv t body) in Ok (e, e_written e).
Proof.
  intro H. pose proof (zlen_tlv_gt t body). pose proof (zlen_nonneg body).
  unfold encode_prim. rewrite enc_begin_body; [|lia|auto].
  unfold enc_app. destruct (Z.ltb_spec (zlen (e_out e)) (zlen (tlv t body))); [reflexivity|].
  cbn [bind]. unfold enc_append. cbn [e_out e_done e_written].
  assert (E: zlen (tlv t body) = zlen (t :: der_length (zlen body)) + zlen body)
    by (unfold tlv; zl; lia).
  pose proof (zlen_nonneg (t :: der_length (zlen body))).
  rewrite zlen_ztake by (rewrite ?zlen_zdrop; lia).
  rewrite Z.ltb_irrefl. cbn [bind app]. unfold enc_join; cbn [e_out e_done e_written].
  assert (zdrop (zlen body) (ztake (zlen body) (zdrop (zlen (t :: der_length (zlen body))) (e_out e))) = []) as ->.
  { apply zdrop_all. rewrite zlen_ztake; rewrite ?zlen_zdrop; lia. }
  rewrite app_nil_r. unfold adv; cbn [e_out e_done e_written]. rewrite E.
  rewrite <- app_assoc, Z.add_assoc. reflexivity.
Qed.

Lemma good_prim (c : codec (list Z)) (wf : list Z -> Prop) (f : list Z -> option error) :
  (forall t p, c_parse c t p = let! (b, p) := take t p in match f b with None => Ok (b, p) | Some e => Err e end) ->
  c_encode c = encode_prim -> (forall o, c_len c o = encoded_length_for (zlen o)) ->
  (forall b, bytes b -> f b = None -> wf b) -> (forall b, wf b -> f b = None) ->
  good c (fun a t => tlv t a) wf any_follow.
Proof.
  intros Hp He Hl W1 W2. constructor.
  - intros t p a rest Hb H. rewrite Hp in H. binv H. destruct x as [b r].
    destruct (f b) eqn:F; [discriminate|]. injection H as -> ->.
    apply take_inv in E as (-> & L & B & _); auto.
    repeat split; auto. now apply tlv_fits.
  - intros t a rest W _ L. rewrite Hp, take_ok by (apply tlv_fits in L; lia). cbn [bind].
    rewrite W2; auto.
  - intros a t e W L. exists e_written. rewrite He. now apply encode_prim_spec.
  - intros a t W L. rewrite Hl. now apply encoded_length_for_spec.
  - intros t p Hb. rewrite Hp. pose proof (take_total t p Hb).
    destruct (take t p) as [[b r]|e|]; cbn [bind]; try congruence. destruct (f b); discriminate.
Qed.

Definition wf_oid (o : list Z) := bytes o /\ zlen o <= 16.
Definition wf_int (o : list Z) := bytes o /\ minimal_int o.

Lemma good_ObjectId : good ObjectId (fun a t => tlv t a) wf_oid any_follow.
Proof.
  apply (good_prim _ _ (fun b => if OID_MAX_LEN <? zlen b then Some UnsupportedLargeObjectId else None)); auto.
  - intros. cbn. destruct (take t p) as [[b r]|e|]; cbn; auto. destruct (_ <? _); auto.
  - intros b Hb H. unfold OID_MAX_LEN in H. destruct (Z.ltb_spec 16 (zlen b)); [discriminate|]. split; auto.
  - intros b [H1 H2]. unfold OID_MAX_LEN. destruct (Z.ltb_spec 16 (zlen b)); [lia|auto].
Qed.
Lemma good_OctetString : good OctetString (fun a t => tlv t a) bytes any_follow.
Proof.
  apply (good_prim _ _ (fun b => None)); auto.
  intros. cbn. destruct (take t p) as [[b r]|e|]; cbn; auto.
Qed.

Lemma land_80 y : byte_ok y -> Z.land y 0x80 = if 128 <=? y then 128 else 0.
Proof.
  intro H. assert (In y (map Z.of_nat (seq 0 256))).
  { apply in_map_iff. exists (Z.to_nat y). unfold byte_ok in H. split; [lia|]. apply in_seq. lia. }
  clear H. revert y H0.
  apply (Forall_forall (fun y => Z.land y 0x80 = if 128 <=? y then 128 else 0)).
  assert (forallb (fun y => Z.land y 0x80 =? if 128 <=? y then 128 else 0) (map Z.of_nat (seq 0 256)) = true) by (vm_compute; reflexivity).
  rewrite forallb_forall in H. apply Forall_forall. intros x Hx. apply Z.eqb_eq, H, Hx.
Qed.

Lemma min_check_spec i : bytes i -> minimum_magnitude_check i = Ok i \/
   minimum_magnitude_check i = Err IntegerOutOfRange /\ ~ minimal_int i.
Proof.
  intro Hb. destruct i as [|a [|b r]].
  - right. cbn. tauto.
  - left. reflexivity.
  - apply bytes_cons in Hb as [Ha Hb]. apply bytes_cons in Hb as [Hb _].
    unfold minimum_magnitude_check, minimal_int. rewrite !land_80 by auto. unfold byte_ok in *.
    destruct (Z.eqb_spec a 0xff), (Z.eqb_spec a 0x00), (Z.leb_spec 128 b); cbn; try lia; auto;
    right; split; auto; lia.
Qed.
Lemma min_check_wf i : bytes i -> minimum_magnitude_check i = Ok i -> minimal_int i.
Proof.
  intros Hb. destruct i as [|a [|b r]].
  - discriminate.
  - cbn. auto.
  - apply bytes_cons in Hb as [Ha Hb]. apply bytes_cons in Hb as [Hb _].
    unfold minimum_magnitude_check, minimal_int. rewrite !land_80 by auto. unfold byte_ok in *.
    destruct (Z.eqb_spec a 0xff), (Z.eqb_spec a 0x00), (Z.leb_spec 128 b); cbn; try discriminate; lia.
Qed.

Lemma good_Integer : good Integer (fun a t => tlv t a) wf_int any_follow.
Proof.
  apply (good_prim _ _ (fun b => match minimum_magnitude_check b with Err e => Some e | _ => None end)); auto.
  - intros. cbn. destruct (take t p) as [[b r]|e|]; cbn; auto.
    destruct b as [|x [|y b]]; auto. unfold minimum_magnitude_check.
    destruct ((x =? 255) && _); auto. destruct (_ && _); auto.
  - intros b Hb H. split; auto. destruct (min_check_spec b Hb) as [E|[E _]].
    + now apply min_check_wf.
    + rewrite E in H. discriminate.
  - intros b [Hb H]. destruct (min_check_spec b Hb) as [E|[E N]]; [rewrite E; auto|tauto].
Qed.

Lemma good_Null : good Null (fun _ t => tlv t []) (fun _ => True) any_follow.
Proof.
  constructor.
  - intros t p a rest Hb H. cbn in H. binv H. destruct x as [b r].
    destruct (Z.eqb_spec (zlen b) 0); [|discriminate]. cbn in H. injection H as <- ->.
    apply zlen_0_nil in e. subst b. apply take_inv in E as (-> & L & B & _); auto.
    repeat split; auto; now apply tlv_fits.
  - intros t a rest _ _ L. cbn [Null c_parse]. rewrite take_ok by (apply tlv_fits in L; lia).
    destruct a. reflexivity.
  - intros a t e _ L. exists e_written. cbn [Null c_encode].
    pose proof (encode_prim_spec [] t e L) as H. rewrite <- H. unfold encode_prim. change (zlen (@nil Z)) with 0.
    destruct (enc_begin e t 0) as [[p s]|x|]; cbn [bind]; auto.
    destruct s as [d o w]. unfold enc_append. cbn [e_out e_done e_written]. change (zlen (@nil Z)) with 0.
    pose proof (zlen_nonneg o). destruct (Z.ltb_spec (zlen o) 0); [lia|]. cbn [bind].
    rewrite zdrop_0, app_nil_r. unfold enc_join. cbn. rewrite Z.add_0_r. reflexivity.
  - intros a t _ L. cbn. apply (encoded_length_for_spec 0 t []); auto.
  - intros t p Hb. cbn. pose proof (take_total t p Hb).
    destruct (take t p) as [[b r]|e|]; cbn [bind]; try congruence. destruct (negb _); discriminate.
Qed.

Lemma enc_app_push_append sub o (k : encoder -> res (encoder * Z)) :
  bind (enc_push sub 0) (fun s => bind (enc_append s o) k) = bind (enc_append sub (0::o)) k.
Proof.
  rewrite enc_push_app. change enc_append with enc_app.
  change (0 :: o) with ([0] ++ o). apply (enc_app_app sub [0] o k).
Qed.

Lemma good_BitString : good BitString (fun a t => tlv t (0 :: a)) bytes any_follow.
Proof.
  constructor.
  - intros t p a rest Hb H. cbn in H. binv H. destruct x as [b r].
    destruct b as [|x b]; [discriminate|]. destruct (Z.eqb_spec x 0); [|discriminate]. injection H as -> ->.
    apply take_inv in E as (-> & L & B & _); auto. subst x. apply bytes_cons in B as [_ B].
    repeat split; auto. now apply tlv_fits.
  - intros t a rest _ _ L. cbn [BitString c_parse]. rewrite take_ok by (apply tlv_fits in L; lia).
    reflexivity.
  - intros a t e _ L. exists e_written. cbn [BitString c_encode].
    rewrite <- (encode_prim_spec (0::a) t e L). unfold encode_prim.
    rewrite zlen_cons, Z.add_comm.
    destruct (enc_begin e t (1 + zlen a)) as [[p s]|x|]; cbn [bind]; auto.
    apply enc_app_push_append.
  - intros a t _ L. cbn. apply (encoded_length_for_spec _ t (0::a)); auto. zl; lia.
  - intros t p Hb. cbn. pose proof (take_total t p Hb).
    destruct (take t p) as [[b r]|e|]; cbn [bind]; try congruence.
    destruct b; [discriminate|]. destruct (_ =? 0); discriminate.
Qed.

(** codecs used as fields, with their own tag *)
Record goodf {A} (c : codec A) (sp : A -> list Z) (wf : A -> Prop) (follow : A -> list Z -> Prop) : Prop := {
  gf_sound : forall p a rest, bytes p -> parse c p = Ok (a, rest) ->
     wf a /\ follow a rest /\ p = sp a ++ rest /\ zlen (sp a) <= 65539;
  gf_complete : forall a rest, wf a -> follow a rest -> zlen (sp a) <= 65539 ->
     parse c (sp a ++ rest) = Ok (a, rest);
  gf_enc : forall a e, wf a -> zlen (sp a) < 2^32 ->
     exists w, encode c a e = let! e := enc_app e (sp a) in Ok (e, w e);
  gf_len : forall a, wf a -> zlen (sp a) < 2^32 -> c_len c a = Ok (zlen (sp a));
  gf_total : forall p, bytes p -> parse c p <> Panic }.

Lemma good_goodf {A} (c : codec A) sp wf fl : good c sp wf fl ->
  goodf c (fun a => sp a (c_tag c)) wf (fun a => fl a (c_tag c)).
Proof.
  intros [G1 G2 G3 G4 G5]. constructor; unfold parse, encode; eauto.
Qed.

Definition nofollow {A} : A -> list Z -> Prop := fun _ _ => True.

(** Any *)
Definition sp_any (a : any) : list Z :=
  match a with
  | AnyNull => tlv 5 [] | AnyInteger i => tlv 2 i | AnyOctetString o => tlv 4 o
  | AnyBitString o => tlv 3 (0 :: o) | AnyObjectId o => tlv 6 o
  end.
Definition wf_any (a : any) : Prop :=
  match a with
  | AnyNull => True | AnyInteger i => wf_int i | AnyOctetString o => bytes o
  | AnyBitString o => bytes o | AnyObjectId o => wf_oid o
  end.

Lemma tlv_app_head t b rest : exists r, tlv t b ++ rest = t :: r.
Proof. unfold tlv. cbn. eauto. Qed.

Lemma good_Any : good Any (fun a _ => sp_any a) wf_any any_follow.
Proof.
  pose proof good_Null as GN. pose proof good_Integer as GI. pose proof good_OctetString as GO.
  pose proof good_BitString as GB. pose proof good_ObjectId as GOI.
  constructor.
  - intros t p a rest Hb H. cbn [Any c_parse] in H. binv H. clear E.
    repeat match type of H with (if ?c then _ else _) = _ => destruct c end; try discriminate;
    binv H; destruct x0 as [v q]; injection H as <- ->; cbn [sp_any wf_any].
    + destruct (g_sound _ _ _ _ GN _ _ _ _ Hb E) as (? & ? & ? & ?); auto.
    + destruct (g_sound _ _ _ _ GI _ _ _ _ Hb E) as (? & ? & ? & ?); auto.
    + destruct (g_sound _ _ _ _ GO _ _ _ _ Hb E) as (? & ? & ? & ?); auto.
    + destruct (g_sound _ _ _ _ GB _ _ _ _ Hb E) as (? & ? & ? & ?); auto.
    + destruct (g_sound _ _ _ _ GOI _ _ _ _ Hb E) as (? & ? & ? & ?); auto.
  - intros t a rest W _ L. cbn [Any c_parse].
    assert (P: peek_tag (sp_any a ++ rest) = Ok match a with AnyNull => 5 | AnyInteger _ => 2
      | AnyOctetString _ => 4 | AnyBitString _ => 3 | AnyObjectId _ => 6 end) by (destruct a; reflexivity).
    rewrite P. cbn [bind]. destruct a; cbn [Z.eqb Pos.eqb T_NULL T_INTEGER T_OCTET_STRING T_BIT_STRING T_OBJECT_ID sp_any].
    + assert (parse Null (tlv 5 [] ++ rest) = Ok (tt, rest)) as ->; [|reflexivity].
      apply (g_complete _ _ _ _ GN 5 tt); auto; exact I.
    + assert (parse Integer (tlv 2 i ++ rest) = Ok (i, rest)) as ->; [|reflexivity].
      apply (g_complete _ _ _ _ GI 2 i); auto; exact I.
    + assert (parse OctetString (tlv 4 o ++ rest) = Ok (o, rest)) as ->; [|reflexivity].
      apply (g_complete _ _ _ _ GO 4 o); auto; exact I.
    + assert (parse BitString (tlv 3 (0::o) ++ rest) = Ok (o, rest)) as ->; [|reflexivity].
      apply (g_complete _ _ _ _ GB 3 o); auto; exact I.
    + assert (parse ObjectId (tlv 6 o ++ rest) = Ok (o, rest)) as ->; [|reflexivity].
      apply (g_complete _ _ _ _ GOI 6 o); auto; exact I.
  - intros a t e W L. cbn [Any c_encode]. destruct a; cbn [sp_any wf_any] in *; unfold encode.
    + apply (g_enc _ _ _ _ GN tt 5); auto.
    + apply (g_enc _ _ _ _ GI i 2); auto.
    + apply (g_enc _ _ _ _ GO o 4); auto.
    + apply (g_enc _ _ _ _ GB o 3); auto.
    + apply (g_enc _ _ _ _ GOI o 6); auto.
  - intros a t W L. cbn [Any c_len]. destruct a; cbn [sp_any wf_any] in *.
    + apply (g_len _ _ _ _ GN tt 5); auto.
    + apply (g_len _ _ _ _ GI i 2); auto.
    + apply (g_len _ _ _ _ GO o 4); auto.
    + apply (g_len _ _ _ _ GB o 3); auto.
    + apply (g_len _ _ _ _ GOI o 6); auto.
  - intros t p Hb. cbn [Any c_parse]. destruct p as [|x p]; [discriminate|]. cbn [peek_tag bind].
    pose proof (g_total _ _ _ _ GN 5 _ Hb). pose proof (g_total _ _ _ _ GI 2 _ Hb).
    pose proof (g_total _ _ _ _ GO 4 _ Hb). pose proof (g_total _ _ _ _ GB 3 _ Hb).
    pose proof (g_total _ _ _ _ GOI 6 _ Hb). unfold parse.
    cbn [c_tag Null Integer OctetString BitString ObjectId] in *.
    change T_NULL with 5 in *. change T_INTEGER with 2 in *. change T_OCTET_STRING with 4 in *.
    change T_BIT_STRING with 3 in *. change T_OBJECT_ID with 6 in *.
    destruct (x =? 5). { destruct (c_parse Null 5 (x::p)) as [[]| |]; try discriminate; congruence. }
    destruct (x =? 2). { destruct (c_parse Integer 2 (x::p)) as [[]| |]; try discriminate; congruence. }
    destruct (x =? 4). { destruct (c_parse OctetString 4 (x::p)) as [[]| |]; try discriminate; congruence. }
    destruct (x =? 3). { destruct (c_parse BitString 3 (x::p)) as [[]| |]; try discriminate; congruence. }
    destruct (x =? 6). { destruct (c_parse ObjectId 6 (x::p)) as [[]| |]; try discriminate; congruence. }
    discriminate.
Qed.

(** Option *)
Lemma goodf_Optional {A} (c : codec A) sp wf fl : goodf c sp wf fl ->
  (forall a, 0 < zlen (sp a)) ->
  goodf (Optional c) (fun o => match o with None => [] | Some a => sp a end)
    (fun o => match o with None => True | Some a => wf a end)
    (fun o rest => match o with None => rest = [] | Some a => fl a rest end).
Proof.
  intros [G1 G2 G3 G4 G5] Hpos. constructor; unfold parse, encode in *; cbn [Optional c_parse c_encode c_len c_tag].
  - intros p a rest Hb H. destruct (Z.ltb_spec 0 (zlen p)).
    + binv H. destruct x as [v q]. injection H as <- ->. eapply G1; eauto.
    + injection H as <- <-. pose proof (zlen_nonneg p). assert (p = []) by (apply zlen_0_nil; lia).
      subst p. repeat split; auto. cbn; lia.
  - intros a rest W F L. destruct a as [a|].
    + destruct (Z.ltb_spec 0 (zlen (sp a ++ rest))).
      * rewrite G2; auto.
      * zl. specialize (Hpos a). pose proof (zlen_nonneg rest). lia.
    + subst rest. reflexivity.
  - intros a e W L. destruct a as [a|]; [apply G3; auto|]. exists (fun _ => 0). rewrite enc_app_nil. reflexivity.
  - intros a W L. destruct a; auto.
  - intros p Hb. destruct (0 <? zlen p); [|discriminate]. specialize (G5 p Hb).
    destruct (c_parse c (c_tag c) p) as [[]| |]; cbn; congruence.
Qed.

(** shared by explicit Context and Struct: a TLV around something *)
Lemma enc_wrap body t e (k : encoder -> res (encoder * Z)) (inner : encoder -> res encoder) :
  zlen (tlv t body) < 2^32 ->
  (forall s, inner s = enc_app s body) ->
  bind (enc_begin e t (zlen body)) (fun '(parent, sub) =>
    bind (inner sub) (fun sub => Ok (enc_join parent sub, e_written sub)))
  = let! e := enc_app e (tlv t body) in Ok (e, e_written e).
Proof.
  intros H Hi. rewrite <- encode_prim_spec by auto. unfold encode_prim.
  destruct (enc_begin e t (zlen body)) as [[p s]|x|]; cbn [bind]; auto.
  rewrite Hi. reflexivity.
Qed.

(** Context, explicit *)
Lemma goodf_Context_explicit {A} id (c : codec A) sp wf fl : goodf c sp wf fl ->
  tag_constructed (context_tag id true c) = true ->
  let t := context_tag id true c in
  goodf (Context id true c) (fun o => match o with None => [] | Some a => tlv t (sp a) end)
    (fun o => match o with None => True | Some a => wf a /\ fl a [] end)
    (fun o rest => match o with None => forall r, rest <> t :: r | Some a => True end).
Proof.
  intros [G1 G2 G3 G4 G5] Ht t. fold t in Ht. constructor; unfold parse, encode in *;
  cbn [Context c_parse c_encode c_len c_tag orb]; unfold parse, encode in *; fold t.
  - intros p a rest Hb H. destruct p as [|x p].
    { cbn in H. injection H as <- <-. repeat split; auto; [congruence | cbn; lia]. }
    cbn [peek_tag] in H. unfold tag_acceptable in H. destruct (Z.eqb_spec t x).
    + subst x. binv H. destruct x as [sub q]. binv H. destruct x as [v s2]. binv H. injection H as <- ->.
      unfold descend in E. apply take_inv in E as (Ep & L & B1 & B2); auto.
      apply G1 in E0 as (W & F & -> & L2); auto.
      unfold check_end in E1. destruct (Z.eqb_spec (zlen s2) 0); [|discriminate].
      apply zlen_0_nil in e. subst s2. rewrite app_nil_r in *. repeat split; auto. now apply tlv_fits.
    + injection H as <- <-. repeat split; auto; [congruence | cbn; lia].
  - intros a rest W F L. destruct a as [a|].
    + destruct (tlv_app_head t (sp a) rest) as [r Er]. rewrite Er. cbn [peek_tag].
      rewrite <- Er. unfold tag_acceptable. rewrite Z.eqb_refl. unfold descend.
      apply (tlv_fits t (sp a)) in L.
      rewrite take_ok by lia. cbn [bind]. destruct W as [W Fl].
      rewrite <- (app_nil_r (sp a)) at 1. rewrite G2 by (auto; lia). reflexivity.
    + cbn [app]. destruct rest as [|x r]; [reflexivity|]. cbn [peek_tag]. unfold tag_acceptable.
      destruct (Z.eqb_spec t x); [subst x; exfalso; eapply F; eauto|reflexivity].
  - intros a e W L. destruct a as [a|].
    + destruct W as [W Fl]. pose proof (zlen_tlv_gt t (sp a)).
      rewrite G4 by (auto; lia). cbn [bind]. exists e_written.
      rewrite <- encode_prim_spec by auto. unfold encode_prim.
      destruct (enc_begin e t (zlen (sp a))) as [[p s]|x|]; cbn [bind]; auto.
      destruct (G3 a s W) as [w ->]; [lia|]. change enc_append with enc_app.
      destruct (enc_app s (sp a)); reflexivity.
    + exists (fun _ => 0). rewrite enc_app_nil. reflexivity.
  - intros a W L. destruct a as [a|]; auto. rewrite Ht. pose proof (zlen_tlv_gt t (sp a)).
    destruct W as [W Fl]. rewrite G4 by (auto; lia). cbn [bind].
    apply encoded_length_for_spec; auto.
  - intros p Hb. destruct p as [|x p]; [discriminate|]. cbn [peek_tag].
    destruct (tag_acceptable t x); [|discriminate].
    unfold descend. pose proof (take_total t _ Hb).
    destruct (take t (x::p)) as [[sub q]| |] eqn:E; cbn [bind]; try congruence.
    apply take_inv in E as (_ & _ & B & _); auto. specialize (G5 sub B).
    destruct (c_parse c (c_tag c) sub) as [[v s2]| |]; cbn [bind]; try congruence.
    unfold check_end. destruct (negb _); discriminate.
Qed.

(** Context, implicit, of a primitive type *)
Lemma goodf_Context_implicit {A} id (c : codec A) sp wf fl : good c sp wf fl ->
  let t := context_tag id false c in
  tag_constructed t = false ->
  (forall a, exists r, sp a t = t :: r) ->
  goodf (Context id false c) (fun o => match o with None => [] | Some a => sp a t end)
    (fun o => match o with None => True | Some a => wf a end)
    (fun o rest => match o with None => forall r, rest <> t :: r | Some a => fl a t rest end).
Proof.
  intros [G1 G2 G3 G4 G5] t Ht Hh. constructor; unfold parse, encode in *;
  cbn [Context c_parse c_encode c_len c_tag orb]; unfold parse, encode in *; fold t; rewrite ?Ht.
  - intros p a rest Hb H. destruct p as [|x p].
    { cbn in H. injection H as <- <-. repeat split; auto; [congruence | cbn; lia]. }
    cbn [peek_tag] in H. unfold tag_acceptable in H. destruct (Z.eqb_spec t x).
    + subst x. binv H. destruct x as [v q]. injection H as <- ->. eapply G1; eauto.
    + injection H as <- <-. repeat split; auto; [congruence | cbn; lia].
  - intros a rest W F L. destruct a as [a|].
    + destruct (Hh a) as [r Er]. rewrite Er. cbn [app peek_tag].
      unfold tag_acceptable. rewrite Z.eqb_refl.
      replace (t :: r ++ rest) with (sp a t ++ rest) by (rewrite Er; reflexivity).
      rewrite G2; auto.
    + cbn [app]. destruct rest as [|x r]; [reflexivity|]. cbn [peek_tag]. unfold tag_acceptable.
      destruct (Z.eqb_spec t x); [subst x; exfalso; eapply F; eauto|reflexivity].
  - intros a e W L. destruct a as [a|]; auto.
    exists (fun _ => 0). rewrite enc_app_nil. reflexivity.
  - intros a W L. destruct a as [a|]; auto.
  - intros p Hb. destruct p as [|x p]; [discriminate|]. cbn [peek_tag].
    destruct (tag_acceptable t x); [|discriminate]. specialize (G5 t _ Hb).
    destruct (c_parse c t (x::p)) as [[v s2]| |]; cbn [bind]; congruence.
Qed.

(** fields *)
Record goodfs {A} (fs : fields A) (sp : A -> list Z) (wf : A -> Prop) (follow : A -> list Z -> Prop) : Prop := {
  gs_sound : forall p a rest, bytes p -> f_parse fs p = Ok (a, rest) ->
     wf a /\ follow a rest /\ p = sp a ++ rest;
  gs_complete : forall a rest, wf a -> follow a rest -> zlen (sp a) <= 65539 ->
     f_parse fs (sp a ++ rest) = Ok (a, rest);
  gs_enc : forall a e, wf a -> zlen (sp a) < 2^32 -> f_encode fs a e = enc_app e (sp a);
  gs_len : forall a, wf a -> zlen (sp a) < 2^32 -> f_len fs a = Ok (zlen (sp a));
  gs_total : forall p, bytes p -> f_parse fs p <> Panic }.

Lemma goodfs_last {A} (c : codec A) sp wf fl : goodf c sp wf fl -> goodfs (f_last c) sp wf fl.
Proof.
  intros [G1 G2 G3 G4 G5]. constructor; cbn [f_last f_parse f_encode f_len]; auto.
  - intros p a rest Hb H. edestruct G1 as (? & ? & ? & ?); eauto.
  - intros a e W L. destruct (G3 a e W L) as [w ->]. destruct (enc_app e (sp a)); reflexivity.
Qed.

Lemma goodfs_cons {A B} (c : codec A) (fs : fields B) sp wf fl sp' wf' fl' :
  goodf c sp wf fl -> goodfs fs sp' wf' fl' ->
  goodfs (f_cons c fs) (fun ab => sp (fst ab) ++ sp' (snd ab))
    (fun ab => wf (fst ab) /\ wf' (snd ab))
    (fun ab rest => fl (fst ab) (sp' (snd ab) ++ rest) /\ fl' (snd ab) rest).
Proof.
  intros [G1 G2 G3 G4 G5] [F1 F2 F3 F4 F5]. constructor; cbn [f_cons f_parse f_encode f_len].
  - intros p [a b] rest Hb H. binv H. destruct x as [v q]. binv H. destruct x as [v2 q2].
    injection H as -> -> ->. apply G1 in E as (W & Fl & -> & L); auto.
    apply bytes_app in Hb as [_ Hb]. apply F1 in E0 as (W2 & Fl2 & ->); auto.
    cbn [fst snd]. rewrite app_assoc. auto.
  - intros [a b] rest [W1 W2] [Fl1 Fl2] L. cbn [fst snd] in *. zl.
    pose proof (zlen_nonneg (sp a)). pose proof (zlen_nonneg (sp' b)).
    rewrite <- app_assoc, G2 by (auto; lia). cbn [bind]. rewrite F2 by (auto; lia). reflexivity.
  - intros [a b] e [W1 W2] L. cbn [fst snd] in *. zl.
    pose proof (zlen_nonneg (sp a)). pose proof (zlen_nonneg (sp' b)).
    destruct (G3 a e W1) as [w ->]; [lia|]. rewrite bind_assoc. cbn [bind].
    transitivity (bind (enc_app e (sp a)) (fun e => bind (enc_app e (sp' b)) (fun x => Ok x))).
    + destruct (enc_app e (sp a)); cbn [bind]; auto. rewrite F3 by (auto; lia). now rewrite bind_Ok_r.
    + rewrite enc_app_app, bind_Ok_r. reflexivity.
  - intros [a b] [W1 W2] L. cbn [fst snd] in *. zl.
    pose proof (zlen_nonneg (sp a)). pose proof (zlen_nonneg (sp' b)).
    rewrite G4, F4 by (auto; lia). cbn [bind]. reflexivity.
  - intros p Hb. specialize (G5 p Hb). destruct (parse c p) as [[v q]| |] eqn:E; cbn [bind]; try congruence.
    apply G1 in E as (_ & _ & -> & _); auto. apply bytes_app in Hb as [_ Hb].
    specialize (F5 q Hb). destruct (f_parse fs q) as [[v2 q2]| |]; cbn [bind]; congruence.
Qed.

Lemma good_Struct {A} (fs : fields A) sp wf fl : goodfs fs sp wf fl ->
  good (Struct fs) (fun a t => tlv t (sp a)) (fun a => wf a /\ fl a []) any_follow.
Proof.
  intros [F1 F2 F3 F4 F5]. constructor; cbn [Struct c_parse c_encode c_len].
  - intros t p a rest Hb H. binv H. destruct x as [sub q]. binv H. destruct x as [v s2]. binv H. injection H as -> ->.
    apply take_inv in E as (Ep & L & B1 & B2); auto.
    apply F1 in E0 as (W & F & ->); auto.
    unfold check_end in E1. destruct (Z.eqb_spec (zlen s2) 0); [|discriminate].
    apply zlen_0_nil in e. subst s2. rewrite app_nil_r in *. repeat split; auto. now apply tlv_fits.
  - intros t a rest [W F] _ L. apply (tlv_fits t (sp a)) in L. unfold descend.
    rewrite take_ok by lia. cbn [bind].
    rewrite <- (app_nil_r (sp a)) at 1. rewrite F2 by (auto; lia). reflexivity.
  - intros a t e [W F] L. exists e_written. pose proof (zlen_tlv_gt t (sp a)).
    rewrite F4 by (auto; lia). cbn [bind].
    rewrite <- encode_prim_spec by auto. unfold encode_prim.
    destruct (enc_begin e t (zlen (sp a))) as [[p s]|x|]; cbn [bind]; auto.
    rewrite F3; auto. lia.
  - intros a t [W F] L. pose proof (zlen_tlv_gt t (sp a)).
    rewrite F4 by (auto; lia). cbn [bind]. apply encoded_length_for_spec; auto.
  - intros t p Hb. unfold descend. pose proof (take_total t _ Hb).
    destruct (take t p) as [[sub q]| |] eqn:E; cbn [bind]; try congruence.
    apply take_inv in E as (_ & _ & B & _); auto. specialize (F5 sub B).
    destruct (f_parse fs sub) as [[v s2]| |]; cbn [bind]; try congruence.
    unfold check_end. destruct (negb _); discriminate.
Qed.

(** Top-level encode of a Struct also returns the number of bytes. *)
Lemma Struct_encode {A} (fs : fields A) sp wf fl a e : goodfs fs sp wf fl -> wf a ->
  zlen (tlv T_SEQUENCE (sp a)) < 2^32 ->
  encode (Struct fs) a e = let! e := enc_app e (tlv T_SEQUENCE (sp a)) in Ok (e, e_written e).
Proof.
  intros [F1 F2 F3 F4 F5] W L. unfold encode. cbn [Struct c_encode c_tag]. pose proof (zlen_tlv_gt T_SEQUENCE (sp a)).
  rewrite F4 by (auto; lia). cbn [bind].
  rewrite <- encode_prim_spec by auto. unfold encode_prim.
  destruct (enc_begin e T_SEQUENCE (zlen (sp a))) as [[p s]|x|]; cbn [bind]; auto.
  rewrite F3; auto. lia.
Qed.

(** whole-input decoding: exact characterisation *)
Lemma goodf_from_bytes {A} (c : codec A) sp wf fl b a : goodf c sp wf fl -> bytes b ->
  from_bytes c b = Ok a <-> (wf a /\ fl a [] /\ b = sp a /\ zlen b <= 65539).
Proof.
  intros G Hb. unfold from_bytes. split.
  - intro H. binv H. destruct x as [v q]. binv H. injection H as ->.
    apply (gf_sound _ _ _ _ G) in E as (W & F & E & L); auto.
    unfold check_end in E0. destruct (Z.eqb_spec (zlen q) 0); [|discriminate].
    apply zlen_0_nil in e. subst q. rewrite app_nil_r in E. subst b. auto.
  - intros (W & F & -> & L). rewrite <- (app_nil_r (sp a)), (gf_complete _ _ _ _ G); auto.
Qed.
Lemma from_bytes_total {A} (c : codec A) sp wf fl b : goodf c sp wf fl -> bytes b -> from_bytes c b <> Panic.
Proof.
  intros G Hb. unfold from_bytes. pose proof (gf_total _ _ _ _ G b Hb).
  destruct (parse c b) as [[v q]| |]; cbn [bind]; try congruence.
  unfold check_end. destruct (negb _); discriminate.
Qed.
