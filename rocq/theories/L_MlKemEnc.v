(** Compression, bit packing and sampling arithmetic of ML-KEM. *)
Require Import Verif.Base Verif.L_Base Verif.L_Blocks Verif.L_Bits Verif.L_Hmac Verif.S_Sha3 Verif.L_Sha3 Verif.M_Ct Verif.T_Hash
  Verif.S_MlKem Verif.M_MlKem.
Require Import ZifyNat.
Local Open Scope Z_scope.
Ltac Zify.zify_post_hook ::= Z.div_mod_to_equations.

(** ** Finite ranges *)
Definition upto (m : Z) : list Z := map Z.of_nat (seq 0 (Z.to_nat m)).
Lemma upto_in m x : 0 <= x < m -> In x (upto m).
Proof. intros H. apply in_map_iff. exists (Z.to_nat x). split; [lia|]. apply in_seq. lia. Qed.
Lemma upto_all m (p : Z -> bool) : forallb p (upto m) = true -> forall x, 0 <= x < m -> p x = true.
Proof. intros H x Hx. rewrite forallb_forall in H. apply H, upto_in, Hx. Qed.

(** ** Compress, Decompress *)
Lemma compress_4_ok x : 0 <= x < q -> compress_4 x = Ok (Compress 4 x) /\ 0 <= Compress 4 x < 16.
Proof.
  intros Hx. split; [|unfold Compress; apply Z.mod_pos_bound; reflexivity].
  assert (A : forallb (fun x => Z.land (Z.shiftr ((Z.shiftl x 4 + Q_HALF) * 80635) 28) 0xf =? Compress 4 x) (upto 3329) = true) by (vm_compute; reflexivity).
  pose proof (upto_all _ _ A x Hx) as B. unfold compress_4. change Q with q.
  destruct ((0 <=? x) && (x <? q)) eqn:E; [|lia]. f_equal. apply Z.eqb_eq, B.
Qed.
Lemma compress_10_ok x : 0 <= x < q -> compress_10 x = Ok (Compress 10 x) /\ 0 <= Compress 10 x < 1024.
Proof.
  intros Hx. split; [|unfold Compress; apply Z.mod_pos_bound; reflexivity].
  assert (A : forallb (fun x => Z.land (Z.shiftr ((Z.shiftl x 10 + Q_HALF) * 1290167) 32) 0x3ff =? Compress 10 x) (upto 3329) = true) by (vm_compute; reflexivity).
  pose proof (upto_all _ _ A x Hx) as B. unfold compress_10. change Q with q.
  destruct ((0 <=? x) && (x <? q)) eqn:E; [|lia]. f_equal. apply Z.eqb_eq, B.
Qed.
Lemma compress_1_val x : 0 <= x < q -> Z.land (Z.shiftr ((Z.shiftl x 1 + Q_HALF) * 80635) 28) 1 = Compress 1 x /\ 0 <= Compress 1 x < 2.
Proof.
  intros Hx. split; [|unfold Compress; apply Z.mod_pos_bound; reflexivity].
  assert (A : forallb (fun x => Z.land (Z.shiftr ((Z.shiftl x 1 + Q_HALF) * 80635) 28) 1 =? Compress 1 x) (upto 3329) = true) by (vm_compute; reflexivity).
  apply Z.eqb_eq, (upto_all _ _ A x Hx).
Qed.
Lemma decompress_4_ok y : 0 <= y < 16 -> decompress_4 y = Ok (Decompress 4 y) /\ 0 <= Decompress 4 y < q.
Proof.
  intros Hy. unfold decompress_4, Decompress, round_div, q, Q. destruct (y <? 16) eqn:E; [|lia].
  rewrite Z.shiftr_div_pow2 by lia. change (2 ^ 4) with 16. split; [f_equal|]; lia.
Qed.
Lemma decompress_10_ok y : 0 <= y < 1024 -> decompress_10 y = Ok (Decompress 10 y) /\ 0 <= Decompress 10 y < q.
Proof.
  intros Hy. unfold decompress_10, Decompress, round_div, q, Q. destruct (y <? 1024) eqn:E; [|lia].
  rewrite Z.shiftr_div_pow2 by lia. change (2 ^ 10) with 1024. split; [f_equal|]; lia.
Qed.

(** ** Bit strings *)
Lemma byte_of_bits_app a b : byte_of_bits (a ++ b) = byte_of_bits a + 2 ^ Z.of_nat (length a) * byte_of_bits b.
Proof.
  unfold byte_of_bits. induction a as [|x a IH]; cbn [app fold_right length]; [change (2 ^ Z.of_nat 0) with 1; lia|].
  rewrite IH. replace (Z.of_nat (S (length a))) with (1 + Z.of_nat (length a)) by lia.
  rewrite Z.pow_add_r by lia. change (2 ^ 1) with 2. lia.
Qed.
Lemma int_bits_len d x : length (int_bits d x) = d.
Proof. unfold int_bits. rewrite map_length, seq_length. reflexivity. Qed.
Lemma int_bits_S d x : int_bits (S d) x = Z.odd x :: int_bits d (x / 2).
Proof.
  unfold int_bits. cbn [seq map]. change (Z.of_nat 0) with 0. rewrite Z.bit0_odd. f_equal. rewrite <- seq_shift, map_map. apply map_ext.
  intros i. replace (Z.of_nat (S i)) with (Z.succ (Z.of_nat i)) by lia. rewrite <- Z.div2_div, Z.div2_spec, Z.shiftr_spec by lia. f_equal.
Qed.
Lemma bits_int_int_bits d : forall x, bits_int (int_bits d x) = x mod 2 ^ Z.of_nat d.
Proof.
  unfold bits_int. induction d as [|d IH]; intros x. { change (2 ^ Z.of_nat 0) with 1. rewrite Z.mod_1_r. reflexivity. }
  rewrite int_bits_S. cbn [byte_of_bits fold_right]. unfold byte_of_bits in IH. rewrite IH.
  replace (2 ^ Z.of_nat (S d)) with (2 * 2 ^ Z.of_nat d) by (rewrite <- (Z.pow_1_r 2) at 1; rewrite <- Z.pow_add_r by lia; f_equal; lia).
  rewrite Z.rem_mul_r by lia. f_equal. rewrite Zmod_odd. reflexivity.
Qed.
Lemma int_bits_app a b x : int_bits (a + b) x = int_bits a x ++ int_bits b (x / 2 ^ Z.of_nat a).
Proof.
  revert x. induction a as [|a IH]; intros x. { cbn [Nat.add]. change (2 ^ Z.of_nat 0) with 1. rewrite Z.div_1_r. reflexivity. }
  cbn [Nat.add]. rewrite !int_bits_S, IH. cbn [app]. do 3 f_equal. rewrite Z.div_div by lia. f_equal.
  replace (Z.of_nat (S a)) with (1 + Z.of_nat a) by lia. rewrite Z.pow_add_r by lia. reflexivity.
Qed.
Lemma int_bits_mod d : forall x y, x mod 2 ^ Z.of_nat d = y mod 2 ^ Z.of_nat d -> int_bits d x = int_bits d y.
Proof.
  intros x y H. apply map_ext_in. intros i Hi. apply in_seq in Hi.
  rewrite <- (Z.mod_pow2_bits_low x (Z.of_nat d)), <- (Z.mod_pow2_bits_low y (Z.of_nat d)), H by lia. reflexivity.
Qed.

(** base-2^d digits *)
Fixpoint dval (d : nat) (F : list Z) : Z := match F with [] => 0 | x :: r => x + 2 ^ Z.of_nat d * dval d r end.
Definition lt2 (d : nat) (x : Z) : Prop := 0 <= x < 2 ^ Z.of_nat d.
Lemma bits_digits d F : Forall (lt2 d) F -> concat (map (int_bits d) F) = int_bits (d * length F) (dval d F).
Proof.
  intros H. induction H as [|x r Hx H IH]; cbn [map concat length dval]. { rewrite Nat.mul_0_r. reflexivity. }
  unfold lt2 in Hx. replace (d * S (length r))%nat with (d + d * length r)%nat by lia. rewrite int_bits_app, IH. f_equal.
  - apply int_bits_mod. replace (x + 2 ^ Z.of_nat d * dval d r) with (x + dval d r * 2 ^ Z.of_nat d) by lia. rewrite Z.mod_add by lia. reflexivity.
  - f_equal. replace (x + 2 ^ Z.of_nat d * dval d r) with (x + dval d r * 2 ^ Z.of_nat d) by lia. rewrite Z.div_add, Z.div_small by lia. lia.
Qed.
Lemma dval8 B : dval 8 B = le_val B.
Proof. induction B; cbn [dval le_val]; [reflexivity|]. rewrite IHB. reflexivity. Qed.
Lemma bits_of_bytes_int B : bytes B -> bits_of_bytes B = int_bits (8 * length B) (le_val B).
Proof.
  intros H. rewrite <- dval8, <- bits_digits. 2:{ eapply Forall_impl; [|exact H]. unfold byte_ok, lt2. cbn. auto. }
  reflexivity.
Qed.

(** ** Packing: [packs d F B] says that B is the packed form of the d-bit integers F *)
Definition packs (d : nat) (F B : list Z) : Prop :=
  bits_of_bytes B = concat (map (int_bits d) F) /\ Forall (lt2 d) F /\ bytes B.
Lemma packs_nil d : packs d [] [].
Proof. split; [reflexivity|]. split; constructor. Qed.
Lemma packs_app d F B F' B' : packs d F B -> packs d F' B' -> packs d (F ++ F') (B ++ B').
Proof.
  intros (A1 & A2 & A3) (C1 & C2 & C3). split. { rewrite bits_of_bytes_app, map_app, concat_app, A1, C1. reflexivity. }
  split; [apply Forall_app; auto|apply bytes_app; auto].
Qed.
Lemma packs_group d F B : (d * length F = 8 * length B)%nat -> Forall (lt2 d) F -> bytes B -> dval d F = le_val B -> packs d F B.
Proof. intros HL HF HB HV. split; [|auto]. rewrite bits_of_bytes_int, bits_digits, HL, HV; auto. Qed.
Lemma packs_encode d F B : packs d F B -> ByteEncode d F = B.
Proof. intros (A & _ & C). unfold ByteEncode. rewrite <- A. apply bytes_of_bits_bytes; auto. Qed.
Lemma chunks_concat {A} w (ls : list (list A)) : 0 < w -> Forall (fun l => zlen l = w) ls -> chunks_exact w (concat ls) = ls.
Proof.
  intros Hw H. induction H as [|l ls Hl H IH]; cbn [concat]. { apply chunks_exact_short; auto. }
  rewrite (chunks_exact_app w 1) by lia. rewrite IH. f_equal.
  rewrite chunks_exact_cons by lia. rewrite ztake_all by lia. rewrite zdrop_all by lia.
  rewrite chunks_exact_short; auto.
Qed.
Lemma packs_decode d F B : (0 < d)%nat -> packs d F B -> ByteDecode_raw d B = F.
Proof.
  intros Hd (A & HF & _). unfold ByteDecode_raw. rewrite A, chunks_concat.
  - rewrite map_map. rewrite <- (map_id F) at 2. apply map_ext_in. intros x Hx. rewrite bits_int_int_bits.
    rewrite Forall_forall in HF. specialize (HF x Hx). unfold lt2 in HF. apply Z.mod_small; auto.
  - lia.
  - apply Forall_forall. intros l Hl. apply in_map_iff in Hl as (x & <- & _). unfold zlen. rewrite int_bits_len. reflexivity.
Qed.
Lemma packs_len d F B : packs d F B -> (d * length F = 8 * length B)%nat.
Proof.
  intros (A & _ & _). apply (f_equal (@length bool)) in A.
  assert (X : forall B, length (bits_of_bytes B) = (8 * length B)%nat).
  { intros l. pose proof (bits_of_bytes_len l). unfold zlen in *. lia. }
  rewrite X in A. rewrite A. clear. induction F; cbn [map concat length]; [lia|]. rewrite app_length, int_bits_len. lia.
Qed.
(** every byte string is the packing of something, when the lengths fit *)
Lemma dval_digits d m : forall V, lt2 (d * m) V -> exists F, length F = m /\ Forall (lt2 d) F /\ dval d F = V.
Proof.
  induction m as [|m IH]; intros V HV; unfold lt2 in HV.
  - exists []. rewrite Nat.mul_0_r in HV. change (2 ^ Z.of_nat 0) with 1 in HV. cbn. split; auto. split; [constructor|lia].
  - assert (P : 2 ^ Z.of_nat (d * S m) = 2 ^ Z.of_nat d * 2 ^ Z.of_nat (d * m)) by (rewrite <- Z.pow_add_r by lia; f_equal; lia).
    assert (0 < 2 ^ Z.of_nat d) by lia.
    destruct (IH (V / 2 ^ Z.of_nat d)) as (F & L & HF & E).
    { unfold lt2. split; [apply Z.div_pos; lia|]. apply Z.div_lt_upper_bound; lia. }
    exists (V mod 2 ^ Z.of_nat d :: F). cbn [length dval]. split; [lia|]. split.
    { constructor; auto. unfold lt2. apply Z.mod_pos_bound; lia. }
    rewrite E. pose proof (Z.div_mod V (2 ^ Z.of_nat d)). lia.
Qed.
Lemma packs_exists d m B : bytes B -> (d * m = 8 * length B)%nat -> exists F, length F = m /\ packs d F B.
Proof.
  intros HB HL. destruct (dval_digits d m (le_val B)) as (F & L & HF & E).
  { unfold lt2. rewrite HL. pose proof (le_val_bound B HB) as Hb. unfold zlen in Hb. replace (2 ^ Z.of_nat (8 * length B)) with (256 ^ Z.of_nat (length B)); auto.
    change 256 with (2 ^ 8). rewrite <- Z.pow_mul_r by lia. f_equal. lia. }
  exists F. split; auto. apply packs_group; auto. lia.
Qed.
Lemma packs_inj d F F' B : (0 < d)%nat -> packs d F B -> packs d F' B -> F = F'.
Proof. intros Hd H1 H2. rewrite <- (packs_decode d F B), <- (packs_decode d F' B); auto. Qed.
(** lifting from groups *)
Lemma packs_concat d Fs Bs : Forall2 (packs d) Fs Bs -> packs d (concat Fs) (concat Bs).
Proof. intros H. induction H; cbn [concat]; [apply packs_nil|apply packs_app; auto]. Qed.

(** ** Loops over chunks *)
Lemma map_res_ok {A B} (f : A -> res B) (R : A -> B -> Prop) l : Forall (fun x => exists y, f x = Ok y /\ R x y) l ->
  exists ys, map_res f l = Ok ys /\ Forall2 R l ys.
Proof.
  intros H. induction H as [|x l (y & E & Hy) H (ys & E' & Hys)]; cbn [map_res]. { exists []. auto. }
  rewrite E. cbn [bind]. rewrite E'. cbn [bind]. exists (y :: ys). auto.
Qed.
Lemma map_res_map {A B} (f : A -> res B) (g : A -> B) l : Forall (fun x => f x = Ok (g x)) l -> map_res f l = Ok (map g l).
Proof. intros H. induction H as [|x l E H IH]; cbn [map_res map]; [reflexivity|]. rewrite E. cbn [bind]. rewrite IH. reflexivity. Qed.
Definition canon (f : list Z) : Prop := Forall (fun x => 0 <= x < q) f.
Lemma chunk_Forall {A} (P : A -> Prop) w (l : list A) : 0 < w -> Forall P l -> Forall (Forall P) (chunks_exact w l).
Proof.
  intros Hw. unfold chunks_exact. generalize (length l). intros m. revert l. induction m as [|m IH]; intros l H; cbn [chunks_fuel]; [constructor|].
  destruct (zlen l <? w); [constructor|]. unfold ztake, zdrop. rewrite <- (firstn_skipn (Z.to_nat w) l) in H. apply Forall_app in H as [H1 H2].
  constructor; auto.
Qed.
Lemma chunk_facts {A} (P : A -> Prop) w m (l : list A) : 0 < w -> 0 <= m -> zlen l = m * w -> Forall P l ->
  concat (chunks_exact w l) = l /\ Forall (fun c => zlen c = w /\ Forall P c) (chunks_exact w l).
Proof.
  intros Hw Hm Hl HP. split. { apply chunks_exact_concat with m; auto. }
  pose proof (chunks_exact_len w l Hw) as H1. pose proof (chunk_Forall P w l Hw HP) as H2.
  rewrite Forall_forall in *. intros c Hc. split; auto.
Qed.
Ltac dl L := unfold zlen in L; cbn [length] in L; try lia.

(** ** 10-bit *)
Lemma pack_10_ok c : zlen c = 4 /\ canon c -> exists out, pack_10 c = Ok out /\ packs 10 (map (Compress 10) c) out.
Proof.
  intros [L HC]. destruct c as [|a [|b [|c [|d [|]]]]]; dl L. unfold canon in HC.
  repeat match goal with H : Forall _ (_ :: _) |- _ => inversion_clear H end.
  unfold pack_10, znth. cbn [nth].
  repeat match goal with H : 0 <= ?x < q |- _ => destruct (compress_10_ok x H) as [-> ?]; clear H; cbn [bind] end.
  eexists. split; [reflexivity|]. cbn [map].
  generalize dependent (Compress 10 a). generalize dependent (Compress 10 b). generalize dependent (Compress 10 c). generalize dependent (Compress 10 d). clear.
  intros t3 H3 t2 H2 t1 H1 t0 H0. rewrite !Z.shiftr_div_pow2, !Z.shiftl_mul_pow2 by lia.
  rewrite !(Z.mod_small (_ * _)) by lia.
  assert (L1 : forall x y s, 0 <= s -> 0 <= x < 2 ^ s -> Z.lor x (y * 2 ^ s) = x + y * 2 ^ s).
  { intros. rewrite Z.lor_comm, <- Z.shiftl_mul_pow2 by lia. rewrite lor_add by lia. rewrite Z.shiftl_mul_pow2 by lia. lia. }
  rewrite (L1 (t0 / 2 ^ 8) t1 2), (L1 (t1 / 2 ^ 6) t2 4), (L1 (t2 / 2 ^ 4) t3 6) by lia.
  apply packs_group.
  - reflexivity.
  - repeat constructor; unfold lt2; cbn; lia.
  - repeat constructor; unfold byte_ok; try apply Z.mod_pos_bound; lia.
  - cbn [dval le_val]. change (2 ^ Z.of_nat 10) with 1024. lia.
Qed.
Lemma compress_du_ok m c : 0 <= m -> zlen c = m * 4 -> canon c ->
  exists B, compress_into_bytes_du_10 c = Ok B /\ packs 10 (map (Compress 10) c) B.
Proof.
  intros Hm L HC. destruct (chunk_facts _ 4 m c ltac:(lia) Hm L HC) as [E F].
  destruct (map_res_ok pack_10 (fun c out => packs 10 (map (Compress 10) c) out) (chunks_exact 4 c)) as (ys & E1 & E2).
  { eapply Forall_impl; [|exact F]. intros ? X. apply pack_10_ok, X. }
  unfold compress_into_bytes_du_10. rewrite E1. cbn [bind]. exists (concat ys). split; auto.
  rewrite <- E at 1. rewrite concat_map. apply packs_concat. clear -E2. induction E2; cbn; auto.
Qed.
Lemma unpack_10_ok c : zlen c = 5 /\ bytes c -> exists t, unpack_10 c = Ok (map (Decompress 10) t) /\ packs 10 t c.
Proof.
  intros [L HC]. destruct c as [|a [|b [|c [|d [|e [|]]]]]]; dl L. unfold bytes in HC.
  repeat match goal with H : Forall _ (_ :: _) |- _ => inversion_clear H end. unfold byte_ok in *.
  unfold unpack_10, znth. cbn [nth].
  change 3 with (Z.ones 2). change 15 with (Z.ones 4). change 63 with (Z.ones 6). rewrite !Z.land_ones by lia.
  rewrite !Z.shiftr_div_pow2, !Z.shiftl_mul_pow2 by lia.
  assert (L1 : forall x y s, 0 <= s -> 0 <= x < 2 ^ s -> Z.lor x (y * 2 ^ s) = x + y * 2 ^ s).
  { intros. rewrite Z.lor_comm, <- Z.shiftl_mul_pow2 by lia. rewrite lor_add by lia. rewrite Z.shiftl_mul_pow2 by lia. lia. }
  rewrite !L1 by lia.
  set (t0 := a + _). set (t1 := b / _ + _). set (t2 := c / _ + _). set (t3 := d / _ + _).
  assert (0 <= t0 < 1024) by (unfold t0; lia). assert (0 <= t1 < 1024) by (unfold t1; lia).
  assert (0 <= t2 < 1024) by (unfold t2; lia). assert (0 <= t3 < 1024) by (unfold t3; lia).
  destruct (decompress_10_ok t0) as [-> _]; auto. destruct (decompress_10_ok t1) as [-> _]; auto.
  destruct (decompress_10_ok t2) as [-> _]; auto. destruct (decompress_10_ok t3) as [-> _]; auto. cbn [bind].
  exists [t0; t1; t2; t3]. split; [reflexivity|]. apply packs_group.
  - reflexivity.
  - repeat constructor; unfold lt2; change (2 ^ Z.of_nat 10) with 1024; lia.
  - repeat constructor; unfold byte_ok; lia.
  - cbn [dval le_val]. change (2 ^ Z.of_nat 10) with 1024. unfold t0, t1, t2, t3. lia.
Qed.
Lemma groups_unpack {X} (f : X -> res (list Z)) (g : Z -> Z) (d : nat) (enc : X -> list Z) (cs : list X) :
  Forall (fun c => exists t, f c = Ok (map g t) /\ packs d t (enc c)) cs ->
  exists F, (let! gs := map_res f cs in Ok (concat gs)) = Ok (map g F) /\ packs d F (concat (map enc cs)).
Proof.
  intros H. induction H as [|c cs (t & E & P) H (F & E1 & P1)]; cbn [map_res map concat bind].
  - exists []. split; [reflexivity|apply packs_nil].
  - rewrite E. cbn [bind]. destruct (map_res f cs) as [gs| |]; cbn [bind] in *; try discriminate.
    exists (t ++ F). split; [|apply packs_app; auto]. cbn [concat]. rewrite map_app. f_equal. f_equal. congruence.
Qed.
Lemma decompress_du_ok m c : 0 <= m -> zlen c = m * 5 -> bytes c ->
  exists F, decompress_from_bytes_du_10 c = Ok (map (Decompress 10) F) /\ packs 10 F c.
Proof.
  intros Hm L HC. destruct (chunk_facts _ 5 m c ltac:(lia) Hm L HC) as [E F].
  destruct (groups_unpack unpack_10 (Decompress 10) 10 (fun c => c) (chunks_exact 5 c)) as (F0 & E1 & P1).
  { eapply Forall_impl; [|exact F]. intros ? X. apply unpack_10_ok, X. }
  rewrite map_id, E in P1. exists F0. auto.
Qed.

(** ** 4-bit *)
Lemma compress_dv_ok m c : 0 <= m -> zlen c = m * 2 -> canon c ->
  exists B, compress_into_bytes_dv_4 c = Ok B /\ packs 4 (map (Compress 4) c) B.
Proof.
  intros Hm L HC. destruct (chunk_facts _ 2 m c ltac:(lia) Hm L HC) as [E F]. unfold compress_into_bytes_dv_4. match goal with |- context [map_res ?g _] => set (f := g) end.
  destruct (map_res_ok f (fun c out => packs 4 (map (Compress 4) c) [out]) (chunks_exact 2 c)) as (ys & E1 & E2).
  { eapply Forall_impl; [|exact F]. clear -f. intros c [L HC]. destruct c as [|a [|b [|]]]; dl L. unfold canon in HC.
    repeat match goal with H : Forall _ (_ :: _) |- _ => inversion_clear H end. unfold f, znth. cbn [nth].
    repeat match goal with H : 0 <= ?x < q |- _ => destruct (compress_4_ok x H) as [-> ?]; clear H; cbn [bind] end.
    eexists. split; [reflexivity|]. cbn [map].
    generalize dependent (Compress 4 a). generalize dependent (Compress 4 b). clear. intros t1 H1 t0 H0.
    rewrite (Z.shiftl_mul_pow2 t1) by lia. rewrite Z.mod_small by lia. rewrite <- Z.shiftl_mul_pow2 by lia.
    rewrite Z.lor_comm, lor_add by lia. change (2 ^ 4) with 16.
    apply packs_group; [reflexivity|repeat constructor; unfold lt2; cbn; lia|repeat constructor; unfold byte_ok; lia|].
    cbn [dval le_val]. change (2 ^ Z.of_nat 4) with 16. lia. }
  exists ys. split; auto. rewrite <- E at 1. rewrite concat_map.
  replace ys with (concat (map (fun y => [y]) ys)) by (clear; induction ys; cbn; congruence).
  apply packs_concat. clear -E2. induction E2; cbn; auto.
Qed.
Lemma decompress_dv_ok c : bytes c -> exists F, decompress_from_bytes_dv_4 c = Ok (map (Decompress 4) F) /\ packs 4 F c.
Proof.
  intros HC. unfold decompress_from_bytes_dv_4. match goal with |- context [map_res ?g _] => set (f := g) end.
  destruct (groups_unpack f (Decompress 4) 4 (fun b => [b]) c) as (F & E1 & P1).
  - eapply Forall_impl; [|exact HC]. clear -f. intros b Hb. unfold byte_ok in Hb. unfold f.
    change 15 with (Z.ones 4). rewrite Z.land_ones, Z.shiftr_div_pow2 by lia. change (2 ^ 4) with 16.
    destruct (decompress_4_ok (b mod 16)) as [-> _]; [lia|]. destruct (decompress_4_ok (b / 16)) as [-> _]; [lia|]. cbn [bind].
    exists [b mod 16; b / 16]. split; [reflexivity|].
    apply packs_group; [reflexivity|repeat constructor; unfold lt2; cbn; lia|repeat constructor; unfold byte_ok; lia|].
    cbn [dval le_val]. change (2 ^ Z.of_nat 4) with 16. lia.
  - exists F. split; auto. replace c with (concat (map (fun y => [y]) c)) by (clear; induction c; cbn; congruence). auto.
Qed.

(** ** 1-bit *)
Lemma compress_1_loop_ok c : forall i r, Forall (fun x => 0 <= x < q) c -> 0 <= i -> i + zlen c <= 8 -> 0 <= r < 2 ^ i ->
  compress_1_loop i r c = Ok (r + 2 ^ i * dval 1 (map (Compress 1) c)).
Proof.
  induction c as [|x c IH]; intros i r HC Hi L Hr; cbn [compress_1_loop map dval]; [f_equal; lia|].
  inversion_clear HC. rewrite zlen_cons in L. pose proof (zlen_nonneg c). change Q with q.
  destruct ((0 <=? x) && (x <? q)) eqn:E; [|lia]. destruct (compress_1_val x) as [-> Hb]; auto.
  set (b := Compress 1 x) in *. change (2 ^ Z.of_nat 1) with 2.
  assert (0 < 2 ^ i) by (apply Z.pow_pos_nonneg; lia). assert (2 ^ i <= 2 ^ 7) by (apply Z.pow_le_mono_r; lia). change (2 ^ 7) with 128 in *.
  rewrite Z.shiftl_mul_pow2 by lia. rewrite Z.mod_small by nia.
  rewrite <- Z.shiftl_mul_pow2, Z.lor_comm, lor_add by lia.
  rewrite IH; auto; try lia; rewrite ?Z.pow_add_r by lia; change (2 ^ 1) with 2; [f_equal|]; nia.
Qed.
Lemma compress_1_x8_ok c : zlen c = 8 -> canon c -> exists b, compress_1_x8 c = Ok b /\ packs 1 (map (Compress 1) c) [b].
Proof.
  intros L HC. unfold compress_1_x8. rewrite compress_1_loop_ok; auto; try lia.
  change (2 ^ 0) with 1. rewrite Z.mul_1_l, Z.add_0_l. eexists. split; [reflexivity|].
  assert (HF : Forall (lt2 1) (map (Compress 1) c)).
  { apply Forall_forall. intros y Hy. apply in_map_iff in Hy as (x & <- & Hx). unfold canon in HC. rewrite Forall_forall in HC. apply compress_1_val; auto. }
  assert (BD : forall d F, Forall (lt2 d) F -> 0 <= dval d F < 2 ^ (Z.of_nat d * zlen F)).
  { clear. intros d F H. induction H as [|x F Hx H IH]; cbn [dval]. { rewrite Z.mul_0_r. cbn. lia. }
    unfold lt2 in Hx. rewrite zlen_cons. pose proof (zlen_nonneg F). replace (Z.of_nat d * (1 + zlen F)) with (Z.of_nat d + Z.of_nat d * zlen F) by lia.
    rewrite Z.pow_add_r by lia. nia. }
  specialize (BD 1%nat _ HF). rewrite zlen_map, L in BD. change (2 ^ (Z.of_nat 1 * 8)) with 256 in BD.
  apply packs_group; auto.
  - rewrite map_length. unfold zlen in L. cbn [length]. lia.
  - repeat constructor; unfold byte_ok; lia.
  - cbn [le_val]. lia.
Qed.
Lemma seq_chunks m : forall (c : list Z) s, zlen c = 8 * Z.of_nat (s + m) ->
  map (fun i => ztake 8 (zdrop (Z.of_nat i * 8) c)) (seq s m) = chunks_exact 8 (zdrop (8 * Z.of_nat s) c).
Proof.
  induction m as [|m IH]; intros c s L; cbn [seq map].
  - rewrite zdrop_all by lia. reflexivity.
  - assert (zlen (zdrop (8 * Z.of_nat s) c) = 8 * Z.of_nat (S m)) by (rewrite zlen_zdrop; lia).
    rewrite (chunks_exact_cons 8 (zdrop (8 * Z.of_nat s) c)) by lia. rewrite zdrop_zdrop by lia. f_equal.
    { f_equal. f_equal. lia. } rewrite IH by lia. f_equal. f_equal. lia.
Qed.
Lemma map_res_map2 {A B C} (f : B -> res C) (g : A -> B) l : map_res (fun x => f (g x)) l = map_res f (map g l).
Proof. induction l; cbn [map_res map]; [reflexivity|]. rewrite IHl. reflexivity. Qed.
Lemma to_message_bits_ok c : zlen c = 256 -> canon c -> exists B, to_message_bits c = Ok B /\ packs 1 (map (Compress 1) c) B.
Proof.
  intros L HC. unfold to_message_bits. rewrite map_res_map2, seq_chunks by lia. change (8 * Z.of_nat 0) with 0. change (zdrop 0 c) with c.
  destruct (chunk_facts _ 8 32 c ltac:(lia) ltac:(lia) L HC) as [E F].
  destruct (map_res_ok compress_1_x8 (fun c out => packs 1 (map (Compress 1) c) [out]) (chunks_exact 8 c)) as (ys & E1 & E2).
  { eapply Forall_impl; [|exact F]. intros ? [? ?]. apply compress_1_x8_ok; auto. }
  exists ys. split; auto. rewrite <- E at 1. rewrite concat_map.
  replace ys with (concat (map (fun y => [y]) ys)) by (clear; induction ys; cbn; congruence).
  apply packs_concat. clear -E2. induction E2; cbn; auto.
Qed.
Lemma from_message_bits_ok m : bytes m -> exists F, from_message_bits m = map (Decompress 1) F /\ packs 1 F m.
Proof.
  intros H. unfold from_message_bits. set (f := fun byte => map _ _).
  assert (G : forall b, byte_ok b -> exists t, f b = map (Decompress 1) t /\ packs 1 t [b]).
  { intros b Hb. exists (map (fun i => Z.b2z (Z.testbit b (Z.of_nat i))) (seq 0 8)). split.
    - unfold f. rewrite map_map. apply map_ext. intros i. change 1 with (Z.ones 1) at 1. rewrite Z.land_ones by lia.
      rewrite <- Z.bit0_mod, Z.shiftr_spec by lia. rewrite Z.add_0_l. destruct (Z.testbit b (Z.of_nat i)); reflexivity.
    - split. { cbn [map seq concat]. unfold bits_of_bytes. cbn [map concat]. rewrite app_nil_r. unfold bits_of_byte. cbn [map seq].
        unfold int_bits. cbn [map seq app].
        assert (X : forall z, Z.testbit (Z.b2z z) (Z.of_nat 0) = z) by (intros []; reflexivity). rewrite !X. reflexivity. }
      split; [|repeat constructor; apply Hb]. apply Forall_forall. intros y Hy. apply in_map_iff in Hy as (i & <- & _).
      unfold lt2. change (2 ^ Z.of_nat 1) with 2. destruct (Z.testbit b _); cbn; lia. }
  induction H as [|b m Hb H (F & E & P)]; cbn [map concat]. { exists []. split; [reflexivity|apply packs_nil]. }
  destruct (G b Hb) as (t & Et & Pt). exists (t ++ F). rewrite map_app, E, Et. split; auto. change (b :: m) with ([b] ++ m). apply packs_app; auto.
Qed.

(** ** 12-bit *)
Lemma generic_frombytes_ok m b : 0 <= m -> zlen b = m * 3 -> bytes b -> packs 12 (generic_frombytes b) b.
Proof.
  intros Hm L HB. destruct (chunk_facts _ 3 m b ltac:(lia) Hm L HB) as [E F].
  rewrite <- E at 2. unfold generic_frombytes. apply packs_concat. clear -F. induction F as [|c cs [L HC] F IH]; cbn [map]; constructor; auto.
  destruct c as [|x [|y [|z [|]]]]; dl L. unfold bytes in HC.
  repeat match goal with H : Forall _ (_ :: _) |- _ => inversion_clear H end. unfold byte_ok in *. unfold znth. cbn [nth].
  change 15 with (Z.ones 4). rewrite Z.land_ones by lia.
  rewrite (Z.lor_comm x), (Z.lor_comm (Z.shiftr y 4)), !lor_add by (rewrite ?Z.shiftr_div_pow2; lia).
  rewrite !Z.shiftr_div_pow2 by lia.
  apply packs_group; [reflexivity|repeat constructor; unfold lt2; change (2 ^ Z.of_nat 12) with 4096; lia|repeat constructor; unfold byte_ok; lia|].
  cbn [dval le_val]. change (2 ^ Z.of_nat 12) with 4096. lia.
Qed.

Lemma two_samples_ok c0 c1 c2 : byte_ok c0 -> byte_ok c1 -> byte_ok c2 ->
  two_samples [c0; c1; c2] = [c0 + 256 * (c1 mod 16); c1 / 16 + 16 * c2].
Proof.
  unfold byte_ok, two_samples, znth. cbn [nth le_val]. intros. change 4095 with (Z.ones 12).
  rewrite Z.land_ones, Z.shiftr_div_pow2 by lia. change (2 ^ 12) with 4096. change (2 ^ 4) with 16. apply f_equal2; [lia|apply f_equal2; [lia|reflexivity]].
Qed.
Lemma twelve_bits_app m : forall a b, zlen a = 3 * Z.of_nat m -> twelve_bits (a ++ b) = twelve_bits a ++ twelve_bits b.
Proof.
  induction m as [|m IH]; intros a b L. { rewrite (zlen_0_nil a) by lia. reflexivity. }
  destruct a as [|x [|y [|z a]]]; try (unfold zlen in L; cbn [length] in L; lia). cbn [app twelve_bits]. rewrite IH; auto.
  rewrite !zlen_cons in L. lia.
Qed.
Lemma two_samples_all m b : 0 <= m -> zlen b = m * 3 -> bytes b -> concat (map two_samples (chunks_exact 3 b)) = twelve_bits b.
Proof.
  intros Hm L HB. destruct (chunk_facts _ 3 m b ltac:(lia) Hm L HB) as [E F]. rewrite <- E at 2. clear -F.
  induction F as [|c cs [L HC] F IH]; cbn [map concat]; [reflexivity|]. rewrite IH, (twelve_bits_app 1) by lia. f_equal.
  destruct c as [|x [|y [|z [|]]]]; dl L. unfold bytes in HC.
  repeat match goal with H : Forall _ (_ :: _) |- _ => inversion_clear H end. rewrite two_samples_ok; auto.
Qed.
Lemma twelve_bits_len m : forall b, zlen b = 3 * Z.of_nat m -> zlen (twelve_bits b) = 2 * Z.of_nat m.
Proof.
  induction m as [|m IH]; intros a L. { rewrite (zlen_0_nil a) by lia. reflexivity. }
  destruct a as [|x [|y [|z a]]]; try (unfold zlen in L; cbn [length] in L; lia). cbn [twelve_bits]. rewrite !zlen_cons, IH; [lia|].
  rewrite !zlen_cons in L. lia.
Qed.

(** ** Centred binomial *)
Fixpoint cbdl (l : list bool) : list Z :=
  match l with
  | b0 :: b1 :: b2 :: b3 :: r => ((Z.b2z b0 + Z.b2z b1) - (Z.b2z b2 + Z.b2z b3)) :: cbdl r
  | _ => []
  end.
Lemma cbdl_app m : forall a b, length a = (4 * m)%nat -> cbdl (a ++ b) = cbdl a ++ cbdl b.
Proof.
  induction m as [|m IH]; intros a b L. { destruct a; [reflexivity|cbn in L; lia]. }
  destruct a as [|x [|y [|z [|w a]]]]; cbn [length] in L; try lia. cbn [app cbdl]. rewrite IH; auto. lia.
Qed.
Lemma cbdl_nth : forall l i, (4 * i + 3 < length l)%nat -> let b := fun i => if nth i l false then 1 else 0 in
  nth i (cbdl l) 0 = (b (4 * i)%nat + b (4 * i + 1)%nat) - (b (4 * i + 2)%nat + b (4 * i + 3)%nat).
Proof.
  intros l i. revert l. induction i as [|i IH]; intros l L b; subst b.
  - destruct l as [|x [|y [|z [|w a]]]]; cbn [length] in L; try lia. reflexivity.
  - destruct l as [|x [|y [|z [|w a]]]]; cbn [length] in L; try lia. cbn [cbdl nth]. rewrite IH by lia.
    replace (4 * S i)%nat with (S (S (S (S (4 * i))))) by lia. reflexivity.
Qed.
Lemma cbdl_len m : forall a, length a = (4 * m)%nat -> length (cbdl a) = m.
Proof.
  induction m as [|m IH]; intros a L. { destruct a; [reflexivity|cbn in L; lia]. }
  destruct a as [|x [|y [|z [|w a]]]]; cbn [length] in L; try lia. cbn [cbdl length]. rewrite IH; auto. lia.
Qed.
Lemma cbdl_bound l : Forall (fun x => -2 <= x <= 2) (cbdl l).
Proof.
  remember (length l) as m. revert l Heqm. induction m as [m IH] using lt_wf_ind. intros l ->.
  destruct l as [|x [|y [|z [|w a]]]]; try constructor.
  - destruct x, y, z, w; cbn; lia.
  - eapply IH; [|reflexivity]. cbn. lia.
Qed.
Definition dbyte (b : Z) : Z := Z.land b 0x55 + Z.land (Z.shiftr b 1) 0x55.
Lemma dbyte_ok b : byte_ok b -> 0 <= dbyte b < 256 /\
  [dbyte b mod 4 - dbyte b / 4 mod 4; dbyte b / 16 mod 4 - dbyte b / 64 mod 4] = cbdl (bits_of_byte b).
Proof.
  intros Hb.
  assert (A : forallb (fun b => (0 <=? dbyte b) && (dbyte b <? 256) && list_eqb [dbyte b mod 4 - dbyte b / 4 mod 4; dbyte b / 16 mod 4 - dbyte b / 64 mod 4] (cbdl (bits_of_byte b))) (upto 256) = true) by (vm_compute; reflexivity).
  pose proof (upto_all _ _ A b Hb) as B. cbv beta in B. apply andb_prop in B as [B1 B2]. split; [clear -B1; generalize dependent (dbyte b); intros; lia|]. apply list_eqb_eq, B2.
Qed.
Lemma land_cons x a m : byte_ok x -> Z.land (x + 256 * a) (0x55 + 256 * m) = Z.land x 0x55 + 256 * Z.land a m.
Proof.
  intros Hx. apply Z.bits_inj'. intros i Hi.
  assert (byte_ok (Z.land x 0x55)) by (apply (land_range_r 8); lia).
  rewrite Z.land_spec, !testbit_byte_cons; auto; try (unfold byte_ok; lia).
  destruct (i <? 8); rewrite Z.land_spec; reflexivity.
Qed.
Lemma land_shr_cons x a m : byte_ok x -> Z.land (Z.shiftr (x + 256 * a) 1) (0x55 + 256 * m) = Z.land (Z.shiftr x 1) 0x55 + 256 * Z.land (Z.shiftr a 1) m.
Proof.
  intros Hx. apply Z.bits_inj'. intros i Hi.
  assert (Hy : byte_ok (Z.land (Z.shiftr x 1) 0x55)). { apply (land_range_r 8); lia. }
  rewrite Z.land_spec, Z.shiftr_spec, !testbit_byte_cons; auto; try (unfold byte_ok; lia); try lia.
  destruct (i <? 8) eqn:E; rewrite Z.land_spec, Z.shiftr_spec by lia.
  - destruct (i + 1 <? 8) eqn:E1; [reflexivity|]. assert (i = 7) as -> by lia. rewrite !andb_false_r. reflexivity.
  - destruct (i + 1 <? 8) eqn:E1; [lia|]. replace (i + 1 - 8) with (i - 8 + 1) by lia. reflexivity.
Qed.
Lemma cbd2_word_ok c : zlen c = 4 -> bytes c -> cbd2_word c = cbdl (bits_of_bytes c).
Proof.
  intros L HC. destruct c as [|x [|y [|z [|w [|]]]]]; dl L. unfold bytes in HC.
  repeat match goal with H : Forall _ (_ :: _) |- _ => inversion_clear H end.
  unfold cbd2_word. cbn [le_val].
  assert (ED : Z.land (x + 256 * (y + 256 * (z + 256 * (w + 256 * 0)))) 1431655765 + Z.land (Z.shiftr (x + 256 * (y + 256 * (z + 256 * (w + 256 * 0)))) 1) 1431655765
    = dbyte x + 256 * (dbyte y + 256 * (dbyte z + 256 * dbyte w))).
  { change 1431655765 with (0x55 + 256 * (0x55 + 256 * (0x55 + 256 * (0x55 + 256 * 0)))).
    rewrite !land_cons, !land_shr_cons, !Z.land_0_r by auto. unfold dbyte. lia. }
  rewrite ED. clear ED.
  destruct (dbyte_ok x) as [X1 X2]; auto. destruct (dbyte_ok y) as [Y1 Y2]; auto. destruct (dbyte_ok z) as [Z1 Z2]; auto. destruct (dbyte_ok w) as [W1 W2]; auto.
  unfold bits_of_bytes. cbn [map concat]. rewrite !(cbdl_app 2) by reflexivity. rewrite <- X2, <- Y2, <- Z2, <- W2. cbn [cbdl app].
  generalize dependent (dbyte x). generalize dependent (dbyte y). generalize dependent (dbyte z). generalize dependent (dbyte w). clear.
  intros d3 H3 _ d2 H2 _ d1 H1 _ d0 H0 _. set (D := d0 + _). cbn [seq map].
  change 3 with (Z.ones 2). rewrite !Z.land_ones, !Z.shiftr_div_pow2 by lia.
  repeat match goal with |- context [2 ^ (?e)] => let v := eval vm_compute in (2 ^ e) in progress change (2 ^ e) with v end.
  unfold D. repeat match goal with |- _ :: _ = _ :: _ => apply f_equal2; [lia|] end. reflexivity.
Qed.
Lemma sample_cbd2_ok B : zlen B = 128 -> bytes B ->
  length (sample_cbd2 B) = 256%nat /\ Forall (fun x => -2 <= x <= 2) (sample_cbd2 B) /\ map (fun x => x mod q) (sample_cbd2 B) = SamplePolyCBD B.
Proof.
  intros L HB.
  assert (E : sample_cbd2 B = cbdl (bits_of_bytes B)).
  { destruct (chunk_facts _ 4 32 B ltac:(lia) ltac:(lia) L HB) as [E F]. rewrite <- E at 2. unfold sample_cbd2. clear -F.
    induction F as [|c cs [L HC] F IH]; cbn [map concat]; [reflexivity|]. rewrite bits_of_bytes_app, (cbdl_app 8), IH, cbd2_word_ok; auto.
    pose proof (bits_of_bytes_len c). unfold zlen in *. lia. }
  assert (LB : length (bits_of_bytes B) = 1024%nat) by (pose proof (bits_of_bytes_len B); lia).
  rewrite E. split; [apply cbdl_len; auto|]. split; [apply cbdl_bound|].
  unfold SamplePolyCBD, poly. apply nth_ext with (d := 0 mod q) (d' := 0).
  - rewrite !map_length, seq_length. apply cbdl_len; auto.
  - rewrite map_length. intros i Hi. rewrite (cbdl_len 256) in Hi by auto. rewrite (map_nth (fun x => x mod q)). rewrite cbdl_nth by lia.
    rewrite (nth_indep _ 0 ((fun i => ((if nth (4 * i) (bits_of_bytes B) false then 1 else 0) + (if nth (4 * i + 1) (bits_of_bytes B) false then 1 else 0) - ((if nth (4 * i + 2) (bits_of_bytes B) false then 1 else 0) + (if nth (4 * i + 3) (bits_of_bytes B) false then 1 else 0))) mod q) 0%nat)).
    2:{ rewrite map_length, seq_length. auto. }
    rewrite (map_nth (fun i => ((if nth (4 * i) (bits_of_bytes B) false then 1 else 0) + (if nth (4 * i + 1) (bits_of_bytes B) false then 1 else 0) - ((if nth (4 * i + 2) (bits_of_bytes B) false then 1 else 0) + (if nth (4 * i + 3) (bits_of_bytes B) false then 1 else 0))) mod q) (seq 0 n256) 0%nat i).
    rewrite seq_nth by auto. reflexivity.
Qed.
