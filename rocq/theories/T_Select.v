(** C58: the lookups with a secret index return the right row and read the whole
    table in the same order whatever the index; x86-64 and aarch64 agree. *)
Require Import Verif.Base Verif.L_Base Verif.L_Blocks Verif.M_Select Verif.S_Select Verif.L_Select Verif.L_SelectRow Verif.M_PosInt Verif.M_Ec.
Require Import ZifyNat.
Local Opaque sel.

(** Selection of a precomputed point, both processors: point number [index],
    counting from 1; zeros if [index] is 0 or too large.  Every word of the
    table is read once, in order. *)
Theorem C58_point_lookup : forall (table : list Z) (index : Z),
  Forall (fun x => 0 <= x < 2 ^ 64) table -> 0 <= index < 256 -> zlen table < 2 ^ 32 ->
  (forall f, In f [x86_aff_select_p256; arm_aff_select_p256] ->
     fst (f table index) = entry 8 (index - 1) table /\ touched (snd (f table index)) = whole (zlen table / 8 * 8)) /\
  (forall f, In f [x86_jac_select_p256; arm_jac_select_p256] ->
     fst (f table index) = entry 12 (index - 1) table /\ touched (snd (f table index)) = whole (zlen table / 12 * 12)) /\
  (forall f, In f [x86_jac_select_p384; arm_jac_select_p384] ->
     fst (f table index) = entry 18 (index - 1) table /\ touched (snd (f table index)) = whole (zlen table / 18 * 18)).
Proof.
  intros table index U I L. assert (forall k, 2 <= k -> 1 + zlen table / k < 2 ^ 32) as B.
  { intros k K. pose proof (zlen_nonneg table). destruct (Z.eq_dec (zlen table) 0) as [->|]; [rewrite Z.div_0_l; lia|]. pose proof (Z.div_lt_upper_bound (zlen table) k (2 ^ 31)). lia. }
  split; [|split]; intros f [<-|[<-|[]]].
  - apply x86_aff_ok; auto; try lia; apply B; lia.
  - apply arm_aff_ok; auto; try lia; apply B; lia.
  - apply x86_jac_ok; auto; try lia; apply B; lia.
  - apply arm_jac_ok; auto; try lia; apply B; lia.
  - apply x86_384_ok; auto; try lia; apply B; lia.
  - apply arm_384_ok; auto; try lia; apply B; lia.
Qed.
Print Assumptions C58_point_lookup.

(** Copying a row of any width, both processors: row number [index]. *)
Theorem C58_row_lookup : forall (z table : list Z) (height width index : Z),
  Forall (fun x => 0 <= x < 2 ^ 64) table -> 0 < width -> 0 < height < 2 ^ 63 -> zlen z = width -> zlen table = height * width ->
  0 <= index < 2 ^ 64 ->
  forall f, In f [x86_copy_row; arm_copy_row] ->
  fst (f z table height width index) = entry width index table /\ touched (snd (f z table height width index)) = whole (height * width).
Proof.
  intros z table h w d U W H Lz L D f [<-|[<-|[]]]; [apply x86_copy_ok|apply arm_copy_ok]; auto; lia.
Qed.
Print Assumptions C58_row_lookup.

(** Neither the index nor the contents of the table nor what was in z before
    change which addresses are read, or in which order. *)
Theorem C58_reads_independent_of_secrets : forall (z z' table table' : list Z) (height width index index' : Z),
  Forall (fun x => 0 <= x < 2 ^ 64) table -> Forall (fun x => 0 <= x < 2 ^ 64) table' ->
  0 < width -> 0 < height < 2 ^ 63 -> zlen z = width -> zlen z' = width -> zlen table = height * width -> zlen table' = height * width ->
  0 <= index < 2 ^ 64 -> 0 <= index' < 2 ^ 64 ->
  forall f, In f [x86_copy_row; arm_copy_row] ->
  touched (snd (f z table height width index)) = touched (snd (f z' table' height width index')).
Proof.
  intros. rewrite (proj2 (C58_row_lookup z table height width index ltac:(assumption) ltac:(assumption) ltac:(assumption) ltac:(assumption) ltac:(assumption) ltac:(assumption) f H9)).
  symmetry. apply C58_row_lookup; assumption.
Qed.
Print Assumptions C58_reads_independent_of_secrets.
Theorem C58_point_reads_independent_of_secrets : forall (table table' : list Z) (index index' : Z),
  Forall (fun x => 0 <= x < 2 ^ 64) table -> Forall (fun x => 0 <= x < 2 ^ 64) table' -> zlen table' = zlen table -> zlen table < 2 ^ 32 ->
  0 <= index < 256 -> 0 <= index' < 256 ->
  forall f, In f [x86_aff_select_p256; arm_aff_select_p256; x86_jac_select_p256; arm_jac_select_p256; x86_jac_select_p384; arm_jac_select_p384] ->
  touched (snd (f table index)) = touched (snd (f table' index')).
Proof.
  intros table table' i i' U U' E L I I' f F.
  destruct (C58_point_lookup table i U I L) as (A & B & C). destruct (C58_point_lookup table' i' U' I' ltac:(lia)) as (A' & B' & C'). rewrite E in A', B', C'.
  destruct F as [<-|[<-|[<-|[<-|[<-|[<-|[]]]]]]].
  - rewrite (proj2 (A _ (or_introl eq_refl))), (proj2 (A' _ (or_introl eq_refl))). reflexivity.
  - rewrite (proj2 (A _ (or_intror (or_introl eq_refl)))), (proj2 (A' _ (or_intror (or_introl eq_refl)))). reflexivity.
  - rewrite (proj2 (B _ (or_introl eq_refl))), (proj2 (B' _ (or_introl eq_refl))). reflexivity.
  - rewrite (proj2 (B _ (or_intror (or_introl eq_refl)))), (proj2 (B' _ (or_intror (or_introl eq_refl)))). reflexivity.
  - rewrite (proj2 (C _ (or_introl eq_refl))), (proj2 (C' _ (or_introl eq_refl))). reflexivity.
  - rewrite (proj2 (C _ (or_intror (or_introl eq_refl)))), (proj2 (C' _ (or_intror (or_introl eq_refl)))). reflexivity.
Qed.
Print Assumptions C58_point_reads_independent_of_secrets.

(** The row used by the modular exponentiation of RSA, in the model of C19, is
    the one both processors copy: 16 rows, a window of four exponent bits. *)
Theorem C58_exponent_row : forall (z table : list Z) (width window : Z),
  Forall (fun x => 0 <= x < 2 ^ 64) table -> 0 < width -> zlen z = width -> zlen table = 16 * width -> 0 <= window < 16 ->
  fst (x86_copy_row z table 16 width window) = bn_copy_row table width window /\
  fst (arm_copy_row z table 16 width window) = bn_copy_row table width window.
Proof.
  intros z table w d U W Lz L D. assert (entry w d table = bn_copy_row table w d) as E.
  { unfold entry, bn_copy_row. replace (0 <=? d) with true by lia. replace ((d + 1) * w <=? zlen table) with true by nia. reflexivity. }
  rewrite <- E. split; apply (C58_row_lookup z table 16 w d); cbn; auto; lia.
Qed.
Print Assumptions C58_exponent_row.

Lemma flat_len {A} (f : A -> list Z) k t : (forall a, zlen (f a) = k) -> zlen (flat_map f t) = k * zlen t.
Proof. intros F. induction t as [|a l IH]; cbn [flat_map]; [unfold zlen; cbn [length Z.of_nat]; lia|]. rewrite zlen_app, IH, F, zlen_cons. lia. Qed.
Lemma entry_flat {A} (f : A -> list Z) k (t : list A) i : 0 < k -> (forall a, zlen (f a) = k) ->
  entry k i (flat_map f t) = match (if 0 <=? i then nth_error t (Z.to_nat i) else None) with Some a => f a | None => repeat 0 (Z.to_nat k) end.
Proof.
  intros K F. pose proof (fun t => flat_len f k t F) as L.
  unfold entry. destruct (Z.leb_spec 0 i) as [I|]; [|reflexivity]. cbn [andb]. rewrite L. revert i I. induction t as [|a t IH]; intros i I.
  - change (zlen (@nil A)) with 0. replace ((i + 1) * k <=? k * 0) with false by nia. now destruct (Z.to_nat i).
  - rewrite zlen_cons. destruct (Z.eq_dec i 0) as [->|N].
    + pose proof (zlen_nonneg t). replace ((0 + 1) * k <=? k * (1 + zlen t)) with true by nia. cbn [Z.to_nat nth_error Z.mul]. rewrite zdrop_0. cbn [flat_map]. apply ztake_app_eq. now rewrite F.
    + specialize (IH (i - 1) ltac:(lia)). replace (Z.to_nat i) with (S (Z.to_nat (i - 1))) by lia. cbn [nth_error]. rewrite <- IH. cbn [flat_map].
      rewrite zdrop_app_ge by (rewrite F; nia). rewrite F. replace (i * k - k) with ((i - 1) * k) by lia.
      destruct (Z.leb_spec ((i + 1) * k) (k * (1 + zlen t))), (Z.leb_spec ((i - 1 + 1) * k) (k * zlen t)); try reflexivity; nia.
Qed.
Lemma words64_ok n x : zlen (words64 n x) = Z.of_nat n /\ Forall (fun x => 0 <= x < 2 ^ 64) (words64 n x).
Proof. unfold words64. split; [unfold zlen; now rewrite map_length, seq_length|]. apply Forall_map, Forall_forall. intros i _. apply Z.mod_pos_bound. lia. Qed.
Lemma flat_u64 {A} (f : A -> list Z) t : (forall a, Forall (fun x => 0 <= x < 2 ^ 64) (f a)) -> Forall (fun x => 0 <= x < 2 ^ 64) (flat_map f t).
Proof. intros F. induction t; cbn [flat_map]; [constructor|]. apply Forall_app. split; auto. Qed.
Lemma aff_ok n p : zlen (aff_words n p) = 2 * Z.of_nat n /\ Forall (fun x => 0 <= x < 2 ^ 64) (aff_words n p).
Proof. unfold aff_words. destruct (words64_ok n (fst p)), (words64_ok n (snd p)). split; [rewrite zlen_app; lia|apply Forall_app; auto]. Qed.
Lemma jac_ok n p : zlen (jac_words n p) = 3 * Z.of_nat n /\ Forall (fun x => 0 <= x < 2 ^ 64) (jac_words n p).
Proof. unfold jac_words. destruct (aff_ok n (fst p)), (words64_ok n (snd p)). split; [rewrite zlen_app; lia|apply Forall_app; auto]. Qed.

(** The lookups of the scalar multiplications of P-256 and P-384, in the model
    of C29, are the ones both processors make, for every digit. *)
Theorem C58_curve_lookups : forall index, 0 <= index < 256 ->
  (forall (t : list aff) p, zlen t < 2 ^ 20 -> lookup_w7 true t index = Ok p ->
     fst (x86_aff_select_p256 (flat_map (aff_words 4) t) index) = aff_words 4 p /\ fst (arm_aff_select_p256 (flat_map (aff_words 4) t) index) = aff_words 4 p) /\
  (forall (t : list jac) p, zlen t < 2 ^ 20 -> lookup_w5 true t index = Ok p ->
     fst (x86_jac_select_p256 (flat_map (jac_words 4) t) index) = jac_words 4 p /\ fst (arm_jac_select_p256 (flat_map (jac_words 4) t) index) = jac_words 4 p /\
     fst (x86_jac_select_p384 (flat_map (jac_words 6) t) index) = jac_words 6 p /\ fst (arm_jac_select_p384 (flat_map (jac_words 6) t) index) = jac_words 6 p).
Proof.
  unfold aff, jac. intros d D. split; intros t p L E; pose proof (zlen_nonneg t).
  - assert (entry 8 (d - 1) (flat_map (aff_words 4) t) = aff_words 4 p) as R.
    { rewrite entry_flat by (lia || (intros; apply aff_ok)). unfold lookup_w7 in E. unfold aff in *. destruct (Z.eqb_spec d 0) as [->|N]; [injection E as <-; reflexivity|].
      replace (0 <=? d - 1) with true by lia. destruct (nth_error t (Z.to_nat (d - 1))); injection E as <-; reflexivity. }
    rewrite <- R. destruct (C58_point_lookup (flat_map (aff_words 4) t) d) as (A & _ & _); [apply flat_u64; intros; apply aff_ok|lia|rewrite (flat_len _ 8) by (intros; apply aff_ok); lia|].
    split; apply A; cbn; auto.
  - assert (forall n, (0 < n)%nat -> entry (3 * Z.of_nat n) (d - 1) (flat_map (jac_words n) t) = jac_words n p) as R.
    { intros n N0. rewrite entry_flat by (lia || (intros; apply jac_ok)).
      assert (jac_words n jac_zero = repeat 0 (Z.to_nat (3 * Z.of_nat n))) as ZZ.
      { assert (words64 n 0 = repeat 0 n) as W0. { unfold words64. clear. generalize 0%nat. induction n as [|n IH]; intros s; [reflexivity|]. cbn [seq map repeat]. rewrite IH, Zdiv_0_l. reflexivity. }
        unfold jac_words, aff_words, jac_zero. cbn [fst snd]. rewrite W0, <- !repeat_app. f_equal. lia. }
      unfold lookup_w5 in E. unfold jac in *. destruct (Z.eqb_spec d 0) as [->|N]; [injection E as <-; now rewrite ZZ|].
      replace (0 <=? d - 1) with true by lia. destruct (nth_error t (Z.to_nat (d - 1))); injection E as <-; [reflexivity|now rewrite ZZ]. }
    destruct (C58_point_lookup (flat_map (jac_words 4) t) d) as (_ & A & _); [apply flat_u64; intros; apply jac_ok|lia|rewrite (flat_len _ 12) by (intros; apply jac_ok); lia|].
    destruct (C58_point_lookup (flat_map (jac_words 6) t) d) as (_ & _ & B); [apply flat_u64; intros; apply jac_ok|lia|rewrite (flat_len _ 18) by (intros; apply jac_ok); lia|].
    rewrite <- (R 4%nat), <- (R 6%nat) by lia. repeat split; (apply A || apply B); cbn; auto.
Qed.
Print Assumptions C58_curve_lookups.

(** A table of two points: the second is found, index 0 and 3 give zeros. *)
Example C58_example_point :
  let table := [1;2;3;4;5;6;7;8; 11;12;13;14;15;16;17;18] in
  fst (x86_aff_select_p256 table 2) = [11;12;13;14;15;16;17;18] /\ fst (arm_aff_select_p256 table 2) = [11;12;13;14;15;16;17;18] /\
  fst (x86_aff_select_p256 table 0) = [0;0;0;0;0;0;0;0] /\ fst (arm_aff_select_p256 table 3) = [0;0;0;0;0;0;0;0] /\
  snd (arm_aff_select_p256 table 1) = [(0, 2); (2, 2); (4, 2); (6, 2); (8, 2); (10, 2); (12, 2); (14, 2)].
Proof. repeat split. Qed.
(** Rows of 3, 8 and 16 words: the three ways of copying. *)
Example C58_example_row : forall f, In f [x86_copy_row; arm_copy_row] ->
  fst (f [9; 9; 9] [1;2;3; 4;5;6] 2 3 1) = [4;5;6] /\
  fst (f [9;9;9;9;9;9;9;9] [1;2;3;4;5;6;7;8; 11;12;13;14;15;16;17;18] 2 8 0) = [1;2;3;4;5;6;7;8] /\
  fst (f (repeat 9 16) (repeat 1 16 ++ repeat 2 16 ++ repeat (2 ^ 64 - 1) 16) 3 16 2) = repeat (2 ^ 64 - 1) 16.
Proof. intros f [<-|[<-|[]]]; repeat split. Qed.
(** The tables of these cases meet the hypotheses. *)
Example C58_example_hypotheses :
  let table := [1;2;3; 4;5;6] in Forall (fun x => 0 <= x < 2 ^ 64) table /\ zlen table = 2 * 3 /\ zlen [9; 9; 9] = 3 /\ zlen table < 2 ^ 32.
Proof. cbv zeta. split; [repeat (apply Forall_cons; [lia|]); apply Forall_nil|]. repeat split. Qed.
