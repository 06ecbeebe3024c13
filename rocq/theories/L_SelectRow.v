(** Proofs about copying a row of any width, M_Select. *)
Require Import Verif.Base Verif.L_Base Verif.L_Blocks Verif.M_Select Verif.S_Select Verif.L_Select.
Require Import ZifyNat.

Lemma range_S n : 0 <= n -> zrange (n + 1) = zrange n ++ [n].
Proof. intros N. change zrange with whole. rewrite whole_app by lia. change (whole 1) with [0]. cbn [map]. now rewrite Z.add_0_r. Qed.
Lemma fold_range {S} (F : S -> Z -> S) (inv : Z -> S -> Prop) s n : 0 <= n -> inv 0 s ->
  (forall i s, 0 <= i < n -> inv i s -> inv (i + 1) (F s i)) -> inv n (fold_left F (zrange n) s).
Proof.
  intros N. revert n N. apply (natlike_ind (fun n => inv 0 s -> (forall i s, 0 <= i < n -> inv i s -> inv (i + 1) (F s i)) -> inv n (fold_left F (zrange n) s))).
  - intros H _. exact H.
  - intros n N IH H0 HS. rewrite <- Z.add_1_r, range_S, fold_left_app by lia. cbn [fold_left]. apply HS; [lia|]. apply IH; [exact H0|]. intros. apply HS; [lia|assumption].
Qed.
Lemma madd0 l : map (Z.add 0) l = l. Proof. rewrite <- (map_id l) at 2. apply map_ext. intros. lia. Qed.

(** (Proof only.) Row i. *)
Definition row (w i : Z) (table : list Z) : list Z := ztake w (zdrop (i * w) table).
Lemma row_len w h i table : 0 < w -> zlen table = h * w -> 0 <= i < h -> zlen (row w i table) = w.
Proof. intros W L I. unfold row. apply zlen_ztake. rewrite zlen_zdrop by nia. nia. Qed.
Lemma entry_row w h d table : 0 < w -> zlen table = h * w -> 0 <= d ->
  entry w d table = if d <? h then row w d table else repeat 0 (Z.to_nat w).
Proof. intros W L D. unfold entry. replace (0 <=? d) with true by lia. cbn [andb]. destruct (Z.ltb_spec d h), (Z.leb_spec ((d + 1) * w) (zlen table)); try reflexivity; nia. Qed.

Lemma rows_ok F table h w d : 0 < w -> 0 <= h -> zlen table = h * w -> 0 <= d -> Forall u64 table ->
  (forall i z reads, 0 <= i < h -> zlen z = w -> Forall u64 z -> (i = d -> z = repeat 0 (Z.to_nat w)) -> touched reads = whole (i * w) ->
     fst (F (z, reads) i) = (if i =? d then row w d table else z) /\ touched (snd (F (z, reads) i)) = whole ((i + 1) * w)) ->
  let r := fold_left F (zrange h) (repeat 0 (Z.to_nat w), []) in fst r = entry w d table /\ touched (snd r) = whole (h * w).
Proof.
  intros W H L D U S r. rewrite (entry_row w h d table) by assumption.
  apply (fold_range F (fun i (s : list Z * list (Z * Z)) => fst s = (if d <? i then row w d table else repeat 0 (Z.to_nat w)) /\ touched (snd s) = whole (i * w))); [exact H| |].
  - cbn [fst snd]. replace (d <? 0) with false by lia. split; reflexivity.
  - intros i [z reads] I [E T]. cbn [fst snd] in E, T.
    assert (zlen z = w /\ Forall u64 z) as [Lz Uz].
    { rewrite E. destruct (Z.ltb_spec d i); [split; [apply (row_len w h); lia|now apply Forall_ztake, Forall_zdrop]|].
      split; [unfold zlen; rewrite repeat_length; lia|]. apply Forall_forall. intros x Hx. apply repeat_spec in Hx. subst x. unfold u64. lia. }
    destruct (S i z reads I Lz Uz) as [S1 S2]; [intros ->; rewrite E; now replace (d <? d) with false by lia|exact T|].
    split; [|exact S2]. rewrite S1, E. destruct (Z.eqb_spec i d), (Z.ltb_spec d i), (Z.ltb_spec d (i + 1)); try reflexivity; lia.
Qed.

(** *** one word at a time *)
Lemma touched_one a : touched [(a, 1)] = [a].
Proof. unfold touched. cbn [flat_map]. change (seq 0 (Z.to_nat 1)) with [0%nat]. cbn [map app]. change (Z.of_nat 0) with 0. now rewrite Z.add_0_r. Qed.
Lemma inner_any (v : Z -> Z) p z reads n : 0 <= n <= zlen z ->
  let r := fold_left (fun '(z, reads) j => (upd z (Z.to_nat j) (Z.lor (word z j) (v j)), reads ++ [(p + j, 1)])) (zrange n) (z, reads) in
  length (fst r) = length z /\ (forall m, 0 <= m -> word (fst r) m = if m <? n then Z.lor (word z m) (v m) else word z m) /\
  touched (snd r) = touched reads ++ map (Z.add p) (whole n).
Proof.
  intros N r.
  apply (fold_range _ (fun n (s : list Z * list (Z * Z)) => length (fst s) = length z /\
    (forall m, 0 <= m -> word (fst s) m = if m <? n then Z.lor (word z m) (v m) else word z m) /\ touched (snd s) = touched reads ++ map (Z.add p) (whole n))); [lia| |].
  - cbn [fst snd]. split; [reflexivity|]. split; [intros m M; now replace (m <? 0) with false by lia|cbn; now rewrite app_nil_r].
  - intros j [z' rd] J (A & B & C). cbn [fst snd] in *. split; [rewrite upd_length; exact A|]. split.
    + intros m M. unfold word in *. destruct (Z.eq_dec m j) as [->|NE].
      * rewrite upd_nth_same by (unfold zlen in N; lia). replace (j <? j + 1) with true by lia. rewrite (B j) by lia. now replace (j <? j) with false by lia.
      * rewrite upd_nth_other by lia. rewrite B by lia. destruct (Z.ltb_spec m j), (Z.ltb_spec m (j + 1)); try reflexivity; lia.
    + rewrite touched_app, C, (whole_app j 1), map_app, <- app_assoc, touched_one by lia. f_equal. change (whole 1) with [0]. cbn [map]. now rewrite Z.add_0_r.
Qed.
Lemma word_ext (a b : list Z) : length a = length b -> (forall m, 0 <= m < zlen a -> word a m = word b m) -> a = b.
Proof. intros L H. apply (nth_ext a b 0 0 L). intros n Hn. specialize (H (Z.of_nat n)). unfold word in H. rewrite Nat2Z.id in H. apply H. unfold zlen. lia. Qed.
Lemma nth_firstn_lt {A} n : forall (l : list A) m d, (m < n)%nat -> nth m (firstn n l) d = nth m l d.
Proof. induction n as [|n IH]; intros [|x l] [|m] d Hm; cbn; try lia; auto. apply IH. lia. Qed.
Lemma nth_skipn {A} n : forall (l : list A) m d, nth m (skipn n l) d = nth (n + m) l d.
Proof. induction n as [|n IH]; intros [|x l] m d; cbn; auto. now destruct m. Qed.
Lemma word_row w i table m : 0 <= i -> 0 <= m < w -> word (row w i table) m = word table (i * w + m).
Proof. intros I M. unfold word, row, ztake, zdrop. rewrite nth_firstn_lt by lia. rewrite nth_skipn. f_equal. nia. Qed.
Lemma word_zero n m : word (repeat 0 n) m = 0. Proof. unfold word. apply nth_repeat. Qed.
Lemma word_u64 l m : Forall u64 l -> u64 (word l m).
Proof. intros U. unfold word. destruct (nth_in_or_default (Z.to_nat m) l 0) as [I|E]; [rewrite Forall_forall in U; now apply U|rewrite E; unfold u64; lia]. Qed.

Lemma any_ok (v : Z -> Z -> Z) table h w d : 0 < w -> 0 <= h -> zlen table = h * w -> 0 <= d -> Forall u64 table ->
  (forall i j, 0 <= i -> 0 <= j < w -> v i j = if i =? d then word table (i * w + j) else 0) ->
  let r := fold_left (fun s i => fold_left (fun '(z, reads) j => (upd z (Z.to_nat j) (Z.lor (word z j) (v i j)), reads ++ [(i * w + j, 1)])) (zrange w) s)
    (zrange h) (repeat 0 (Z.to_nat w), []) in fst r = entry w d table /\ touched (snd r) = whole (h * w).
Proof.
  intros W H L D U V. apply rows_ok; auto. intros i z reads I Lz Uz Z0 T.
  destruct (inner_any (v i) (i * w) z reads w ltac:(lia)) as (A & B & C). cbv zeta in *. split.
  - assert (length (if i =? d then row w d table else z) = length z) as LL.
    { destruct (Z.eqb_spec i d) as [e|]; [|reflexivity]. rewrite e in I. pose proof (row_len w h d table W L I). unfold zlen in *. lia. }
    apply word_ext; [congruence|]. intros m M. unfold zlen in M. rewrite A in M. fold (zlen z) in M. rewrite B by lia. replace (m <? w) with true by lia.
    rewrite V by lia. destruct (Z.eqb_spec i d) as [->|NE]; [|apply Z.lor_0_r]. rewrite Z0 by reflexivity. rewrite word_zero, Z.lor_0_l, word_row by lia. reflexivity.
  - rewrite C, T, <- whole_app by nia. f_equal. lia.
Qed.
Lemma init_zero_all z w : zlen z = w -> init_zero z w = repeat 0 (Z.to_nat w).
Proof. intros L. unfold init_zero. rewrite zdrop_all by lia. apply app_nil_r. Qed.

(** (Proof only.) What is claimed of a function copying a row. *)
Definition row_ok (f : list Z -> list Z -> Z -> Z -> Z -> list Z * list (Z * Z)) (z table : list Z) (h w d : Z) : Prop :=
  fst (f z table h w d) = entry w d table /\ touched (snd (f z table h w d)) = whole (h * w).
Lemma x86_any_ok z table h w d : 0 < w -> 0 < h -> zlen z = w -> zlen table = h * w -> 0 <= d -> Forall u64 table -> row_ok x86_row_any z table h w d.
Proof.
  intros W H Lz L D U. unfold row_ok, x86_row_any. replace (h =? 0) with false by lia. replace (w =? 0) with false by lia. rewrite init_zero_all by exact Lz.
  apply (any_ok (fun i j => if i =? d then word table (i * w + j) else 0)); auto; lia.
Qed.
Lemma arm_any_ok z table h w d : 0 < w -> 0 < h -> zlen z = w -> zlen table = h * w -> 0 <= d -> Forall u64 table -> row_ok arm_row_any z table h w d.
Proof.
  intros W H Lz L D U. unfold row_ok, arm_row_any. replace (h =? 0) with false by lia. replace (w =? 0) with false by lia. rewrite init_zero_all by exact Lz.
  apply (any_ok (fun i j => Z.land (word table (i * w + j)) (if i =? d then 2 ^ 64 - 1 else 0))); auto; try lia.
  intros i j I J. destruct (i =? d); [apply land_ones64, word_u64, U|apply Z.land_0_r].
Qed.

(** *** two words at a time *)
Lemma load2 l o : load 2 l (o, 2) = ztake 2 (zdrop o l). Proof. apply app_nil_r. Qed.
Lemma pair_of (l : list Z) o : 0 <= o -> o + 2 <= zlen l -> exists a b, ztake 2 (zdrop o l) = [a; b].
Proof.
  intros O L. assert (zlen (ztake 2 (zdrop o l)) = 2) as E by (apply zlen_ztake; rewrite zlen_zdrop by lia; lia).
  destruct (ztake 2 (zdrop o l)) as [|a [|b [|c t]]]; try discriminate E; [eauto|]. rewrite !zlen_cons in E. pose proof (zlen_nonneg t). lia.
Qed.
Lemma vbit_pair a b m : length a = 2%nat -> length b = 2%nat -> Forall u64 a -> Forall u64 b -> m = 0 \/ m = 2 ^ 64 - 1 -> vbit a b [m; m] = if m =? 0 then a else b.
Proof.
  intros La Lb Ua Ub M. destruct a as [|x [|y [|? ?]]]; try discriminate La. destruct b as [|x' [|y' [|? ?]]]; try discriminate Lb.
  inversion Ua as [|? ? U1 Ua']; inversion Ua' as [|? ? U2 _]; inversion Ub as [|? ? U3 Ub']; inversion Ub' as [|? ? U4 _].
  unfold vbit, map2. cbn [map combine]. destruct M as [->| ->].
  - rewrite Z.lxor_0_l, !Z.land_0_r, !Z.lor_0_r, !land_ones64 by assumption. reflexivity.
  - rewrite Z.lxor_nilpotent, !Z.land_0_r, !Z.lor_0_l, !land_ones64 by assumption. reflexivity.
Qed.
Lemma load2_ok l o : 0 <= o -> o + 2 <= zlen l -> Forall u64 l -> length (ztake 2 (zdrop o l)) = 2%nat /\ Forall u64 (ztake 2 (zdrop o l)).
Proof. intros O L U. split; [|now apply Forall_ztake, Forall_zdrop]. destruct (pair_of l o O L) as (a & b & ->). reflexivity. Qed.
Lemma bit_pair_skip table pos z o : Forall u64 table -> Forall u64 z -> 0 <= o -> o + 2 <= zlen z -> 0 <= pos -> pos + 2 <= zlen table -> bit_pair 0 table pos z o = z.
Proof.
  intros U Uz O Lz P L. unfold bit_pair. rewrite !load2. destruct (load2_ok z o O Lz Uz), (load2_ok table pos P L U). rewrite vbit_pair; auto. cbn [Z.eqb].
  unfold splice. rewrite (zlen_ztake 2) by (rewrite zlen_zdrop by lia; lia). replace (zdrop (o + 2) z) with (zdrop 2 (zdrop o z)) by (rewrite zdrop_zdrop by lia; f_equal; lia).
  now rewrite ztake_zdrop, ztake_zdrop.
Qed.
Lemma bit_pair_hit table pos z o : Forall u64 table -> Forall u64 z -> 0 <= o -> o + 2 <= zlen z -> 0 <= pos -> pos + 2 <= zlen table ->
  bit_pair (2 ^ 64 - 1) table pos z o = ztake o z ++ ztake 2 (zdrop pos table) ++ zdrop (o + 2) z.
Proof.
  intros U Uz O Lz P L. unfold bit_pair. rewrite !load2. destruct (load2_ok z o O Lz Uz), (load2_ok table pos P L U). rewrite vbit_pair; auto.
  change (2 ^ 64 - 1 =? 0) with false. cbv iota. unfold splice. rewrite (zlen_ztake 2) by (rewrite zlen_zdrop by lia; lia). reflexivity.
Qed.
(** (Proof only.) The first n words from r, the others from z. *)
Definition mix (n : Z) (r z : list Z) : list Z := ztake n r ++ zdrop n z.
Lemma mix_len n r z : 0 <= n <= zlen z -> zlen r = zlen z -> zlen (mix n r z) = zlen z.
Proof. intros N L. unfold mix. rewrite zlen_app, zlen_ztake, zlen_zdrop by lia. lia. Qed.
Lemma mix_u64 n r z : Forall u64 r -> Forall u64 z -> Forall u64 (mix n r z).
Proof. intros. apply Forall_app. split; [now apply Forall_ztake|now apply Forall_zdrop]. Qed.
Lemma bit_pair_mix table w i z o : Forall u64 table -> Forall u64 z -> zlen z = w -> 0 <= o -> o + 2 <= w -> 0 <= i -> (i + 1) * w <= zlen table ->
  bit_pair (2 ^ 64 - 1) table (i * w + o) (mix o (row w i table) z) o = mix (o + 2) (row w i table) z.
Proof.
  intros U Uz Lz O OW I L. assert (zlen (row w i table) = w) as LR by (unfold row; apply zlen_ztake; rewrite zlen_zdrop by nia; nia).
  assert (Forall u64 (row w i table)) as UR by now apply Forall_ztake, Forall_zdrop.
  rewrite bit_pair_hit; auto; try nia; [|now apply mix_u64|rewrite mix_len; lia].
  unfold mix. rewrite ztake_app_eq by (rewrite zlen_ztake; lia). rewrite zdrop_app_ge by (rewrite zlen_ztake; lia). rewrite zlen_ztake by lia. rewrite zdrop_zdrop by lia.
  replace (o + 2 - o + o) with (o + 2) by lia. rewrite app_assoc. f_equal. rewrite ztake_zdrop_split by lia. f_equal.
  unfold row. unfold ztake, zdrop in *. rewrite skipn_firstn_comm, firstn_firstn. f_equal; [lia|]. fold (zdrop (i * w) table). 
  change (skipn (Z.to_nat (i * w + o)) table = skipn (Z.to_nat o) (skipn (Z.to_nat (i * w)) table)).
  pose proof (zdrop_zdrop o (i * w) table ltac:(lia) ltac:(nia)) as E. unfold zdrop in E. rewrite E. f_equal. lia.
Qed.
Lemma arm_8n_ok z table h w d : 0 < w -> w mod 8 = 0 -> 0 < h -> zlen z = w -> zlen table = h * w -> 0 <= d -> Forall u64 table -> row_ok arm_row_8n z table h w d.
Proof.
  intros W W8 H Lz0 L D U. unfold row_ok, arm_row_8n. replace (h =? 0) with false by lia. replace (w =? 0) with false by lia. rewrite init_zero_all by exact Lz0.
  assert (w = 8 * (w / 8)) as E8 by (pose proof (Z.div_mod w 8); lia). set (q := w / 8) in *. clearbody q.
  apply rows_ok; auto; try lia. intros i z' reads I Lz Uz Z0 T. cbv zeta.
  assert (0 <= i * w /\ i * w + w <= zlen table) as IW by nia.
  assert (forall j, 0 <= j <= q -> let r := fold_left (fun '(z, reads) j =>
      (fold_left (fun z o => bit_pair (if i =? d then 2 ^ 64 - 1 else 0) table (i * w + 8 * j + o) z (8 * j + o)) [0; 2; 4; 6] z,
       reads ++ map (fun o => (i * w + 8 * j + o, 2)) [0; 2; 4; 6])) (zrange j) (z', reads) in
    fst r = (if i =? d then mix (8 * j) (row w i table) z' else z') /\ touched (snd r) = whole (i * w + 8 * j)) as K.
  { intros j J. apply (fold_range _ (fun j (s : list Z * list (Z * Z)) => fst s = (if i =? d then mix (8 * j) (row w i table) z' else z') /\ touched (snd s) = whole (i * w + 8 * j))); [lia| |].
    - cbn [fst snd]. split; [destruct (i =? d); reflexivity|]. rewrite T. f_equal. lia.
    - intros k [zz rd] Kb [Ez Er]. cbn [fst snd] in *. split.
      + rewrite Ez. cbn [fold_left]. destruct (Z.eqb_spec i d) as [_|_].
        * rewrite !Z.add_0_r, <- !Z.add_assoc.
          rewrite (bit_pair_mix table w i z' (8 * k)) by (auto; nia).
          rewrite (bit_pair_mix table w i z' (8 * k + 2)) by (auto; nia). replace (8 * k + 2 + 2) with (8 * k + 4) by lia.
          rewrite (bit_pair_mix table w i z' (8 * k + 4)) by (auto; nia). replace (8 * k + 4 + 2) with (8 * k + 6) by lia.
          rewrite (bit_pair_mix table w i z' (8 * k + 6)) by (auto; nia). f_equal. lia.
        * do 4 rewrite (bit_pair_skip table _ z') by (auto; lia). reflexivity.
      + rewrite touched_app, Er. replace (i * w + 8 * (k + 1)) with (i * w + 8 * k + 8) by lia. rewrite (whole_app (i * w + 8 * k) 8) by nia. f_equal.
        generalize (i * w + 8 * k). intros p. unfold touched. cbn [map flat_map]. change (seq 0 (Z.to_nat 2)) with [0%nat; 1%nat]. change (whole 8) with [0;1;2;3;4;5;6;7]. cbn [map app]. 
        repeat (f_equal; [lia|]). f_equal. lia. }
  destruct (K q ltac:(lia)) as [K1 K2]. cbv zeta in K1, K2. rewrite K1, K2. split; [|f_equal; lia].
  destruct (Z.eqb_spec i d) as [->|_]; [|reflexivity]. unfold mix. rewrite zdrop_all, app_nil_r by lia. apply ztake_all. rewrite (row_len w h) by (auto; lia). lia.
Qed.

(** *** all words of a row in registers *)
Lemma concat_pairs n : forall p (l : list Z), 0 <= p -> concat (map (fun r => ztake 2 (zdrop (p + 2 * Z.of_nat r) l)) (seq 0 n)) = ztake (2 * Z.of_nat n) (zdrop p l).
Proof.
  induction n as [|n IH]; intros p l P; [reflexivity|]. rewrite seq_S, map_app, concat_app, IH by exact P. cbn [map concat]. rewrite app_nil_r.
  replace (2 * Z.of_nat (S n)) with (2 * Z.of_nat n + 2) by lia. rewrite ztake_zdrop_split by lia. f_equal. rewrite zdrop_zdrop by lia. do 2 f_equal. lia.
Qed.
Lemma touched_pairs n p : touched (map (fun r => (p + 2 * Z.of_nat r, 2)) (seq 0 n)) = map (Z.add p) (whole (2 * Z.of_nat n)).
Proof.
  induction n as [|n IH]; [reflexivity|]. rewrite seq_S, map_app, touched_app, IH.
  replace (2 * Z.of_nat (S n)) with (2 * Z.of_nat n + 2) by lia. rewrite (whole_app _ 2), map_app, map_map by lia. f_equal.
  unfold touched. cbn [map flat_map]. change (seq 0 (Z.to_nat 2)) with [0%nat; 1%nat]. change (whole 2) with [0; 1]. cbn [map app]. f_equal; [lia|]. f_equal. lia.
Qed.
Lemma arm_fixed_ok n table h d : (0 < n)%nat -> 0 < h -> zlen table = h * (2 * Z.of_nat n) -> 0 <= d -> Forall u64 table ->
  fst (arm_row_fixed n table h d) = entry (2 * Z.of_nat n) d table /\ touched (snd (arm_row_fixed n table h d)) = whole (h * (2 * Z.of_nat n)).
Proof.
  intros N H L D U. unfold arm_row_fixed. set (w := 2 * Z.of_nat n) in *.
  match goal with |- context [fold_left ?f _ _] => set (F := f) end.
  assert (let r := fold_left F (zrange h) (repeat [0; 0] n, []) in
    fst r = map (fun r => if d <? h then ztake 2 (zdrop (d * w + 2 * Z.of_nat r) table) else [0; 0]) (seq 0 n) /\ touched (snd r) = whole (h * w)) as K.
  { apply (fold_range F (fun i (s : list (list Z) * list (Z * Z)) => fst s = map (fun r => if d <? i then ztake 2 (zdrop (d * w + 2 * Z.of_nat r) table) else [0; 0]) (seq 0 n) /\
      touched (snd s) = whole (i * w))); [lia| |].
    - cbn [fst snd]. split; [|reflexivity]. replace (d <? 0) with false by lia. clear. generalize 0%nat. induction n as [|n IH]; intros s; [reflexivity|]. cbn [repeat seq map]. now rewrite <- (IH (S s)).
    - intros i [acc rd] I [Ea Er]. cbn [fst snd] in *. unfold F. cbn [fst snd]. split.
      + rewrite Ea. assert (0 <= i * w /\ i * w + w <= zlen table) as IW by nia.
        assert (forall l, Forall (fun r => 0 <= Z.of_nat r < Z.of_nat n) l ->
          map (fun '(r, a) => vbit a (load 2 table (i * w + 2 * Z.of_nat r, 2)) [if i =? d then 2 ^ 64 - 1 else 0; if i =? d then 2 ^ 64 - 1 else 0])
            (combine l (map (fun r => if d <? i then ztake 2 (zdrop (d * w + 2 * Z.of_nat r) table) else [0; 0]) l)) =
          map (fun r => if d <? i + 1 then ztake 2 (zdrop (d * w + 2 * Z.of_nat r) table) else [0; 0]) l) as G.
        { induction l as [|r l IH]; intros Fl; [reflexivity|]. inversion Fl as [|? ? Fr Fl']. cbn [map combine]. rewrite IH by exact Fl'. f_equal.
          rewrite load2. destruct (load2_ok table (i * w + 2 * Z.of_nat r)) as [A1 A2]; [lia|subst w; lia|exact U|].
          assert (length (if d <? i then ztake 2 (zdrop (d * w + 2 * Z.of_nat r) table) else [0; 0]) = 2%nat /\
                  Forall u64 (if d <? i then ztake 2 (zdrop (d * w + 2 * Z.of_nat r) table) else [0; 0])) as [B1 B2].
          { destruct (Z.ltb_spec d i); [apply load2_ok; [nia|nia|exact U]|]. split; [reflexivity|]. repeat (apply Forall_cons; [unfold u64; lia|]). apply Forall_nil. }
          rewrite vbit_pair; auto; [|destruct (i =? d); auto].
          destruct (Z.eqb_spec i d) as [->|NE].
          - change (2 ^ 64 - 1 =? 0) with false. cbv iota. now replace (d <? d + 1) with true by lia.
          - cbn [Z.eqb]. destruct (Z.ltb_spec d i), (Z.ltb_spec d (i + 1)); try reflexivity; lia. }
        apply G. apply Forall_forall. intros r Hr. apply in_seq in Hr. lia.
      + rewrite touched_app, Er, touched_pairs. fold w. rewrite <- whole_app by nia. f_equal. lia. }
  cbv zeta in K. destruct (fold_left F (zrange h) (repeat [0; 0] n, [])) as [acc rd]. cbn [fst snd] in *. destruct K as [K1 K2]. split; [|exact K2].
  rewrite K1, (entry_row w h) by (auto; lia). destruct (d <? h); [apply concat_pairs; nia|].
  unfold w. clear. replace (Z.to_nat (2 * Z.of_nat n)) with (2 * n)%nat by lia. enough (forall s, concat (map (fun _ : nat => [0; 0]) (seq s n)) = repeat 0 (2 * n)) as E by apply E.
  induction n as [|n IH]; intros s; [reflexivity|]. replace (2 * S n)%nat with (S (S (2 * n))) by lia. cbn [seq map concat app]. rewrite IH. reflexivity.
Qed.

(** *** eight words at a time, AVX2 *)
Lemma load4 l o : load 4 l (o, 4) = ztake 4 (zdrop o l). Proof. apply app_nil_r. Qed.
Lemma len_take n (l : list Z) o : 0 <= o -> 0 <= n -> o + n <= zlen l -> length (ztake n (zdrop o l)) = Z.to_nat n.
Proof. intros O N L. assert (zlen (ztake n (zdrop o l)) = n) as E by (apply zlen_ztake; rewrite zlen_zdrop by lia; lia). unfold zlen in E. lia. Qed.
Lemma inner_skip r q : forall i z, 0 <= i -> length z = (8 * q)%nat -> 8 * (i + Z.of_nat q) <= zlen r -> row_8n_inner (repeat 0 4) r i (chunks_exact 8 z) = z.
Proof.
  induction q as [|q IH]; intros i z I Lz L.
  - destruct z; [reflexivity|discriminate Lz].
  - rewrite chunks_exact_cons by (unfold zlen; lia). cbn [row_8n_inner]. rewrite !load4, IH; [| lia |unfold zdrop; rewrite skipn_length; lia|lia].
    rewrite !vand_zero by (rewrite len_take by lia; reflexivity).
    assert (zlen (ztake 8 z) = 8) as L8 by (apply zlen_ztake; unfold zlen; lia).
    rewrite !vxor_zero_r by (rewrite len_take by lia; reflexivity). rewrite zdrop_0.
    rewrite (ztake_all 4 (zdrop 4 (ztake 8 z))) by (rewrite zlen_zdrop by lia; lia). now rewrite app_assoc, ztake_zdrop, ztake_zdrop.
Qed.
Lemma inner_hit r q : Forall u64 r -> forall i, 0 <= i -> 8 * (i + Z.of_nat q) <= zlen r ->
  row_8n_inner (repeat ones64 4) r i (chunks_exact 8 (repeat 0 (8 * q))) = ztake (8 * Z.of_nat q) (zdrop (8 * i) r).
Proof.
  intros U. induction q as [|q IH]; intros i I L; [reflexivity|].
  assert (8 <= zlen (repeat 0 (8 * S q))) as L8 by (unfold zlen; rewrite repeat_length; lia).
  rewrite chunks_exact_cons by (exact L8 || lia). clear L8. cbn [row_8n_inner]. rewrite !load4.
  replace (8 * S q)%nat with (8 + 8 * q)%nat by lia. rewrite repeat_app. rewrite zdrop_app_eq by reflexivity. rewrite ztake_app_eq by reflexivity. rewrite IH by lia.
  change (ztake 4 (zdrop 0 (repeat 0 8))) with (repeat 0 4). change (ztake 4 (zdrop 4 (repeat 0 8))) with (repeat 0 4).
  rewrite !vand_ones by (try (rewrite len_take by lia; reflexivity); now apply Forall_ztake, Forall_zdrop).
  rewrite !vxor_zero_l by (rewrite len_take by lia; reflexivity).
  replace (8 * Z.of_nat (S q)) with (4 + (4 + 8 * Z.of_nat q)) by lia. rewrite !ztake_zdrop_split, !zdrop_zdrop by lia.
  replace (8 * i) with (i * 8) by lia. replace (4 + i * 8) with (i * 8 + 4) by lia. replace (4 + (i * 8 + 4)) with (8 * (i + 1)) by lia. reflexivity.
Qed.
Lemma touched_8n pos q : touched (flat_map (fun i => [(pos + i * 8, 4); (pos + (i * 8 + 4), 4)]) (map Z.of_nat (seq 0 q))) = map (Z.add pos) (whole (8 * Z.of_nat q)).
Proof.
  induction q as [|q IH]; [reflexivity|]. rewrite seq_S, map_app, flat_map_app, touched_app, IH.
  replace (8 * Z.of_nat (S q)) with (8 * Z.of_nat q + 8) by lia. rewrite (whole_app _ 8), map_app, map_map by lia. f_equal.
  unfold touched. cbn [map flat_map Nat.add]. change (seq 0 (Z.to_nat 4)) with [0%nat; 1%nat; 2%nat; 3%nat]. change (whole 8) with [0;1;2;3;4;5;6;7]. cbn [map app].
  cbn [flat_map]. change (seq 0 (Z.to_nat 4)) with [0%nat; 1%nat; 2%nat; 3%nat]. cbn [map app]. repeat (apply f_equal2; [lia|]). reflexivity.
Qed.
Lemma step_8n q d z i pos reads r : zlen r = 8 * Z.of_nat q -> Forall u64 r -> length z = (8 * q)%nat -> (i = d -> z = repeat 0 (8 * q)) -> 0 <= i -> i + 1 < 2 ^ 64 -> 0 <= d < 2 ^ 64 ->
  exists rd, row_8n_step (8 * Z.of_nat q) (vset1 64 4 d) (vset1 64 4 1) (z, vset1 64 4 i, pos, reads) r =
    (if i =? d then r else z, vset1 64 4 (i + 1), pos + 8 * Z.of_nat q, rd) /\ touched rd = touched reads ++ map (Z.add pos) (whole (8 * Z.of_nat q)).
Proof.
  intros Lr Ur Lz Z0 I I1 D. eexists. unfold row_8n_step. rewrite mask_ok by lia. rewrite count_ok by lia.
  assert (zlen (chunks_exact 8 z) = Z.of_nat q) as LC. { rewrite (chunks_rows 8 ltac:(lia) _ z (le_n _)). unfold zlen. rewrite Lz. rewrite Nat2Z.inj_mul, Z.mul_comm, Z.div_mul by lia. reflexivity. }
  split.
  - rewrite LC, zdrop_all, app_nil_r by (unfold zlen; lia). f_equal. f_equal. f_equal. 
    destruct (Z.eqb_spec i d) as [E|_].
    + rewrite Z0 by exact E. rewrite inner_hit by (auto; lia). change (8 * 0) with 0. rewrite zdrop_0. apply ztake_all. lia.
    + apply (inner_skip r q); auto; lia.
  - rewrite touched_app. f_equal. replace (length (chunks_exact 8 z)) with q by (unfold zlen in LC; lia). apply touched_8n.
Qed.
Lemma fold_8n q d : forall rs i z pos reads, Forall (fun r => zlen r = 8 * Z.of_nat q /\ Forall u64 r) rs -> length z = (8 * q)%nat -> (i <= d -> z = repeat 0 (8 * q)) ->
  0 <= i -> i + zlen rs < 2 ^ 64 -> 0 <= d < 2 ^ 64 ->
  exists z' idx pos' rd, fold_left (row_8n_step (8 * Z.of_nat q) (vset1 64 4 d) (vset1 64 4 1)) rs (z, vset1 64 4 i, pos, reads) = (z', idx, pos', rd) /\
    z' = (if i <=? d then match nth_error rs (Z.to_nat (d - i)) with Some r => r | None => z end else z) /\
    touched rd = touched reads ++ map (Z.add pos) (whole (zlen rs * (8 * Z.of_nat q))).
Proof.
  induction rs as [|r rs IH]; intros i z pos reads G Lz Z0 I B D.
  - do 4 eexists. split; [reflexivity|]. split; [|cbn; now rewrite app_nil_r]. destruct (i <=? d); [|reflexivity]. now destruct (Z.to_nat (d - i)).
  - inversion G as [|? ? [Lr Ur] G']. rewrite zlen_cons in B. pose proof (zlen_nonneg rs). cbn [fold_left].
    destruct (step_8n q d z i pos reads r) as (rd & E & T); auto; try lia. { intros Q. apply Z0. lia. } rewrite E.
    destruct (IH (i + 1) (if i =? d then r else z) (pos + 8 * Z.of_nat q) rd) as (z' & idx & pos' & rd' & E' & Ez & T'); auto; try lia.
    { destruct (i =? d); [unfold zlen in Lr; lia|exact Lz]. }
    { intros C. replace (i =? d) with false by lia. apply Z0. lia. }
    exists z', idx, pos', rd'. split; [exact E'|]. split.
    + rewrite Ez. destruct (Z.leb_spec (i + 1) d), (Z.leb_spec i d), (Z.eqb_spec i d); try lia; try reflexivity.
      * replace (Z.to_nat (d - i)) with (S (Z.to_nat (d - (i + 1)))) by lia. reflexivity.
      * replace (Z.to_nat (d - i)) with 0%nat by lia. reflexivity.
    + rewrite T', T, zlen_cons, <- app_assoc. f_equal. replace ((1 + zlen rs) * (8 * Z.of_nat q)) with (8 * Z.of_nat q + zlen rs * (8 * Z.of_nat q)) by lia.
      rewrite whole_app, map_app, map_map by lia. f_equal. apply map_ext. intros. lia.
Qed.
Lemma x86_8n_ok z table h w d : 0 < w -> w mod 8 = 0 -> 0 <= h < 2 ^ 64 -> zlen z = w -> zlen table = h * w -> 0 <= d < 2 ^ 64 -> Forall u64 table ->
  row_ok (fun z table _ => x86_row_8n z table) z table h w d.
Proof.
  intros W W8 H Lz L D U. unfold row_ok, x86_row_8n. assert (w = 8 * Z.of_nat (Z.to_nat (w / 8))) as E8 by (pose proof (Z.div_mod w 8); pose proof (Z.div_pos w 8); lia).
  set (q := Z.to_nat (w / 8)) in *. clearbody q. replace (length z) with (8 * q)%nat by (unfold zlen in Lz; lia).
  assert (zlen (chunks_exact w table) = h) as LC by (rewrite (chunks_rows w W _ table (le_n _)), L, Z.div_mul by lia; reflexivity).
  destruct (fold_8n q d (chunks_exact w table) 0 (repeat 0 (8 * q)) 0 []) as (z' & idx & pos' & rd & E & Ez & T); try lia; try reflexivity.
  { rewrite <- E8. now apply chunks_good. }
  { apply repeat_length. }
  rewrite <- E8 in E. rewrite E. cbn [fst snd]. split.
  - rewrite Ez. replace (0 <=? d) with true by lia. rewrite Z.sub_0_r, chunks_nth, Z2Nat.id by lia. unfold entry. replace (0 <=? d) with true by lia. cbn [andb].
    destruct ((d + 1) * w <=? zlen table); [reflexivity|]. f_equal. lia.
  - rewrite T. cbn [touched flat_map app]. rewrite madd0, LC, <- E8. reflexivity.
Qed.

(** *** the choice by width *)
Lemma x86_copy_ok z table h w d : 0 < w -> 0 < h -> h + 1 < 2 ^ 64 -> zlen z = w -> zlen table = h * w -> 0 <= d < 2 ^ 64 -> Forall u64 table -> row_ok x86_copy_row z table h w d.
Proof.
  intros W H HB Lz L D U. unfold row_ok, x86_copy_row. destruct (Z.eqb_spec w 16) as [E|_].
  - destruct (x86_16_ok table d U D) as [A B]; [rewrite L, E, Z.div_mul; lia|]. rewrite A, B, L, E, Z.div_mul, Z.sub_0_r by lia. split; reflexivity.
  - destruct (Z.eqb_spec (w mod 8) 0); [apply x86_8n_ok; auto; lia|apply x86_any_ok; auto; lia].
Qed.
Lemma arm_copy_ok z table h w d : 0 < w -> 0 < h -> zlen z = w -> zlen table = h * w -> 0 <= d -> Forall u64 table -> row_ok arm_copy_row z table h w d.
Proof.
  intros W H Lz L D U. unfold row_ok, arm_copy_row. destruct (Z.eqb_spec w 32) as [->|_]; [apply (arm_fixed_ok 16); auto; lia|].
  destruct (Z.eqb_spec w 16) as [->|_]; [apply (arm_fixed_ok 8); auto; lia|].
  destruct (Z.eqb_spec (w mod 8) 0); [apply arm_8n_ok; auto; lia|apply arm_any_ok; auto; lia].
Qed.
