(** Proofs about the table lookups of M_Select. *)
Require Import Verif.Base Verif.L_Base Verif.L_Blocks Verif.M_Select Verif.S_Select.
Require Import ZifyNat.

(** (Proof only.) *)
Definition u64 (x : Z) : Prop := 0 <= x < 2 ^ 64.
Definition ones64 : Z := 2 ^ 64 - 1.

(** *** word operations *)
Lemma land_ones64 x : u64 x -> Z.land x (2 ^ 64 - 1) = x.
Proof. unfold u64. intros H. replace (2 ^ 64 - 1) with (Z.ones 64) by reflexivity. rewrite Z.land_ones by lia. apply Z.mod_small. exact H. Qed.
Lemma map2_len f a b : length (map2 f a b) = Nat.min (length a) (length b).
Proof. unfold map2. rewrite map_length. apply combine_length. Qed.
Lemma map2_cons f x a y b : map2 f (x :: a) (y :: b) = f x y :: map2 f a b. Proof. reflexivity. Qed.
Lemma map2_repeat_r f a y w : length a = w -> map2 f a (repeat y w) = map (fun x => f x y) a.
Proof. intros <-. induction a as [|x a IH]; [reflexivity|]. cbn [length repeat map]. now rewrite map2_cons, IH. Qed.
Lemma map2_repeat_l f a y w : length a = w -> map2 f (repeat y w) a = map (fun x => f y x) a.
Proof. intros <-. induction a as [|x a IH]; [reflexivity|]. cbn [length repeat map]. now rewrite map2_cons, IH. Qed.
Lemma map2_repeat f x y w : map2 f (repeat x w) (repeat y w) = repeat (f x y) w.
Proof. induction w as [|w IH]; [reflexivity|]. cbn [repeat]. now rewrite map2_cons, IH. Qed.
Lemma map_id_in {A} (f : A -> A) l : Forall (fun x => f x = x) l -> map f l = l.
Proof. induction 1 as [|x l H _ IH]; [reflexivity|]. cbn. now rewrite H, IH. Qed.
Lemma vand_zero r w : length r = w -> vand r (repeat 0 w) = repeat 0 w.
Proof.
  intros H. unfold vand. rewrite map2_repeat_r by exact H. subst w. induction r as [|x r IH]; [reflexivity|]. cbn [map length repeat]. now rewrite IH, Z.land_0_r.
Qed.
Lemma vand_ones r w : length r = w -> Forall u64 r -> vand r (repeat ones64 w) = r.
Proof.
  intros H U. unfold vand. rewrite map2_repeat_r by exact H. apply map_id_in. eapply Forall_impl; [|exact U]. intros x. apply land_ones64.
Qed.
Lemma vxor_zero_r a w : length a = w -> vxor a (repeat 0 w) = a.
Proof.
  intros H. unfold vxor. rewrite map2_repeat_r by exact H. apply map_id_in. apply Forall_forall. intros x _. apply Z.lxor_0_r.
Qed.
Lemma vxor_zero_l a w : length a = w -> vxor (repeat 0 w) a = a.
Proof.
  intros H. unfold vxor. rewrite map2_repeat_l by exact H. apply map_id_in. apply Forall_forall. intros x _. apply Z.lxor_0_l.
Qed.
Lemma two32 x : 0 <= x < 2 ^ 32 -> (x + 2 ^ 32 * x) mod 2 ^ 32 = x /\ (x + 2 ^ 32 * x) / 2 ^ 32 = x.
Proof.
  intros H. replace (x + 2 ^ 32 * x) with (x + x * 2 ^ 32) by lia. rewrite Z.mod_add, Z.div_add by lia.
  rewrite Z.mod_small, Z.div_small by exact H. lia.
Qed.
Lemma mask_ok e w i d : e = 32 \/ e = 64 -> 0 <= i < 2 ^ e -> 0 <= d < 2 ^ e ->
  vcmpeq e (vset1 e w i) (vset1 e w d) = repeat (if i =? d then ones64 else 0) w.
Proof.
  intros E I D. unfold vcmpeq, vset1. rewrite map2_repeat. f_equal. unfold lane_op. destruct E as [-> | ->]; cbn [Z.eqb Pos.eqb]; [|destruct (i =? d); reflexivity].
  destruct (two32 i I) as [-> ->], (two32 d D) as [-> ->]. destruct (i =? d); reflexivity.
Qed.
Lemma count_ok e w i : e = 32 \/ e = 64 -> 0 <= i -> i + 1 < 2 ^ e -> vadd e (vset1 e w i) (vset1 e w 1) = vset1 e w (i + 1).
Proof.
  intros E I D. unfold vadd, vset1. rewrite map2_repeat. f_equal. unfold lane_op. destruct E as [-> | ->]; cbn [Z.eqb Pos.eqb]; [|apply Z.mod_small; lia].
  destruct (two32 i ltac:(lia)) as [-> ->]. destruct (two32 1 ltac:(lia)) as [-> ->]. rewrite Z.mod_small by lia. reflexivity.
Qed.
Lemma load_len w row o n : 0 <= o -> 0 <= n <= Z.of_nat w -> o + n <= zlen row -> length (load w row (o, n)) = w.
Proof.
  intros O N L. unfold load. rewrite app_length, repeat_length. assert (H : zlen (ztake n (zdrop o row)) = n) by (apply zlen_ztake; rewrite zlen_zdrop; lia).
  unfold zlen in H. lia.
Qed.
Lemma Forall_ztake {A} (P : A -> Prop) n l : Forall P l -> Forall P (ztake n l).
Proof. intros H. rewrite <- (ztake_zdrop n l) in H. now apply Forall_app in H. Qed.
Lemma Forall_zdrop {A} (P : A -> Prop) n l : Forall P l -> Forall P (zdrop n l).
Proof. intros H. rewrite <- (ztake_zdrop n l) in H. now apply Forall_app in H. Qed.
Lemma load_u64 w row ld : Forall u64 row -> Forall u64 (load w row ld).
Proof.
  intros H. destruct ld as [o n]. unfold load. apply Forall_app. split; [now apply Forall_ztake, Forall_zdrop|].
  apply Forall_forall. intros x Hx. apply repeat_spec in Hx as ->. unfold u64. lia.
Qed.

(** *** the loop that selects a point *)
Section Sel.
Variables (e : Z) (w : nat) (k : Z) (loads : list (Z * Z)).
Hypothesis He : e = 32 \/ e = 64.
Hypothesis Hl : Forall (fun '(o, n) => 0 <= o /\ 0 <= n <= Z.of_nat w /\ o + n <= k) loads.
Let zeros := map (fun _ : Z * Z => repeat 0 w) loads.
Let good (row : list Z) := zlen row = k /\ Forall u64 row.

Lemma loads_len row : good row -> Forall (fun r => length r = w) (map (load w row) loads).
Proof.
  intros [L _]. apply Forall_map. eapply Forall_impl; [|exact Hl]. intros [o n] (A & B & C). apply load_len; lia.
Qed.
Lemma acc_skip acc row : good row -> length acc = length loads -> Forall (fun r => length r = w) acc ->
  map (fun '(a, r) => vxor a r) (combine acc (map (fun r => vand r (repeat 0 w)) (map (load w row) loads))) = acc.
Proof.
  intros G L F. pose proof (loads_len row G) as LL. assert (L' : length acc = length (map (load w row) loads)) by (now rewrite map_length).
  revert LL L'. generalize (map (load w row) loads). clear L. induction F as [|a acc Ha F IH]; intros [|r rs] LL L; try discriminate L; [reflexivity|].
  inversion LL as [|? ? H1 H2]. cbn [map combine]. rewrite vand_zero by exact H1. rewrite IH by (auto; injection L; auto). f_equal. apply vxor_zero_r. exact Ha.
Qed.
Lemma acc_hit row : good row ->
  map (fun '(a, r) => vxor a r) (combine zeros (map (fun r => vand r (repeat ones64 w)) (map (load w row) loads))) = map (load w row) loads.
Proof.
  intros G. pose proof (loads_len row G) as LL. unfold zeros. clear zeros Hl. induction loads as [|ld l IH]; [reflexivity|].
  cbn [map combine] in *. inversion LL as [|? ? H1 H2]. rewrite IH by assumption. f_equal. rewrite vand_ones by (auto; apply load_u64, G). now apply vxor_zero_l.
Qed.
Lemma zeros_len : length zeros = length loads. Proof. apply map_length. Qed.
Lemma zeros_w : Forall (fun r => length r = w) zeros.
Proof. unfold zeros. apply Forall_map, Forall_forall. intros ld _. apply repeat_length. Qed.

Definition sread (pos : Z) (h : nat) : list (Z * Z) :=
  flat_map (fun i => map (fun '(o, n) => (pos + Z.of_nat i * k + o, n)) loads) (seq 0 h).
Lemma sread_S pos h : sread pos (S h) = map (fun '(o, n) => (pos + o, n)) loads ++ sread (pos + k) h.
Proof.
  unfold sread. cbn [seq flat_map]. f_equal; [apply map_ext; intros [o n]; f_equal; lia|].
  rewrite <- seq_shift, !flat_map_concat_map, map_map. f_equal. apply map_ext. intros i. apply map_ext. intros [o n]. f_equal. lia.
Qed.
Let step d := sel_step e w k loads (vset1 e w d) (vset1 e w 1).
Lemma fold_past d rs : forall i acc pos reads, Forall good rs -> 0 <= d < i -> i + zlen rs < 2 ^ e -> length acc = length loads -> Forall (fun r => length r = w) acc ->
  fold_left (step d) rs (acc, vset1 e w i, pos, reads) = (acc, vset1 e w (i + zlen rs), pos + k * zlen rs, reads ++ sread pos (length rs)).
Proof.
  induction rs as [|r rs IH]; intros i acc pos reads G D B L F.
  - cbn [fold_left length]. rewrite zlen_nil, app_nil_r. do 2 f_equal; [f_equal; f_equal; lia|lia].
  - inversion G; subst. rewrite zlen_cons in *. pose proof (zlen_nonneg rs). cbn [fold_left length]. unfold step at 2, sel_step.
    rewrite mask_ok, count_ok by (auto; lia). destruct (Z.eqb_spec i d); [lia|]. rewrite acc_skip by assumption.
    rewrite IH by (auto; lia). rewrite sread_S, app_assoc. do 2 f_equal; [f_equal; f_equal; lia|lia].
Qed.
Lemma fold_hit d rs : forall i pos reads, Forall good rs -> 0 <= i <= d -> d < 2 ^ e -> i + zlen rs < 2 ^ e ->
  fold_left (step d) rs (zeros, vset1 e w i, pos, reads) =
    (match nth_error rs (Z.to_nat (d - i)) with Some r => map (load w r) loads | None => zeros end,
     vset1 e w (i + zlen rs), pos + k * zlen rs, reads ++ sread pos (length rs)).
Proof.
  induction rs as [|r rs IH]; intros i pos reads G D D2 B.
  - cbn [fold_left length]. rewrite zlen_nil, app_nil_r. replace (nth_error [] (Z.to_nat (d - i))) with (@None (list Z)) by (destruct (Z.to_nat (d - i)); reflexivity).
    do 2 f_equal; [f_equal; f_equal; lia|lia].
  - inversion G; subst. rewrite zlen_cons in *. pose proof (zlen_nonneg rs). cbn [fold_left length]. unfold step at 2, sel_step.
    rewrite mask_ok, count_ok by (auto; lia). destruct (Z.eqb_spec i d) as [->|N].
    + rewrite acc_hit by assumption. replace (d - d) with 0 by lia. cbn [Z.to_nat nth_error].
      fold (step d). rewrite fold_past; auto; try lia; [|apply map_length|now apply loads_len].
      rewrite sread_S, app_assoc. do 2 f_equal; [f_equal; f_equal; lia|lia].
    + rewrite acc_skip by (auto using zeros_len, zeros_w). fold (step d). rewrite IH by (auto; lia).
      replace (Z.to_nat (d - i)) with (S (Z.to_nat (d - (i + 1)))) by lia. cbn [nth_error].
      rewrite sread_S, app_assoc. do 2 f_equal; [f_equal; f_equal; lia|lia].
Qed.
End Sel.

(** *** rows *)
Lemma chunks_nth k : 0 < k -> forall i (l : list Z), nth_error (chunks_exact k l) i =
  if (Z.of_nat i + 1) * k <=? zlen l then Some (ztake k (zdrop (Z.of_nat i * k) l)) else None.
Proof.
  intros K. induction i as [|i IH]; intros l; pose proof (zlen_nonneg l).
  - replace ((Z.of_nat 0 + 1) * k) with k by lia. replace (Z.of_nat 0 * k) with 0 by lia. rewrite zdrop_0. destruct (Z.leb_spec k (zlen l)); [rewrite chunks_exact_cons by lia; reflexivity|rewrite chunks_exact_short by lia; reflexivity].
  - destruct (Z_lt_le_dec (zlen l) k) as [Q|Q]; [rewrite chunks_exact_short by lia; cbn [nth_error]; destruct (Z.leb_spec ((Z.of_nat (Datatypes.S i) + 1) * k) (zlen l)); [nia|reflexivity]|].
    rewrite chunks_exact_cons by lia. cbn [nth_error]. rewrite IH, zlen_zdrop, zdrop_zdrop by lia.
    replace (Z.of_nat i * k + k) with (Z.of_nat (S i) * k) by lia.
    destruct (Z.leb_spec ((Z.of_nat i + 1) * k) (zlen l - k)), (Z.leb_spec ((Z.of_nat (S i) + 1) * k) (zlen l)); try reflexivity; lia.
Qed.
Lemma chunks_rows k : 0 < k -> forall n (l : list Z), (length l <= n)%nat -> zlen (chunks_exact k l) = zlen l / k.
Proof.
  intros K. induction n as [|n IH]; intros l L; pose proof (zlen_nonneg l) as N.
  - assert (zlen l = 0) as E by (unfold zlen; lia). rewrite chunks_exact_short by lia. rewrite E, Z.div_0_l by lia. reflexivity.
  - destruct (Z_lt_le_dec (zlen l) k) as [Q|Q]; [rewrite chunks_exact_short, Z.div_small by lia; reflexivity|].
    rewrite chunks_exact_cons, zlen_cons by lia. rewrite IH by (unfold zdrop; rewrite skipn_length; lia). rewrite zlen_zdrop by lia.
    replace (zlen l / k) with ((zlen l - k + 1 * k) / k) by (f_equal; lia). rewrite Z.div_add by lia. lia.
Qed.
Lemma chunks_good k l : 0 < k -> Forall u64 l -> Forall (fun row => zlen row = k /\ Forall u64 row) (chunks_exact k l).
Proof.
  intros K U. pose proof (chunks_exact_len k l K) as L. apply Forall_forall. intros r Hr. rewrite Forall_forall in L. split; [now apply L|].
  apply In_nth_error in Hr as (i & E). rewrite chunks_nth in E by exact K. destruct (_ <=? _); [|discriminate E]. injection E as <-. now apply Forall_ztake, Forall_zdrop.
Qed.
Lemma whole_app a b : 0 <= a -> 0 <= b -> whole (a + b) = whole a ++ map (Z.add a) (whole b).
Proof.
  intros A B. unfold whole. rewrite Z2Nat.inj_add, seq_app, map_app, map_map by assumption. f_equal. cbn [Nat.add].
  replace (seq (Z.to_nat a) (Z.to_nat b)) with (map (fun i => (Z.to_nat a + i)%nat) (seq 0 (Z.to_nat b))).
  - rewrite map_map. apply map_ext. intros i. lia.
  - generalize (Z.to_nat a) at 1 2. intros s. generalize (Z.to_nat b). intros n. revert s. induction n as [|n IH]; intros s; [reflexivity|].
    cbn [seq map]. f_equal; [lia|]. rewrite <- (IH (S s)), <- seq_shift, map_map. apply map_ext. intros. lia.
Qed.
Lemma touched_app a b : touched (a ++ b) = touched a ++ touched b. Proof. apply flat_map_app. Qed.
Lemma touched_shift p l : touched (map (fun '(o, n) => (p + o, n)) l) = map (Z.add p) (touched l).
Proof.
  induction l as [|[o n] l IH]; [reflexivity|]. cbn [map touched flat_map]. unfold touched in *. cbn [flat_map]. rewrite IH, map_app, map_map. f_equal.
  apply map_ext. intros. lia.
Qed.
Lemma touched_sread k loads : 0 <= k -> touched loads = whole k -> forall h pos, touched (sread k loads pos h) = map (Z.add pos) (whole (Z.of_nat h * k)).
Proof.
  intros K T. induction h as [|h IH]; intros pos; [reflexivity|]. rewrite sread_S, touched_app, touched_shift, IH, T.
  replace (Z.of_nat (S h) * k) with (k + Z.of_nat h * k) by lia. rewrite whole_app, map_app, map_map by lia. f_equal. apply map_ext. intros. lia.
Qed.

Theorem sel_ok e w k loads start table d : e = 32 \/ e = 64 -> 0 < k -> Forall (fun '(o, n) => 0 <= o /\ 0 <= n <= Z.of_nat w /\ o + n <= k) loads ->
  touched loads = whole k ->
  (forall row, zlen row = k -> fold_left (fun z '(ld, a) => store z ld a) (combine loads (map (load w row) loads)) (repeat 0 (Z.to_nat k)) = row) ->
  fold_left (fun z '(ld, a) => store z ld a) (combine loads (map (fun _ => repeat 0 w) loads)) (repeat 0 (Z.to_nat k)) = repeat 0 (Z.to_nat k) ->
  Forall u64 table -> 0 <= start -> 0 <= d < 2 ^ e -> start + zlen table / k < 2 ^ e ->
  fst (sel e w k loads loads start table d) = entry k (d - start) table /\ touched (snd (sel e w k loads loads start table d)) = whole (zlen table / k * k).
Proof.
  intros He K HL HT HR HZ U S D B. pose proof (chunks_good k table K U) as G. pose proof (chunks_rows k K _ table (le_n _)) as LR.
  unfold sel. destruct (Z_lt_le_dec d start) as [C|C].
  - rewrite fold_past; auto; try lia; [|apply zeros_len|apply zeros_w]. cbn [fst snd app]. split.
    + rewrite HZ. unfold entry. destruct (Z.leb_spec 0 (d - start)); [lia|reflexivity].
    + rewrite touched_sread by (auto; lia). rewrite map_ext with (g := fun x => x) by (intros; lia). rewrite map_id. f_equal. unfold zlen in LR at 1. lia.
  - rewrite fold_hit; auto; try lia. cbn [fst snd app]. split.
    + rewrite chunks_nth by exact K. unfold entry. replace (Z.of_nat (Z.to_nat (d - start))) with (d - start) by lia.
      destruct (Z.leb_spec 0 (d - start)); [|lia]. cbn [andb]. destruct (Z.leb_spec ((d - start + 1) * k) (zlen table)); [|exact HZ].
      apply HR. apply zlen_ztake. rewrite zlen_zdrop by nia. nia.
    + rewrite touched_sread by (auto; lia). rewrite map_ext with (g := fun x => x) by (intros; lia). rewrite map_id. f_equal. unfold zlen in LR at 1. lia.
Qed.
(** the loads of a point, put together, are the point: by cases on its words *)
Ltac words row := repeat (destruct row as [|? row]; [discriminate || (exfalso; cbn in *; lia)|]); destruct row; [|exfalso; cbn in *; lia].
Ltac sel_inst := intros; apply sel_ok; try assumption; try lia;
  [repeat (apply Forall_cons; [lia|]); apply Forall_nil|reflexivity|intros row E; words row; reflexivity|reflexivity].
Definition lookup_ok (f : list Z -> Z -> list Z * list (Z * Z)) (e k start : Z) : Prop :=
  forall table d, Forall u64 table -> 0 <= d < 2 ^ e -> start + zlen table / k < 2 ^ e ->
  fst (f table d) = entry k (d - start) table /\ touched (snd (f table d)) = whole (zlen table / k * k).
Lemma x86_aff_ok : lookup_ok x86_aff_select_p256 32 8 1. Proof. unfold lookup_ok, x86_aff_select_p256. sel_inst. Qed.
Lemma x86_jac_ok : lookup_ok x86_jac_select_p256 32 12 1. Proof. unfold lookup_ok, x86_jac_select_p256. sel_inst. Qed.
Lemma x86_384_ok : lookup_ok x86_jac_select_p384 32 18 1. Proof. unfold lookup_ok, x86_jac_select_p384. sel_inst. Qed.
Lemma arm_aff_ok : lookup_ok arm_aff_select_p256 32 8 1. Proof. unfold lookup_ok, arm_aff_select_p256. sel_inst. Qed.
Lemma arm_jac_ok : lookup_ok arm_jac_select_p256 32 12 1. Proof. unfold lookup_ok, arm_jac_select_p256. sel_inst. Qed.
Lemma arm_384_ok : lookup_ok arm_jac_select_p384 32 18 1. Proof. unfold lookup_ok, arm_jac_select_p384. sel_inst. Qed.
Lemma x86_16_ok : lookup_ok x86_row_16 64 16 0. Proof. unfold lookup_ok, x86_row_16. sel_inst. Qed.
