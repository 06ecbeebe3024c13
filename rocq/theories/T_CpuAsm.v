(** Properties C51 and C52: wiping memory, and comparing without revealing
    where a difference is. *)
Require Import Verif.Base Verif.L_Base Verif.M_Entry Verif.M_CpuAsm Verif.M_Ct Verif.M_Hmac Verif.L_Hmac.
Require Import ZifyNat.

Lemma exec_step p f s i s' a r tr : nth_error p (pc s) = Some i -> step i s = Some (s', a) -> exec p f s' = Some (r, tr) ->
  exec p (S f) s = Some (r, (pc s, a) :: tr).
Proof. intros N S E. cbn [exec]. rewrite N, S, E. reflexivity. Qed.
Lemma exec_end p f s : nth_error p (pc s) = None -> exec p f s = Some (s, []).
Proof. intros N. destruct f; cbn [exec]; rewrite N; reflexivity. Qed.

Lemma signed_small x : 0 <= x < 2 ^ 63 -> signed x = x.
Proof. intros X. unfold signed. destruct (Z.ltb_spec x (2 ^ 63)) as [|G]; [reflexivity|]. destruct X as [_ X]. destruct (Z.lt_irrefl x). eapply Z.lt_le_trans; eassumption. Qed.
Lemma mod_64 x : 0 <= x < 2 ^ 64 -> x mod 2 ^ 64 = x.
Proof. apply Z.mod_small. Qed.

(** Bytes in the range.  Spec only. *)
Definition in_range (p n x : Z) : bool := (p <=? x) && (x <? p + n).

Lemma store_zeros w : forall m a x, store m a (repeat 0 w) x = if in_range a (Z.of_nat w) x then 0 else m x.
Proof.
  induction w as [|w IH]; intros m a x; cbn [repeat store].
  - unfold in_range. destruct (Z.leb_spec a x), (Z.ltb_spec x (a + Z.of_nat 0)); cbn [andb]; try lia; reflexivity.
  - rewrite IH. unfold in_range. rewrite Nat2Z.inj_succ.
    destruct (Z.leb_spec (a + 1) x), (Z.ltb_spec x (a + 1 + Z.of_nat w)), (Z.eqb_spec x a), (Z.leb_spec a x), (Z.ltb_spec x (a + Z.succ (Z.of_nat w))); cbn [andb]; try lia; reflexivity.
Qed.

(** what the loops need: the state at a label.  Spec only. *)
Definition at_label (k : nat) (p n : Z) (s : st) : Prop := pc s = k /\ rg s RA = p /\ rg s LEN = n.

Lemma step_ex p f s i s1 a a' tr (Q : st -> Prop) : nth_error p (pc s) = Some i -> step i s = Some (s1, a) -> a = a' ->
  (exists s', exec p f s1 = Some (s', tr) /\ Q s') -> exists s', exec p (S f) s = Some (s', (pc s, a') :: tr) /\ Q s'.
Proof. intros N S A (s' & E & QQ). subst a'. exists s'. split; [|exact QQ]. eapply exec_step; eassumption. Qed.
Ltac tidy := cbn [lt zf rg mem pc zreg set_rg reg_eqb].
(** one instruction, with the known register values rewritten by [t] *)
Tactic Notation "one" tactic(t) := eapply step_ex; [reflexivity|reflexivity|tidy; t; reflexivity|tidy; t].
Ltac finish H := match goal with |- exists s', exec _ _ ?s1 = _ /\ _ => destruct (H s1) as (s' & E & MM) end.

Section Zero.
Variable a : arch.
Let p := zero_code a.
(** width of the vector store and the labels *)
Let w : nat := match a with X86_64 => 32 | Aarch64 => 16 end.

Lemma byte_loop n : forall q, 0 <= q -> Z.of_nat n < 2 ^ 63 -> q + Z.of_nat n < 2 ^ 64 -> exists fuel tr,
  Forall (fun e => Forall (fun x => in_range q (Z.of_nat n) x = true) (snd e)) tr /\
  forall s, at_label 7 q (Z.of_nat n) s -> exists s', exec p fuel s = Some (s', tr) /\
    forall x, mem s' x = if in_range q (Z.of_nat n) x then 0 else mem s x.
Proof.
  induction n as [|n IH]; intros q Q N63 N.
  - exists 2%nat, [(7%nat, []); (8%nat, [])]. split; [repeat constructor|].
    intros [r z l e m k] (PC & RA_ & LEN_). cbn [pc rg mem] in *. subst k.
    assert (L1 : signed (r LEN) <? 1 = true) by (rewrite LEN_; reflexivity).
    unfold p. destruct a; cbn [zero_code]; (one (rewrite ?L1)); (one idtac); eexists; (split; [apply exec_end; reflexivity|]).
    all: intros x; cbn [mem]; unfold in_range; destruct (Z.leb_spec q x), (Z.ltb_spec x (q + Z.of_nat 0)); cbn [andb]; try lia; reflexivity.
  - rewrite Nat2Z.inj_succ in *. destruct (IH (q + 1)) as (f & tr & IN & H); [lia|lia|lia|].
    assert (S1 : signed (Z.succ (Z.of_nat n)) <? 1 = false) by (rewrite signed_small by lia; apply Z.ltb_ge; lia).
    assert (M1 : (Z.succ (Z.of_nat n) - 1) mod 2 ^ 64 = Z.of_nat n).
    { rewrite mod_64; [lia|]. split; [lia|]. replace (Z.succ (Z.of_nat n) - 1) with (Z.of_nat n) by lia. lia. }
    assert (M2 : (q + 1) mod 2 ^ 64 = q + 1) by (apply mod_64; lia).
    assert (SUB : Forall (fun e => Forall (fun x => in_range q (Z.succ (Z.of_nat n)) x = true) (snd e)) tr).
    { eapply Forall_impl; [|exact IN]. intros e. apply Forall_impl. intros x. unfold in_range. rewrite !andb_true_iff, !Z.leb_le, !Z.ltb_lt. lia. }
    assert (Q1 : in_range q (Z.succ (Z.of_nat n)) q = true). { unfold in_range. rewrite andb_true_iff, Z.leb_le, Z.ltb_lt. lia. }
    assert (MEM : forall m x, (if in_range (q + 1) (Z.of_nat n) x then 0 else store m q [0] x) = if in_range q (Z.succ (Z.of_nat n)) x then 0 else m x).
    { intros m x. cbn [store]. unfold in_range. destruct (Z.leb_spec (q + 1) x), (Z.ltb_spec x (q + 1 + Z.of_nat n)), (Z.eqb_spec x q), (Z.leb_spec q x), (Z.ltb_spec x (q + Z.succ (Z.of_nat n))); cbn [andb]; try lia; reflexivity. }
    unfold p in *. destruct a; cbn [zero_code] in *.
    + exists (5 + f)%nat, ([(7%nat, []); (8%nat, []); (9%nat, [q]); (10%nat, []); (11%nat, [])] ++ tr). split.
      { apply Forall_app. split; [|exact SUB]. repeat constructor. exact Q1. }
      intros [r z l e m k] (PC & RA_ & LEN_). cbn [pc rg mem] in *. subst k. cbn [plus app].
      do 5 (one (rewrite ?LEN_, ?S1, ?RA_)).
      finish H. { split; [reflexivity|]. cbn [rg set_rg reg_eqb]. rewrite ?RA_, ?LEN_. split; assumption. }
      exists s'. split; [exact E|]. intros x. rewrite MM. apply MEM.
    + exists (4 + f)%nat, ([(7%nat, []); (8%nat, []); (9%nat, [q]); (10%nat, [])] ++ tr). split.
      { apply Forall_app. split; [|exact SUB]. repeat constructor. exact Q1. }
      intros [r z l e m k] (PC & RA_ & LEN_). cbn [pc rg mem] in *. subst k. cbn [plus app].
      do 4 (one (rewrite ?LEN_, ?S1, ?RA_)).
      finish H. { split; [reflexivity|]. cbn [rg set_rg reg_eqb]. rewrite ?RA_, ?LEN_. split; assumption. }
      exists s'. split; [exact E|]. intros x. rewrite MM. apply MEM.
Qed.

Lemma map_addr q k x : In x (map (fun i => q + Z.of_nat i) (seq 0 k)) -> q <= x < q + Z.of_nat k.
Proof. intros I. apply in_map_iff in I. destruct I as (i & <- & I). apply in_seq in I. lia. Qed.

Lemma block_loop n : forall q, 0 <= q -> Z.of_nat n < 2 ^ 63 -> q + Z.of_nat n < 2 ^ 64 -> exists fuel tr,
  Forall (fun e => Forall (fun x => in_range q (Z.of_nat n) x = true) (snd e)) tr /\
  forall s, at_label 1 q (Z.of_nat n) s -> zreg s = repeat 0 w -> exists s', exec p fuel s = Some (s', tr) /\
    forall x, mem s' x = if in_range q (Z.of_nat n) x then 0 else mem s x.
Proof.
  induction n as [n IH] using lt_wf_ind. intros q Q N63 N.
  assert (SG : signed (Z.of_nat n) = Z.of_nat n) by (apply signed_small; lia).
  destruct (Nat.lt_ge_cases n w) as [S|G].
  - destruct (byte_loop n q Q N63 N) as (f & tr & IN & H).
    exists (2 + f)%nat, ([(1%nat, []); (2%nat, [])] ++ tr). split; [apply Forall_app; split; [repeat constructor|exact IN]|].
    intros [r z l e m k] (PC & RA_ & LEN_) _. cbn [pc rg mem zreg] in *. subst k.
    assert (C : signed (r LEN) <? Z.of_nat w = true) by (rewrite LEN_, SG; apply Z.ltb_lt; lia).
    unfold p, w in *. destruct a; cbn [zero_code plus app] in *; cbn [Z.of_nat Pos.of_succ_nat Pos.succ] in C; do 2 (one (rewrite ?C));
      (finish H; [split; [reflexivity|split; assumption]|]); exists s'; auto.
  - assert (W0 : (0 < w)%nat) by (unfold w; destruct a; lia).
    destruct (IH (n - w)%nat ltac:(lia) (q + Z.of_nat w)) as (f & tr & IN & H); [lia|lia|lia|].
    set (addrs := map (fun i => q + Z.of_nat i) (seq 0 w)).
    exists (6 + f)%nat, ([(1%nat, []); (2%nat, []); (3%nat, addrs); (4%nat, []); (5%nat, []); (6%nat, [])] ++ tr).
    split.
    { apply Forall_app. split.
      - repeat (constructor; [try constructor|]); [|constructor]. cbn [snd]. apply Forall_forall. intros x I. apply map_addr in I. unfold in_range. rewrite andb_true_iff, Z.leb_le, Z.ltb_lt. lia.
      - eapply Forall_impl; [|exact IN]. intros e. apply Forall_impl. intros x. unfold in_range. rewrite !andb_true_iff, !Z.leb_le, !Z.ltb_lt. lia. }
    intros [r z l e m k] (PC & RA_ & LEN_) ZR. cbn [pc rg mem zreg] in *. subst k z.
    assert (M1 : (Z.of_nat n - Z.of_nat w) mod 2 ^ 64 = Z.of_nat (n - w)). { rewrite mod_64; lia. }
    assert (M2 : (q + Z.of_nat w) mod 2 ^ 64 = q + Z.of_nat w) by (apply mod_64; lia).
    assert (MEM : forall x, (if in_range (q + Z.of_nat w) (Z.of_nat (n - w)) x then 0 else store m q (repeat 0 w) x) = if in_range q (Z.of_nat n) x then 0 else m x).
    { intros x. rewrite store_zeros. unfold in_range. destruct (Z.leb_spec (q + Z.of_nat w) x), (Z.ltb_spec x (q + Z.of_nat w + Z.of_nat (n - w))), (Z.leb_spec q x), (Z.ltb_spec x (q + Z.of_nat n)), (Z.ltb_spec x (q + Z.of_nat w)); cbn [andb]; try lia; reflexivity. }
    assert (C : Z.of_nat n <? Z.of_nat w = false) by (apply Z.ltb_ge; lia).
    unfold p, w in *. destruct a; cbn [zero_code plus app] in *; [change (Z.of_nat 32) with 32 in *|change (Z.of_nat 16) with 16 in *];
      do 6 (one (rewrite ?LEN_, ?SG, ?C, ?RA_));
      (finish H; [split; [reflexivity|cbn [rg set_rg reg_eqb]; rewrite ?RA_, ?LEN_; split; assumption]|reflexivity|]);
      (exists s'; split; [exact E|intros x; rewrite MM; apply MEM]).
Qed.
End Zero.

(** Wiping [len] bytes at [ptr], for every length a Rust object can have,
    finishes; afterwards exactly those bytes are zero and all other memory is
    as it was; no address outside is accessed; and the instructions executed and the
    addresses accessed depend on [ptr] and [len] only. *)
Theorem C51_wipe : forall a ptr len, 0 <= ptr -> 0 <= len < 2 ^ 63 -> ptr + len < 2 ^ 64 -> exists fuel tr,
  Forall (fun e => Forall (fun x => ptr <= x < ptr + len) (snd e)) tr /\
  forall s, exists s', zero_bytes a fuel ptr len s = Some (s', tr) /\
    (forall x, ptr <= x < ptr + len -> mem s' x = 0) /\ (forall x, ~ ptr <= x < ptr + len -> mem s' x = mem s x).
Proof.
  intros a ptr len P [L0 L] T. destruct (block_loop a (Z.to_nat len) ptr) as (f & tr & IN & H); rewrite ?Z2Nat.id in * by lia; try assumption.
  exists (1 + f)%nat, ((0%nat, []) :: tr). split.
  { constructor; [constructor|]. eapply Forall_impl; [|exact IN]. intros e. apply Forall_impl. intros x. unfold in_range. rewrite andb_true_iff, Z.leb_le, Z.ltb_lt. auto. }
  intros s. unfold zero_bytes, start. cbn [fold_left].
  destruct (H {| rg := set_rg (set_rg (rg s) RA ptr) LEN len; zreg := repeat 0 (match a with X86_64 => 32 | Aarch64 => 16 end); lt := lt s; zf := zf s; mem := mem s; pc := 1 |}) as (s' & E & MM).
  { split; [reflexivity|split; reflexivity]. } { reflexivity. }
  exists s'. split.
  - destruct a; (eapply exec_step; [reflexivity|reflexivity|]); exact E.
  - split; intros x X; rewrite MM; unfold in_range; cbn [mem]; destruct (Z.leb_spec ptr x), (Z.ltb_spec x (ptr + len)); cbn [andb]; lia || reflexivity.
Qed.

(** The bound is needed: at 2^63 bytes the signed comparison fails and nothing
    is wiped.  (No Rust object is that long.) *)
Theorem C51_length_refuted : forall a ptr s, exists s' tr, zero_bytes a 8 ptr (2 ^ 63) s = Some (s', tr) /\ mem s' = mem s.
Proof.
  intros a ptr s. unfold zero_bytes, start. cbn [fold_left].
  destruct a; cbn [zero_code]; do 2 eexists; (split; [do 5 (eapply exec_step; [reflexivity|reflexivity|]); apply exec_end; reflexivity|reflexivity]).
Qed.

(** *** comparison *)
(** [n] bytes from an address.  Spec only. *)
Definition read (m : Z -> Z) (a : Z) (n : nat) : list Z := map (fun i => m (a + Z.of_nat i)) (seq 0 n).
Lemma read_succ m a n : read m a (S n) = m a :: read m (a + 1) n.
Proof. unfold read. cbn [seq map]. rewrite Z.add_0_r. f_equal. rewrite <- seq_shift, map_map. apply map_ext. intros i. f_equal. lia. Qed.

Lemma lor_mod x y : Z.lor x y mod 256 = Z.lor (x mod 256) y mod 256.
Proof. change 256 with (2 ^ 8). rewrite <- !Z.land_ones by lia. rewrite !Z.land_lor_distr_l, <- Z.land_assoc. now rewrite (Z.land_ones (Z.ones 8)) by lia. Qed.

Lemma compare_loop ar n : forall a b, 0 <= a -> 0 <= b -> a + Z.of_nat n < 2 ^ 64 -> b + Z.of_nat n < 2 ^ 64 -> exists fuel tr,
  Forall (fun e => Forall (fun x => in_range a (Z.of_nat n) x = true \/ in_range b (Z.of_nat n) x = true) (snd e)) tr /\
  forall s, at_label 0 a (Z.of_nat n) s -> rg s RB = b -> exists s', exec (compare_code ar) fuel s = Some (s', tr) /\
    (forall x, mem s' x = mem s x) /\ rg s' ACC mod 256 = ct_compare_loop (rg s ACC mod 256) (read (mem s) a n) (read (mem s) b n).
Proof.
  induction n as [|n IH]; intros a b A B NA NB.
  - exists 2%nat, [(0%nat, []); (1%nat, [])]. split; [repeat constructor|].
    intros [r z l e m k] (PC & RA_ & LEN_) RB_. cbn [pc rg mem] in *. subst k.
    assert (L1 : r LEN =? 0 = true) by (rewrite LEN_; reflexivity).
    destruct ar; cbn [compare_code]; (one (rewrite ?L1)); (one idtac); eexists; (split; [apply exec_end; reflexivity|]);
      (split; [reflexivity|]); reflexivity.
  - rewrite Nat2Z.inj_succ in *. destruct (IH (a + 1) (b + 1)) as (f & tr & IN & H); [lia|lia|lia|lia|].
    assert (Z1 : Z.succ (Z.of_nat n) =? 0 = false) by (apply Z.eqb_neq; lia).
    assert (M1 : (Z.succ (Z.of_nat n) - 1) mod 2 ^ 64 = Z.of_nat n).
    { replace (Z.succ (Z.of_nat n) - 1) with (Z.of_nat n) by lia. apply mod_64. lia. }
    assert (M2 : (a + 1) mod 2 ^ 64 = a + 1) by (apply mod_64; lia). assert (M3 : (b + 1) mod 2 ^ 64 = b + 1) by (apply mod_64; lia).
    assert (SUB : Forall (fun e => Forall (fun x => in_range a (Z.succ (Z.of_nat n)) x = true \/ in_range b (Z.succ (Z.of_nat n)) x = true) (snd e)) tr).
    { eapply Forall_impl; [|exact IN]. intros e. apply Forall_impl. intros x. unfold in_range. rewrite !andb_true_iff, !Z.leb_le, !Z.ltb_lt. lia. }
    assert (QA : in_range a (Z.succ (Z.of_nat n)) a = true). { unfold in_range. rewrite andb_true_iff, Z.leb_le, Z.ltb_lt. lia. }
    assert (QB : in_range b (Z.succ (Z.of_nat n)) b = true). { unfold in_range. rewrite andb_true_iff, Z.leb_le, Z.ltb_lt. lia. }
    destruct ar; cbn [compare_code] in *.
    + exists (9 + f)%nat, ([(0%nat, []); (1%nat, []); (2%nat, [a]); (3%nat, [b]); (4%nat, []); (5%nat, []); (6%nat, []); (7%nat, []); (8%nat, [])] ++ tr). split.
      { apply Forall_app. split; [|exact SUB]. repeat (constructor; [try constructor|]); cbn [snd]; auto. }
      intros [r z l e m k] (PC & RA_ & LEN_) RB_. cbn [pc rg mem] in *. subst k. cbn [plus app].
      do 9 (one (rewrite ?LEN_, ?Z1, ?RA_, ?RB_)).
      match goal with |- exists s', exec _ _ ?s1 = _ /\ _ => destruct (H s1) as (s' & E & MM & V) end.
      { split; [reflexivity|]. cbn [rg set_rg reg_eqb]. rewrite ?RA_, ?LEN_. split; assumption. } { cbn [rg set_rg reg_eqb]. rewrite ?RB_. exact M3. }
      exists s'. split; [exact E|]. split; [exact MM|]. rewrite V. cbn [rg mem set_rg reg_eqb]. rewrite ?RA_, ?RB_, !read_succ. cbn [ct_compare_loop]. now rewrite lor_mod.
    + exists (10 + f)%nat, ([(0%nat, []); (1%nat, []); (2%nat, [a]); (3%nat, [b]); (4%nat, []); (5%nat, []); (6%nat, []); (7%nat, []); (8%nat, []); (9%nat, [])] ++ tr). split.
      { apply Forall_app. split; [|exact SUB]. repeat (constructor; [try constructor|]); cbn [snd]; auto. }
      intros [r z l e m k] (PC & RA_ & LEN_) RB_. cbn [pc rg mem] in *. subst k. cbn [plus app].
      do 10 (one (rewrite ?LEN_, ?Z1, ?RA_, ?RB_)).
      match goal with |- exists s', exec _ _ ?s1 = _ /\ _ => destruct (H s1) as (s' & E & MM & V) end.
      { split; [reflexivity|]. cbn [rg set_rg reg_eqb]. rewrite ?RA_, ?LEN_. split; assumption. } { cbn [rg set_rg reg_eqb]. rewrite ?RB_. exact M3. }
      exists s'. split; [exact E|]. split; [exact MM|]. rewrite V. cbn [rg mem set_rg reg_eqb]. rewrite ?RA_, ?RB_, !read_succ. cbn [ct_compare_loop]. now rewrite lor_mod.
Qed.

(** Comparing [len] bytes at [a] with [len] bytes at [b] finishes with the
    result zero exactly if they are the same; memory is as before and only the
    two ranges are read; and the instructions executed and the addresses accessed
    depend on the pointers and the length only, not on what the memory holds. *)
Theorem C52_compare : forall ar a b len, 0 <= a -> 0 <= b -> 0 <= len -> a + len < 2 ^ 64 -> b + len < 2 ^ 64 -> exists fuel tr,
  Forall (fun e => Forall (fun x => a <= x < a + len \/ b <= x < b + len) (snd e)) tr /\
  forall s junk, (forall x, byte_ok (mem s x)) -> exists r s', compare_bytes ar fuel a b len junk s = Some (r, s', tr) /\
    (forall x, mem s' x = mem s x) /\ 0 <= r < 256 /\
    (r = 0 <-> forall i, 0 <= i < len -> mem s (a + i) = mem s (b + i)).
Proof.
  intros ar a b len A B L NA NB. destruct (compare_loop ar (Z.to_nat len) a b) as (f & tr & IN & H); rewrite ?Z2Nat.id in * by lia; try assumption.
  exists f, tr. split.
  { eapply Forall_impl; [|exact IN]. intros e. apply Forall_impl. intros x. unfold in_range. rewrite !andb_true_iff, !Z.leb_le, !Z.ltb_lt. auto. }
  intros s junk BM. unfold compare_bytes.
  destruct (H (start s [(RA, a); (RB, b); (LEN, len); (TMPA, 0); (TMPB, 0); (ACC, 256 * junk)])) as (s' & E & MM & V).
  { split; [reflexivity|split; reflexivity]. } { reflexivity. }
  rewrite E. exists (rg s' ACC mod 256), s'. split; [reflexivity|]. split; [exact MM|]. split; [apply Z.mod_pos_bound; lia|].
  rewrite V. change (rg (start s _) ACC) with (256 * junk). change (mem (start s _)) with (mem s).
  replace (256 * junk mod 256) with 0 by (rewrite Z.mul_comm, Z.mod_mul by lia; reflexivity).
  assert (BR : forall q n, bytes (read (mem s) q n)). { intros q n. unfold read, bytes. apply Forall_forall. intros y I. apply in_map_iff in I. destruct I as (i & <- & _). apply BM. }
  rewrite ct_compare_loop_zero; [|apply BR|apply BR|split; lia|unfold read; now rewrite !map_length].
  unfold read. split.
  - intros (_ & Q) i I. assert (G : forall j, (j < Z.to_nat len)%nat -> mem s (a + Z.of_nat j) = mem s (b + Z.of_nat j)).
    { intros j J. assert (Q2 : nth j (map (fun i => mem s (a + Z.of_nat i)) (seq 0 (Z.to_nat len))) 0 = nth j (map (fun i => mem s (b + Z.of_nat i)) (seq 0 (Z.to_nat len))) 0) by now rewrite Q.
      rewrite !(nth_indep _ 0 (mem s (a + Z.of_nat 0))) in Q2 by (rewrite map_length, seq_length; lia).
      rewrite (map_nth (fun i => mem s (a + Z.of_nat i))) in Q2. rewrite (nth_indep _ (mem s (a + Z.of_nat 0)) (mem s (b + Z.of_nat 0))) in Q2 by (rewrite map_length, seq_length; lia).
      rewrite (map_nth (fun i => mem s (b + Z.of_nat i))) in Q2. rewrite seq_nth in Q2 by exact J. exact Q2. }
    specialize (G (Z.to_nat i) ltac:(lia)). rewrite Z2Nat.id in G by lia. exact G.
  - intros Q. split; [reflexivity|]. apply map_ext_in. intros i I. apply in_seq in I. apply Q. lia.
Qed.

(** It computes the function used for it elsewhere in the model. *)
Theorem C52_compare_model : forall ar a b l1 l2, 0 <= a -> 0 <= b -> zlen l1 = zlen l2 -> a + zlen l1 < 2 ^ 64 -> b + zlen l1 < 2 ^ 64 ->
  exists fuel, forall s junk, read (mem s) a (length l1) = l1 -> read (mem s) b (length l2) = l2 -> exists s' tr,
  compare_bytes ar fuel a b (zlen l1) junk s = Some (ct_compare_bytes l1 l2, s', tr).
Proof.
  intros ar a b l1 l2 A B L NA NB. destruct (compare_loop ar (length l1) a b) as (f & tr & _ & H); try assumption.
  exists f. intros s junk R1 R2. unfold compare_bytes.
  destruct (H (start s [(RA, a); (RB, b); (LEN, zlen l1); (TMPA, 0); (TMPB, 0); (ACC, 256 * junk)])) as (s' & E & _ & V).
  { split; [reflexivity|split; reflexivity]. } { reflexivity. }
  exists s', tr. rewrite E. rewrite V. change (rg (start s _) ACC) with (256 * junk). change (mem (start s _)) with (mem s).
  replace (256 * junk mod 256) with 0 by (rewrite Z.mul_comm, Z.mod_mul by lia; reflexivity).
  assert (LL : length l1 = length l2) by (unfold zlen in L; lia). rewrite R1. rewrite LL, R2. reflexivity.
Qed.

Print Assumptions C51_wipe.
Print Assumptions C51_length_refuted.
Print Assumptions C52_compare.
Print Assumptions C52_compare_model.

(** Running them: 37 bytes wiped out of a memory of ones, so that both loops
    are used; two ranges that differ in one byte. *)
Definition ones_st : st := {| rg := fun _ => 77; zreg := []; lt := None; zf := None; mem := fun x => if x =? 1005 then 2 else 1; pc := 3 |}.
Example C51_some : forall a, match zero_bytes a 100 1000 37 ones_st with
  | Some (s, _) => map (mem s) [999; 1000; 1005; 1031; 1032; 1036; 1037] = [1; 0; 0; 0; 0; 0; 1] | None => False end.
Proof. intros []; vm_compute; reflexivity. Qed.
Example C52_some : forall a,
  match compare_bytes a 100 1000 1003 3 9 ones_st, compare_bytes a 100 1000 1002 2 9 ones_st with
  | Some (r1, _, _), Some (r2, _, _) => r1 = 3 /\ r2 = 0 | _, _ => False end.
Proof. intros []; vm_compute; auto. Qed.
