(** Lemmas about Base. *)
Require Import Verif.Base.
Require Import ZifyNat.

Lemma zlen_nil {A} : zlen (@nil A) = 0. Proof. reflexivity. Qed.
Lemma zlen_cons {A} (x:A) l : zlen (x::l) = 1 + zlen l.
Proof. unfold zlen; cbn [length]; lia. Qed.
Lemma zlen_app {A} (a b:list A) : zlen (a++b) = zlen a + zlen b.
Proof. unfold zlen; rewrite app_length; lia. Qed.
Lemma zlen_nonneg {A} (l:list A) : 0 <= zlen l.
Proof. unfold zlen; lia. Qed.
Lemma zlen_rev {A} (l:list A) : zlen (rev l) = zlen l.
Proof. unfold zlen; rewrite rev_length; reflexivity. Qed.
Lemma zlen_map {A B} (f:A->B) l : zlen (map f l) = zlen l.
Proof. unfold zlen; rewrite map_length; reflexivity. Qed.
Lemma zlen_repeat {A} (x:A) n : zlen (repeat x n) = Z.of_nat n.
Proof. unfold zlen; rewrite repeat_length; reflexivity. Qed.
Lemma zlen_0_nil {A} (l:list A) : zlen l = 0 -> l = [].
Proof. destruct l; [auto|rewrite zlen_cons; pose proof (zlen_nonneg l); lia]. Qed.
Lemma zlen_ztake {A} n (l:list A) : 0 <= n <= zlen l -> zlen (ztake n l) = n.
Proof. intros. unfold zlen, ztake in *. rewrite firstn_length. lia. Qed.
Lemma zlen_zdrop {A} n (l:list A) : 0 <= n <= zlen l -> zlen (zdrop n l) = zlen l - n.
Proof. intros. unfold zlen, zdrop in *. rewrite skipn_length. lia. Qed.
Lemma ztake_zdrop {A} n (l:list A) : ztake n l ++ zdrop n l = l.
Proof. apply firstn_skipn. Qed.
Lemma ztake_app {A} (a b:list A) : ztake (zlen a) (a++b) = a.
Proof. unfold ztake, zlen. rewrite Nat2Z.id, firstn_app, firstn_all, Nat.sub_diag; cbn.
  apply app_nil_r. Qed.
Lemma zdrop_app {A} (a b:list A) : zdrop (zlen a) (a++b) = b.
Proof. unfold zdrop, zlen. rewrite Nat2Z.id, skipn_app, skipn_all, Nat.sub_diag; reflexivity. Qed.
Lemma ztake_app_eq {A} n (a b:list A) : n = zlen a -> ztake n (a++b) = a.
Proof. intros ->. apply ztake_app. Qed.
Lemma zdrop_app_eq {A} n (a b:list A) : n = zlen a -> zdrop n (a++b) = b.
Proof. intros ->. apply zdrop_app. Qed.
Lemma ztake_all {A} n (l:list A) : zlen l <= n -> ztake n l = l.
Proof. intros. unfold ztake, zlen in *. apply firstn_all2. lia. Qed.
Lemma zdrop_all {A} n (l:list A) : zlen l <= n -> zdrop n l = [].
Proof. intros. unfold zdrop, zlen in *. apply skipn_all2. lia. Qed.
Lemma ztake_0 {A} (l:list A) : ztake 0 l = []. Proof. reflexivity. Qed.
Lemma zdrop_0 {A} (l:list A) : zdrop 0 l = l. Proof. reflexivity. Qed.

Lemma bytes_app a b : bytes (a++b) <-> bytes a /\ bytes b.
Proof. apply Forall_app. Qed.
Lemma bytes_cons a b : bytes (a::b) <-> byte_ok a /\ bytes b.
Proof. split; intro H; [inversion H; auto| destruct H; constructor; auto]. Qed.
Lemma bytes_nil : bytes []. Proof. constructor. Qed.
Lemma bytes_ztake n l : bytes l -> bytes (ztake n l).
Proof. intro H. apply (proj1 (bytes_app (ztake n l) (zdrop n l))). rewrite ztake_zdrop; auto. Qed.
Lemma bytes_zdrop n l : bytes l -> bytes (zdrop n l).
Proof. intro H. apply (proj1 (bytes_app (ztake n l) (zdrop n l))). rewrite ztake_zdrop; auto. Qed.
Lemma bytes_rev l : bytes l -> bytes (rev l).
Proof. apply Forall_rev. Qed.
Lemma bytes_repeat x n : byte_ok x -> bytes (repeat x n).
Proof. intro H; induction n; cbn; constructor; auto. Qed.
Lemma bytes_firstn n l : bytes l -> bytes (firstn n l).
Proof. intro H. rewrite <- (firstn_skipn n l) in H. apply bytes_app in H; tauto. Qed.
Lemma bytes_skipn n l : bytes l -> bytes (skipn n l).
Proof. intro H. rewrite <- (firstn_skipn n l) in H. apply bytes_app in H; tauto. Qed.

Lemma list_eqb_eq a b : list_eqb a b = true <-> a = b.
Proof.
  revert b; induction a; destruct b; cbn; try (split; congruence).
  rewrite andb_true_iff, Z.eqb_eq, IHa. split; [intros [-> ->]; auto | intros [= -> ->]; auto].
Qed.
Lemma list_eqb_neq a b : list_eqb a b = false <-> a <> b.
Proof. rewrite <- list_eqb_eq. destruct (list_eqb a b); split; congruence. Qed.
Lemma list_eqb_refl a : list_eqb a a = true.
Proof. apply list_eqb_eq; auto. Qed.

(* endian *)
Lemma le_bytes_length n v : length (le_bytes n v) = n.
Proof. revert v; induction n; intros; cbn; auto. Qed.
Lemma be_bytes_length n v : length (be_bytes n v) = n.
Proof. unfold be_bytes. rewrite rev_length. apply le_bytes_length. Qed.
Lemma le_bytes_bytes n v : bytes (le_bytes n v).
Proof. revert v; induction n; intros; cbn [le_bytes]; [constructor|].
  apply Forall_cons; [apply Z.mod_pos_bound; lia | apply IHn]. Qed.
Lemma be_bytes_bytes n v : bytes (be_bytes n v).
Proof. apply bytes_rev, le_bytes_bytes. Qed.

Lemma le_val_app a b : le_val (a++b) = le_val a + 256 ^ zlen a * le_val b.
Proof.
  induction a.
  - cbn [app le_val]. change (256 ^ zlen (@nil Z)) with 1. lia.
  - cbn [app le_val]. rewrite IHa, zlen_cons, Z.pow_add_r; pose proof (zlen_nonneg a0); lia.
Qed.

Lemma le_val_bound l : bytes l -> 0 <= le_val l < 256 ^ zlen l.
Proof.
  induction 1.
  - cbn; lia.
  - cbn [le_val]. rewrite zlen_cons, Z.pow_add_r by (pose proof (zlen_nonneg l); lia).
    unfold byte_ok in *. lia.
Qed.
Lemma be_val_bound l : bytes l -> 0 <= be_val l < 256 ^ zlen l.
Proof. intro. unfold be_val. rewrite <- zlen_rev. apply le_val_bound, bytes_rev, H. Qed.

Lemma le_bytes_le_val l : bytes l -> le_bytes (length l) (le_val l) = l.
Proof.
  induction 1; cbn [length le_bytes le_val]; auto.
  unfold byte_ok in *.
  replace ((x + 256 * le_val l) mod 256) with x by
    (rewrite (Z.mul_comm 256), Z.mod_add, Z.mod_small; lia).
  replace ((x + 256 * le_val l) / 256) with (le_val l) by
    (rewrite (Z.mul_comm 256), Z.div_add, (Z.div_small x 256); lia).
  rewrite IHForall. reflexivity.
Qed.
Lemma be_bytes_be_val l : bytes l -> be_bytes (length l) (be_val l) = l.
Proof.
  intro. unfold be_bytes, be_val. rewrite <- (rev_length l), le_bytes_le_val by now apply bytes_rev.
  apply rev_involutive.
Qed.
Lemma le_val_le_bytes n v : le_val (le_bytes n v) = v mod 256 ^ Z.of_nat n.
Proof.
  revert v; induction n; intros.
  - cbn. rewrite Z.mod_1_r; auto.
  - cbn [le_bytes le_val]. rewrite IHn, Nat2Z.inj_succ, Z.pow_succ_r by lia.
    rewrite Z.rem_mul_r by (try lia; apply Z.pow_pos_nonneg; lia). lia.
Qed.
Lemma be_val_be_bytes n v : be_val (be_bytes n v) = v mod 256 ^ Z.of_nat n.
Proof. unfold be_val, be_bytes. rewrite rev_involutive. apply le_val_le_bytes. Qed.

Lemma be_val_app a b : be_val (a++b) = be_val a * 256 ^ zlen b + be_val b.
Proof. unfold be_val. rewrite rev_app_distr, le_val_app, zlen_rev. lia. Qed.
Lemma be_val_cons a b : be_val (a::b) = a * 256 ^ zlen b + be_val b.
Proof. change (a::b) with ([a]++b). rewrite be_val_app. unfold be_val at 1; cbn. lia. Qed.
Lemma be_val_nil : be_val [] = 0. Proof. reflexivity. Qed.
Lemma be_val_snoc a x : be_val (a++[x]) = be_val a * 256 + x.
Proof. rewrite be_val_app. unfold be_val at 2. cbn [rev app le_val]. change (zlen [x]) with 1. lia. Qed.

Lemma le_bytes_mod n v m : Z.of_nat n <= m -> le_bytes n (v mod 256 ^ m) = le_bytes n v.
Proof.
  revert v m; induction n; intros; auto.
  cbn [le_bytes].
  assert (256 ^ m = 256 * 256 ^ (m-1)).
  { replace m with (Z.succ (m-1)) at 1 by lia. rewrite Z.pow_succ_r; lia. }
  assert (0 < 256 ^ (m-1)) by (apply Z.pow_pos_nonneg; lia).
  rewrite H0, Z.rem_mul_r by lia.
  rewrite (Z.mul_comm 256), Z.mod_add, Z.mod_mod, Z.div_add by lia.
  rewrite (Z.div_small (v mod 256)) by (apply Z.mod_pos_bound; lia).
  rewrite Z.add_0_l, IHn by lia. reflexivity.
Qed.

Lemma le_val_inj a b : bytes a -> bytes b -> length a = length b -> le_val a = le_val b -> a = b.
Proof. intros. rewrite <- (le_bytes_le_val a), <- (le_bytes_le_val b), H1, H2 by auto. reflexivity. Qed.
Lemma be_val_inj a b : bytes a -> bytes b -> length a = length b -> be_val a = be_val b -> a = b.
Proof. intros. rewrite <- (be_bytes_be_val a), <- (be_bytes_be_val b), H1, H2 by auto. reflexivity. Qed.

Lemma be_val_repeat0 n : be_val (repeat 0 n) = 0.
Proof. induction n; auto. cbn [repeat]. rewrite be_val_cons, IHn. lia. Qed.
Lemma be_val_zeros_app n l : be_val (repeat 0 n ++ l) = be_val l.
Proof. rewrite be_val_app, be_val_repeat0. lia. Qed.

(* result monad *)
Lemma bind_Ok_inv {A B} (x:res A) (f:A->res B) b :
  bind x f = Ok b -> exists a, x = Ok a /\ f a = Ok b.
Proof. destruct x; cbn; intros; try discriminate. eauto. Qed.
Lemma bind_assoc {A B C} (x:res A) (f:A->res B) (g:B->res C) :
  bind (bind x f) g = bind x (fun a => bind (f a) g).
Proof. destruct x; reflexivity. Qed.

Ltac binv H :=
  let a := fresh "x" in let E := fresh "E" in
  apply bind_Ok_inv in H; destruct H as [a [E H]]; cbv beta in H.
Ltac zl := repeat (rewrite ?zlen_app, ?zlen_cons, ?zlen_nil, ?zlen_rev, ?zlen_map, ?zlen_repeat in * ).

(** bit operations on disjoint fields *)
Lemma land_disjoint a b k : 0 <= k -> 0 <= b < 2^k -> Z.land (Z.shiftl a k) b = 0.
Proof.
  intros Hk H. apply Z.bits_inj'; intros n Hn. rewrite Z.land_spec, Z.bits_0.
  destruct (Z.ltb_spec n k).
  - rewrite Z.shiftl_spec_low by lia; reflexivity.
  - replace b with (b mod 2^k) by (apply Z.mod_small; lia).
    rewrite Z.mod_pow2_bits_high, andb_false_r by lia; reflexivity.
Qed.
Lemma lor_add a b k : 0 <= k -> 0 <= b < 2^k -> Z.lor (Z.shiftl a k) b = a * 2^k + b.
Proof.
  intros Hk H. pose proof (land_disjoint a b k Hk H).
  rewrite <- Z.lxor_lor, <- Z.add_nocarry_lxor, Z.shiftl_mul_pow2 by auto. reflexivity.
Qed.

(** deciding [bytes] on concrete lists *)
Definition bytesb (l : list Z) : bool := forallb (fun b => (0 <=? b) && (b <? 256)) l.
Lemma bytesb_ok l : bytesb l = true -> bytes l.
Proof. unfold bytesb. rewrite forallb_forall. intro H. apply Forall_forall. intros x Hx.
  apply H in Hx. unfold byte_ok. lia. Qed.
Ltac bytes_tac := apply bytesb_ok; vm_compute; reflexivity.

Lemma zlen_be_bytes k v : zlen (be_bytes k v) = Z.of_nat k.
Proof. unfold zlen. rewrite be_bytes_length. reflexivity. Qed.
Lemma zlen_le_bytes k v : zlen (le_bytes k v) = Z.of_nat k.
Proof. unfold zlen. rewrite le_bytes_length. reflexivity. Qed.
