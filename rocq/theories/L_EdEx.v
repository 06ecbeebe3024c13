(** A small curve meeting S_Ed.ed_ok, -x^2 + y^2 = 1 + 6 x^2 y^2 modulo 13 with
    20 points and a base point of order 5, and routines meeting
    S_EdLow.ed_low_ok for it.  It shows that the premises of the theorems about
    Ed25519 can be met together; it models nothing in /repo. *)
Require Import ZArith Znumtheory.
Require Import Verif.Base Verif.L_Base Verif.M_Util Verif.L_Util Verif.S_Curve Verif.L_CurveEx Verif.S_Ed Verif.L_Ed Verif.M_Ed25519 Verif.S_EdLow Verif.T_Util.
Require Import ZifyNat.

(** Spec only. *)
Definition tiny_ed : edcurve := EdCurve 13 6 5 (3, 9).

(** Spec only. *)
Definition small (n : nat) : list Z := map Z.of_nat (seq 0 n).
Lemma in_small n x : 0 <= x < Z.of_nat n -> In x (small n).
Proof. intros X. apply in_map_iff. exists (Z.to_nat x). split; [lia|]. apply in_seq. lia. Qed.

Lemma tiny_ed_ok : ed_ok tiny_ed.
Proof.
  constructor; cbn [ed_p ed_d ed_l ed_b tiny_ed]; try reflexivity.
  - apply prime_test_ok. vm_compute. reflexivity.
  - exists 5. reflexivity.
  - assert (H : forallb (fun a => negb ((a * a) mod 13 =? 6)) (small 13) = true) by (vm_compute; reflexivity).
    rewrite forallb_forall in H. intros a E. specialize (H (a mod 13) (in_small 13 _ (Z.mod_pos_bound a 13 eq_refl))).
    rewrite <- Z.mul_mod in H by lia. rewrite E in H. discriminate H.
  - cbn. split; [split; [discriminate|reflexivity]|]. split; [split; [discriminate|reflexivity]|]. reflexivity.
  - discriminate.
  - apply prime_test_ok. vm_compute. reflexivity.
Qed.

(** the points.  Spec only. *)
Definition ed_pts : list (Z * Z) :=
  filter (fun P => (snd P * snd P - fst P * fst P) mod 13 =? (1 + 6 * fst P * fst P * snd P * snd P) mod 13) (list_prod (small 13) (small 13)).
Lemma in_ed_pts P : on_ed tiny_ed P <-> In P ed_pts.
Proof.
  unfold ed_pts. rewrite filter_In. destruct P as [x y]. rewrite in_prod_iff. cbn [fst snd on_ed tiny_ed ed_p ed_d]. rewrite Z.eqb_eq. split.
  - intros (X & Y & E). split; [split; apply in_small; assumption|exact E].
  - intros ((X & Y) & E). unfold small in *. apply in_map_iff in X, Y. destruct X as (i & <- & X), Y as (j & <- & Y). apply in_seq in X, Y. split; [lia|]. split; [lia|exact E].
Qed.

(** reading a point off its words.  Spec only. *)
Definition unwords (w : list Z) : Z * Z := (limbs_val (ztake 4 w), limbs_val (zdrop 4 w)).

(** The routines, by their contracts.  Spec only. *)
Definition tiny_low : ed_low := {|
  el_order := words4 5;
  el_decode := fun b => match find (fun P => list_eqb (ed_enc P) b) ed_pts with Some P => Some (ed_words P) | None => None end;
  el_mulbase := fun s => ed_words (ed_mul tiny_ed (limbs_val s mod 5) (3, 9));
  el_muldouble := fun s w m => ed_words (ed_add tiny_ed (ed_mul tiny_ed (limbs_val s) (unwords w)) (ed_mul tiny_ed (limbs_val m) (3, 9)));
  el_neg := fun x => words4 ((- limbs_val x) mod 13);
  el_mod_n := fun x => words4 (limbs_val x mod 5);
  el_madd_n := fun x y z => words4 ((limbs_val x * limbs_val y + limbs_val z) mod 5) |}.

Lemma w4 v : 0 <= v < 13 -> limbs_val (words4 v) = v /\ zlen (words4 v) = 4 /\ Forall u64 (words4 v).
Proof.
  intros V. destruct (C48_le_value 4 (le_bytes 32 v)) as (A & B & C); [lia|now rewrite zlen_le_bytes|apply le_bytes_bytes|].
  unfold words4. rewrite A, le_val_le_bytes. change (256 ^ Z.of_nat 32) with (2 ^ 256). rewrite Z.mod_small; [auto|].
  split; [apply V|]. eapply Z.lt_trans; [apply V|reflexivity].
Qed.
Lemma unwords_ok P : on_ed tiny_ed P -> unwords (ed_words P) = P.
Proof.
  destruct P as [x y]. intros (X & Y & _). cbn [tiny_ed ed_p] in X, Y. destruct (w4 x X) as (A & B & _). destruct (w4 y Y) as (C & _).
  unfold unwords, ed_words. cbn [fst snd]. rewrite ztake_app_eq, zdrop_app_eq by congruence. congruence.
Qed.

Lemma tiny_low_ok : ed_low_ok tiny_ed tiny_low.
Proof.
  pose proof tiny_ed_ok as ok. constructor; cbn [tiny_low el_order el_decode el_mulbase el_muldouble el_neg el_mod_n el_madd_n].
  - destruct (w4 5) as (A & B & C); [lia|]. split; [split; assumption|exact A].
  - intros P O. destruct (find _ ed_pts) as [Q|] eqn:F.
    + apply find_some in F. destruct F as [I E]. apply list_eqb_eq in E. apply in_ed_pts in I. f_equal. f_equal. exact (enc_inj tiny_ed ok _ _ I O E).
    + exfalso. apply in_ed_pts in O. pose proof (find_none _ _ F P O) as N. cbn beta in N. rewrite (proj2 (list_eqb_eq _ _) eq_refl) in N. discriminate N.
  - intros b w _ _. destruct (find _ ed_pts) as [Q|] eqn:F; [|discriminate]. intros _. apply find_some in F. destruct F as [I E]. apply list_eqb_eq in E.
    apply in_ed_pts in I. exists Q. auto.
  - intros s [_ W]. f_equal. apply (base_mod tiny_ed ok). apply limbs_val_bound, W.
  - intros s P m _ _ O _ _. rewrite unwords_ok by exact O. reflexivity.
  - intros x X. destruct (w4 x X) as (-> & _). reflexivity.
  - reflexivity.
  - reflexivity.
Qed.
