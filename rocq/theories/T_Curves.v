(** The curves the library is built on are what the other theorems need them to be: property C55.  The numbers
    are primes, the points form a group, and on P-256 and P-384 every point is a multiple of the base point; so
    every public key the library accepts belongs to exactly one private key. *)
Require Verif.L_EcKey.
Require Import Verif.Base Verif.L_Base Verif.M_Util Verif.M_Ec Verif.S_Curve Verif.S_Ec Verif.S_Ed.
Require Import Verif.L_Fp Verif.L_Curve Verif.L_CurveEx Verif.L_EcRef Verif.L_P256 Verif.L_P384 Verif.T_Ec.
Require Verif.L_Ed Verif.L_E25519.
Require Import ZifyNat Znumtheory.

(** A group of prime order n on the points of the curve, generated by the base point.  Spec only. *)
Definition prime_order_group (c : curve) : Prop :=
  prime (c_p c) /\ prime (c_n c) /\
  (forall P Q, on_curve c P -> on_curve c Q -> on_curve c (pt_add c P Q) /\ pt_add c P Q = pt_add c Q P) /\
  (forall P Q R, on_curve c P -> on_curve c Q -> on_curve c R ->
     pt_add c P (pt_add c Q R) = pt_add c (pt_add c P Q) R) /\
  (forall P, on_curve c P -> pt_add c P None = P /\ pt_add c P (pt_neg c P) = None /\ on_curve c (pt_neg c P)) /\
  (forall P, on_curve c P -> exists! k, 0 <= k < c_n c /\ P = pt_mul c k (Some (c_g c))).

Lemma group_of c : curve_group c ->
  (forall P, on_curve c P -> exists k, 0 <= k < c_n c /\ P = pt_mul c k (Some (c_g c))) -> prime_order_group c.
Proof.
  intros G CY. pose proof (cg_p c G) as PP. pose proof (cg_p3 c G) as P3.
  split; [exact PP|]. split; [exact (cg_n c G)|].
  split; [intros P Q HP HQ; split; [now apply L_Curve.add_closed|now apply L_Curve.add_comm]|].
  split; [intros; apply (L_Weier.add_assoc c PP P3 (cg_ns c G)); assumption|].
  split; [intros P HP; split; [apply L_Curve.add_none_r|split; [now apply L_Curve.add_neg|now apply L_Curve.neg_on_curve]]|].
  intros P HP. destruct (CY P HP) as (k & K & E). exists k. split; [auto|]. intros j (J & EJ).
  assert (Z0 : pt_mul c (k - j) (Some (c_g c)) = None).
  { pose proof (cg_g c G) as HG. replace (k - j) with (k + - j) by lia. rewrite (L_Curve.mul_add c G), (L_Curve.mul_opp c G), <- E, <- EJ by assumption.
    now apply L_Curve.add_neg. }
  enough (k - j = 0) by lia.
  refine (L_Order.g_order c PP P3 (cg_ns c G) (cg_n c G) (cg_g c G) (cg_order c G _ (cg_g c G)) (k - j) _ Z0). lia.
Qed.

Theorem C55_p256 : prime_order_group P256.
Proof. apply group_of; [exact p256_group|exact p256_cyclic]. Qed.
Print Assumptions C55_p256.

Theorem C55_p384 : prime_order_group P384.
Proof. apply group_of; [exact p384_group|exact p384_cyclic]. Qed.
Print Assumptions C55_p384.

(** edwards25519: the addition is total and a group law on all the points, and the base point has order exactly l,
    a prime. *)
Theorem C55_edwards25519 :
  let c := edwards25519 in
  prime (ed_p c) /\ prime (ed_l c) /\
  (forall P Q, on_ed c P -> on_ed c Q -> on_ed c (ed_add c P Q) /\ ed_add c P Q = ed_add c Q P) /\
  (forall P Q R, on_ed c P -> on_ed c Q -> on_ed c R -> ed_add c P (ed_add c Q R) = ed_add c (ed_add c P Q) R) /\
  (forall P, on_ed c P -> ed_add c P ed_zero = P /\ ed_add c P (ed_neg c P) = ed_zero /\ on_ed c (ed_neg c P)) /\
  on_ed c (ed_b c) /\
  (forall k, 0 <= k -> (ed_mul c k (ed_b c) = ed_zero <-> k mod ed_l c = 0)).
Proof.
  intros c. pose proof L_E25519.edwards25519_ok as ok. fold c in ok.
  split; [exact (eo_p c ok)|]. split; [exact (eo_l c ok)|].
  split; [intros P Q HP HQ; split; [now apply L_Ed.add_closed|apply L_Ed.add_comm]|].
  split; [exact (L_Ed.add_assoc c ok)|].
  split; [intros P HP; split; [now apply L_Ed.add_0_r|split; [now apply L_Ed.add_neg|now apply L_Ed.neg_on]]|].
  split; [exact (eo_b c ok)|].
  intros k K. pose proof (L_Ed.l_pos c ok) as LP. rewrite <- (L_Ed.base_mod c ok k K). split.
  - apply (L_Ed.base_order c ok). apply Z.mod_pos_bound. lia.
  - intros ->. apply L_Ed.mul_0.
Qed.
Print Assumptions C55_edwards25519.

(** *** every public key that is accepted belongs to exactly one private key *)
Lemma app_inj_len (a b : list Z) : forall d e, length a = length b -> a ++ d = b ++ e -> a = b /\ d = e.
Proof.
  revert b. induction a as [|x a IH]; intros [|y b] d e L E; try discriminate L; [auto|].
  cbn in E. injection E as -> E. injection L as L. destruct (IH b d e L E) as [-> ->]. auto.
Qed.
Lemma one_private_key c E : ec_impl c E ->
  (forall P, on_curve c P -> exists k, 0 <= k < c_n c /\ P = pt_mul c k (Some (c_g c))) ->
  forall b pk, bytes b -> pk_from_x962 E b = Ok pk ->
  exists! k, 1 <= k < c_n c /\ sk_public_key E k = Ok (pk_to_x962 E pk).
Proof.
  intros I CY b pk B D. pose proof (ei_group c E I) as G.
  destruct (proj1 (proj1 (C28_point_exact c E I b B)) (ex_intro _ pk D)) as (xb & yb & -> & LX & LY & ON).
  assert (BX : bytes xb /\ bytes yb) by (apply bytes_app; inversion B; assumption). destruct BX as [BX BY].
  rewrite (C28_point_value c E I xb yb pk BX BY LX LY D).
  set (x := be_val xb mod c_p c) in *. set (y := be_val yb mod c_p c) in *.
  destruct (group_of c G CY) as (_ & _ & _ & _ & _ & UN). destruct (UN _ ON) as (k & (K & EK) & U). clear UN.
  assert (K1 : 1 <= k). { destruct (Z.eq_dec k 0) as [->|]; [rewrite L_Curve.mul_0 in EK; discriminate EK|lia]. }
  exists k. split.
  - split; [lia|]. destruct (C29_public_key c E I k ltac:(lia)) as (u & v & M & S). rewrite S, M in *. injection EK as -> ->. reflexivity.
  - intros j (J & SJ). apply U. split; [lia|]. destruct (C29_public_key c E I j J) as (u & v & M & S). rewrite S in SJ. assert (SJ' : sec1 (ec_bytes E) u v = sec1 (ec_bytes E) x y) by congruence. clear SJ. rename SJ' into SJ.
    pose proof (L_EcKey.pR' c E I) as PR. pose proof (L_EcKey.R256 c E I) as R2. rewrite R2 in PR.
    assert (LB : 0 <= ec_bytes E) by (rewrite <- LX; unfold zlen; lia).
    assert (OU : on_curve c (Some (u, v))) by (rewrite <- M; apply L_Curve.mul_closed; [exact G|exact (cg_g c G)]).
    destruct ON as (RX & RY & _), OU as (RU & RV & _).
    unfold sec1 in SJ. cbn [app] in SJ. injection SJ as SJ.
    destruct (app_inj_len _ _ _ _ (ltac:(rewrite !be_bytes_length; reflexivity)) SJ) as [S1 S2].
    apply (f_equal be_val) in S1, S2. rewrite !be_val_be_bytes, !Z2Nat.id in S1, S2 by exact LB.
    clear - S1 S2 M PR RX RY RU RV.
    rewrite !Z.mod_small in S1, S2 by (split; [lia|eapply Z.lt_trans; [|exact PR]; lia]). rewrite M, S1, S2. reflexivity.
Qed.

Theorem C55_p256_one_private_key : forall E, ec_impl P256 E -> forall b pk, bytes b -> pk_from_x962 E b = Ok pk ->
  exists! k, 1 <= k < c_n P256 /\ sk_public_key E k = Ok (pk_to_x962 E pk).
Proof. intros E I. exact (one_private_key P256 E I p256_cyclic). Qed.
Print Assumptions C55_p256_one_private_key.

Theorem C55_p384_one_private_key : forall E, ec_impl P384 E -> forall b pk, bytes b -> pk_from_x962 E b = Ok pk ->
  exists! k, 1 <= k < c_n P384 /\ sk_public_key E k = Ok (pk_to_x962 E pk).
Proof. intros E I. exact (one_private_key P384 E I p384_cyclic). Qed.
Print Assumptions C55_p384_one_private_key.

(** A case: the module of T_Ec.C29_premises_p256 and the encoding of the base point, whose private key is 1. *)
Example C55_base_point : exists E pk, ec_impl P256 E /\
  pk_from_x962 E (sec1 (ec_bytes E) (fst (c_g P256)) (snd (c_g P256))) = Ok pk /\ sk_public_key E 1 = Ok (pk_to_x962 E pk).
Proof.
  eexists. pose proof C29_premises_p256 as I. destruct (C28_round_trip _ _ I _ _ (cg_g P256 p256_group)) as (pk & D & R).
  exists pk. split; [exact I|]. split; [exact D|]. rewrite R.
  destruct (C29_public_key _ _ I 1 ltac:(split; [discriminate|reflexivity])) as (x & y & M & S). rewrite L_Curve.mul_1 in M. injection M as <- <-. exact S.
Qed.
