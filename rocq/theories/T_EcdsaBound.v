(** C62: how many signatures with the same first half a message has, and how many messages a signature has. *)
Require Import Verif.Base Verif.L_Base Verif.M_Sha2 Verif.L_Hmac Verif.M_Ec Verif.S_Curve Verif.S_Ec Verif.L_Curve Verif.L_EcKey Verif.L_CurveEx Verif.L_EcRef Verif.T_Ec.
Require Import Verif.M_Ecdsa Verif.S_Ecdsa Verif.L_Ecdsa Verif.T_Hash Verif.T_Ecdsa Verif.L_P256 Verif.L_P384.
Require Import Verif.L_PolyBound.
Require Verif.L_Weier.
Require Import ZifyNat Znumtheory.

Section Bound.
Variable c : curve.
Hypothesis cg : curve_group c.
Notation n := (c_n c).
Notation p := (c_p c).
Notation Gp := (Some (c_g c)).

Lemma n2 : 1 < n. Proof. pose proof (cg_n c cg) as [H _]. exact H. Qed.
Lemma assoc P Q R : on_curve c P -> on_curve c Q -> on_curve c R -> pt_add c P (pt_add c Q R) = pt_add c (pt_add c P Q) R.
Proof. exact (L_Weier.add_assoc c (cg_p c cg) (cg_p3 c cg) (cg_ns c cg) P Q R). Qed.
Lemma mul_dist k P Q : 0 <= k -> on_curve c P -> on_curve c Q -> pt_mul c k (pt_add c P Q) = pt_add c (pt_mul c k P) (pt_mul c k Q).
Proof.
  intros K HP HQ. revert k K. apply natlike_ind; [now rewrite !mul_0|]. intros k K IH. unfold Z.succ.
  pose proof (add_closed c cg P Q HP HQ). pose proof (mul_closed c cg k P HP) as H1. pose proof (mul_closed c cg k Q HQ) as H2.
  rewrite !(mul_succ c cg) by assumption. rewrite IH.
  rewrite <- (assoc P Q), <- (assoc P (pt_mul c k P)) by auto using add_closed. f_equal.
  rewrite (assoc Q), (assoc (pt_mul c k P)) by auto using add_closed. f_equal. now apply add_comm.
Qed.

(** the point behind a valid signature *)
Lemma valid_point Q e r s : on_curve c Q -> ecdsa_valid c Q e r s -> exists x y, on_curve c (Some (x, y)) /\ x mod n = r /\
  pt_mul c s (Some (x, y)) = pt_add c (pt_mul c e Gp) (pt_mul c r Q).
Proof.
  intros HQ (R & S & w & x & y & W & E & X). pose proof (cg_g c cg) as HG. pose proof n2.
  exists x, y. split; [rewrite <- E; auto using add_closed, mul_closed|]. split; [exact X|].
  rewrite <- E, mul_dist by (auto using mul_closed; lia). rewrite <- !(mul_mul c cg) by assumption.
  f_equal; apply (mul_eq_mod c cg); auto.
  - replace (s * (e * w)) with (e * (s * w)) by ring. rewrite Z.mul_mod, W, <- (Z.mod_1_l n), <- Z.mul_mod by lia. now rewrite Z.mul_1_r.
  - replace (s * (r * w)) with (r * (s * w)) by ring. rewrite Z.mul_mod, W, <- (Z.mod_1_l n), <- Z.mul_mod by lia. now rewrite Z.mul_1_r.
Qed.
Lemma companion Q e r s : on_curve c Q -> 2 < n -> ecdsa_valid c Q e r s -> ecdsa_valid c Q e r (n - s) /\ n - s <> s.
Proof.
  intros HQ N (R & S & w & x & y & W & E & X). pose proof (cg_g c cg) as HG. split.
  - split; [exact R|]. split; [lia|]. exists (- w), x, ((- y) mod p). split; [|split; [|exact X]].
    + replace ((n - s) * - w) with (s * w + (- w) * n) by ring. rewrite Z.mod_add by lia. exact W.
    + rewrite !Z.mul_opp_r, !(mul_opp c cg) by assumption.
      rewrite <- (L_Weier.neg_add c (cg_p c cg) (cg_p3 c cg) (cg_ns c cg)) by auto using mul_closed. rewrite E. reflexivity.
  - intros Q2. destruct (prime_divisors n (cg_n c cg) 2) as [D|[D|[D|D]]]; try lia. exists s. lia.
Qed.

(** at most two points with one abscissa; at most four whose abscissa is r modulo n *)
Lemma pts_bound ks (l : list (Z * Z)) : NoDup l -> Forall (fun P => on_curve c (Some P) /\ In (fst P) ks) l -> (length l <= length ks * 2)%nat.
Proof.
  intros ND F. apply (few_classes fst); [eapply Forall_impl; [|exact F]; cbv beta; tauto|].
  intros k _ l' I N' Fk. specialize (N' ND). rewrite Forall_forall in F, Fk. pose proof (cg_p c cg) as Pp. pose proof (cg_p3 c cg).
  rewrite <- (map_length snd). apply Nat.lt_succ_r.
  apply (prime_root_bound p Pp _ [- (k * k * k - 3 * k + c_b c); 0; 1]); auto.
  - intros D. inversion D as [|? ? _ D1]; inversion D1 as [|? ? _ D2]; inversion D2 as [|? ? D3 _]; subst. apply small_dvd in D3; lia.
  - clear - N' Fk. induction N' as [|[x y] l' N N' IH]; cbn [map]; constructor.
    + intros I. apply in_map_iff in I. destruct I as ([x' y'] & E & I). cbn [snd] in *. apply N.
      pose proof (Fk _ (or_introl eq_refl)) as E1. pose proof (Fk _ (or_intror I)) as E2. cbn [fst] in *. congruence.
    + apply IH. intros z Z. apply Fk. now right.
  - apply Forall_map, Forall_forall. intros [x y] Il. destruct (F _ (I _ Il)) as ((_ & Y & _) & _). exact Y.
  - apply Forall_map, Forall_forall. intros [x y] Il. destruct (F _ (I _ Il)) as ((_ & _ & E) & _). pose proof (Fk _ Il) as Ek.
    cbn [fst snd pev] in *. subst k.
    replace (_ + _) with (y * y - (x * x * x - 3 * x + c_b c)) by ring.
    apply Z.mod_divide; [lia|]. rewrite Zminus_mod, E, Z.sub_diag. reflexivity.
Qed.
Lemma pick {A B} (Q : A -> B -> Prop) l : Forall (fun a => exists b, Q a b) l -> exists m, Forall2 Q l m.
Proof. intros F. induction F as [|a l [b Hb] F [m IH]]; [exists []; constructor|]. exists (b :: m). now constructor. Qed.
Lemma pick_NoDup {A B} (Q : A -> B -> Prop) l m : (forall a a' b, In a l -> In a' l -> Q a b -> Q a' b -> a = a') -> Forall2 Q l m -> NoDup l -> NoDup m.
Proof.
  intros H F. induction F as [|a b l m Hab F IH]; intros ND; [constructor|]. inversion ND as [|? ? N ND']; subst. constructor.
  - intros I. apply N. clear IH ND ND' N.
    assert (X : exists a', In a' l /\ Q a' b).
    { clear - F I. induction F as [|a' b' l m Hab F IH]; [destruct I|]. destruct I as [->|I]; [exists a'; split; [now left|assumption]|].
      destruct (IH I) as (a2 & I2 & Q2). exists a2. split; [now right|assumption]. }
    destruct X as (a' & I' & Q'). rewrite (H a a' b); auto; [now left|now right].
  - apply IH; auto. intros x x' y I I'. apply H; now right.
Qed.
(** abscissae that are r modulo n.  (Proof only.) *)
Definition cands (r : Z) : list Z := if r <? p - n then [r; r + n] else [r].
Lemma in_cands x r : p < 2 * n -> 0 <= x < p -> x mod n = r -> In x (cands r).
Proof.
  intros PN X E. pose proof n2. unfold cands. pose proof (Z.div_mod x n ltac:(lia)). assert (x / n = 0 \/ x / n = 1) by nia.
  destruct (r <? p - n) eqn:L; cbn [In]; nia.
Qed.
Lemma count_bound {A} (Q : A -> Z * Z -> Prop) r l : p < 2 * n ->
  (forall a a' P, In a l -> In a' l -> Q a P -> Q a' P -> a = a') ->
  (forall a P, In a l -> Q a P -> on_curve c (Some P) /\ fst P mod n = r) ->
  NoDup l -> Forall (fun a => exists P, Q a P) l -> zlen l <= 2 * zlen (cands r).
Proof.
  intros PN I O ND F. destruct (pick Q l F) as (m & F2). pose proof (pick_NoDup Q l m I F2 ND) as NDm.
  assert (L : (length m <= length (cands r) * 2)%nat).
  { apply pts_bound; auto. clear - cg F2 O PN. assert (O' : forall a P, In a l -> Q a P -> on_curve c (Some P) /\ In (fst P) (cands r)).
    { intros a [x y] Ia Qa. destruct (O a _ Ia Qa) as [H1 H2]. split; auto. cbn [fst] in *. apply in_cands; auto. apply H1. }
    clear O. induction F2; constructor; eauto using in_eq. apply IHF2. intros; eapply O'; eauto using in_cons. }
  assert (E : length l = length m) by (clear - F2; induction F2; cbn; auto). unfold zlen. lia.
Qed.
Lemma few_s Q e r l : p < 2 * n -> on_curve c Q -> NoDup l -> Forall (fun s => ecdsa_valid c Q e r s) l -> zlen l <= 2 * zlen (cands r).
Proof.
  intros PN HQ ND F. rewrite Forall_forall in F.
  apply (count_bound (fun s P => on_curve c (Some P) /\ fst P mod n = r /\ pt_mul c s (Some P) = pt_add c (pt_mul c e Gp) (pt_mul c r Q)) r l); auto.
  - intros s s' P I I' (O & _ & E) (_ & _ & E'). rewrite <- E' in E. apply (mul_inj c cg) in E; auto; [|discriminate].
    destruct (F s I) as (_ & S & _), (F s' I') as (_ & S' & _). apply small_dvd in E; lia.
  - intros s P _ (O & X & _). now split.
  - apply Forall_forall. intros s I. destruct (valid_point Q e r s HQ (F s I)) as (x & y & O & X & E). now exists (x, y).
Qed.
Lemma few_e Q r s l : p < 2 * n -> on_curve c Q -> NoDup l -> Forall (fun e => 0 <= e < n /\ ecdsa_valid c Q e r s) l -> zlen l <= 2 * zlen (cands r).
Proof.
  intros PN HQ ND F. rewrite Forall_forall in F. pose proof (cg_g c cg) as HG. pose proof n2.
  apply (count_bound (fun e P => on_curve c (Some P) /\ fst P mod n = r /\ pt_mul c s (Some P) = pt_add c (pt_mul c e Gp) (pt_mul c r Q)) r l); auto.
  - intros e e' P I I' (O & _ & E) (_ & _ & E'). rewrite E' in E. destruct (F e I) as (R & _), (F e' I') as (R' & _).
    pose proof (mul_closed c cg r Q HQ) as HrQ. pose proof (mul_closed c cg e Gp HG) as H1. pose proof (mul_closed c cg e' Gp HG) as H2.
    rewrite (add_comm c cg (pt_mul c e' Gp)), (add_comm c cg (pt_mul c e Gp)) in E by assumption.
    apply (f_equal (pt_add c (pt_neg c (pt_mul c r Q)))) in E. rewrite !(add_cancel_neg c cg) in E by assumption.
    apply (mul_inj c cg) in E; auto; [|discriminate]. apply small_dvd in E; lia.
  - intros s' P _ (O & X & _). now split.
  - apply Forall_forall. intros e I. destruct (F e I) as (_ & V). destruct (valid_point Q e r s HQ V) as (x & y & O & X & E). now exists (x, y).
Qed.
End Bound.

(** accepted signatures are valid ones under a point of the curve *)
Lemma accepted c E : ec_impl c E -> forall H Hs lim, implements H Hs lim -> forall pub pk, bytes pub -> pk_from_x962 E pub = Ok pk ->
  exists Q, on_curve c Q /\ forall message sig, Forall bytes message -> zlen (concat message) < lim -> bytes sig ->
    (ecdsa_verify E H pk message sig = Ok tt <->
     exists r s, sig = fixed_sig (ec_bytes E) r s /\ ecdsa_valid c Q (ecdsa_e c (ec_bytes E) (Hs (concat message))) r s).
Proof.
  intros I H Hs lim HI pub pk BP PK.
  destruct (proj1 (proj1 (C28_point_exact c E I pub BP)) (ex_intro _ pk PK)) as (xb & yb & -> & LX & LY & ON).
  assert (BX : bytes xb /\ bytes yb) by (apply bytes_app; inversion BP; assumption). destruct BX as [BX BY].
  exists (Some (be_val xb mod c_p c, be_val yb mod c_p c)). split; [exact ON|]. intros message sig BM LM BS.
  exact (proj1 (C31_verify_exact c E I H Hs lim HI xb yb pk message sig BX BY LX LY PK BM LM BS)).
Qed.

(** Signatures are not unique.  If r || s is accepted for a message under a key, so is r || n - s, which is a different
    signature; whoever holds one can make the other without the private key. *)
Theorem C62_companion_signature : forall c E, ec_impl c E -> c_p c < 2 * c_n c -> forall H Hs lim, implements H Hs lim ->
  forall pub pk message r s, bytes pub -> pk_from_x962 E pub = Ok pk -> Forall bytes message -> zlen (concat message) < lim ->
  0 <= r < 256 ^ ec_bytes E -> 0 <= s < 256 ^ ec_bytes E ->
  ecdsa_verify E H pk message (fixed_sig (ec_bytes E) r s) = Ok tt ->
  ecdsa_verify E H pk message (fixed_sig (ec_bytes E) r (c_n c - s)) = Ok tt /\
  fixed_sig (ec_bytes E) r (c_n c - s) <> fixed_sig (ec_bytes E) r s.
Proof.
  intros c E I PN H Hs lim HI pub pk message r s BP PK BM LM HR HS V. pose proof (ei_group c E I) as cg.
  destruct (accepted c E I H Hs lim HI pub pk BP PK) as (Q & ON & A).
  destruct (fixed_parts c E I r s HR HS) as (FB & FL & FR & FS). apply A in V; auto. destruct V as (r' & s' & EQ & V).
  pose proof V as (R' & S' & _). pose proof (nR c E I) as NR. rewrite (R256 c E I) in NR.
  destruct (fixed_parts c E I r' s' ltac:(lia) ltac:(lia)) as (_ & _ & FR' & FS'). rewrite <- EQ in FR', FS'.
  rewrite FR in FR'. rewrite FS in FS'. rewrite <- FR' in *. rewrite <- FS' in *. clear FR' FS' EQ.
  assert (N2 : 2 < c_n c).
  { pose proof (cg_p3 c cg). assert (c_p c <> 4); [|lia]. intros E4. pose proof (cg_p c cg) as Pp. rewrite E4 in Pp.
    destruct (prime_divisors 4 Pp 2) as [D|[D|[D|D]]]; try lia. now exists 2. }
  destruct (companion c cg Q _ r s ON N2 V) as [V' NE].
  destruct (fixed_parts c E I r (c_n c - s) HR ltac:(lia)) as (FB' & _ & _ & FS2). split.
  - apply A; auto. eauto.
  - intros EQ. rewrite EQ in FS2. congruence.
Qed.
Print Assumptions C62_companion_signature.

Lemma cands_len c r : 2 * zlen (cands c r) = if r <? c_p c - c_n c then 4 else 2.
Proof. unfold cands. destruct (r <? _); reflexivity. Qed.

(** But there are no others: of the signatures with the same first half, a message has at most two under one key (four, if
    the first half is one of the few numbers below p - n). *)
Theorem C62_few_signatures : forall c E, ec_impl c E -> c_p c < 2 * c_n c -> forall H Hs lim, implements H Hs lim ->
  forall pub pk message rb sigs, bytes pub -> pk_from_x962 E pub = Ok pk -> Forall bytes message -> zlen (concat message) < lim ->
  NoDup sigs -> Forall (fun sig => bytes sig /\ ztake (ec_bytes E) sig = rb /\ ecdsa_verify E H pk message sig = Ok tt) sigs ->
  zlen sigs <= if be_val rb <? c_p c - c_n c then 4 else 2.
Proof.
  intros c E I PN H Hs lim HI pub pk message rb sigs BP PK BM LM ND F. pose proof (ei_group c E I) as cg.
  destruct (accepted c E I H Hs lim HI pub pk BP PK) as (Q & ON & A). rewrite <- cands_len.
  pose proof (nR c E I) as NR. rewrite (R256 c E I) in NR. set (e := ecdsa_e c (ec_bytes E) (Hs (concat message))).
  assert (F' : Forall (fun sig => sig = fixed_sig (ec_bytes E) (be_val rb) (be_val (zdrop (ec_bytes E) sig)) /\
    ecdsa_valid c Q e (be_val rb) (be_val (zdrop (ec_bytes E) sig))) sigs).
  { eapply Forall_impl; [|exact F]. intros sig (BS & <- & V). apply A in V; auto. destruct V as (r & s & -> & V).
    pose proof V as (R & S & _). destruct (fixed_parts c E I r s ltac:(lia) ltac:(lia)) as (_ & _ & -> & ->). split; [reflexivity|exact V]. }
  replace (zlen sigs) with (zlen (map (fun sig => be_val (zdrop (ec_bytes E) sig)) sigs)) by (unfold zlen; now rewrite map_length).
  apply (few_s c cg Q e (be_val rb)); auto.
  - clear - F' ND. induction ND as [|x l N ND IH]; cbn [map]; constructor; inversion F' as [|? ? [Ex _] F1]; subst; auto.
    intros J. apply in_map_iff in J. destruct J as (y & Ey & J). rewrite Forall_forall in F1. destruct (F1 y J) as [Ey' _].
    apply N. rewrite Ex, <- Ey, <- Ey'. exact J.
  - apply Forall_map. eapply Forall_impl; [|exact F']. cbv beta. tauto.
Qed.
Print Assumptions C62_few_signatures.

(** And a signature belongs to few messages: under one key, the messages for which it is accepted have at most two different
    digests (four, if its first half is below p - n), as numbers modulo n. *)
Theorem C62_few_messages : forall c E, ec_impl c E -> c_p c < 2 * c_n c -> forall H Hs lim, implements H Hs lim ->
  forall pub pk sig messages, bytes pub -> pk_from_x962 E pub = Ok pk -> bytes sig ->
  Forall (fun m => Forall bytes m /\ zlen (concat m) < lim /\ ecdsa_verify E H pk m sig = Ok tt) messages ->
  NoDup (map (fun m => ecdsa_e c (ec_bytes E) (Hs (concat m))) messages) ->
  zlen messages <= if be_val (ztake (ec_bytes E) sig) <? c_p c - c_n c then 4 else 2.
Proof.
  intros c E I PN H Hs lim HI pub pk sig messages BP PK BS F ND. pose proof (ei_group c E I) as cg.
  destruct (accepted c E I H Hs lim HI pub pk BP PK) as (Q & ON & A). rewrite <- cands_len.
  pose proof (nR c E I) as NR. rewrite (R256 c E I) in NR.
  replace (zlen messages) with (zlen (map (fun m => ecdsa_e c (ec_bytes E) (Hs (concat m))) messages)) by (unfold zlen; now rewrite map_length).
  apply (few_e c cg Q _ (be_val (zdrop (ec_bytes E) sig))); auto. apply Forall_map. eapply Forall_impl; [|exact F].
  intros m (BM & LM & V). split; [apply Z.mod_pos_bound; pose proof (n2 c cg); lia|]. apply A in V; auto. destruct V as (r & s & -> & V).
  pose proof V as (R & S & _). destruct (fixed_parts c E I r s ltac:(lia) ltac:(lia)) as (_ & _ & -> & ->). exact V.
Qed.
Print Assumptions C62_few_messages.

(** Both curves of the library meet the premise on p and n. *)
Example C62_p256 : c_p P256 < 2 * c_n P256. Proof. reflexivity. Qed.
Example C62_p384 : c_p P384 < 2 * c_n P384. Proof. reflexivity. Qed.
(** A case on the small curve of L_CurveEx (p = 43, n = 53): a signature and its companion. *)
Example C62_some : c_p tiny < 2 * c_n tiny /\ c_n tiny - 49 = 4 /\
  (let! pk := pk_from_x962 tiny_ec (sec1 8 26 32) in ecdsa_verify tiny_ec Toy8 pk [[1]] (fixed_sig 8 15 49)) = Ok tt /\
  (let! pk := pk_from_x962 tiny_ec (sec1 8 26 32) in ecdsa_verify tiny_ec Toy8 pk [[1]] (fixed_sig 8 15 4)) = Ok tt.
Proof. split; [reflexivity|]. split; [reflexivity|]. split; vm_compute; reflexivity. Qed.
