(** Polynomials modulo the prime 2^130 - 5 have few roots; two messages have the same Poly1305 tag difference under few keys. *)
Require Import Verif.Base Verif.L_Base Verif.L_Blocks Verif.S_ChaCha Verif.L_Fermat Verif.L_Prime1305.
Require Import ZifyNat Znumtheory.

Lemma P1305_prime : prime P1305.
Proof. exact prime_p1305. Qed.
Lemma P1305_val : P1305 = 1361129467683753853853498429727072845819. Proof. reflexivity. Qed.
Local Opaque P1305.

(** polynomial with coefficients [cs], constant first.  (Proof only.) *)
Fixpoint pev (cs : list Z) (x : Z) : Z := match cs with [] => 0 | c :: cs => c + x * pev cs x end.
(** its quotient by X - r.  (Proof only.) *)
Fixpoint pquot (r : Z) (cs : list Z) : list Z :=
  match cs with [] => [] | c :: cs => match cs with [] => [] | _ => pev cs r :: pquot r cs end end.
Lemma pquot_length r cs : length (pquot r cs) = pred (length cs).
Proof. induction cs as [|c cs IH]; cbn [pquot length pred]; auto. destruct cs; auto. cbn [length] in *. now rewrite IH. Qed.
Lemma pquot_spec r x cs : pev cs x - pev cs r = (x - r) * pev (pquot r cs) x.
Proof.
  induction cs as [|c cs IH]; [cbn; ring|]. destruct cs as [|d ds]; [cbn; ring|].
  set (cs := d :: ds) in *. change (pquot r (c :: cs)) with (pev cs r :: pquot r cs). cbn [pev].
  transitivity (x * (pev cs x - pev cs r) + (x - r) * pev cs r); [ring|]. rewrite IH. ring.
Qed.
Lemma pquot_zero p r cs : (p | pev cs r) -> Forall (fun c => (p | c)) (pquot r cs) -> Forall (fun c => (p | c)) cs.
Proof.
  induction cs as [|c cs IH]; intros E Q0; [constructor|]. destruct cs as [|d ds].
  - cbn [pev] in E. constructor; auto. replace c with (c + r * 0) by ring. exact E.
  - set (cs := d :: ds) in *. change (pquot r (c :: cs)) with (pev cs r :: pquot r cs) in Q0. inversion Q0 as [|? ? E0 Q1]; subst.
    cbn [pev] in E. constructor; [|apply IH; auto].
    replace c with ((c + r * pev cs r) - r * pev cs r) by ring. apply Z.divide_sub_r; auto. now apply Z.divide_mul_r.
Qed.
Lemma small_dvd p x : 0 < p -> - p < x < p -> (p | x) -> x = 0.
Proof. intros Hp B [k ->]. assert (k = 0) by nia. subst. reflexivity. Qed.
Theorem prime_root_bound p : prime p -> forall n cs roots, length cs = n -> ~ Forall (fun c => (p | c)) cs ->
  NoDup roots -> Forall (fun x => 0 <= x < p) roots -> Forall (fun x => (p | pev cs x)) roots -> (length roots < n)%nat.
Proof.
  intros Pp. induction n as [|n IH]; intros cs roots Ln N ND R E.
  - destruct cs; [|discriminate]. exfalso. apply N. constructor.
  - destruct roots as [|r roots]; [cbn; lia|]. cbn [length].
    inversion ND as [|? ? Nin ND']; subst. inversion R as [|? ? Hr R']; subst. inversion E as [|? ? Er E']; subst.
    apply -> Nat.succ_lt_mono. apply (IH (pquot r cs)); auto.
    + rewrite pquot_length, Ln. reflexivity.
    + intros Q0. apply N. now apply (pquot_zero p r).
    + rewrite Forall_forall in *. intros x Hx. pose proof (pquot_spec r x cs) as S.
      assert (D : (p | (x - r) * pev (pquot r cs) x)) by (rewrite <- S; apply Z.divide_sub_r; auto).
      apply prime_mul_dvd in D; auto. destruct D as [D|D]; auto. exfalso.
      apply small_dvd in D; [|lia|specialize (R' x Hx); lia]. assert (x = r) by lia. subst. contradiction.
Qed.

(** difference of two coefficient lists.  (Proof only.) *)
Fixpoint psub (a b : list Z) : list Z :=
  match a, b with
  | [], _ => map Z.opp b
  | _, [] => a
  | x :: a', y :: b' => (x - y) :: psub a' b'
  end.
Lemma pev_opp b x : pev (map Z.opp b) x = - pev b x.
Proof. induction b as [|c b IH]; cbn [map pev]; [reflexivity|]. rewrite IH. ring. Qed.
Lemma pev_psub a : forall b x, pev (psub a b) x = pev a x - pev b x.
Proof.
  induction a as [|c a IH]; intros b x; [cbn [psub pev]; rewrite pev_opp; ring|]. destruct b as [|d b]; cbn [psub pev]; [ring|].
  rewrite IH. ring.
Qed.
Lemma psub_length a : forall b, length (psub a b) = Nat.max (length a) (length b).
Proof. induction a as [|c a IH]; intros b; [cbn; now rewrite map_length|]. destruct b; cbn [psub length Nat.max]; auto. Qed.
Lemma psub_zero p a : 0 < p -> Forall (fun x => 0 < x < p) a -> forall b, Forall (fun x => 0 < x < p) b ->
  Forall (fun c => (p | c)) (psub a b) -> a = b.
Proof.
  intros Hp Fa. induction Fa as [|c a Hc Fa IH]; intros b Fb D.
  - destruct b as [|d b]; auto. inversion Fb; subst. inversion D as [|? ? D0 _]; subst. apply small_dvd in D0; lia.
  - destruct b as [|d b].
    + inversion D as [|? ? D0 _]; subst. apply small_dvd in D0; lia.
    + inversion Fb; subst. cbn [psub] in D. inversion D as [|? ? D0 D1]; subst. apply small_dvd in D0; try lia. f_equal; [lia|auto].
Qed.

(** the number of a block: its bytes, and a one behind them.  (Proof only.) *)
Definition bval (b : list Z) : Z := le_val (b ++ [1]).
Lemma bval_eq b : bval b = le_val b + 256 ^ zlen b.
Proof. unfold bval. rewrite le_val_app. cbn [le_val fold_right]. lia. Qed.
(** a block: at most 16 bytes.  (Proof only.) *)
Definition blk (b : list Z) : Prop := bytes b /\ zlen b <= 16.
Lemma bval_range b : blk b -> 0 < bval b < P1305.
Proof.
  intros [B L]. rewrite bval_eq. pose proof (le_val_bound b B). pose proof (zlen_nonneg b).
  assert (256 ^ zlen b <= 256 ^ 16) by (apply Z.pow_le_mono_r; lia). change (256 ^ 16) with 340282366920938463463374607431768211456 in *.
  rewrite P1305_val. lia.
Qed.
Lemma bval_inj a b : blk a -> blk b -> bval a = bval b -> a = b.
Proof.
  intros [Ba La] [Bb Lb] E. rewrite !bval_eq in E. pose proof (le_val_bound a Ba). pose proof (le_val_bound b Bb).
  pose proof (zlen_nonneg a). pose proof (zlen_nonneg b).
  assert (zlen a = zlen b).
  { destruct (Z.lt_trichotomy (zlen a) (zlen b)) as [L|[L|L]]; auto; exfalso.
    - assert (256 ^ (zlen a + 1) <= 256 ^ zlen b) by (apply Z.pow_le_mono_r; lia). rewrite Z.pow_add_r in * by lia. lia.
    - assert (256 ^ (zlen b + 1) <= 256 ^ zlen a) by (apply Z.pow_le_mono_r; lia). rewrite Z.pow_add_r in * by lia. lia. }
  apply le_val_inj; auto; [unfold zlen in *; lia|]. rewrite H3 in E. lia.
Qed.
Lemma map_bval_inj a : forall b, Forall blk a -> Forall blk b -> map bval a = map bval b -> a = b.
Proof.
  induction a as [|x a IH]; intros [|y b] Fa Fb E; try discriminate; auto. cbn in E. injection E as E1 E2.
  inversion Fa; inversion Fb; subst. f_equal; auto using bval_inj.
Qed.

(** the accumulator is the polynomial of the blocks, last block first, times r *)
Lemma acc_app r bs b : poly1305_acc r (bs ++ [b]) = ((poly1305_acc r bs + bval b) * r) mod P1305.
Proof. unfold poly1305_acc. rewrite fold_left_app. reflexivity. Qed.
Lemma acc_range r bs : 0 <= poly1305_acc r bs < P1305.
Proof.
  induction bs as [|b bs _] using rev_ind; [rewrite P1305_val; cbn; lia|]. rewrite acc_app.
  apply Z.mod_pos_bound. rewrite P1305_val. lia.
Qed.
Lemma acc_pev r bs : (P1305 | poly1305_acc r bs - r * pev (rev (map bval bs)) r).
Proof.
  induction bs as [|b bs IH] using rev_ind; [exists 0; cbn; ring|].
  rewrite acc_app, map_app, rev_app_distr. cbn [map rev app pev]. destruct IH as [k E].
  set (A := poly1305_acc r bs) in *. set (q := pev _ r) in *. 
  assert (HP : P1305 <> 0) by (rewrite P1305_val; lia). rewrite (Z.mod_eq _ _ HP).
  exists (k * r - (A + bval b) * r / P1305).
  replace A with (k * P1305 + r * q) at 1 by lia. ring.
Qed.

(** chunks *)
Lemma chunks_blk m : bytes m -> Forall blk (chunks 16 m).
Proof.
  intros B. unfold chunks. cbv zeta. apply Forall_app. split.
  - pose proof (chunks_exact_len 16 m ltac:(lia)) as L. pose proof (chunks_exact_bytes 16 m ltac:(lia) B) as Bs.
    rewrite Forall_forall in *. intros b I. split; auto. rewrite (L b I). lia.
  - destruct (zlen m =? _) eqn:E; constructor; auto. split; [now apply bytes_zdrop|].
    pose proof (zlen_nonneg m). rewrite zlen_zdrop; lia.
Qed.
Lemma zdrop2 {A} a b (l : list A) : 0 <= a -> 0 <= b -> zdrop a (zdrop b l) = zdrop (b + a) l.
Proof.
  intros. unfold zdrop. rewrite Z2Nat.inj_add by lia. generalize (Z.to_nat a) as i, (Z.to_nat b) as j. clear. intros i j. revert l.
  induction j as [|j IH]; intros l; [reflexivity|]. destruct l; cbn [skipn Nat.add]; [now rewrite skipn_nil|apply IH].
Qed.
Lemma chunks_cons16 (m : list Z) : 16 <= zlen m -> chunks 16 m = ztake 16 m :: chunks 16 (zdrop 16 m).
Proof.
  intros L. unfold chunks. cbv zeta. rewrite chunks_exact_cons by lia. cbn [app]. f_equal. f_equal.
  rewrite zlen_zdrop by lia. replace ((zlen m - 16) / 16) with (zlen m / 16 - 1) by lia.
  replace (zlen m - 16 =? (zlen m / 16 - 1) * 16) with (zlen m =? zlen m / 16 * 16) by lia.
  destruct (_ =? _); auto. rewrite zdrop2 by lia. do 2 f_equal. lia.
Qed.
Lemma chunks_facts (m : list Z) : concat (chunks 16 m) = m /\ zlen (chunks 16 m) = (zlen m + 15) / 16.
Proof.
  assert (H : forall n (m : list Z), (length m <= n)%nat -> concat (chunks 16 m) = m /\ zlen (chunks 16 m) = (zlen m + 15) / 16).
  { clear m. induction n as [|n IH]; intros m L.
    - destruct m; [|cbn in L; lia]. split; reflexivity.
    - destruct (Z.lt_ge_cases (zlen m) 16) as [S|S].
      + unfold chunks. cbv zeta. rewrite chunks_exact_short by lia. pose proof (zlen_nonneg m). replace (zlen m / 16) with 0 by lia.
        cbn [app]. destruct (zlen m =? 0 * 16) eqn:E.
        * rewrite (zlen_0_nil m) by lia. split; reflexivity.
        * change (zdrop (0 * 16) m) with m. cbn [concat]. rewrite app_nil_r. split; auto. change (zlen [m]) with 1. lia.
      + rewrite chunks_cons16 by auto. destruct (IH (zdrop 16 m)) as [E1 E2].
        { pose proof (zlen_zdrop 16 m). unfold zlen in *. lia. }
        cbn [concat]. rewrite E1, ztake_zdrop. split; auto. rewrite zlen_cons, E2, zlen_zdrop by lia. lia. }
  apply (H (length m)). lia.
Qed.

(** counting: a list whose elements take few values under [f], each of them few times, is short *)
Lemma few_classes {A} (f : A -> Z) n : forall ks l, Forall (fun x => In (f x) ks) l ->
  (forall k, In k ks -> forall l', incl l' l -> (NoDup l -> NoDup l') -> Forall (fun x => f x = k) l' -> (length l' <= n)%nat) ->
  (length l <= length ks * n)%nat.
Proof.
  induction ks as [|k ks IH]; intros l F H.
  - destruct l; [cbn; lia|]. inversion F as [|? ? []].
  - pose (a := filter (fun x => f x =? k) l). pose (b := filter (fun x => negb (f x =? k)) l).
    assert (E : length l = (length a + length b)%nat).
    { unfold a, b. clear. induction l as [|x l IH]; [reflexivity|]. cbn [filter]. destruct (f x =? k); cbn [negb length]; lia. }
    assert (La : (length a <= n)%nat).
    { apply (H k); [now left|intros x I; apply filter_In in I; tauto|apply NoDup_filter|].
      apply Forall_forall. intros x I. apply filter_In in I. lia. }
    assert (Lb : (length b <= length ks * n)%nat).
    { apply IH.
      - rewrite Forall_forall in *. intros x I. apply filter_In in I. destruct I as [I N]. destruct (F x I) as [E0|]; auto. lia.
      - intros k' I l' In' Nd' Fl. apply (H k'); [now right| |intros; apply Nd'; now apply NoDup_filter|auto].
        intros x Ix. apply In' in Ix. apply filter_In in Ix. tauto. }
    cbn [length]. lia.
Qed.

(** one exact difference: at most as many r as blocks *)
Lemma exact_bound m m' d rs : bytes m -> bytes m' -> m <> m' -> NoDup rs ->
  Forall (fun r => 0 <= r < P1305 /\ poly1305_acc r (chunks 16 m) - poly1305_acc r (chunks 16 m') = d) rs ->
  (length rs <= Nat.max (length (chunks 16 m)) (length (chunks 16 m')))%nat.
Proof.
  intros B B' N ND F. set (a := rev (map bval (chunks 16 m))). set (b := rev (map bval (chunks 16 m'))).
  assert (HP : 0 < P1305) by (rewrite P1305_val; lia).
  enough (L : (length rs < length (- d :: psub a b))%nat).
  { cbn [length] in L. rewrite psub_length in L. unfold a, b in L. rewrite !rev_length, !map_length in L. lia. }
  apply (prime_root_bound P1305 P1305_prime _ (- d :: psub a b) rs eq_refl); auto.
  - intros D. inversion D as [|? ? _ D1]; subst. apply N.
    assert (E : a = b).
    { apply (psub_zero P1305); auto; unfold a, b; apply Forall_rev; apply Forall_map;
        (eapply Forall_impl; [|apply chunks_blk; assumption]); intros; now apply bval_range. }
    unfold a, b in E. apply (f_equal (@rev Z)) in E. rewrite !rev_involutive in E. apply map_bval_inj in E; auto using chunks_blk.
    apply (f_equal (@concat Z)) in E. now rewrite (proj1 (chunks_facts m)), (proj1 (chunks_facts m')) in E.
  - eapply Forall_impl; [|exact F]. cbv beta. tauto.
  - eapply Forall_impl; [|exact F]. intros r (_ & E). cbn [pev]. rewrite pev_psub.
    pose proof (acc_pev r (chunks 16 m)) as H1. pose proof (acc_pev r (chunks 16 m')) as H2. fold a in H1. fold b in H2. subst d.
    replace (_ + _) with ((poly1305_acc r (chunks 16 m') - r * pev b r) - (poly1305_acc r (chunks 16 m) - r * pev a r)) by ring.
    now apply Z.divide_sub_r.
Qed.

(** differences modulo 2^128: eight times as many *)
Lemma diff_bound m m' d rs : bytes m -> bytes m' -> m <> m' -> NoDup rs -> 0 <= d < 2 ^ 128 ->
  Forall (fun r => 0 <= r < P1305 /\ (poly1305_acc r (chunks 16 m) - poly1305_acc r (chunks 16 m')) mod 2 ^ 128 = d) rs ->
  (length rs <= 8 * Nat.max (length (chunks 16 m)) (length (chunks 16 m')))%nat.
Proof.
  intros B B' N ND Hd F. set (f := fun r => poly1305_acc r (chunks 16 m) - poly1305_acc r (chunks 16 m')).
  apply (few_classes f _ (map (fun k => d + k * 2 ^ 128) [-4; -3; -2; -1; 0; 1; 2; 3])).
  - eapply Forall_impl; [|exact F]. intros r (_ & E). fold (f r) in E.
    assert (R : - 2 ^ 130 < f r < 2 ^ 130).
    { unfold f. pose proof (acc_range r (chunks 16 m)). pose proof (acc_range r (chunks 16 m')).
      assert (P1305 < 2 ^ 130) by (rewrite P1305_val; reflexivity). lia. }
    apply in_map_iff. exists (f r / 2 ^ 128). split; [lia|].
    assert (-4 <= f r / 2 ^ 128 < 4) by lia. cbn [In]. lia.
  - intros k _ l' I Nd Fl. apply (exact_bound m m' k); auto. rewrite Forall_forall in *. intros r Ir. split; [apply F; auto|].
    now apply Fl.
Qed.

Lemma clamp_range x : 0 <= clamp x < 2 ^ 128.
Proof.
  unfold clamp. replace (Z.land x 0x0ffffffc0ffffffc0ffffffc0fffffff) with ((Z.land x 0x0ffffffc0ffffffc0ffffffc0fffffff) mod 2 ^ 128).
  - apply Z.mod_pos_bound. lia.
  - rewrite <- Z.land_ones by lia. rewrite <- Z.land_assoc. f_equal.
Qed.

(** the second half of the one-time key cancels *)
Lemma mac_bound m T m' T' (ks : list (list Z)) : bytes m -> bytes m' -> m <> m' ->
  Forall (fun k => poly1305_mac k m = T /\ poly1305_mac k m' = T') ks ->
  NoDup (map (fun k => clamp (le_val (ztake 16 k))) ks) ->
  zlen ks <= 8 * Z.max ((zlen m + 15) / 16) ((zlen m' + 15) / 16).
Proof.
  intros B B' N F ND. rewrite <- (proj2 (chunks_facts m)), <- (proj2 (chunks_facts m')).
  enough (L : (length (map (fun k => clamp (le_val (ztake 16 k))) ks) <= 8 * Nat.max (length (chunks 16 m)) (length (chunks 16 m')))%nat).
  { rewrite map_length in L. unfold zlen. lia. }
  apply (diff_bound m m' ((le_val T - le_val T') mod 2 ^ 128)); auto; [apply Z.mod_pos_bound; lia|].
  apply Forall_map. eapply Forall_impl; [|exact F]. intros k (E1 & E2). cbv beta.
  set (r := clamp _). split.
  { pose proof (clamp_range (le_val (ztake 16 k))). fold r in H. assert (2 ^ 128 < P1305) by (rewrite P1305_val; reflexivity). lia. }
  unfold poly1305_mac in E1, E2. cbv zeta in E1, E2. fold r in E1, E2.
  apply (f_equal le_val) in E1. apply (f_equal le_val) in E2. rewrite le_val_le_bytes in E1, E2.
  change (256 ^ Z.of_nat 16) with (2 ^ 128) in *. rewrite <- E1, <- E2.
  rewrite <- Zminus_mod. f_equal. ring.
Qed.

(** the data the AEAD authenticates determines the associated data and the ciphertext *)
Lemma zlen_pad16 x : zlen (x ++ pad16 x) = (zlen x + 15) / 16 * 16.
Proof. pose proof (zlen_nonneg x). rewrite zlen_app. unfold pad16, zlen at 2. rewrite repeat_length. lia. Qed.
Lemma zlen_mac_data A C : zlen (mac_data A C) = ((zlen A + 15) / 16 + (zlen C + 15) / 16 + 1) * 16.
Proof.
  unfold mac_data. rewrite app_assoc, (app_assoc C), !zlen_app. rewrite <- (zlen_app A), <- (zlen_app C), !zlen_pad16, !zlen_le_bytes. lia.
Qed.
Lemma app_inj_len {X} (a b c d : list X) : length a = length c -> a ++ b = c ++ d -> a = c /\ b = d.
Proof. revert c. induction a as [|x a IH]; intros [|y c] L E; try discriminate; auto. injection E as -> E. injection L as L. destruct (IH c L E). now subst. Qed.
Lemma app_inj_tail_len {X} (a b c d : list X) : length b = length d -> a ++ b = c ++ d -> a = c /\ b = d.
Proof. intros L E. apply app_inj_len; auto. apply (f_equal (@length X)) in E. rewrite !app_length in E. lia. Qed.
Lemma mac_data_inj A C A' C' : zlen A < 2 ^ 64 -> zlen C < 2 ^ 64 -> zlen A' < 2 ^ 64 -> zlen C' < 2 ^ 64 ->
  mac_data A C = mac_data A' C' -> A = A' /\ C = C'.
Proof.
  intros LA LC LA' LC' E.
  assert (Q : forall A C, mac_data A C = ((A ++ pad16 A ++ C ++ pad16 C) ++ le_bytes 8 (zlen A)) ++ le_bytes 8 (zlen C)).
  { intros. unfold mac_data. now rewrite <- !app_assoc. }
  rewrite !Q in E. clear Q.
  pose proof (zlen_nonneg A). pose proof (zlen_nonneg C). pose proof (zlen_nonneg A'). pose proof (zlen_nonneg C').
  assert (V : forall x y, 0 <= x < 2 ^ 64 -> 0 <= y < 2 ^ 64 -> le_bytes 8 x = le_bytes 8 y -> x = y).
  { intros x y Hx Hy Q. apply (f_equal le_val) in Q. rewrite !le_val_le_bytes in Q. change (256 ^ Z.of_nat 8) with (2 ^ 64) in Q.
    rewrite !Z.mod_small in Q by lia. exact Q. }
  apply app_inj_tail_len in E; [|now rewrite !le_bytes_length]. destruct E as [E EC]. apply V in EC; try lia.
  apply app_inj_tail_len in E; [|now rewrite !le_bytes_length]. destruct E as [E EA]. apply V in EA; try lia.
  apply app_inj_len in E; [|unfold zlen in EA; lia]. destruct E as [-> E].
  apply app_inj_len in E; [|reflexivity]. destruct E as [_ E].
  apply app_inj_len in E; [|unfold zlen in EC; lia]. now destruct E.
Qed.
Lemma bytes_mac_data A C : bytes A -> bytes C -> bytes (mac_data A C).
Proof.
  intros. unfold mac_data. assert (P : forall x, bytes (pad16 x)) by (intros; apply bytes_repeat; unfold byte_ok; lia).
  repeat (apply bytes_app; split); auto using le_bytes_bytes.
Qed.
