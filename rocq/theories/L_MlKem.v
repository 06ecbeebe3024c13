(** The vector arithmetic of ML-KEM against FIPS 203. *)
Require Import Verif.Base Verif.L_Base Verif.L_Blocks Verif.S_MlKem Verif.M_MlKem Verif.S_MlKemAsm Verif.L_MlKemEnc.
Require Import ZifyNat Permutation.
Ltac sp := repeat match goal with |- _ /\ _ => split end.

Definition zip2 (f : Z -> Z -> Z) (x y : list Z) : list Z := map (fun '(s, t) => f s t) (combine x y).
Lemma zip_update_ok (op : Z -> Z -> Z) x y : Forall2 (fun s t => i16 (op s t)) x y ->
  zip_update (fun s t => i16_ck (op s t)) x y = Ok (zip2 op x y).
Proof.
  induction 1 as [|s t x y H F IH]; [reflexivity|]. cbn [zip_update]. unfold i16_ck at 1.
  replace (_ && _) with true by (unfold i16 in H; lia). cbn [bind]. rewrite IH. reflexivity.
Qed.
Lemma Forall2_bounds {A} (P Q : A -> Prop) (R : A -> A -> Prop) x y : (forall s t, P s -> Q t -> R s t) -> length x = length y -> Forall P x -> Forall Q y -> Forall2 R x y.
Proof.
  intros H. revert y. induction x as [|s x IH]; intros [|t y] L Hx Hy; try discriminate; constructor; inversion_clear Hx; inversion_clear Hy; auto.
Qed.
Lemma zip2_len f x y : length x = length y -> length (zip2 f x y) = length x.
Proof. intros. unfold zip2. rewrite map_length, combine_length. lia. Qed.
Lemma combine_app {A B} (a b : list A) (c d : list B) : length a = length c -> combine (a ++ b) (c ++ d) = combine a c ++ combine b d.
Proof. revert c. induction a as [|x a IH]; intros [|y c] H; try discriminate; auto. cbn. f_equal. apply IH. cbn in H. lia. Qed.
Lemma zip2_concat f xs ys : Forall2 (fun x y => length x = length y) xs ys -> zip2 f (concat xs) (concat ys) = concat (map (fun '(x, y) => zip2 f x y) (combine xs ys)).
Proof. induction 1 as [|x y xs ys L F IH]; [reflexivity|]. cbn [concat combine map]. unfold zip2 in *. rewrite combine_app by auto. rewrite map_app, IH. reflexivity. Qed.

(** ** congruence *)
Lemma congr_refl a : congr a a. Proof. induction a; constructor; auto. Qed.
Lemma congr_len a b : congr a b -> length a = length b. Proof. induction 1; cbn; auto. Qed.
Lemma congr_trans a b c : congr a b -> congr b c -> congr a c.
Proof. intros H. revert c. induction H; intros c H2; inversion H2; subst; constructor; auto; [congruence|apply IHForall2; auto]. Qed.
Lemma congr_sym a b : congr a b -> congr b a. Proof. induction 1; constructor; auto. Qed.
Lemma congr_map k a b : congr a b -> congr (map (fun x => k * x) a) (map (fun x => k * x) b).
Proof. induction 1; cbn; constructor; auto. rewrite Z.mul_mod, H, <- Z.mul_mod by (unfold q; lia). reflexivity. Qed.
Lemma congr_unscale k l a b : (k * l) mod q = 1 -> congr (map (fun x => k * x) a) b -> congr a (map (fun x => l * x) b).
Proof.
  intros Hk H. apply congr_map with (k := l) in H. rewrite map_map in H. eapply congr_trans; [|exact H]. clear H.
  induction a as [|x a IH]; cbn; constructor; auto. rewrite Z.mul_assoc, (Z.mul_comm l k), Z.mul_mod, Hk, Z.mul_1_l, Z.mod_mod by (unfold q; lia). reflexivity.
Qed.
Lemma congr_mod a : congr (map (fun x => x mod q) a) a.
Proof. induction a; constructor; auto. apply Z.mod_mod. unfold q; lia. Qed.
Lemma congr_canon a b : congr a b -> canon b -> map (fun x => x mod q) a = b.
Proof.
  induction 1 as [|x y a b H F IH]; intros HC; cbn; auto. inversion_clear HC. f_equal; auto. rewrite H. apply Z.mod_small. auto.
Qed.
Lemma canon_poly f : canon (poly f).
Proof. unfold canon, poly. apply Forall_map, Forall_forall. intros. apply Z.mod_pos_bound. unfold q; lia. Qed.
Lemma poly_len f : length (poly f) = n256.
Proof. unfold poly. rewrite map_length, seq_length. reflexivity. Qed.
Lemma coef_poly f i : (i < n256)%nat -> coef (poly f) i = f i mod q.
Proof.
  intros H. unfold coef, poly. rewrite (nth_indep _ 0 ((fun i => f i mod q) 0%nat)) by (rewrite map_length, seq_length; auto).
  rewrite (map_nth (fun i => f i mod q)), seq_nth by auto. reflexivity.
Qed.
Lemma coef_map k F i : coef (map (fun x => k * x) F) i = k * coef F i.
Proof. unfold coef. replace 0 with (k * 0) at 1 by lia. apply (map_nth (fun x => k * x)). Qed.
Lemma zsum_ext m f g : (forall i, (i < m)%nat -> f i = g i) -> zsum m f = zsum m g.
Proof. induction m; intros H; cbn; auto. rewrite IHm, H; auto. Qed.
Lemma zsum_scale m k f : zsum m (fun i => k * f i) = k * zsum m f.
Proof. induction m; cbn; [lia|]. rewrite IHm. lia. Qed.
Lemma zsum_scale_l m k f : zsum m (fun i => f i * k) = zsum m f * k.
Proof. induction m; cbn; [lia|]. rewrite IHm. lia. Qed.

(** ** placement *)
Lemma place_map k o f : place o (map (fun x => k * x) f) = map (fun x => k * x) (place o f).
Proof. unfold place. rewrite map_map. apply map_ext. intros i. apply (coef_map k f i). Qed.
Lemma place_len o f : length (place o f) = length o. Proof. apply map_length. Qed.
Definition nat_order : list nat := seq 0 n256.
Lemma place_nat f : length f = n256 -> place nat_order f = f.
Proof.
  intros H. unfold place, nat_order. apply nth_ext with (d := (fun i => nth i f 0) 0%nat) (d' := 0).
  - rewrite map_length, seq_length. auto.
  - rewrite map_length, seq_length. intros i Hi. rewrite (map_nth (fun i => nth i f 0)), seq_nth by auto. reflexivity.
Qed.
Definition order_ok (o : list nat) : Prop := length o = n256 /\ Forall (fun i => (i < n256)%nat) o.
Lemma order_is o : is_order o -> order_ok o.
Proof.
  intros H. split. - rewrite (Permutation_length H), seq_length. reflexivity.
  - apply Forall_forall. intros i Hi. apply (Permutation_in _ H), in_seq in Hi. lia.
Qed.
Lemma order_nat : order_ok nat_order. Proof. apply order_is. unfold is_order, nat_order. apply Permutation_refl. Qed.
Lemma place_canon o f : canon f -> canon (place o f).
Proof. intros H. unfold canon, place. apply Forall_map, Forall_forall. intros i _. destruct (nth_in_or_default i f 0) as [Hi| ->]; [|unfold q; lia]. unfold canon in H. rewrite Forall_forall in H. auto. Qed.
Lemma place_bound o f (P : Z -> Prop) : P 0 -> Forall P f -> Forall P (place o f).
Proof. intros H0 H. unfold place. apply Forall_map, Forall_forall. intros i _. destruct (nth_in_or_default i f 0) as [Hi| ->]; auto. rewrite Forall_forall in H. auto. Qed.
Lemma place_mod o f : place o (map (fun x => x mod q) f) = map (fun x => x mod q) (place o f).
Proof. unfold place. rewrite map_map. apply map_ext. intros i. change 0 with (0 mod q) at 1. apply (map_nth (fun x => x mod q)). Qed.

(** ** polynomials held by the model: [c] holds [f] in order [o], entries satisfying [P] *)
Definition rel (o : list nat) (P : Z -> Prop) (c f : list Z) : Prop :=
  length f = n256 /\ Forall P c /\ congr c (place o f).
Lemma rel_len o P c f : order_ok o -> rel o P c f -> length c = n256.
Proof. intros [L _] (_ & _ & C). rewrite (congr_len _ _ C), place_len. auto. Qed.
Lemma rel_weaken o (P Q : Z -> Prop) c f : (forall x, P x -> Q x) -> rel o P c f -> rel o Q c f.
Proof. intros H (A & B & C). unfold rel; sp; auto. eapply Forall_impl; eauto. Qed.
Definition below (b x : Z) : Prop := - b < x < b.
Definition in_q (x : Z) : Prop := 0 <= x < q.
Lemma rel_exact o f : length f = n256 -> canon f -> rel o in_q (place o f) f.
Proof. intros. unfold rel; sp; auto. - apply place_canon; auto. - apply congr_refl. Qed.
Lemma rel_zip o op spec P Q c d f g : order_ok o ->
  (forall x y x' y', x mod q = x' mod q -> y mod q = y' mod q -> op x y mod q = op x' y' mod q) ->
  spec = poly (fun i => op (coef f i) (coef g i)) -> rel o P c f -> rel o Q d g -> congr (zip2 op c d) (place o spec).
Proof.
  intros [_ O] Hop -> (Lf & _ & C) (Lg & _ & D). unfold place in *. revert c d C D. induction O as [|i o Hi O IH]; intros c d C D; inversion C; inversion D; subst; [constructor|].
  unfold zip2 in *. cbn [combine map]. constructor.
  - fold (coef (poly (fun i => op (coef f i) (coef g i))) i). rewrite coef_poly, Z.mod_mod by (auto; unfold q; lia). apply Hop; auto.
  - apply IH; auto.
Qed.
Lemma add_congr x y x' y' : x mod q = x' mod q -> y mod q = y' mod q -> (x + y) mod q = (x' + y') mod q.
Proof. intros. rewrite Z.add_mod, H, H0, <- Z.add_mod by (unfold q; lia). reflexivity. Qed.
Lemma sub_congr x y x' y' : x mod q = x' mod q -> y mod q = y' mod q -> (x - y) mod q = (x' - y') mod q.
Proof. intros. rewrite Zminus_mod, H, H0, <- Zminus_mod. reflexivity. Qed.

(** vectors *)
Definition vrel (o : list nat) (P : Z -> Prop) (cs fs : list (list Z)) : Prop := Forall2 (rel o P) cs fs.
Lemma vrel_lens o P cs fs : order_ok o -> vrel o P cs fs -> Forall (fun c => zlen c = N) cs.
Proof. intros Ho. induction 1; constructor; auto. pose proof (rel_len _ _ _ _ Ho H). unfold zlen, n256 in *. change N with 256. lia. Qed.
Lemma vrel_chunks o P cs fs : order_ok o -> vrel o P cs fs -> chunks_exact N (concat cs) = cs.
Proof. intros Ho H. apply chunks_concat; [reflexivity|]. eapply vrel_lens; eauto. Qed.
Lemma vrel_Forall o P cs fs : vrel o P cs fs -> Forall P (concat cs).
Proof. induction 1 as [|c f cs fs (_ & H & _) F IH]; cbn; [constructor|]. apply Forall_app; auto. Qed.
Lemma vrel_exact o fs : Forall (fun f => length f = n256 /\ canon f) fs -> vrel o in_q (map (place o) fs) fs.
Proof. induction 1 as [|f fs [L C] F IH]; constructor; auto. apply rel_exact; auto. Qed.
Lemma vrel_weaken o (P Q : Z -> Prop) cs fs : (forall x, P x -> Q x) -> vrel o P cs fs -> vrel o Q cs fs.
Proof. intros H. induction 1; constructor; auto. eapply rel_weaken; eauto. Qed.

Section Arith.
Variable a : asm.
Variable ord : list nat.
Hypothesis Ha : asm_ok ord a.
Let Ho : order_ok ord := order_is ord (ok_order ord a Ha).

Lemma reduce_flat cs fs o : order_ok o -> vrel o i16 cs fs -> reduce_in_place a (concat cs) = concat (map (map (fun x => x mod q)) cs).
Proof.
  intros Oo H. unfold reduce_in_place. rewrite (vrel_chunks o i16 cs fs) by auto. f_equal. apply map_ext_in. intros c Hc. apply (ok_reduce ord a Ha).
  clear Ho. induction H; [destruct Hc|destruct Hc as [<-|Hc]; auto]. split; [eapply rel_len; eauto|apply H].
Qed.
Lemma reduce_rel o cs fs : order_ok o -> vrel o i16 cs fs -> Forall canon fs -> reduce_in_place a (concat cs) = concat (map (place o) fs).
Proof.
  intros Oo H HC. rewrite (reduce_flat cs fs o) by auto. f_equal. induction H as [|c f cs fs (L & B & C) F IH]; cbn [map]; auto. inversion_clear HC.
  f_equal; auto. apply congr_canon; auto. apply place_canon; auto.
Qed.

(** addition and subtraction of vectors *)
Definition vec_op (op : Z -> Z -> Z) (x y : list (list Z)) : list (list Z) := map (fun '(f, g) => poly (fun i => op (coef f i) (coef g i))) (combine x y).
Lemma vrel_zip o op b1 b2 cs ds fs gs : order_ok o ->
  (forall x y x' y', x mod q = x' mod q -> y mod q = y' mod q -> op x y mod q = op x' y' mod q) ->
  (forall x y, below b1 x -> below b2 y -> i16 (op x y)) ->
  vrel o (below b1) cs fs -> vrel o (below b2) ds gs -> length cs = length ds ->
  exists es, zip_update (fun s t => i16_ck (op s t)) (concat cs) (concat ds) = Ok (concat es) /\ vrel o i16 es (vec_op op fs gs).
Proof.
  intros Oo Hop Hb Hc Hd HL. exists (map (fun '(x, y) => zip2 op x y) (combine cs ds)).
  assert (LL : Forall2 (fun x y => length x = length y) cs ds).
  { clear Ho. revert ds gs Hd HL. induction Hc as [|c f cs fs Hc Fc IH]; intros ds gs Hd HL; destruct Hd as [|d g ds gs Hd Fd]; try discriminate; constructor.
    - rewrite (rel_len _ _ _ _ Oo Hc), (rel_len _ _ _ _ Oo Hd). auto. - eapply IH; eauto. }
  split.
  - rewrite zip_update_ok. + f_equal. apply zip2_concat. auto.
    + apply (Forall2_bounds (below b1) (below b2)); auto; try (eapply vrel_Forall; eauto).
      clear -LL. induction LL; cbn; auto. rewrite !app_length. lia.
  - clear LL Ho. revert ds gs Hd HL. induction Hc as [|c f cs fs Hc Fc IH]; intros ds gs Hd HL; destruct Hd as [|d g ds gs Hd Fd]; try discriminate; unfold vec_op; cbn [combine map]; constructor.
    + unfold rel. sp. * apply poly_len.
      * assert (X : Forall2 (fun s t => i16 (op s t)) c d).
        { apply (Forall2_bounds (below b1) (below b2)); auto; [|apply Hc|apply Hd]. rewrite (rel_len _ _ _ _ Oo Hc), (rel_len _ _ _ _ Oo Hd). auto. }
        clear -X. unfold zip2. induction X; cbn; constructor; auto.
      * eapply rel_zip; eauto.
    + apply (IH ds gs); auto.
Qed.
Lemma vec_op_canon op x y : Forall canon (vec_op op x y).
Proof. unfold vec_op. apply Forall_map, Forall_forall. intros [f g] _. apply canon_poly. Qed.
Lemma coeffs_add_ok o b1 b2 cs ds fs gs : order_ok o -> b1 + b2 <= 2 ^ 15 -> vrel o (below b1) cs fs -> vrel o (below b2) ds gs -> length cs = length ds ->
  coeffs_add a (concat cs) (concat ds) = Ok (concat (map (place o) (vec_add fs gs))).
Proof.
  intros Oo Hb Hc Hd HL. destruct (vrel_zip o Z.add b1 b2 cs ds fs gs Oo add_congr ltac:(unfold below, i16; intros; lia) Hc Hd HL) as (es & E & R).
  unfold coeffs_add. rewrite E. cbn [bind]. f_equal. rewrite (reduce_rel o es _ Oo R) by apply vec_op_canon. reflexivity.
Qed.
Lemma coeffs_sub_ok o b1 b2 c d f g : order_ok o -> b1 + b2 <= 2 ^ 15 -> rel o (below b1) c f -> rel o (below b2) d g ->
  coeffs_sub a c d = Ok (place o (poly_sub f g)).
Proof.
  intros Oo Hb Hc Hd.
  destruct (vrel_zip o Z.sub b1 b2 [c] [d] [f] [g] Oo sub_congr ltac:(unfold below, i16; intros; lia)) as (es & E & R); try (constructor; [auto|constructor]); auto.
  cbn [concat] in E. rewrite !app_nil_r in E. unfold coeffs_sub. rewrite E. cbn [bind]. f_equal. rewrite (reduce_rel o es _ Oo R) by apply vec_op_canon.
  cbn. rewrite app_nil_r. reflexivity.
Qed.
Lemma coeffs_add1_ok o b1 b2 c d f g : order_ok o -> b1 + b2 <= 2 ^ 15 -> rel o (below b1) c f -> rel o (below b2) d g ->
  coeffs_add a c d = Ok (place o (poly_add f g)).
Proof.
  intros Oo Hb Hc Hd. pose proof (coeffs_add_ok o b1 b2 [c] [d] [f] [g] Oo Hb) as X. cbn [concat vec_add combine map] in X.
  rewrite !app_nil_r in X. apply X; auto; constructor; auto; constructor.
Qed.

(** transforms *)
Lemma ntt_vec_ok cs : Forall (fun c => length c = n256 /\ Forall (below q) c) cs ->
  exists ds, coeffs_ntt a (concat cs) = concat ds /\ vrel ord (below (8 * q)) ds (map (fun c => NTT (map (fun x => x mod q) c)) cs).
Proof.
  intros H. exists (map (a_ntt a) cs). split.
  - unfold coeffs_ntt. rewrite chunks_concat; auto. reflexivity. eapply Forall_impl; [|exact H]. cbn. intros c [L _]. unfold zlen. rewrite L. reflexivity.
  - clear Ho. induction H as [|c cs [L B] F IH]; constructor; auto. destruct (ok_ntt ord a Ha c L B) as [C1 C2]. split; [apply poly_len|split; [exact C2|exact C1]].
Qed.
Lemma inv169 : (2 ^ 16 * 169) mod q = 1. Proof. reflexivity. Qed.
Lemma intt_rel r f : i16s r -> length f = n256 -> congr (map (fun x => 2 ^ 16 * x) r) (place ord f) ->
  rel nat_order (below (8 * q)) (a_intt a r) (NTT_inv f).
Proof.
  intros Hr Lf C. apply (congr_unscale _ 169 _ _ inv169) in C. rewrite <- place_map in C.
  destruct (ok_intt ord a Ha (map (fun x => 169 * x) f) r) as [D1 D2]; auto. { rewrite map_length; auto. }
  split; [apply poly_len|]. split; [exact D2|]. rewrite place_nat by apply poly_len. eapply congr_trans; [exact D1|].
  unfold NTT_inv, poly. rewrite map_map. clear. induction (seq 0 n256) as [|i l IH]; cbn [map]; constructor; auto. clear.
  rewrite Z.mod_mod by (unfold q; lia). rewrite Z.mul_mod_idemp_r by (unfold q; lia).
  rewrite (zsum_ext 128 _ (fun b => 169 * (coef f (2 * b + i mod 2) * zeta_inv ^ (root_exp b * Z.of_nat (i / 2))))).
  2:{ intros b _. rewrite coef_map. lia. }
  rewrite zsum_scale. set (X := zsum _ _). replace (2 ^ 16 * (3303 * (169 * X))) with ((2 ^ 16 * 169) * (3303 * X)) by lia.
  rewrite Z.mul_mod, inv169, Z.mul_1_l, Z.mod_mod by (unfold q; lia). reflexivity.
Qed.
Lemma basemul_ok cs fs ds gs : length fs = k3 -> vrel ord in_q cs fs -> length gs = k3 -> vrel ord (below (8 * q)) ds gs ->
  let r := a_basemul a (concat cs) (concat ds) (mul_cache a (concat ds)) in i16s r /\ congr (map (fun x => 2 ^ 16 * x) r) (place ord (dot fs gs)).
Proof.
  intros Lf Hf Lg Hg. unfold mul_cache. rewrite (vrel_chunks ord (below (8 * q)) ds gs Ho Hg). apply (ok_basemul ord a Ha); auto.
  - clear -Hf Ho. induction Hf as [|c f cs fs R F IH]; constructor; auto. pose proof (rel_len _ _ _ _ Ho R) as L. destruct R as (L1 & B & C).
    unfold rel; sp; auto. + split; auto. eapply Forall_impl; [|exact B]. unfold in_q, i16, q. intros; cbn; lia. + eapply Forall_impl; [|exact B]. unfold in_q, q. cbn. intros; lia.
  - clear -Hg Ho. induction Hg as [|c f cs fs R F IH]; constructor; auto. pose proof (rel_len _ _ _ _ Ho R) as L. destruct R as (L1 & B & C).
    unfold rel; sp; auto. split; auto. eapply Forall_impl; [|exact B]. unfold below, i16, q. intros; cbn; lia.
Qed.
Lemma dot_len fs gs : length (dot fs gs) = n256.
Proof. unfold dot. destruct (combine fs gs) as [|[f g] r]; apply poly_len. Qed.
Lemma dot_canon fs gs : canon (dot fs gs).
Proof. unfold dot. destruct (combine fs gs) as [|[f g] r]; apply canon_poly. Qed.
Lemma vec_mul_ok cs fs ds gs : length fs = k3 -> vrel ord in_q cs fs -> length gs = k3 -> vrel ord (below (8 * q)) ds gs ->
  rel nat_order (below (8 * q)) (vec_mul_and_inverse_ntt a (concat cs) (concat ds)) (NTT_inv (dot fs gs)).
Proof.
  intros Lf Hf Lg Hg. destruct (basemul_ok cs fs ds gs Lf Hf Lg Hg) as [B1 B2]. unfold vec_mul_and_inverse_ntt. apply intt_rel; auto. apply dot_len.
Qed.

(** matrices: rows of polynomials *)
Definition mat_ok (A : list (list (list Z))) : Prop := Forall (fun row => length row = k3 /\ Forall (fun f => length f = n256 /\ canon f) row) A.
Lemma row_chunks A : mat_ok A -> chunks_exact (K * N) (concat (map (place ord) (concat A))) = map (fun row => concat (map (place ord) row)) A.
Proof.
  intros H. replace (concat (map (place ord) (concat A))) with (concat (map (fun row => concat (map (place ord) row)) A)).
  2:{ clear. induction A; cbn; auto. rewrite map_app, concat_app, IHA. reflexivity. }
  apply chunks_concat; [reflexivity|]. apply Forall_map. eapply Forall_impl; [|exact H]. cbn beta. intros row [L _].
  destruct row as [|f0 [|f1 [|f2 [|]]]]; try discriminate L. cbn [map concat]. unfold zlen. rewrite !app_length, !place_len. cbn [length]. destruct Ho as [-> _]. reflexivity.
Qed.
Lemma map_res_Forall2 {A B} (f : A -> res B) (R : A -> B -> Prop) l r : Forall2 (fun x y => f x = Ok y /\ R x y) l r -> map_res f l = Ok r.
Proof. induction 1 as [|x y l r [E _] F IH]; cbn [map_res]; [reflexivity|]. rewrite E. cbn [bind]. rewrite IH. reflexivity. Qed.
Lemma mul_add_ok A ss s es e : mat_ok A -> length s = k3 -> vrel ord (below (8 * q)) ss s -> vrel ord (below (8 * q)) es e -> length A = length es ->
  mul_add a (concat (map (place ord) (concat A))) (concat ss) (concat es) = Ok (concat (map (place ord) (vec_add (mat_vec A s) e))).
Proof.
  intros HA Ls Hs He HL. unfold mul_add. rewrite row_chunks by auto. rewrite (vrel_chunks ord (below (8 * q)) es e Ho He). cbv zeta.
  match goal with |- context [map_res ?g _] => set (F := g) end.
  assert (X : exists rows, map_res F (combine (map (fun row => concat (map (place ord) row)) A) es) = Ok rows /\ vrel ord i16 rows (vec_add (mat_vec A s) e)).
  { revert es e He HL. induction HA as [|row A [Lr Hr] HA IH]; intros es e He HL; destruct He as [|e' e0 es e Re He]; try discriminate HL.
    - exists []. split; [reflexivity|constructor].
    - cbn [map combine map_res]. unfold F at 1.
      destruct (basemul_ok (map (place ord) row) row ss s Lr (vrel_exact ord row Hr) Ls Hs) as [B1 B2].
      set (r := a_basemul a _ _ _) in *. destruct (ok_tomont ord a Ha r B1) as [T1 T2].
      assert (RT : rel ord (below q) (a_tomont a r) (dot row s)).
      { split; [apply dot_len|]. split; [exact T2|]. eapply congr_trans; eauto. }
      destruct (vrel_zip ord Z.add (8 * q) q [e'] [a_tomont a r] [e0] [dot row s] Ho add_congr ltac:(unfold below, i16, q; intros; lia)) as (z & Ez & Rz);
        try (constructor; [auto|constructor]); auto.
      cbn [concat] in Ez. rewrite !app_nil_r in Ez. rewrite Ez. cbn [bind].
      destruct (IH es e He ltac:(cbn in HL; lia)) as (rows & -> & Rr). cbn [bind]. inversion Rz as [|z0 ? ? ? Rz0 Rn]; subst. inversion Rn; subst.
      cbn [concat]. rewrite app_nil_r. exists (z0 :: rows). split; [reflexivity|]. constructor; auto.
      unfold mat_vec, vec_add in *. cbn [combine map]. destruct Rz0 as (Z1 & Z2 & Z3). split; [apply poly_len|]. split; [exact Z2|].
      replace (poly_add (dot row s) e0) with (poly (fun i => coef e0 i + coef (dot row s) i)); [exact Z3|].
      unfold poly_add, poly. apply map_ext. intros. f_equal. lia. }
  destruct X as (rows & -> & R). cbn [bind]. f_equal. apply reduce_rel; auto. unfold vec_add. apply Forall_map, Forall_forall. intros [f g] _. apply canon_poly.
Qed.
Lemma mat_mul_ok A ys y : mat_ok A -> length A = k3 -> length y = k3 -> vrel ord (below (8 * q)) ys y ->
  exists us, mat_mul_and_inverse_ntt a (concat (map (place ord) (concat A))) (concat ys) = Ok (concat us) /\
    vrel nat_order (below (8 * q)) us (map NTT_inv (mat_vec A y)).
Proof.
  intros HA LA Ly Hy. unfold mat_mul_and_inverse_ntt. rewrite row_chunks by auto. cbv zeta.
  set (zp := repeat 0 256).
  replace (repeat 0 (Z.to_nat (K * N))) with (concat [zp; zp; zp]) by (unfold zp; cbn [concat]; rewrite app_nil_r, <- !repeat_app; reflexivity).
  assert (Lz : zlen zp = 256) by (unfold zp; rewrite zlen_repeat; reflexivity).
  rewrite chunks_concat by (try reflexivity; repeat (apply Forall_cons; [exact Lz|]); constructor).
  match goal with |- context [map_res ?g _] => set (F := g) end.
  assert (X : exists rows, map_res F (combine (map (fun row => concat (map (place ord) row)) A) [zp; zp; zp]) = Ok rows /\
     Forall2 (fun r row => i16s r /\ congr (map (fun x => 2 ^ 16 * x) r) (place ord (dot row y))) rows A).
  { change 3%nat with (length [zp; zp; zp]) in LA. assert (HZ : Forall (fun z => z = zp) [zp; zp; zp]) by (repeat constructor).
    unfold k3 in LA. change 3%nat with (length [zp; zp; zp]) in LA. revert LA HZ. generalize [zp; zp; zp] as zs. intros zs LA HZ. revert zs LA HZ.
    induction HA as [|row A [Lr Hr] HA IH]; intros [|z zs] LA HZ; try discriminate LA.
    - exists []. split; [reflexivity|constructor].
    - inversion_clear HZ. subst z. cbn [map combine map_res]. unfold F at 1.
      destruct (basemul_ok (map (place ord) row) row ys y Lr (vrel_exact ord row Hr) Ly Hy) as [B1 B2]. set (r := a_basemul a _ _ _) in *.
      assert (EZ : zip2 Z.add zp r = r).
      { destruct B1 as [L1 _]. unfold zp. unfold n256 in L1. revert L1. generalize 256%nat. clear. unfold zip2. induction r as [|x r IH]; intros [|n] H; try discriminate; auto. cbn [repeat combine map]. f_equal. apply IH. cbn in H. lia. }
      rewrite zip_update_ok. 2:{ apply (Forall2_bounds (fun x => x = 0) i16). - intros s t -> Ht. exact Ht. - destruct B1 as [-> _]. unfold zlen in Lz. unfold n256. lia.
         - unfold zp. apply Forall_forall. intros x Hx. apply repeat_spec in Hx. auto. - apply B1. }
      rewrite EZ. cbn [bind]. destruct (IH zs ltac:(cbn in LA; lia) ltac:(auto)) as (rows & -> & R). cbn [bind]. exists (r :: rows). split; [reflexivity|]. constructor; auto. }
  destruct X as (rows & -> & R). cbn [bind]. exists (map (fun r => a_intt a (map (fun x => x mod q) r)) rows).
  assert (LN : Forall (fun r : list Z => zlen r = N) rows).
  { clear -R. induction R as [|r row rows A [[L _] _] R IH]; constructor; auto. unfold zlen. rewrite L. reflexivity. }
  assert (E1 : reduce_in_place a (concat rows) = concat (map (map (fun x => x mod q)) rows)).
  { unfold reduce_in_place. rewrite chunks_concat by (auto; reflexivity). f_equal. apply map_ext_in. intros r Hr. apply (ok_reduce ord a Ha).
    clear -R Hr. induction R as [|r' row rows A [H _] R IH]; [destruct Hr|destruct Hr as [<-|Hr]; auto]. }
  split.
  - f_equal. rewrite E1. unfold coeffs_intt. rewrite chunks_concat; try reflexivity.
    + rewrite map_map. reflexivity.
    + apply Forall_map. eapply Forall_impl; [|exact LN]. intros r H. unfold zlen in *. rewrite map_length. auto.
  - clear -R Ha. induction R as [|r row rows A [Hi Hc] R IH]; cbn [map mat_vec]; constructor; auto.
    apply intt_rel. + split; [rewrite map_length; apply Hi|]. apply Forall_map, Forall_forall. intros x _. pose proof (Z.mod_pos_bound x q ltac:(unfold q; lia)). unfold i16, q in *. lia.
    + apply dot_len. + eapply congr_trans; [|exact Hc]. apply congr_map, congr_mod.
Qed.
End Arith.
