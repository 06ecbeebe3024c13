(** The AES-NI key schedule and block function are FIPS 197. *)
Require Import Verif.Base Verif.L_Base Verif.L_Blocks Verif.L_Bits Verif.L_Hmac Verif.S_Aes Verif.M_Aes.
Require Import ZifyNat.

Definition w4 (w : list Z) : Prop := exists a b c d, w = [a; b; c; d].
Lemma w4_len w : length w = 4%nat -> w4 w.
Proof. intros. destruct w as [|a [|b [|c [|d [|]]]]]; try discriminate. now exists a, b, c, d. Qed.
Lemma w4_xor a b : w4 a -> w4 b -> w4 (xor_word a b).
Proof. intros (a0&a1&a2&a3&->) (b0&b1&b2&b3&->). now repeat eexists. Qed.
Lemma w4_sub a : w4 a -> w4 (SubWord a).
Proof. intros (a0&a1&a2&a3&->). now repeat eexists. Qed.
Lemma w4_rot a : w4 a -> w4 (RotWord a).
Proof. intros (a0&a1&a2&a3&->). now repeat eexists. Qed.
Lemma w4_rcon i : w4 (Rcon i). Proof. now repeat eexists. Qed.
#[export] Hint Resolve w4_xor w4_sub w4_rot w4_rcon : w4.

Lemma nth_end {A} (p l : list A) (k : nat) (d : A) : (0 < k <= length l)%nat ->
  nth (Z.to_nat (zlen (p ++ l) - Z.of_nat k)) (p ++ l) d = nth (length l - k) l d.
Proof.
  intros H. unfold zlen. rewrite app_length. rewrite app_nth2 by lia. f_equal. lia.
Qed.

(** the four words produced from T *)
Definition four (T a b c d : list Z) : list (list Z) :=
  let a' := xor_word a T in let b' := xor_word b a' in let c' := xor_word c b' in let d' := xor_word d c' in [a'; b'; c'; d'].

Lemma expand_app m n Nk : forall w, expand (m + n) Nk w = expand n Nk (expand m Nk w).
Proof. induction m as [|m IH]; intros; cbn [expand Nat.add]; auto. Qed.

Section Four.
Variable Nk : Z.
Hypothesis HNk : Nk = 4 \/ Nk = 8.
(** temp for the first of four words *)
Definition temp0 (i : Z) (t : list Z) : list Z :=
  if i mod Nk =? 0 then xor_word (SubWord (RotWord t)) (Rcon (i / Nk)) else SubWord t.

(** [q] is the last Nk words; a b c d the first four of these, t the last *)
Lemma next_first p q a t : zlen q = Nk -> zlen p mod 4 = 0 -> (zlen (p ++ q) mod Nk = 0 \/ (Nk = 8 /\ zlen (p ++ q) mod 8 = 4)) ->
  nth 0 q [] = a -> nth (Z.to_nat (Nk - 1)) q [] = t ->
  next_word Nk (p ++ q) = xor_word a (temp0 (zlen (p ++ q)) t).
Proof.
  intros Hq Hp Hm Ha Ht. unfold next_word, temp0.
  assert (Lq : length q = Z.to_nat Nk) by (unfold zlen in Hq; lia).
  replace (zlen (p ++ q) - 1) with (zlen (p ++ q) - Z.of_nat 1) by lia. rewrite nth_end by lia.
  replace (zlen (p ++ q) - Nk) with (zlen (p ++ q) - Z.of_nat (Z.to_nat Nk)) by lia. rewrite nth_end by lia.
  replace (length q - Z.to_nat Nk)%nat with 0%nat by lia. rewrite Ha.
  replace (length q - 1)%nat with (Z.to_nat (Nk - 1)) by lia. rewrite Ht. f_equal.
  destruct (zlen (p ++ q) mod Nk =? 0) eqn:E; auto. destruct Hm as [Hm|[-> Hm]]; [lia|].
  rewrite Hm. reflexivity.
Qed.
(** the other three *)
Lemma next_other p q a t : zlen q = Nk -> zlen (p ++ q) mod 4 <> 0 ->
  nth 0 q [] = a -> nth (Z.to_nat (Nk - 1)) q [] = t ->
  next_word Nk (p ++ q) = xor_word a t.
Proof.
  intros Hq Hm Ha Ht. unfold next_word.
  assert (Lq : length q = Z.to_nat Nk) by (unfold zlen in Hq; lia).
  replace (zlen (p ++ q) - 1) with (zlen (p ++ q) - Z.of_nat 1) by lia. rewrite nth_end by lia.
  replace (zlen (p ++ q) - Nk) with (zlen (p ++ q) - Z.of_nat (Z.to_nat Nk)) by lia. rewrite nth_end by lia.
  replace (length q - Z.to_nat Nk)%nat with 0%nat by lia. rewrite Ha.
  replace (length q - 1)%nat with (Z.to_nat (Nk - 1)) by lia. rewrite Ht. f_equal.
  assert (zlen (p ++ q) mod Nk <> 0 /\ zlen (p ++ q) mod Nk <> 4) as [A B].
  { destruct HNk as [-> | ->]; lia. }
  replace (zlen (p ++ q) mod Nk =? 0) with false by lia.
  replace (zlen (p ++ q) mod Nk =? 4) with false by lia. now rewrite andb_false_r.
Qed.
End Four.

Lemma app_assoc1 {A} (p : list A) x q : p ++ x :: q = (p ++ [x]) ++ q.
Proof. now rewrite <- app_assoc. Qed.

(** AES-128: four more words *)
Lemma expand4_128 p a b c d : zlen p mod 4 = 0 ->
  expand 4 4 (p ++ [a; b; c; d]) =
  (p ++ [a; b; c; d]) ++ four (xor_word (SubWord (RotWord d)) (Rcon (zlen p / 4 + 1))) a b c d.
Proof.
  intros Hp. set (T := xor_word _ _). unfold four.
  set (a' := xor_word a T). set (b' := xor_word b a'). set (c' := xor_word c b'). set (d' := xor_word d c').
  cbn [expand].
  assert (E1 : next_word 4 (p ++ [a; b; c; d]) = a').
  { rewrite (next_first 4 (or_introl eq_refl) p _ a d) by (auto; rewrite ?zlen_app; cbn; lia).
    unfold temp0. rewrite zlen_app. change (zlen [a; b; c; d]) with 4.
    replace ((zlen p + 4) mod 4 =? 0) with true by lia. replace ((zlen p + 4) / 4) with (zlen p / 4 + 1) by lia. reflexivity. }
  rewrite E1.
  assert (E2 : next_word 4 ((p ++ [a; b; c; d]) ++ [a']) = b').
  { replace ((p ++ [a; b; c; d]) ++ [a']) with ((p ++ [a]) ++ [b; c; d; a']) by (now rewrite <- !app_assoc).
    rewrite (next_other 4 (or_introl eq_refl) _ _ b a'); auto. rewrite !zlen_app. cbn. lia. }
  rewrite E2.
  assert (E3 : next_word 4 (((p ++ [a; b; c; d]) ++ [a']) ++ [b']) = c').
  { replace (((p ++ [a; b; c; d]) ++ [a']) ++ [b']) with ((p ++ [a; b]) ++ [c; d; a'; b']) by (now rewrite <- !app_assoc).
    rewrite (next_other 4 (or_introl eq_refl) _ _ c b'); auto. rewrite !zlen_app. cbn. lia. }
  rewrite E3.
  assert (E4 : next_word 4 ((((p ++ [a; b; c; d]) ++ [a']) ++ [b']) ++ [c']) = d').
  { replace ((((p ++ [a; b; c; d]) ++ [a']) ++ [b']) ++ [c']) with ((p ++ [a; b; c]) ++ [d; a'; b'; c']) by (now rewrite <- !app_assoc).
    rewrite (next_other 4 (or_introl eq_refl) _ _ d c'); auto. rewrite !zlen_app. cbn. lia. }
  rewrite E4. rewrite <- !app_assoc. reflexivity.
Qed.

(** AES-256: four more words, first or second half *)
Lemma expand4_256 p a b c d e f g h : zlen p mod 4 = 0 ->
  expand 4 8 (p ++ [a; b; c; d; e; f; g; h]) =
  (p ++ [a; b; c; d; e; f; g; h]) ++ four (temp0 8 (zlen p + 8) h) a b c d.
Proof.
  intros Hp. set (T := temp0 _ _ _). unfold four.
  set (a' := xor_word a T). set (b' := xor_word b a'). set (c' := xor_word c b'). set (d' := xor_word d c').
  cbn [expand].
  assert (E1 : next_word 8 (p ++ [a; b; c; d; e; f; g; h]) = a').
  { rewrite (next_first 8 (or_intror eq_refl) p _ a h) by (auto; rewrite ?zlen_app; cbn; lia).
    rewrite zlen_app. reflexivity. }
  rewrite E1.
  assert (E2 : next_word 8 ((p ++ [a; b; c; d; e; f; g; h]) ++ [a']) = b').
  { replace ((p ++ [a; b; c; d; e; f; g; h]) ++ [a']) with ((p ++ [a]) ++ [b; c; d; e; f; g; h; a']) by (now rewrite <- !app_assoc).
    rewrite (next_other 8 (or_intror eq_refl) _ _ b a'); auto. rewrite !zlen_app. cbn. lia. }
  rewrite E2.
  assert (E3 : next_word 8 (((p ++ [a; b; c; d; e; f; g; h]) ++ [a']) ++ [b']) = c').
  { replace (((p ++ [a; b; c; d; e; f; g; h]) ++ [a']) ++ [b']) with ((p ++ [a; b]) ++ [c; d; e; f; g; h; a'; b']) by (now rewrite <- !app_assoc).
    rewrite (next_other 8 (or_intror eq_refl) _ _ c b'); auto. rewrite !zlen_app. cbn. lia. }
  rewrite E3.
  assert (E4 : next_word 8 ((((p ++ [a; b; c; d; e; f; g; h]) ++ [a']) ++ [b']) ++ [c']) = d').
  { replace ((((p ++ [a; b; c; d; e; f; g; h]) ++ [a']) ++ [b']) ++ [c']) with ((p ++ [a; b; c]) ++ [d; e; f; g; h; a'; b'; c']) by (now rewrite <- !app_assoc).
    rewrite (next_other 8 (or_intror eq_refl) _ _ d c'); auto. rewrite !zlen_app. cbn. lia. }
  rewrite E4. rewrite <- !app_assoc. reflexivity.
Qed.

(** the register computation of both macros *)
Definition smear (t1 : m128) : m128 :=
  let u := mm_slli4 t1 in let t1 := mm_xor t1 u in let u := mm_slli4 u in let t1 := mm_xor t1 u in
  let u := mm_slli4 u in mm_xor t1 u.
Lemma smear_four a b c d T : w4 a -> w4 b -> w4 c -> w4 d -> w4 T ->
  mm_xor (smear (a ++ b ++ c ++ d)) (T ++ T ++ T ++ T) = concat (four T a b c d).
Proof.
  intros (a0&a1&a2&a3&->) (b0&b1&b2&b3&->) (c0&c1&c2&c3&->) (d0&d1&d2&d3&->) (t0&t1&t2&t3&->).
  lazy -[Z.lxor].
  rewrite ?Z.lxor_0_r, ?Z.lxor_assoc.
  repeat (f_equal; try reflexivity).
Qed.

Definition rc (i : Z) : Z := Nat.iter (Z.to_nat (i - 1)) xtime 1.
Lemma expand_128_four a b c d i : w4 a -> w4 b -> w4 c -> w4 d ->
  expand_128 (rc i) (a ++ b ++ c ++ d) = concat (four (xor_word (SubWord (RotWord d)) (Rcon i)) a b c d).
Proof.
  intros Ha Hb Hc Hd. unfold expand_128. rewrite <- smear_four by auto with w4. unfold smear. f_equal.
  destruct Ha as (a0&a1&a2&a3&->), Hb as (b0&b1&b2&b3&->), Hc as (c0&c1&c2&c3&->), Hd as (d0&d1&d2&d3&->). reflexivity.
Qed.
Lemma w4_four T a b c d : w4 a -> w4 b -> w4 c -> w4 d -> w4 T ->
  exists a' b' c' d', four T a b c d = [a'; b'; c'; d'] /\ w4 a' /\ w4 b' /\ w4 c' /\ w4 d'.
Proof. intros. unfold four. do 4 eexists. split; [reflexivity|]. auto 9 with w4. Qed.

Lemma keys_app (p : list (list Z)) q : zlen p mod 4 = 0 ->
  map (@concat Z) (chunks_exact 4 (p ++ q)) = map (@concat Z) (chunks_exact 4 p) ++ map (@concat Z) (chunks_exact 4 q).
Proof.
  intros. pose proof (zlen_nonneg p). rewrite (chunks_exact_app 4 (zlen p / 4)) by lia. apply map_app.
Qed.
Lemma keys_4 (a b c d : list Z) : map (@concat Z) (chunks_exact 4 [a; b; c; d]) = [a ++ b ++ c ++ d].
Proof. change (chunks_exact 4 [a; b; c; d]) with [[a; b; c; d]]. cbn [map concat]. now rewrite app_nil_r. Qed.

Lemma expand_128s_spec n : forall p a b c d i, w4 a -> w4 b -> w4 c -> w4 d -> zlen p = 4 * (i - 1) -> 1 <= i ->
  map (@concat Z) (chunks_exact 4 (expand (4 * n) 4 (p ++ [a; b; c; d]))) =
  map (@concat Z) (chunks_exact 4 p) ++ (a ++ b ++ c ++ d) :: expand_128s (map (fun j => rc (i + Z.of_nat j)) (seq 0 n)) (a ++ b ++ c ++ d).
Proof.
  induction n as [|n IH]; intros p a b c d i Ha Hb Hc Hd Hp Hi.
  - change (4 * 0)%nat with 0%nat. cbn [expand seq map expand_128s]. rewrite keys_app, keys_4 by lia. reflexivity.
  - replace (4 * S n)%nat with (4 + 4 * n)%nat by lia. rewrite expand_app, expand4_128 by lia.
    replace (zlen p / 4 + 1) with i by lia.
    destruct (w4_four (xor_word (SubWord (RotWord d)) (Rcon i)) a b c d) as (a'&b'&c'&d'&E&Wa&Wb&Wc&Wd); auto with w4.
    assert (Ex := expand_128_four a b c d i Ha Hb Hc Hd).
    rewrite E in *. rewrite (IH _ _ _ _ _ (i + 1)) by (auto; rewrite ?zlen_app; try change (zlen [a; b; c; d]) with 4; lia).
    rewrite keys_app, keys_4 by lia. rewrite <- app_assoc. cbn [app]. do 2 f_equal.
    cbn [seq map]. cbn [expand_128s]. rewrite Z.add_0_r, Ex. cbn [concat]. rewrite app_nil_r.
    rewrite <- seq_shift, map_map.
    rewrite (map_ext (fun x => rc (i + Z.of_nat (S x))) (fun j => rc (i + 1 + Z.of_nat j))) by (intros; f_equal; lia).
    reflexivity.
Qed.

Lemma key16 (key : list Z) : zlen key = 16 -> exists a b c d, key = a ++ b ++ c ++ d /\ w4 a /\ w4 b /\ w4 c /\ w4 d.
Proof.
  intros H. exists (firstn 4 key), (firstn 4 (skipn 4 key)), (firstn 4 (skipn 8 key)), (skipn 12 key).
  do 16 (destruct key as [|? key]; [discriminate H|]). destruct key; [|exfalso; unfold zlen in H; cbn [length] in H; lia].
  split; [reflexivity|]. cbn. repeat split; now repeat eexists.
Qed.
Lemma words16 (a b c d : list Z) : w4 a -> w4 b -> w4 c -> w4 d -> chunks_exact 4 (a ++ b ++ c ++ d) = [a; b; c; d].
Proof. intros (a0&a1&a2&a3&->) (b0&b1&b2&b3&->) (c0&c1&c2&c3&->) (d0&d1&d2&d3&->). reflexivity. Qed.
Lemma aes128_expand_ok key : zlen key = 16 -> aes128_expand key = KeyExpansion 4 10 key.
Proof.
  intros H. destruct (key16 key H) as (a&b&c&d&->&Ha&Hb&Hc&Hd).
  unfold KeyExpansion. rewrite words16 by auto. change (Z.to_nat (4 * (10 + 1) - 4)) with (4 * 10)%nat.
  change [a; b; c; d] with ([] ++ [a; b; c; d]). rewrite (expand_128s_spec 10 [] a b c d 1) by (auto; try reflexivity; lia).
  reflexivity.
Qed.

Lemma expand_256_odd_four a b c d e f g h i : w4 a -> w4 b -> w4 c -> w4 d -> w4 e -> w4 f -> w4 g -> w4 h -> 1 <= i ->
  expand_256_odd (rc i) (a ++ b ++ c ++ d) (e ++ f ++ g ++ h) = concat (four (temp0 8 (8 * i) h) a b c d).
Proof.
  intros Ha Hb Hc Hd He Hf Hg Hh Hi. unfold expand_256_odd, temp0. replace (8 * i mod 8 =? 0) with true by lia.
  replace (8 * i / 8) with i by lia. rewrite <- smear_four by auto with w4. unfold smear. f_equal.
  destruct He as (e0&e1&e2&e3&->), Hf as (f0&f1&f2&f3&->), Hg as (g0&g1&g2&g3&->), Hh as (h0&h1&h2&h3&->). reflexivity.
Qed.
Lemma expand_256_even_four a b c d e f g h i : w4 a -> w4 b -> w4 c -> w4 d -> w4 e -> w4 f -> w4 g -> w4 h ->
  expand_256_even (e ++ f ++ g ++ h) (a ++ b ++ c ++ d) = concat (four (temp0 8 (8 * i + 4) h) a b c d).
Proof.
  intros Ha Hb Hc Hd He Hf Hg Hh. unfold expand_256_even, temp0. replace ((8 * i + 4) mod 8 =? 0) with false by lia.
  rewrite <- smear_four by auto with w4. unfold smear. f_equal.
  destruct He as (e0&e1&e2&e3&->), Hf as (f0&f1&f2&f3&->), Hg as (g0&g1&g2&g3&->), Hh as (h0&h1&h2&h3&->). reflexivity.
Qed.
Lemma w4_temp0 i t : w4 t -> w4 (temp0 8 i t).
Proof. intros. unfold temp0. destruct (_ =? _); auto with w4. Qed.
#[export] Hint Resolve w4_temp0 : w4.

Lemma expand_256s_step r r2 rs t1 t3 :
  expand_256s (r :: r2 :: rs) t1 t3 =
  expand_256_odd r t1 t3 :: expand_256_even (expand_256_odd r t1 t3) t3 ::
  expand_256s (r2 :: rs) (expand_256_odd r t1 t3) (expand_256_even (expand_256_odd r t1 t3) t3).
Proof. reflexivity. Qed.

Lemma expand_256s_spec n : forall p a b c d e f g h i,
  w4 a -> w4 b -> w4 c -> w4 d -> w4 e -> w4 f -> w4 g -> w4 h -> zlen p = 8 * (i - 1) -> 1 <= i ->
  map (@concat Z) (chunks_exact 4 (expand (8 * n + 4) 8 (p ++ [a; b; c; d; e; f; g; h]))) =
  map (@concat Z) (chunks_exact 4 p) ++ (a ++ b ++ c ++ d) :: (e ++ f ++ g ++ h) ::
    expand_256s (map (fun j => rc (i + Z.of_nat j)) (seq 0 (S n))) (a ++ b ++ c ++ d) (e ++ f ++ g ++ h).
Proof.
  induction n as [|n IH]; intros p a b c d e f g h i Ha Hb Hc Hd He Hf Hg Hh Hp Hi.
  - change (8 * 0 + 4)%nat with 4%nat. rewrite expand4_256 by lia. cbn [seq map expand_256s].
    rewrite Z.add_0_r, expand_256_odd_four by auto.
    replace (zlen p + 8) with (8 * i) by lia.
    destruct (w4_four (temp0 8 (8 * i) h) a b c d) as (a'&b'&c'&d'&E&Wa&Wb&Wc&Wd); auto with w4. rewrite E.
    rewrite <- app_assoc. rewrite keys_app by lia.
    change ([a; b; c; d; e; f; g; h] ++ [a'; b'; c'; d']) with ([a; b; c; d] ++ [e; f; g; h] ++ [a'; b'; c'; d']).
    rewrite !keys_app, !keys_4 by reflexivity. cbn [concat app]. now rewrite app_nil_r.
  - replace (8 * S n + 4)%nat with (4 + (4 + (8 * n + 4)))%nat by lia. rewrite expand_app, expand_app, expand4_256 by lia.
    replace (zlen p + 8) with (8 * i) by lia.
    destruct (w4_four (temp0 8 (8 * i) h) a b c d) as (a'&b'&c'&d'&E&Wa&Wb&Wc&Wd); auto with w4.
    pose proof (expand_256_odd_four a b c d e f g h i Ha Hb Hc Hd He Hf Hg Hh Hi) as Eo. rewrite E in *.
    cbn [concat] in Eo. rewrite app_nil_r in Eo.
    change ([a; b; c; d; e; f; g; h]) with ([a; b; c; d] ++ [e; f; g; h]). rewrite app_assoc, <- app_assoc.
    change ([e; f; g; h] ++ [a'; b'; c'; d']) with [e; f; g; h; a'; b'; c'; d'].
    rewrite expand4_256 by (rewrite zlen_app; change (zlen [a; b; c; d]) with 4; lia).
    replace (zlen (p ++ [a; b; c; d]) + 8) with (8 * i + 4) by (rewrite zlen_app; change (zlen [a; b; c; d]) with 4; lia).
    pose proof (expand_256_even_four e f g h a' b' c' d' i He Hf Hg Hh Wa Wb Wc Wd) as Ee.
    destruct (w4_four (temp0 8 (8 * i + 4) d') e f g h) as (e'&f'&g'&h'&E'&We&Wf&Wg&Wh); auto with w4. rewrite E' in *.
    cbn [concat] in Ee. rewrite app_nil_r in Ee.
    replace ((p ++ [a; b; c; d]) ++ [e; f; g; h; a'; b'; c'; d']) with ((p ++ [a; b; c; d; e; f; g; h]) ++ [a'; b'; c'; d'])
      by (rewrite <- !app_assoc; reflexivity).
    rewrite <- app_assoc. change ([a'; b'; c'; d'] ++ [e'; f'; g'; h']) with [a'; b'; c'; d'; e'; f'; g'; h'].
    rewrite (IH _ _ _ _ _ _ _ _ _ (i + 1)) by (auto; rewrite ?zlen_app; try change (zlen [a; b; c; d; e; f; g; h]) with 8; lia).
    rewrite keys_app by lia.
    change [a; b; c; d; e; f; g; h] with ([a; b; c; d] ++ [e; f; g; h]).
    rewrite keys_app, !keys_4 by reflexivity. rewrite <- !app_assoc. cbn [app].
    change (map (fun j => rc (i + Z.of_nat j)) (seq 0 (S (S n)))) with (rc (i + Z.of_nat 0) :: rc (i + Z.of_nat 1) :: map (fun j => rc (i + Z.of_nat j)) (seq 2 n)).
    rewrite expand_256s_step. rewrite Z.add_0_r, Eo, Ee.
    change (map (fun j => rc (i + 1 + Z.of_nat j)) (seq 0 (S n))) with (rc (i + 1 + Z.of_nat 0) :: map (fun j => rc (i + 1 + Z.of_nat j)) (seq 1 n)).
    rewrite <- (seq_shift n 1), map_map. replace (i + 1 + Z.of_nat 0) with (i + Z.of_nat 1) by lia.
    rewrite (map_ext (fun x => rc (i + Z.of_nat (S x))) (fun j => rc (i + 1 + Z.of_nat j))) by (intros; f_equal; lia).
    reflexivity.
Qed.
Lemma aes256_expand_ok key : zlen key = 32 -> aes256_expand key = KeyExpansion 8 14 key.
Proof.
  intros H. pose proof (ztake_zdrop 16 key) as Ek.
  assert (L1 : zlen (ztake 16 key) = 16) by (rewrite zlen_ztake; lia).
  assert (L2 : zlen (zdrop 16 key) = 16) by (rewrite zlen_zdrop; lia).
  unfold aes256_expand, KeyExpansion.
  replace (chunks_exact 4 key) with (chunks_exact 4 (ztake 16 key ++ zdrop 16 key)) by (now rewrite Ek).
  destruct (key16 _ L1) as (a&b&c&d&E1&Ha&Hb&Hc&Hd). destruct (key16 _ L2) as (e&f&g&h&E2&He&Hf&Hg&Hh).
  rewrite E1, E2. rewrite (chunks_exact_app 4 4) by (try lia; rewrite <- E1; lia). rewrite !words16 by auto.
  change (Z.to_nat (4 * (14 + 1) - 8)) with (8 * 6 + 4)%nat.
  change ([a; b; c; d] ++ [e; f; g; h]) with ([] ++ [a; b; c; d; e; f; g; h]).
  rewrite (expand_256s_spec 6 [] a b c d e f g h 1) by (auto; try reflexivity; lia). reflexivity.
Qed.

(** blocks *)
Definition b16 (b : list Z) : Prop := bytes b /\ length b = 16%nat.
Lemma len_xor (a b : list Z) : length (mm_xor a b) = Nat.min (length a) (length b).
Proof. unfold mm_xor. now rewrite map_length, combine_length. Qed.
Lemma bytes_xor (a b : list Z) : bytes a -> bytes b -> bytes (mm_xor a b).
Proof.
  unfold mm_xor. revert b. induction a as [|x a IH]; intros [|y b] Ha Hb; cbn [combine map]; try constructor.
  - inversion Ha; inversion Hb; subst. now apply lxor_byte.
  - inversion Ha; inversion Hb; subst. now apply IH.
Qed.
Lemma b16_xor a b : b16 a -> b16 b -> b16 (mm_xor a b).
Proof. intros [A B] [C D]. split; [now apply bytes_xor|]. now rewrite len_xor, B, D. Qed.
Lemma sbox_table_bytes : bytes sbox_table.
Proof. bytes_tac. Qed.
Lemma sbox_byte b : byte_ok (sbox b).
Proof.
  unfold sbox. destruct (Nat.lt_ge_cases (Z.to_nat b) (length sbox_table)).
  - pose proof sbox_table_bytes as H'. unfold bytes in H'. rewrite Forall_forall in H'. apply H'. now apply nth_In.
  - rewrite nth_overflow by auto. unfold byte_ok. lia.
Qed.
Local Opaque sbox_table.
Lemma bytes_SubBytes s : bytes (SubBytes s).
Proof. apply Forall_forall. intros x Hx. apply in_map_iff in Hx as (y & <- & _). apply sbox_byte. Qed.
Lemma len_ShiftRows s : length (ShiftRows s) = 16%nat. Proof. reflexivity. Qed.
Lemma len_MixColumns s : length (MixColumns s) = 16%nat. Proof. reflexivity. Qed.
Lemma nth_byte n s : bytes s -> byte_ok (nth n s 0).
Proof.
  intros H. destruct (Nat.lt_ge_cases n (length s)).
  - unfold bytes in H. rewrite Forall_forall in H. apply H. now apply nth_In.
  - rewrite nth_overflow by auto. unfold byte_ok. lia.
Qed.
Lemma xtime_byte a : byte_ok a -> byte_ok (xtime a).
Proof.
  unfold byte_ok, xtime. intros. destruct (128 <=? a) eqn:E; [|lia].
  apply lxor_byte; unfold byte_ok; lia.
Qed.
Lemma gf8_mul_byte n : forall a b, byte_ok a -> byte_ok (gf8_mul_n n a b).
Proof.
  induction n as [|n IH]; intros a b Ha; cbn [gf8_mul_n]; [unfold byte_ok; lia|].
  apply lxor_byte; [destruct (Z.odd b); [auto|unfold byte_ok; lia]|]. apply IH. now apply xtime_byte.
Qed.
Lemma bytes_MixColumns s : bytes s -> bytes (MixColumns s).
Proof.
  intros H. apply Forall_forall. intros x Hx. apply in_map_iff in Hx as (y & <- & _).
  apply lxor_byte; [apply gf8_mul_byte; unfold byte_ok; lia|].
  apply lxor_byte; [apply gf8_mul_byte; unfold byte_ok; lia|]. apply lxor_byte; now apply nth_byte.
Qed.
Lemma shift_sub s : length s = 16%nat -> ShiftRows (SubBytes s) = SubBytes (ShiftRows s).
Proof.
  intros H. do 16 (destruct s as [|? s]; [discriminate|]). destruct s; [|discriminate]. reflexivity.
Qed.
Lemma b16_aesenc a k : b16 k -> b16 (aesenc a k).
Proof.
  intros. unfold aesenc. apply b16_xor; auto. split; [|reflexivity]. apply bytes_MixColumns, bytes_SubBytes.
Qed.
Lemma b16_aesenclast a k : b16 k -> b16 (aesenclast a k).
Proof. intros. unfold aesenclast. apply b16_xor; auto. split; [apply bytes_SubBytes|reflexivity]. Qed.

Lemma cipher_rounds_ok rks : forall s lst, length s = 16%nat -> Forall b16 rks ->
  cipher_rounds s (rks ++ [lst]) = aesenclast (fold_left aesenc rks s) lst.
Proof.
  induction rks as [|k r IH]; intros s lst Hs HF.
  - cbn [app cipher_rounds fold_left]. now rewrite shift_sub.
  - inversion HF; subst. cbn [app fold_left]. rewrite <- IH; auto.
    + change (cipher_rounds s (k :: r ++ [lst])) with
        (match r ++ [lst] with [] => AddRoundKey (ShiftRows (SubBytes s)) k | _ => cipher_rounds (AddRoundKey (MixColumns (ShiftRows (SubBytes s))) k) (r ++ [lst]) end).
      rewrite shift_sub by auto. destruct (r ++ [lst]) eqn:E; [destruct r; discriminate|]. reflexivity.
    + unfold aesenc. rewrite len_xor, len_MixColumns. destruct H1 as [_ ->]. reflexivity.
Qed.

(** a key schedule: at least two round keys, each 16 bytes *)
Definition sched_ok (w : list (list Z)) : Prop := Forall b16 w /\ (2 <= length w)%nat.
Lemma encrypt_block_Cipher w b : sched_ok w -> length b = 16%nat -> encrypt_block w b = Cipher w b.
Proof.
  intros [HF HL] Hb. destruct w as [|k0 w]; [cbn in HL; lia|].
  assert (Hw : w <> []) by (intros ->; cbn in HL; lia).
  unfold encrypt_block, round_keys, aes_rounds, Cipher, m128. cbn [hd tl].
  inversion HF; subst.
  replace (last (k0 :: w) []) with (last w []) by (destruct w; [congruence|reflexivity]).
  transitivity (cipher_rounds (AddRoundKey b k0) (removelast w ++ [last w []])); [|now rewrite <- (app_removelast_last [] Hw)].
  symmetry. apply cipher_rounds_ok.
  - rewrite len_xor. destruct H1 as [_ ->]. rewrite Hb. reflexivity.
  - apply Forall_forall. intros x Hx. rewrite Forall_forall in H2. apply H2.
    rewrite (app_removelast_last [] Hw). apply in_or_app. auto.
Qed.
Lemma b16_encrypt w b : sched_ok w -> b16 (encrypt_block w b).
Proof.
  intros [HF HL]. unfold encrypt_block, round_keys, aes_rounds. apply b16_aesenclast.
  rewrite Forall_forall in HF. apply HF. destruct w as [|k w]; [cbn in HL; lia|].
  assert (Hw : k :: w <> []) by discriminate. rewrite (app_removelast_last [] Hw) at 2. apply in_or_app. right. left. auto.
Qed.

Lemma bytes_lane a i : bytes a -> bytes (lane32 a i).
Proof. intros. unfold lane32. auto using bytes_ztake, bytes_zdrop. Qed.
Lemma b16_slli a : b16 a -> b16 (mm_slli4 a).
Proof.
  intros [A B]. unfold mm_slli4. split.
  - apply bytes_app. split; [bytes_tac|]. now apply bytes_ztake.
  - rewrite app_length, repeat_length. unfold ztake. rewrite firstn_length. lia.
Qed.
Lemma b16_keygen a r : byte_ok r -> b16 a -> b16 (aeskeygenassist a r).
Proof.
  intros Hr [A B]. do 16 (destruct a as [|? a]; [discriminate|]). destruct a; [|discriminate].
  split; [|reflexivity]. unfold aeskeygenassist, SubWord. cbn -[Z.lxor sbox].
  repeat constructor; try apply sbox_byte; try (apply lxor_byte; [apply sbox_byte|]); auto; unfold byte_ok; lia.
Qed.
Lemma b16_shuffle a i : 0 <= i <= 3 -> b16 a -> b16 (mm_shuffle_epi32 a i i i i).
Proof.
  intros Hi [A B]. unfold mm_shuffle_epi32. split.
  - rewrite !bytes_app. auto using bytes_lane.
  - do 16 (destruct a as [|? a]; [discriminate|]). destruct a; [|discriminate].
    assert (i = 0 \/ i = 1 \/ i = 2 \/ i = 3) as [->|[->|[->| ->]]] by lia; reflexivity.
Qed.
#[export] Hint Resolve b16_xor b16_slli b16_keygen : b16.
Lemma b16_expand_128 r a : byte_ok r -> b16 a -> b16 (expand_128 r a).
Proof. intros. unfold expand_128. repeat apply b16_xor; auto 9 with b16. apply b16_shuffle; [lia|]. auto with b16. Qed.
Lemma b16_odd r a b : byte_ok r -> b16 a -> b16 b -> b16 (expand_256_odd r a b).
Proof. intros. unfold expand_256_odd. repeat apply b16_xor; auto 9 with b16. apply b16_shuffle; [lia|]. auto with b16. Qed.
Lemma b16_even a b : b16 a -> b16 b -> b16 (expand_256_even a b).
Proof. intros. unfold expand_256_even. repeat apply b16_xor; auto 9 with b16. apply b16_shuffle; [lia|]. apply b16_keygen; auto. unfold byte_ok; lia. Qed.
Lemma b16_expand_128s rs : forall a, bytes rs -> b16 a -> Forall b16 (expand_128s rs a) /\ length (expand_128s rs a) = length rs.
Proof.
  induction rs as [|r rs IH]; intros a Hr Ha; cbn [expand_128s]; [auto|]. inversion Hr; subst.
  assert (b16 (expand_128 r a)) by (now apply b16_expand_128). destruct (IH (expand_128 r a)) as [A B]; auto.
  split; [constructor; auto|]. cbn [length]. now rewrite B.
Qed.
Lemma b16_expand_256s rs : forall a b, bytes rs -> b16 a -> b16 b -> Forall b16 (expand_256s rs a b).
Proof.
  induction rs as [|r rs IH]; intros a b Hr Ha Hb; [constructor|]. inversion Hr; subst.
  assert (b16 (expand_256_odd r a b)) by (now apply b16_odd).
  destruct rs as [|r2 rs]; [cbn; auto|]. rewrite expand_256s_step.
  constructor; auto. constructor; [now apply b16_even|]. apply IH; auto. now apply b16_even.
Qed.
Lemma zlen_length {A} (l : list A) n : zlen l = Z.of_nat n -> length l = n. Proof. unfold zlen. lia. Qed.
Lemma aes_key_new_ok key : bytes key -> zlen key = 16 \/ zlen key = 32 ->
  exists w, aes_key_new key = Ok w /\ sched_ok w /\
    forall b, length b = 16%nat -> encrypt_block w b = (if zlen key =? 16 then AES128 key b else AES256 key b).
Proof.
  intros Bk Lk. unfold aes_key_new. destruct Lk as [L|L]; rewrite L; cbn [Z.eqb Pos.eqb]; eexists; (split; [reflexivity|]).
  - assert (S : sched_ok (aes128_expand key)).
    { unfold aes128_expand. assert (b16 key) by (split; [auto|now apply zlen_length]).
      destruct (b16_expand_128s [0x01; 0x02; 0x04; 0x08; 0x10; 0x20; 0x40; 0x80; 0x1b; 0x36] key) as [A B]; [bytes_tac|assumption|].
      split; [constructor; assumption|]. clear A. cbn [length] in B |- *. unfold m128 in *. rewrite B. lia. }
    split; auto. intros b Hb. rewrite encrypt_block_Cipher by auto. unfold AES128. now rewrite aes128_expand_ok.
  - assert (S : sched_ok (aes256_expand key)).
    { unfold aes256_expand.
      assert (b16 (ztake 16 key)) by (split; [now apply bytes_ztake|apply zlen_length; rewrite zlen_ztake; lia]).
      assert (b16 (zdrop 16 key)) by (split; [now apply bytes_zdrop|apply zlen_length; rewrite zlen_zdrop; lia]).
      split; [|cbn [length]; lia]. constructor; auto. constructor; auto. apply b16_expand_256s; auto. bytes_tac. }
    split; auto. intros b Hb. rewrite encrypt_block_Cipher by auto. unfold AES256. now rewrite aes256_expand_ok.
Qed.
