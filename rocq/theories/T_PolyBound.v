(** C61: how many one-time keys let a second message through Poly1305, and so through ChaCha20-Poly1305 and
    XChaCha20-Poly1305.  The counterpart for AES-GCM is C60 (T_Ghash.v). *)
Require Import Verif.Base Verif.L_Base Verif.M_ChaCha Verif.S_ChaCha Verif.L_ChaCha Verif.M_Poly1305 Verif.M_Aead Verif.L_Aead.
Require Import Verif.L_PolyBound Verif.T_ChaCha Verif.T_Aead.
Require Import ZifyNat.
Local Opaque aead_decrypt chacha20_block.

(** The multiplier of a one-time key: its first half, clamped.  (Spec only; RFC 8439 section 2.5.) *)
Definition multiplier (otk : list Z) : Z := clamp (le_val (ztake 16 otk)).
(** The number of 16-byte blocks of a message.  (Spec only.) *)
Definition blocks16 (m : list Z) : Z := (zlen m + 15) / 16.
(** The tag the code computes of a message that comes in pieces.  (Spec only.) *)
Definition poly_tag (otk : list Z) (pieces : list (list Z)) : res (list Z) :=
  let! p := poly_new otk in let! p := poly_adds p pieces in poly_finish p.

(** Take two different messages, of any lengths and in any pieces, and any two tags.  The one-time keys under which the code
    returns the first tag for the first message and the second tag for the second have at most eight times as many different
    multipliers as the longer message has blocks (out of 2^106). *)
Theorem C61_few_keys_collide : forall pieces T pieces' T' keys,
  Forall bytes pieces -> Forall bytes pieces' -> concat pieces <> concat pieces' ->
  Forall (fun k => bytes k /\ zlen k = 32 /\ poly_tag k pieces = Ok T /\ poly_tag k pieces' = Ok T') keys ->
  NoDup (map multiplier keys) ->
  zlen keys <= 8 * Z.max (blocks16 (concat pieces)) (blocks16 (concat pieces')).
Proof.
  intros ps T ps' T' keys B B' N F ND.
  assert (C : forall l : list (list Z), Forall bytes l -> bytes (concat l)).
  { clear. intros l Fl. induction Fl; [constructor|]. cbn [concat]. apply bytes_app; auto. }
  apply (mac_bound (concat ps) T (concat ps') T'); auto.
  eapply Forall_impl; [|exact F]. intros k (Bk & Lk & E1 & E2). unfold poly_tag in *.
  rewrite C13_poly1305_is_rfc8439 in E1, E2 by auto. injection E1 as E1. injection E2 as E2. now split.
Qed.
Print Assumptions C61_few_keys_collide.

(** blocks the AEAD authenticates: both parts padded, and one block for the lengths.  (Spec only.) *)
Definition aead_blocks (A C : list Z) : Z := blocks16 A + blocks16 C + 1.

Lemma aead_bound (otk : list Z -> list Z) A C T A' C' T' keys :
  bytes A -> bytes C -> bytes A' -> bytes C' ->
  zlen A < 2 ^ 64 -> zlen C < 2 ^ 64 -> zlen A' < 2 ^ 64 -> zlen C' < 2 ^ 64 -> (A, C) <> (A', C') ->
  Forall (fun key => poly1305_mac (otk key) (mac_data A C) = T /\ poly1305_mac (otk key) (mac_data A' C') = T') keys ->
  NoDup (map (fun key => multiplier (otk key)) keys) ->
  zlen keys <= 8 * Z.max (aead_blocks A C) (aead_blocks A' C').
Proof.
  intros BA BC BA' BC' LA LC LA' LC' N F ND.
  assert (L : zlen (map otk keys) <= 8 * Z.max ((zlen (mac_data A C) + 15) / 16) ((zlen (mac_data A' C') + 15) / 16)).
  { apply (mac_bound _ T _ T'); auto using bytes_mac_data.
    - intros E. apply N. apply mac_data_inj in E; auto. destruct E. now subst.
    - now apply Forall_map.
    - now rewrite map_map. }
  rewrite !zlen_mac_data in L. unfold zlen in L at 1. rewrite map_length in L. unfold aead_blocks, blocks16, zlen at 1. lia.
Qed.
Lemma accepts12 s key nonce A C T out : s = chacha_portable \/ s = chacha_avx2 ->
  bytes key -> zlen key = 32 -> bytes nonce -> zlen nonce = 12 -> bytes A -> bytes C -> bytes T ->
  aead_decrypt s key nonce A C T = Ok (Ok tt, out) -> aead_tag key nonce A C = T.
Proof.
  intros Hs Bk Lk Bn Ln BA BC BT E. destruct (C15_chacha20poly1305_rejects s key nonce A C T Hs Bk Lk Bn Ln BA BC BT) as [_ R].
  destruct (list_eq_dec Z.eq_dec T (aead_tag key nonce A C)) as [->|N]; auto. rewrite (R N) in E. discriminate.
Qed.
Lemma accepts24 s key nonce A C T out : s = xchacha_portable \/ s = xchacha_avx2 ->
  bytes key -> zlen key = 32 -> bytes nonce -> zlen nonce = 24 -> bytes A -> bytes C -> bytes T ->
  aead_decrypt s key nonce A C T = Ok (Ok tt, out) -> aead_tag (xkey key nonce) (xnonce nonce) A C = T.
Proof.
  intros Hs Bk Lk Bn Ln BA BC BT E. destruct (C15_xchacha20poly1305_rejects s key nonce A C T Hs Bk Lk Bn Ln BA BC BT) as [_ R].
  destruct (list_eq_dec Z.eq_dec T (aead_tag (xkey key nonce) (xnonce nonce) A C)) as [->|N]; auto. rewrite (R N) in E. discriminate.
Qed.

(** The same for whole decryptions: two different messages (they may have different lengths, or differ only in where the
    additional data end), one nonce, any tags.  The keys that accept both give one-time keys with at most eight times as many
    different multipliers as the longer message has blocks.  So whoever has seen one message and its tag has a second one
    accepted for no more than that many of the 2^106 multipliers.  On the portable and on the AVX2 implementation. *)
Theorem C61_forgery_bound : forall s nonce A C T A' C' T' keys,
  s = chacha_portable \/ s = chacha_avx2 ->
  bytes nonce -> zlen nonce = 12 -> bytes A -> bytes C -> bytes T -> bytes A' -> bytes C' -> bytes T' ->
  zlen A < 2 ^ 64 -> zlen C < 2 ^ 64 -> zlen A' < 2 ^ 64 -> zlen C' < 2 ^ 64 -> (A, C) <> (A', C') ->
  Forall (fun key => bytes key /\ zlen key = 32 /\ (exists pt, aead_decrypt s key nonce A C T = Ok (Ok tt, pt)) /\
    (exists pt, aead_decrypt s key nonce A' C' T' = Ok (Ok tt, pt))) keys ->
  NoDup (map (fun key => multiplier (ztake 32 (chacha20_block key 0 nonce))) keys) ->
  zlen keys <= 8 * Z.max (aead_blocks A C) (aead_blocks A' C').
Proof.
  intros s nonce A C T A' C' T' keys Hs Bn Ln BA BC BT BA' BC' BT' LA LC LA' LC' N F ND.
  apply (aead_bound (fun key => poly1305_key_gen key nonce) A C T A' C' T'); auto.
  eapply Forall_impl; [|exact F]. intros key (Bk & Lk & (pt & E1) & (pt' & E2)).
  split; [exact (accepts12 s key nonce A C T pt Hs Bk Lk Bn Ln BA BC BT E1) | exact (accepts12 s key nonce A' C' T' pt' Hs Bk Lk Bn Ln BA' BC' BT' E2)].
Qed.
Print Assumptions C61_forgery_bound.

Theorem C61_xchacha_forgery_bound : forall s nonce A C T A' C' T' keys,
  s = xchacha_portable \/ s = xchacha_avx2 ->
  bytes nonce -> zlen nonce = 24 -> bytes A -> bytes C -> bytes T -> bytes A' -> bytes C' -> bytes T' ->
  zlen A < 2 ^ 64 -> zlen C < 2 ^ 64 -> zlen A' < 2 ^ 64 -> zlen C' < 2 ^ 64 -> (A, C) <> (A', C') ->
  Forall (fun key => bytes key /\ zlen key = 32 /\ (exists pt, aead_decrypt s key nonce A C T = Ok (Ok tt, pt)) /\
    (exists pt, aead_decrypt s key nonce A' C' T' = Ok (Ok tt, pt))) keys ->
  NoDup (map (fun key => multiplier (ztake 32 (chacha20_block (xkey key nonce) 0 (xnonce nonce)))) keys) ->
  zlen keys <= 8 * Z.max (aead_blocks A C) (aead_blocks A' C').
Proof.
  intros s nonce A C T A' C' T' keys Hs Bn Ln BA BC BT BA' BC' BT' LA LC LA' LC' N F ND.
  apply (aead_bound (fun key => poly1305_key_gen (xkey key nonce) (xnonce nonce)) A C T A' C' T'); auto.
  eapply Forall_impl; [|exact F]. intros key (Bk & Lk & (pt & E1) & (pt' & E2)).
  split; [exact (accepts24 s key nonce A C T pt Hs Bk Lk Bn Ln BA BC BT E1) | exact (accepts24 s key nonce A' C' T' pt' Hs Bk Lk Bn Ln BA' BC' BT' E2)].
Qed.
Print Assumptions C61_xchacha_forgery_bound.

(** Two one-time keys under which two different one-block messages have the same two tags: the bound is 8, two are met.
    (The first key multiplies by 0, the second by 2^66.) *)
Example C61_example_collision :
  let k0 := repeat 0 16 ++ (repeat 0 8 ++ [5] ++ repeat 0 7) in let k1 := (repeat 0 8 ++ [4] ++ repeat 0 7) ++ repeat 0 16 in
  let m := repeat 0 16 in let m' := (repeat 0 7 ++ [64] ++ repeat 0 8) in let T := repeat 0 8 ++ [5] ++ repeat 0 7 in
  concat [m] <> concat [m'] /\ NoDup (map multiplier [k0; k1]) /\ 8 * Z.max (blocks16 m) (blocks16 m') = 8 /\
  Forall (fun k => bytes k /\ zlen k = 32 /\ poly_tag k [m] = Ok T /\ poly_tag k [m'] = Ok T) [k0; k1].
Proof.
  cbv zeta. split; [discriminate|]. split.
  - constructor; [intros [E|[]]; discriminate E | constructor; [intros [] | constructor]].
  - split; [reflexivity|]. repeat (constructor; [split; [bytes_tac | split; [reflexivity | split; vm_compute; reflexivity]]|]). constructor.
Qed.
(** The hypotheses of C61_forgery_bound are met by any key and the two messages it seals itself. *)
Example C61_example_forgery : let key := repeat 7 32 in let nonce := repeat 1 12 in exists ct tag pt ct' tag' pt',
  ([5], ct) <> ([6], ct') /\ aead_decrypt chacha_avx2 key nonce [5] ct tag = Ok (Ok tt, pt) /\
  aead_decrypt chacha_avx2 key nonce [6] ct' tag' = Ok (Ok tt, pt').
Proof.
  cbv zeta. assert (B : forall x n, 0 <= x < 256 -> bytes (repeat x n)) by (intros; apply bytes_repeat; assumption).
  destruct (C14_chacha_round_trip chacha_avx2 12 (repeat 7 32) (repeat 1 12) [5] [1; 2; 3]) as (ct & tag & _ & _ & _ & E1);
    try (left; auto; fail); try (apply B; lia); try reflexivity; try bytes_tac.
  destruct (C14_chacha_round_trip chacha_avx2 12 (repeat 7 32) (repeat 1 12) [6] [1; 2; 3]) as (ct' & tag' & _ & _ & _ & E2);
    try (left; auto; fail); try (apply B; lia); try reflexivity; try bytes_tac.
  exists ct, tag, [1; 2; 3], ct', tag', [1; 2; 3]. split; [congruence|]. split; assumption.
Qed.
