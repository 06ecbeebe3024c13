(** C63: which byte strings are PKCS#1 v1.5 signatures of one message under one key. *)
Require Import Verif.Base Verif.L_Base Verif.M_Sha2 Verif.M_PosInt Verif.M_Rsa Verif.M_Pkcs1 Verif.S_Pkcs1 Verif.S_Bignum Verif.S_Rsa.
Require Import Verif.L_PosInt Verif.L_Hmac Verif.L_Pkcs1 Verif.T_Hash Verif.T_PosInt Verif.T_Rsa Verif.T_Pkcs1 Verif.T_RsaSig.
Require Verif.T_Signer.
Require Import ZifyNat.

(** Raising to the power e is one-to-one modulo n, as it is for every valid RSA key.  (Spec only.) *)
Definition one_to_one (n e : Z) : Prop := forall a b, 0 <= a < n -> 0 <= b < n -> a ^ e mod n = b ^ e mod n -> a = b.

(** A message has one signature, read as a number: once one is known, a byte string is accepted exactly if it is the same
    number. *)
Theorem C63_one_number : forall bn, bignum_ok bn -> forall verify sign Hs oid lim, In (verify, sign, Hs, oid, lim) (pkcs1_algs bn) ->
  forall n e key, usable_pub bn n e key -> one_to_one (val n) e -> forall message signature, bytes message -> zlen message < lim ->
  bytes signature -> verify key signature message = Ok tt ->
  forall other, bytes other -> (verify key other message = Ok tt <-> be_val other = be_val signature).
Proof.
  intros bn OK verify sign Hs oid lim HA n e key U O m s Bm Lm Bs V o Bo.
  destruct (C22_verify bn OK verify sign Hs oid lim HA n e key U s m Bs Bm Lm) as [[V1 _] _].
  destruct (C22_verify bn OK verify sign Hs oid lim HA n e key U o m Bo Bm Lm) as [W _].
  destruct (V1 V) as (D & L & EM & E & P). split.
  - intros Vo. apply W in Vo. destruct Vo as (_ & Lo & EM' & E' & P'). assert (EM' = EM) by congruence. subst EM'.
    apply O; [split; [now apply be_val_bound|assumption]|split; [now apply be_val_bound|assumption]|congruence].
  - intros Q. apply W. rewrite Q. eauto.
Qed.
Print Assumptions C63_one_number.

(** In particular for the public half of every valid private key. *)
Corollary C63_valid_key : forall bn, bignum_ok bn -> forall verify sign Hs oid lim, In (verify, sign, Hs, oid, lim) (pkcs1_algs bn) ->
  forall p q d dp dq iqmp n e key, usable_priv bn p q d dp dq iqmp n e key -> forall message signature, bytes message -> zlen message < lim ->
  bytes signature -> verify (pr_public key) signature message = Ok tt ->
  forall other, bytes other -> (verify (pr_public key) other message = Ok tt <-> be_val other = be_val signature).
Proof.
  intros bn OK verify sign Hs oid lim HA p q d dp dq iqmp n e key U m s Bm Lm Bs V.
  destruct (priv_pub bn p q d dp dq iqmp n e key U) as [Up _].
  apply (C63_one_number bn OK verify sign Hs oid lim HA n e _ Up); auto.
  intros a b A B. exact (T_Signer.rsa_injective _ _ _ _ _ _ _ _ a b (up_valid _ _ _ _ _ _ _ _ _ _ U) A B).
Qed.
Print Assumptions C63_valid_key.

(** But a message has many signatures as byte strings.  RFC 8017 section 8.2.2 rejects a signature whose length is not that of
    the modulus; the code accepts an accepted signature with any number of zeros in front. *)
Theorem C63_length_refuted : forall bn, bignum_ok bn -> forall verify sign Hs oid lim, In (verify, sign, Hs, oid, lim) (pkcs1_algs bn) ->
  forall n e key, usable_pub bn n e key -> forall message signature, bytes message -> zlen message < lim -> bytes signature ->
  verify key signature message = Ok tt -> forall j,
  zlen (repeat 0 j ++ signature) = Z.of_nat j + zlen signature /\ verify key (repeat 0 j ++ signature) message = Ok tt.
Proof.
  intros bn OK verify sign Hs oid lim HA n e key U m s Bm Lm Bs V j. split; [rewrite zlen_app; unfold zlen; now rewrite repeat_length|].
  assert (Bj : bytes (repeat 0 j ++ s)) by (apply bytes_app; split; [apply bytes_repeat; unfold byte_ok; lia|assumption]).
  assert (Z0 : be_val (repeat 0 j) = 0).
  { clear. induction j as [|j IH]; [reflexivity|]. change (repeat 0 (S j)) with ([0] ++ repeat 0 j). now rewrite be_val_app, IH. }
  apply (C22_verify bn OK verify sign Hs oid lim HA n e key U s m Bs Bm Lm) in V.
  apply (C22_verify bn OK verify sign Hs oid lim HA n e key U _ m Bj Bm Lm). rewrite be_val_app, Z0. exact V.
Qed.
Print Assumptions C63_length_refuted.

(** The hypotheses are met: with the modulus of 256 bytes 0xff and the exponent 1 powers are one-to-one, and every algorithm
    accepts a signature of every message; by the theorems it accepts that number in every length and no other. *)
Example C63_accepts : forall bn, bignum_ok bn -> exists n e key, usable_pub bn n e key /\ one_to_one (val n) e /\
  forall verify sign Hs oid lim, In (verify, sign, Hs, oid, lim) (pkcs1_algs bn) -> forall message, bytes message -> zlen message < lim ->
  exists signature, bytes signature /\ verify key signature message = Ok tt /\ verify key (0 :: signature) message = Ok tt /\
    forall other, bytes other -> be_val other <> be_val signature -> verify key other message <> Ok tt.
Proof.
  intros bn OK. assert (B : bytes (repeat 255 256)) by (apply Forall_forall; intros x Hx; apply repeat_spec in Hx; subst; red; lia).
  pose proof (be_val_ones 256) as V. change (Z.of_nat 256) with 256 in V.
  destruct (C18_from_bytes 128 (repeat 255 256) ltac:(lia) B) as [(n & En & Wn & Vn & _)|(_ & L)].
  2:{ exfalso. rewrite V in L. apply Z.le_ngt in L. apply L. vm_compute. reflexivity. }
  destruct (normal_from_bytes 128 _ n ltac:(lia) B En) as (_ & Nn & _). { rewrite V. vm_compute. reflexivity. }
  rewrite V in Vn. exists n, 1, (pub_make bn n 1).
  assert (U : usable_pub bn n 1 (pub_make bn n 1)).
  { split; [assumption|]. split; [assumption|]. split; [lia|]. apply (C19_public_key bn n 1 Wn). rewrite Vn. split; [vm_compute; reflexivity|].
    split; [|discriminate]. split; vm_compute; [discriminate|reflexivity]. }
  assert (K : byte_length (val n) = 256) by (rewrite Vn; vm_compute; reflexivity).
  assert (O : one_to_one (val n) 1).
  { intros a b A Hb. rewrite !Z.pow_1_r, !Z.mod_small by assumption. auto. }
  split; [exact U|]. split; [exact O|].
  intros verify sign Hs oid lim HA m Bm Lm. destruct (alg_cases _ _ _ _ _ _ HA) as (H & di & HI & _ & _ & Ldi & Bdi & Dg).
  pose proof (hashes_imp _ _ _ HI) as I. destruct (hash_sizes _ _ _ HI) as [Sz _].
  destruct (encode_ok 256 di (Hs m)) as (EM & _ & E2 & BE & LE).
  { rewrite Ldi, (im_len _ _ _ I). destruct Sz as [<-|[<-|[<-|[]]]]; lia. } { assumption. } { apply (im_bytes _ _ _ I). }
  assert (Hlt : be_val EM < val n).
  { apply Z.lt_trans with (256 ^ (256 - 1)); [apply (em_small 256 (di ++ Hs m)); [lia|assumption|assumption]|]. rewrite Vn. vm_compute. reflexivity. }
  pose proof (be_val_bound EM BE) as [P0 _].
  assert (A : verify (pub_make bn n 1) EM m = Ok tt).
  { apply (C22_verify bn OK _ _ _ _ _ HA n 1 _ U EM m BE Bm Lm). rewrite K, Dg. split; [now exists 32|]. split; [assumption|].
    exists EM. split; [assumption|]. rewrite Z.pow_1_r. apply Z.mod_small. split; assumption. }
  exists EM. split; [assumption|]. split; [assumption|]. split.
  - exact (proj2 (C63_length_refuted bn OK _ _ _ _ _ HA n 1 _ U m EM Bm Lm BE A 1)).
  - intros o Bo Ne Vo. apply Ne. now apply (C63_one_number bn OK _ _ _ _ _ HA n 1 _ U O m EM Bm Lm BE A o Bo).
Qed.
