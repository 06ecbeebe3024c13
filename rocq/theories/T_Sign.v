(** C44 (scheme selection). *)
Require Import Verif.Base Verif.M_Sign.

(** which schemes a key can sign with, and how strong each is: PSS above PKCS#1 v1.5, then the longer hash *)
Definition strength (k : key_kind) (s : scheme) : option Z :=
  match k, s with
  | KRsa, RSA_PSS_SHA512 => Some 1512 | KRsa, RSA_PSS_SHA384 => Some 1384 | KRsa, RSA_PSS_SHA256 => Some 1256
  | KRsa, RSA_PKCS1_SHA512 => Some 512 | KRsa, RSA_PKCS1_SHA384 => Some 384 | KRsa, RSA_PKCS1_SHA256 => Some 256
  | KP256, ECDSA_NISTP256_SHA256 => Some 1 | KP384, ECDSA_NISTP384_SHA384 => Some 1 | KEd25519, ED25519 => Some 1
  | _, _ => None
  end.
Lemma scheme_eqb_eq a b : scheme_eqb a b = true <-> a = b.
Proof. destruct a, b; cbn; split; intros H; try discriminate; auto; [f_equal; lia|injection H; lia]. Qed.
Lemma contains_In l s : contains l s = true <-> In s l.
Proof.
  unfold contains. rewrite existsb_exists. split; [intros (x & H & E); apply scheme_eqb_eq in E; subst; auto|intros H; exists s; split; auto; apply scheme_eqb_eq; auto].
Qed.
(** For every key and every offered list in any order: the result is an offered scheme the key can sign with,
    at least as strong as every other such; there is none iff no offered scheme suits the key. *)
Theorem C44_choose_scheme : forall k offered,
  match choose_scheme k offered with
  | Some s => In s offered /\ exists v, strength k s = Some v /\ forall s' v', In s' offered -> strength k s' = Some v' -> v' <= v
  | None => forall s, In s offered -> strength k s = None
  end.
Proof.
  intros k offered. unfold choose_scheme.
  assert (N : forall s, contains offered s = false -> forall s', In s' offered -> s' <> s) by (intros s E s' H -> ; apply contains_In in H; congruence).
  destruct k;
    repeat (match goal with |- context [contains offered ?s] => let E := fresh "E" in destruct (contains offered s) eqn:E end);
    try (match goal with
      E : contains offered ?s = true |- In ?s _ /\ _ => split; [apply contains_In; exact E|]; eexists; split; [reflexivity|] end;
      intros s' v' Hi Hs; destruct s'; cbn in Hs; try discriminate; injection Hs as <-; try lia;
      match goal with E : contains offered ?x = false, H : In ?x offered |- _ => destruct (N _ E _ H eq_refl) end);
    (intros s Hi; destruct s; cbn; auto; match goal with E : contains offered ?x = false, H : In ?x offered |- _ => destruct (N _ E _ H eq_refl) end).
Qed.
Print Assumptions C44_choose_scheme.
(** The choice does not depend on the order or multiplicity of the offer. *)
Theorem C44_order_irrelevant : forall k a b, (forall s, In s a <-> In s b) -> choose_scheme k a = choose_scheme k b.
Proof.
  intros k a b H. assert (E : forall s, contains a s = contains b s).
  { intros s. destruct (contains a s) eqn:A; destruct (contains b s) eqn:B; auto; [apply contains_In, H, contains_In in A; congruence|apply contains_In, H, contains_In in B; congruence]. }
  unfold choose_scheme. rewrite !E. reflexivity.
Qed.
Print Assumptions C44_order_irrelevant.
Example C44_ex : choose_scheme KRsa [OtherScheme 0x0201; RSA_PKCS1_SHA512; ED25519; RSA_PSS_SHA256] = Some RSA_PSS_SHA256 /\ choose_scheme KP384 [ECDSA_NISTP256_SHA256] = None.
Proof. split; reflexivity. Qed.
