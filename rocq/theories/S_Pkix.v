(** Independent description of the exchanged structures (RFC 8017 A.1, RFC 5958, RFC 5915,
    RFC 5280, RFC 3279) as DER trees.  A structure value is the tuple of its fields. *)
Require Import Verif.Base Verif.S_Der.

(** Contents octets of a DER INTEGER / OBJECT IDENTIFIER (the implementation supports identifiers of
    at most 16 octets) / OCTET STRING. *)
Definition is_int (b : list Z) : Prop := bytes b /\ minimal_int b.
Definition is_oid (b : list Z) : Prop := bytes b /\ zlen b <= 16.
Definition is_octets (b : list Z) : Prop := bytes b.

Definition INT (b : list Z) := Prim 2 b.
Definition BITS (b : list Z) := Prim 3 (0 :: b).      (* no unused bits *)
Definition OCTETS (b : list Z) := Prim 4 b.
Definition NULL := Prim 5 [].
Definition OID (b : list Z) := Prim 6 b.
Definition SEQ (l : list der) := Cons 48 l.


(** RSAPublicKey ::= SEQUENCE { modulus INTEGER, publicExponent INTEGER } *)
Definition tree_RSAPublicKey (v : list Z * list Z) : der :=
  let '(n, e) := v in SEQ [INT n; INT e].
Definition ok_RSAPublicKey (v : list Z * list Z) : Prop :=
  let '(n, e) := v in is_int n /\ is_int e.

(** ECDSA-Sig-Value ::= SEQUENCE { r INTEGER, s INTEGER } *)
Definition tree_EcdsaSigValue (v : list Z * list Z) : der :=
  let '(r, s) := v in SEQ [INT r; INT s].
Definition ok_EcdsaSigValue (v : list Z * list Z) : Prop :=
  let '(r, s) := v in is_int r /\ is_int s.

(** RSAPrivateKey ::= SEQUENCE { version INTEGER {0,1}, n, e, d, p, q, dp, dq, qinv } *)
Definition rsa_private := (Z * (list Z * (list Z * (list Z * (list Z * (list Z * (list Z *
  (list Z * list Z))))))))%type.
Definition tree_RSAPrivateKey (v : rsa_private) : der :=
  let '(ver, (n, (e, (d, (p, (q, (dp, (dq, qi)))))))) := v in
  SEQ [INT [ver]; INT n; INT e; INT d; INT p; INT q; INT dp; INT dq; INT qi].
Definition ok_RSAPrivateKey (v : rsa_private) : Prop :=
  let '(ver, (n, (e, (d, (p, (q, (dp, (dq, qi)))))))) := v in
  (ver = 0 \/ ver = 1) /\ is_int n /\ is_int e /\ is_int d /\ is_int p /\ is_int q /\
  is_int dp /\ is_int dq /\ is_int qi.

(** AlgorithmIdentifier ::= SEQUENCE { algorithm OBJECT IDENTIFIER, parameters ANY OPTIONAL },
    parameters limited to the five primitive types.  [P] gives the tree and validity of a parameter
    value. *)
Section Alg.
  Context {P : Type} (ptree : P -> der) (pok : P -> Prop).
  Definition alg := (list Z * option P)%type.
  Definition tree_Alg (v : alg) : der :=
    let '(o, p) := v in SEQ (OID o :: match p with Some x => [ptree x] | None => [] end).
  Definition ok_Alg (v : alg) : Prop :=
    let '(o, p) := v in is_oid o /\ match p with Some x => pok x | None => True end.

  (** SubjectPublicKeyInfo ::= SEQUENCE { algorithm, subjectPublicKey BIT STRING } *)
  Definition tree_Spki (v : alg * list Z) : der :=
    let '(a, k) := v in SEQ [tree_Alg a; BITS k].
  Definition ok_Spki (v : alg * list Z) : Prop :=
    let '(a, k) := v in ok_Alg a /\ is_octets k.

  (** DigestInfo ::= SEQUENCE { digestAlgorithm, digest OCTET STRING } *)
  Definition tree_DigestInfo (v : alg * list Z) : der :=
    let '(a, k) := v in SEQ [tree_Alg a; OCTETS k].
  Definition ok_DigestInfo (v : alg * list Z) : Prop :=
    let '(a, k) := v in ok_Alg a /\ is_octets k.

  (** OneAsymmetricKey ::= SEQUENCE { version INTEGER {0,1}, privateKeyAlgorithm,
      privateKey OCTET STRING, publicKey [1] IMPLICIT BIT STRING OPTIONAL } *)
  Definition tree_OneAsymmetricKey (v : Z * (alg * (list Z * option (list Z)))) : der :=
    let '(ver, (a, (k, pub))) := v in
    SEQ ([INT [ver]; tree_Alg a; OCTETS k] ++
         match pub with Some b => [Prim 0x81 (0 :: b)] | None => [] end).
  Definition ok_OneAsymmetricKey (v : Z * (alg * (list Z * option (list Z)))) : Prop :=
    let '(ver, (a, (k, pub))) := v in
    (ver = 0 \/ ver = 1) /\ ok_Alg a /\ is_octets k /\
    match pub with Some b => is_octets b | None => True end.
End Alg.

(** ECPrivateKey ::= SEQUENCE { version INTEGER {1}, privateKey OCTET STRING,
    parameters [0] EXPLICIT OBJECT IDENTIFIER OPTIONAL, publicKey [1] EXPLICIT BIT STRING OPTIONAL } *)
Definition tree_EcPrivateKey (v : Z * (list Z * (option (list Z) * option (list Z)))) : der :=
  let '(ver, (k, (params, pub))) := v in
  SEQ ([INT [ver]; OCTETS k] ++
       match params with Some o => [Cons 0xa0 [OID o]] | None => [] end ++
       match pub with Some b => [Cons 0xa1 [BITS b]] | None => [] end).
Definition ok_EcPrivateKey (v : Z * (list Z * (option (list Z) * option (list Z)))) : Prop :=
  let '(ver, (k, (params, pub))) := v in
  ver = 1 /\ is_octets k /\
  match params with Some o => is_oid o | None => True end /\
  match pub with Some b => is_octets b | None => True end.
