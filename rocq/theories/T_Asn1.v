(** Property theorems C01-C05 (DER), for each of the eight exchanged structures
    ([every_structure], L_Pkix.v, just lists them).  [der_enc (tree v)] is the X.690 encoding of [v]
    (S_Der.v, S_Pkix.v); [ok v] says the field contents are legal (S_Pkix.v).
    65539 = 4 header bytes + the decoder's limit of 65535 content bytes. *)
Require Import Verif.Base Verif.L_Base Verif.M_Asn1 Verif.M_Pkix Verif.S_Der Verif.S_Pkix
  Verif.L_Asn1 Verif.L_Asn1Int Verif.L_Pkix.

(** C01: encoding into a big enough buffer, then decoding what was written, gives the value back;
    the rest of the buffer is untouched. *)
Theorem C01_der_round_trip :
  every_structure (fun A c tree ok => forall (v : A) out,
    ok v -> zlen (der_enc (tree v)) <= 65539 -> zlen (der_enc (tree v)) <= zlen out ->
    exists out' n, encode_into c v out = Ok (out', n) /\
      from_bytes c (ztake n out') = Ok v /\ zdrop n out' = zdrop n out).
Proof.
  apply every_exact. intros A fs tree ok X B _ v out Hv L Ho.
  destruct (exact_round_trip _ _ _ X v out Hv L) as (o & n & H1 & H2 & H3 & _); eauto.
  apply bytes_der_enc; auto.
Qed.
Print Assumptions C01_der_round_trip.

(** C02: accepted inputs are exactly the DER encodings of legal values. *)
Theorem C02_der_canonical :
  every_structure (fun A c tree ok => forall (v : A) b, bytes b ->
    (from_bytes c b = Ok v <-> ok v /\ b = der_enc (tree v) /\ zlen b <= 65539)).
Proof. apply every_exact. intros A fs tree ok X _ _ v b Hb. apply (x_dec _ _ _ X); auto. Qed.
Print Assumptions C02_der_canonical.

(** C02, in terms of the API only: re-encoding an accepted input reproduces it, and two accepted
    inputs for one value are equal. *)
Theorem C02_reencode_identity :
  every_structure (fun A c tree ok => forall (v : A) b out, bytes b -> from_bytes c b = Ok v ->
    zlen out = zlen b -> encode_into c v out = Ok (b, zlen b)).
Proof.
  apply every_exact. intros A fs tree ok X _ _ v b out Hb H Ho.
  apply (x_dec _ _ _ X) in H as (Hv & -> & L); auto.
  rewrite (exact_encode_into _ _ _ X) by (auto; lia). rewrite Ho, Z.ltb_irrefl, zdrop_all by lia.
  now rewrite app_nil_r.
Qed.
Print Assumptions C02_reencode_identity.

Theorem C02_no_two_encodings :
  every_structure (fun A c tree ok => forall (v : A) b1 b2, bytes b1 -> bytes b2 ->
    from_bytes c b1 = Ok v -> from_bytes c b2 = Ok v -> b1 = b2).
Proof.
  apply every_exact. intros A fs tree ok X _ _ v b1 b2 Hb1 Hb2 H1 H2.
  apply (x_dec _ _ _ X) in H1 as (_ & -> & _); auto. apply (x_dec _ _ _ X) in H2 as (_ & -> & _); auto.
Qed.
Print Assumptions C02_no_two_encodings.

(** C03: no byte string makes the decoder panic; strict prefixes of an accepted string report
    end-of-input. *)
Theorem C03_decoder_total :
  every_structure (fun A c tree ok => forall b, bytes b -> from_bytes c b <> Panic).
Proof. apply every_exact. intros A fs tree ok X _ _ b Hb. apply (x_total _ _ _ X); auto. Qed.
Print Assumptions C03_decoder_total.

Theorem C03_truncation_reported :
  every_structure (fun A c tree ok => forall (v : A) p q, bytes (p ++ q) ->
    from_bytes c (p ++ q) = Ok v -> q <> [] -> from_bytes c p = Err UnexpectedEof).
Proof.
  apply every_exact. intros A fs tree ok X _ T v p q Hb H Hq.
  apply (x_dec _ _ _ X) in H as (_ & E & L); auto. destruct (T v) as [l El]. rewrite El in E. cbn [der_enc] in E.
  rewrite E in L. apply tlv_fits in L. eapply Struct_trunc; eauto.
Qed.
Print Assumptions C03_truncation_reported.

(** C04: encoding succeeds exactly when the buffer can hold the encoding, writes only its own bytes,
    returns their number, and agrees with the announced length. *)
Theorem C04_encode_iff_fits :
  every_structure (fun A c tree ok => forall (v : A) out, ok v -> zlen (der_enc (tree v)) < 2^32 ->
    (zlen out < zlen (der_enc (tree v)) -> encode_into c v out = Err UnexpectedEof) /\
    (zlen (der_enc (tree v)) <= zlen out ->
       encode_into c v out = Ok (der_enc (tree v) ++ zdrop (zlen (der_enc (tree v))) out,
                                 zlen (der_enc (tree v)))) /\
    c_len c v = Ok (zlen (der_enc (tree v)))).
Proof.
  apply every_exact. intros A fs tree ok X _ _ v out Hv L.
  rewrite (exact_encode_into _ _ _ X) by auto. rewrite (x_len _ _ _ X) by auto.
  destruct (Z.ltb_spec (zlen out) (zlen (der_enc (tree v)))); repeat split; intros; auto; lia.
Qed.
Print Assumptions C04_encode_iff_fits.

(** C05: appending anything to an accepted whole input is an error. *)
Theorem C05_trailing_rejected :
  every_structure (fun A c tree ok => forall (v : A) b r, bytes b -> bytes r -> r <> [] ->
    from_bytes c b = Ok v -> from_bytes c (b ++ r) = Err UnexpectedTrailingData).
Proof.
  apply every_exact. intros A fs tree ok X _ _ v b r Hb Hr Hne H.
  eapply (exact_trailing _ _ _ X); eauto.
Qed.
Print Assumptions C05_trailing_rejected.

(** INTEGER construction keeps the value and is minimal (the parts of C01 about building values). *)
Theorem C01_integer_new : forall b, bytes b ->
  is_int (integer_new b) /\ int_value (integer_new b) = int_value b.
Proof. exact integer_new_spec. Qed.
Print Assumptions C01_integer_new.

Theorem C01_integer_new_positive : forall n b, bytes b -> zlen b + 1 <= n ->
  exists i, integer_new_positive n b = Ok i /\ is_int i /\ int_value i = be_val b /\
    integer_is_negative i = false.
Proof.
  intros n b Hb Hn. destruct (integer_new_positive_spec n b Hb Hn) as (i & A & B & C & D & _); eauto.
Qed.
Print Assumptions C01_integer_new_positive.

Theorem C02_integer_unique : forall a b, is_int a -> is_int b -> int_value a = int_value b -> a = b.
Proof. exact minimal_unique. Qed.
Print Assumptions C02_integer_unique.

(** The compile-time OID encoder agrees with X.690 8.19. *)
Theorem C01_oid_from_path : forall a b rest,
  0 <= a < 256 -> 0 <= b < 256 -> 40 * a + b < 128 -> Forall (fun n => 0 <= n < 2^64) rest ->
  zlen (oid_spec (a :: b :: rest)) <= 16 ->
  oid_from_path (a :: b :: rest) = Ok (oid_spec (a :: b :: rest)).
Proof. exact oid_from_path_spec. Qed.
Print Assumptions C01_oid_from_path.

(** ** Non-vacuity: concrete values meeting the hypotheses, across length-form boundaries. *)
Definition sig1 : list Z * list Z := (0 :: repeat 0xff 200, [0x7f]).
Example sig1_ok : ok_EcdsaSigValue sig1.
Proof. split; split; [apply bytes_cons; split; [unfold byte_ok; lia|apply bytes_repeat; unfold byte_ok; lia] | cbn; lia
  | repeat constructor; lia | cbn; auto]. Qed.
Example sig1_len : zlen (der_enc (tree_EcdsaSigValue sig1)) = 210.
Proof. reflexivity. Qed.
Example sig1_roundtrip : exists out n, encode_into EcdsaSigValue sig1 (repeat 0xaa 220) = Ok (out, n) /\
  from_bytes EcdsaSigValue (ztake n out) = Ok sig1.
Proof. eexists; eexists; split; vm_compute; reflexivity. Qed.
Example sig1_short : encode_into EcdsaSigValue sig1 (repeat 0xaa 209) = Err UnexpectedEof.
Proof. reflexivity. Qed.
Definition eckey1 : Z * (list Z * (option (list Z) * option (list Z))) :=
  (1, (repeat 7 32, (Some id_prime256v1, Some (4 :: repeat 9 64)))).
Example eckey1_ok : ok_EcPrivateKey eckey1.
Proof.
  unfold ok_EcPrivateKey, eckey1, is_octets. split; auto. split; [apply bytes_repeat; unfold byte_ok; lia|].
  split; [split; [bytes_tac|vm_compute; discriminate]|].
  apply bytes_cons; split; [unfold byte_ok; lia|apply bytes_repeat; unfold byte_ok; lia].
Qed.
Example eckey1_rt : from_bytes EcPrivateKey (der_enc (tree_EcPrivateKey eckey1)) = Ok eckey1.
Proof. reflexivity. Qed.
Example oid_case : oid_from_path path_rsaEncryption = Ok [42; 134; 72; 134; 247; 13; 1; 1; 1]
  /\ oid_spec path_rsaEncryption = [42; 134; 72; 134; 247; 13; 1; 1; 1].
Proof. split; reflexivity. Qed.
Example int_case : integer_new_positive 4 [0; 0; 0x80] = Ok [0; 0x80] /\ integer_new [0xff; 0xff; 0x7f] = [0xff; 0x7f].
Proof. split; reflexivity. Qed.
