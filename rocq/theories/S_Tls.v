(** TLS record protection as written in the RFCs: RFC 8446 5.2-5.4 (TLS1.3), RFC 5246 6.2.3.3 with RFC 5288
    (AES-GCM) and RFC 7905 (ChaCha20-Poly1305) for TLS1.2. *)
Require Import Verif.Base Verif.S_ChaCha Verif.S_Aes Verif.S_Gcm.

(** An AEAD: [seal nonce ad plaintext] gives (ciphertext, tag) *)
Record saead := { seal : list Z -> list Z -> list Z -> list Z * list Z; unseal : list Z -> list Z -> list Z -> list Z -> option (list Z) }.
Definition s_chacha (key : list Z) : saead := {|
  seal := fun n a p => let c := chacha20_encrypt key 1 n p in (c, aead_tag key n a c);
  unseal := fun n a c t => if list_eqb t (aead_tag key n a c) then Some (chacha20_encrypt key 1 n c) else None |}.
Definition s_gcm (key : list Z) : saead := {|
  seal := fun n a p => GCM_AE (AES key) n p a;
  unseal := fun n a c t => GCM_AD (AES key) n c a t |}.

(** RFC 8446 5.3: the 64-bit record sequence number, in network byte order, padded on the left with
    zeros to iv_length (12), xored with the static IV *)
Fixpoint xor_bytes (a b : list Z) : list Z :=
  match a, b with x :: a', y :: b' => Z.lxor x y :: xor_bytes a' b' | _, _ => [] end.
Definition record_nonce (iv : list Z) (seq : Z) : list Z := xor_bytes iv (be_bytes 12 seq).
(** RFC 8446 5.2: additional_data = opaque_type || legacy_record_version || length *)
Definition ad13 (len : Z) : list Z := [23; 3; 3] ++ be_bytes 2 len.
(** RFC 5246 6.2.3.3: seq_num + type + version + length of the plaintext *)
Definition ad12 (seq typ ver len : Z) : list Z := be_bytes 8 seq ++ [typ] ++ be_bytes 2 ver ++ be_bytes 2 len.

(** RFC 8446 5.2: TLSInnerPlaintext = content || type || zeros *)
Definition inner_plaintext (p content : list Z) (typ : Z) : Prop := typ <> 0 /\ exists n, p = content ++ [typ] ++ repeat 0 n.

(** a protected TLS1.3 record without padding *)
Definition tls13_record (S : saead) (iv : list Z) (seq typ : Z) (content : list Z) : list Z :=
  let '(c, t) := seal S (record_nonce iv seq) (ad13 (zlen content + 17)) (content ++ [typ]) in c ++ t.
(** RFC 7905 2: the TLS1.3 nonce; nothing explicit in the record *)
Definition tls12_chacha_record (S : saead) (iv : list Z) (seq typ ver : Z) (content : list Z) : list Z :=
  let '(c, t) := seal S (record_nonce iv seq) (ad12 seq typ ver (zlen content)) content in c ++ t.
(** RFC 5288 3: nonce = salt || nonce_explicit, the explicit part is sent before the ciphertext *)
Definition tls12_gcm_record (S : saead) (salt explicit : list Z) (seq typ ver : Z) (content : list Z) : list Z :=
  let '(c, t) := seal S (salt ++ explicit) (ad12 seq typ ver (zlen content)) content in explicit ++ c ++ t.
