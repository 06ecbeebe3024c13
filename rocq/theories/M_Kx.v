(** Model of rustls-graviola/src/{kx.rs, kx/hybrid.rs, kx/mlkem.rs}: X25519, ML-KEM-768 and hybrid key
    exchange.  [fill i n] is the answer to the i-th request for n random bytes.  The rustls types and the
    default method SupportedKxGroup::start_and_complete are a dependency, modelled from its documentation. *)
Require Import Verif.Base Verif.M_Util Verif.M_X25519 Verif.M_MlKem.

(** rustls: ActiveKeyExchange (the client's half): its public key and [complete] *)
Record active := mkActive { ak_pub : list Z; ak_complete : list Z -> res (list Z) }.
(** the answers of the random source (graviola/src/mid/rng.rs:11-24) *)
Definition rng := nat -> Z -> res (list Z).
(** rustls: SupportedKxGroup; [kx_start_and_complete] returns (public key, secret) *)
Record kx_group := { kx_start : rng -> res active; kx_start_and_complete : rng -> list Z -> res (list Z * list Z) }.
(** rustls: the default start_and_complete: start, then complete with the peer's share *)
Definition default_start_and_complete (start : rng -> res active) (fill : rng) (peer : list Z) : res (list Z * list Z) :=
  let! a := start fill in
  let! secret := ak_complete a peer in
  Ok (ak_pub a, secret).

Section Kx.
(** assembly, see M_X25519.v *)
Variable xmul : list Z -> list Z -> list Z.
Variable xbase : list Z -> list Z.
(** assembly, see M_MlKem.v *)
Variable kf : list Z -> list Z -> list Z.
Variable kf4 kf2 : list (list Z) -> list Z -> list (list Z).
Variable a : asm.
(** bound on the iterations of ML-KEM rejection sampling (see M_MlKem.v) *)
Variable fuel : nat.

(** kx.rs:21-31, 49-62  X25519 *)
Definition x25519_start (fill : rng) : res active :=
  let! priv_key := map_err (x_new_random (fill 0%nat)) (fun _ => GetRandomFailed) in
  let pub_key_bytes := x_public_as_bytes (x_public_key xbase priv_key) in
  Ok (mkActive pub_key_bytes (fun peer =>
    map_err (let! their_pub := x_public_from_slice peer in x_diffie_hellman xmul priv_key their_pub) (fun _ => InvalidKeyShare))).
(** kx.rs:18-41 *)
Definition x25519_group : kx_group := {| kx_start := x25519_start; kx_start_and_complete := default_start_and_complete x25519_start |}.

(** mlkem.rs:15-24, 62-70; decapsulation cannot fail (its [res] only carries panics) *)
Definition mlkem_start (fill : rng) : res active :=
  let! dk := map_err (generate kf kf4 kf2 a (fill 0%nat) fuel) (fun _ => FailedToGetRandomBytes) in
  Ok (mkActive (ek_as_bytes (encapsulation_key dk)) (fun peer =>
    if zlen peer =? 1088 then decaps_internal kf kf4 kf2 a dk peer else Err InvalidKeyShare)).
(** mlkem.rs:26-42 *)
Definition mlkem_start_and_complete (fill : rng) (client_share : list Z) : res (list Z * list Z) :=
  if negb (zlen client_share =? 1184) then Err InvalidKeyShare else
  let! ek := map_err (ek_from_bytes kf kf4 a fuel client_share) (fun _ => InvalidKeyShare) in
  let! (shared_secret, ciphertext) := map_err (encaps kf kf4 kf2 a (fill 0%nat) ek) (fun _ => FailedToGetRandomBytes) in
  Ok (ciphertext, shared_secret).
(** mlkem.rs:14-56 *)
Definition mlkem_group : kx_group := {| kx_start := mlkem_start; kx_start_and_complete := mlkem_start_and_complete |}.
End Kx.

(** hybrid.rs:131-146 *)
Record layout := { l_classical : Z; l_pq_client : Z; l_pq_server : Z; l_pq_first : bool }.
(** hybrid.rs:157-178  Layout::split: (post-quantum, classical) *)
Definition layout_split (l : layout) (share : list Z) (pq_len : Z) : option (list Z * list Z) :=
  if negb (zlen share =? l_classical l + pq_len) then None else
  if l_pq_first l then Some (ztake pq_len share, zdrop pq_len share)
  else Some (zdrop (l_classical l) share, ztake (l_classical l) share).
(** hybrid.rs:180-185  Layout::concat *)
Definition layout_concat (l : layout) (pq cl : list Z) : list Z := if l_pq_first l then pq ++ cl else cl ++ pq.

(** hybrid.rs:15-31, 95-107  Hybrid::start and ActiveHybrid::complete.  The classical exchange asks the
    random source first: [fill_cl] answers its requests and [fill_pq] those of the post-quantum one. *)
Definition hybrid_start (cl pq : kx_group) (l : layout) (fill_cl fill_pq : rng) : res active :=
  let! c := kx_start cl fill_cl in
  let! p := kx_start pq fill_pq in
  Ok (mkActive (layout_concat l (ak_pub p) (ak_pub c)) (fun peer =>
    match layout_split l peer (l_pq_server l) with
    | None => Err InvalidKeyShare
    | Some (pq_share, cl_share) =>
        let! cs := ak_complete c cl_share in
        let! ps := ak_complete p pq_share in
        Ok (layout_concat l ps cs)
    end)).
(** hybrid.rs:33-53 *)
Definition hybrid_start_and_complete (cl pq : kx_group) (l : layout) (fill_cl fill_pq : rng) (client_share : list Z) : res (list Z * list Z) :=
  match layout_split l client_share (l_pq_client l) with
  | None => Err InvalidKeyShare
  | Some (pq_share, cl_share) =>
      let! c := kx_start_and_complete cl fill_cl cl_share in
      let! p := kx_start_and_complete pq fill_pq pq_share in
      Ok (layout_concat l (fst p) (fst c), layout_concat l (snd p) (snd c))
  end.
(** kx.rs:184-189, mlkem.rs:9-12  the layout of X25519MLKEM768 *)
Definition x25519mlkem768_layout : layout := {| l_classical := 32; l_pq_client := 1184; l_pq_server := 1088; l_pq_first := true |}.
