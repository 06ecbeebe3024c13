(** Independent specifications: FIPS 198-1 HMAC and SP 800-90A 10.1.2 HMAC_DRBG over an abstract hash function. *)
Require Import Verif.Base.

Section Spec.
  Context (Hs : list Z -> list Z) (B : Z) (outlen : Z).

  (** FIPS 198-1 section 4: K0 is the key (hashed first if longer than B) extended with zeros to B bytes. *)
  Definition K0 (key : list Z) : list Z :=
    let k := if zlen key <=? B then key else Hs key in
    k ++ repeat 0 (Z.to_nat (B - zlen k)).
  Definition xor_pad (c : Z) (k : list Z) : list Z := map (fun b => Z.lxor b c) k.
  Definition HMAC (key text : list Z) : list Z :=
    Hs (xor_pad 0x5c (K0 key) ++ Hs (xor_pad 0x36 (K0 key) ++ text)).

  (** SP 800-90A 10.1.2.2; a Null provided_data is the empty string *)
  Definition Update (provided_data : list Z) (KV : list Z * list Z) : list Z * list Z :=
    let '(K, V) := KV in
    let K := HMAC K (V ++ [0x00] ++ provided_data) in
    let V := HMAC K V in
    match provided_data with
    | [] => (K, V)
    | _ =>
      let K := HMAC K (V ++ [0x01] ++ provided_data) in
      let V := HMAC K V in
      (K, V)
    end.
  (** 10.1.2.3 *)
  Definition Instantiate (entropy nonce pers : list Z) : list Z * list Z :=
    Update (entropy ++ nonce ++ pers) (repeat 0 (Z.to_nat outlen), repeat 1 (Z.to_nat outlen)).
  (** 10.1.2.5 step 3-4: [while (len (temp) < requested)]; at most [n] iterations are needed for n bytes *)
  Fixpoint gen_loop (fuel : nat) (requested : Z) (K V temp : list Z) : list Z * list Z :=
    match fuel with
    | O => (V, temp)
    | S f => if zlen temp <? requested
             then let V := HMAC K V in gen_loop f requested K V (temp ++ V)
             else (V, temp)
    end.
  (** 10.1.2.5 steps 5-6 (no additional input) *)
  Definition Generate (n : Z) (KV : list Z * list Z) : list Z * (list Z * list Z) :=
    let '(K, V) := KV in
    let '(V, temp) := gen_loop (Z.to_nat n) n K V [] in
    (ztake n temp, Update [] (K, V)).
  Fixpoint Generates (ns : list Z) (KV : list Z * list Z) : list (list Z) :=
    match ns with
    | [] => []
    | n :: r => let '(o, KV) := Generate n KV in o :: Generates r KV
    end.
End Spec.
