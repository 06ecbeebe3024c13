(** FIPS 197, written from the standard. Bytes are integers; the state is 16 bytes in input order
    (byte r + 4 c is row r, column c). *)
Require Import Verif.Base.

(** 4.2: GF(2^8) with m(x) = x^8 + x^4 + x^3 + x + 1 *)
Definition xtime (b : Z) : Z := if 128 <=? b then Z.lxor (2 * b - 256) 0x1b else 2 * b.
Fixpoint gf8_mul_n (n : nat) (a b : Z) : Z :=
  match n with O => 0 | S n => Z.lxor (if Z.odd b then a else 0) (gf8_mul_n n (xtime a) (b / 2)) end.
Definition gf8_mul (a b : Z) : Z := gf8_mul_n 8 a b.
(** inverse: the element whose product is 1 (0 for 0) *)
Definition gf8_inv (b : Z) : Z :=
  match find (fun c => gf8_mul b c =? 1) (map Z.of_nat (seq 1 255)) with Some c => c | None => 0 end.
(** 5.1.1: the affine map over GF(2), constant 0x63 *)
Definition affine (b : Z) : Z :=
  let bit i := Z.testbit b (i mod 8) in
  fold_left (fun acc i =>
    acc + (if xorb (bit i) (xorb (bit (i + 4)) (xorb (bit (i + 5)) (xorb (bit (i + 6)) (xorb (bit (i + 7)) (Z.testbit 0x63 i)))))
           then 2 ^ i else 0)) [0; 1; 2; 3; 4; 5; 6; 7] 0.
Definition sbox_table : list Z := map (fun i => affine (gf8_inv (Z.of_nat i))) (seq 0 256).
Definition sbox (b : Z) : Z := nth (Z.to_nat b) sbox_table 0.

Definition SubBytes (s : list Z) : list Z := map sbox s.
(** 5.1.2: row r is rotated left by r *)
Definition ShiftRows (s : list Z) : list Z :=
  map (fun i => let r := Z.of_nat i mod 4 in let c := Z.of_nat i / 4 in
                nth (Z.to_nat (r + 4 * ((c + r) mod 4))) s 0) (seq 0 16).
(** 5.1.3 *)
Definition MixColumns (s : list Z) : list Z :=
  map (fun i => let r := Z.of_nat i mod 4 in let c := Z.of_nat i / 4 in
                let a k := nth (Z.to_nat ((r + k) mod 4 + 4 * c)) s 0 in
                Z.lxor (gf8_mul 2 (a 0)) (Z.lxor (gf8_mul 3 (a 1)) (Z.lxor (a 2) (a 3)))) (seq 0 16).
(** 5.1.4 *)
Definition AddRoundKey (s k : list Z) : list Z := map (fun '(x, y) => Z.lxor x y) (combine s k).

(** 5.1, Figure 5: w is the list of round keys (16 bytes each) *)
Fixpoint cipher_rounds (s : list Z) (w : list (list Z)) : list Z :=
  match w with
  | [] => s
  | [k] => AddRoundKey (ShiftRows (SubBytes s)) k
  | k :: r => cipher_rounds (AddRoundKey (MixColumns (ShiftRows (SubBytes s))) k) r
  end.
Definition Cipher (w : list (list Z)) (inp : list Z) : list Z :=
  match w with [] => inp | k0 :: r => cipher_rounds (AddRoundKey inp k0) r end.

(** 5.2: words are lists of 4 bytes *)
Definition SubWord (w : list Z) : list Z := map sbox w.
Definition RotWord (w : list Z) : list Z := match w with a :: r => r ++ [a] | [] => [] end.
Definition Rcon (i : Z) : list Z := [Nat.iter (Z.to_nat (i - 1)) xtime 1; 0; 0; 0].
Definition xor_word (a b : list Z) : list Z := map (fun '(x, y) => Z.lxor x y) (combine a b).
(** Figure 11: [w] holds w[0 .. i-1]; the next word, for key length Nk words *)
Definition next_word (Nk : Z) (w : list (list Z)) : list Z :=
  let i := zlen w in
  let temp := nth (Z.to_nat (i - 1)) w [] in
  let temp :=
    if i mod Nk =? 0 then xor_word (SubWord (RotWord temp)) (Rcon (i / Nk))
    else if (6 <? Nk) && (i mod Nk =? 4) then SubWord temp
    else temp in
  xor_word (nth (Z.to_nat (i - Nk)) w []) temp.
Fixpoint expand (n : nat) (Nk : Z) (w : list (list Z)) : list (list Z) :=
  match n with O => w | S n => expand n Nk (w ++ [next_word Nk w]) end.
Definition KeyExpansion (Nk Nr : Z) (key : list Z) : list (list Z) :=
  let w := expand (Z.to_nat (4 * (Nr + 1) - Nk)) Nk (chunks_exact 4 key) in
  map (@concat Z) (chunks_exact 4 w).
Definition AES128 (key inp : list Z) : list Z := Cipher (KeyExpansion 4 10 key) inp.
Definition AES256 (key inp : list Z) : list Z := Cipher (KeyExpansion 8 14 key) inp.
(** the block cipher of FIPS 197 selected by the key length *)
Definition AES (key : list Z) : list Z -> list Z := if zlen key =? 16 then AES128 key else AES256 key.
