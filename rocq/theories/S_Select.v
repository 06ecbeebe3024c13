(** What a lookup in a table should do.  Spec only. *)
Require Import Verif.Base.

(** Row i of a table of rows of w words, or zeros if there is no such row.  (Spec only.) *)
Definition entry (w i : Z) (table : list Z) : list Z :=
  if (0 <=? i) && ((i + 1) * w <=? zlen table) then ztake w (zdrop (i * w) table) else repeat 0 (Z.to_nat w).
(** The positions of the words read, in order.  (Spec only.) *)
Definition touched (reads : list (Z * Z)) : list Z :=
  flat_map (fun '(o, n) => map (fun j => o + Z.of_nat j) (seq 0 (Z.to_nat n))) reads.
(** The positions of the first n words of a table.  (Spec only.) *)
Definition whole (n : Z) : list Z := map Z.of_nat (seq 0 (Z.to_nat n)).
(** A number as n 64-bit words, lowest first.  (Spec only.) *)
Definition words64 (n : nat) (x : Z) : list Z := map (fun i => x / 2 ^ (64 * Z.of_nat i) mod 2 ^ 64) (seq 0 n).
(** The tables of points as words: the coordinates one after the other.  (Spec only.) *)
Definition aff_words (n : nat) (p : Z * Z) : list Z := words64 n (fst p) ++ words64 n (snd p).
Definition jac_words (n : nat) (p : Z * Z * Z) : list Z := aff_words n (fst p) ++ words64 n (snd p).
