Require Import Verif.Base Verif.S_MlKem Verif.M_MlKem.
Require Import Permutation.

(** What is assumed of the ML-KEM assembly (all of low/{x86_64,aarch64}/mlkem_*.rs), in terms of
    FIPS 203 (S_MlKem).
    The vector code keeps transform-domain polynomials in its own coefficient order: the order is
    some permutation [ord] of the 256 positions ([place] puts a natural-order polynomial into it). *)
Definition place (ord : list nat) (f : list Z) : list Z := map (fun i => nth i f 0) ord.
Definition is_order (ord : list nat) : Prop := Permutation ord (seq 0 n256).
Definition i16 (x : Z) : Prop := - 2 ^ 15 <= x < 2 ^ 15.
Definition i16s (l : list Z) : Prop := length l = n256 /\ Forall i16 l.
(** congruent modulo q, coefficient by coefficient *)
Definition congr (a b : list Z) : Prop := Forall2 (fun x y => x mod q = y mod q) a b.

Record asm_ok (ord : list nat) (a : asm) : Prop := {
  ok_order : is_order ord;
  (* forward transform: residues of the transform, magnitude below 8q, for inputs below q *)
  ok_ntt : forall f, length f = n256 -> Forall (fun x => - q < x < q) f ->
    congr (a_ntt a f) (place ord (NTT (map (fun x => x mod q) f))) /\ Forall (fun x => - (8 * q) < x < 8 * q) (a_ntt a f);
  (* inverse transform, times 2^16 *)
  ok_intt : forall F F', length F = n256 -> i16s F' -> congr F' (place ord F) ->
    congr (a_intt a F') (map (fun x => 2 ^ 16 * x) (NTT_inv F)) /\ Forall (fun x => - (8 * q) < x < 8 * q) (a_intt a F');
  (* three-term base multiplication, divided by 2^16; [bt] is the multiplication cache of [b] *)
  ok_basemul : forall F G Fs Gs, length Fs = k3 -> length Gs = k3 ->
    Forall2 (fun f' f => length f = n256 /\ i16s f' /\ Forall (fun x => 0 <= x < 2 ^ 12) f' /\ congr f' (place ord f)) F Fs ->
    Forall2 (fun g' g => length g = n256 /\ i16s g' /\ congr g' (place ord g)) G Gs ->
    let r := a_basemul a (concat F) (concat G) (concat (map (a_mulcache a) G)) in
    i16s r /\ congr (map (fun x => 2 ^ 16 * x) r) (place ord (dot Fs Gs));
  ok_reduce : forall f, i16s f -> a_reduce a f = map (fun x => x mod q) f;
  ok_tomont : forall f, i16s f ->
    congr (a_tomont a f) (map (fun x => 2 ^ 16 * x) f) /\ Forall (fun x => - q < x < q) (a_tomont a f);
  ok_frombytes : forall b, bytes b -> zlen b = 384 -> a_frombytes a b = place ord (ByteDecode_raw 12 b);
  ok_tobytes : forall f, length f = n256 -> Forall (fun x => 0 <= x < 2 ^ 12) f -> a_tobytes a (place ord f) = ByteEncode 12 f;
  ok_unpack : forall f, length f = n256 -> a_unpack a f = place ord f;
  (* rejection sampling: only the first [count] entries are specified *)
  ok_rej : forall r buf, length r = n256 -> bytes buf -> zlen buf mod 12 = 0 ->
    let '(r', cnt) := a_rej a r buf in
    length r' = n256 /\ cnt = Z.min 256 (zlen (accepted buf)) /\ firstn (Z.to_nat cnt) r' = firstn n256 (accepted buf)
}.
