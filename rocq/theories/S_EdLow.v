(** The contract of the assembly routines used for Ed25519 (the comments at the
    top of low/x86_64/{edwards25519_decode, edwards25519_scalarmulbase,
    edwards25519_scalarmuldouble, bignum_neg_p25519, bignum_mod_n25519,
    bignum_madd_n25519}.rs), for the curve [c]. *)
Require Import Verif.Base Verif.M_Util Verif.L_Util Verif.M_Ed25519 Verif.S_Ed.

(** Four and eight word representations.  Spec only. *)
Definition words4 (v : Z) : list Z := le_to_u64s (le_bytes 32 v).
(** As above. *)
Definition ed_words (P : Z * Z) : list Z := words4 (fst P) ++ words4 (snd P).
(** As above. *)
Definition is_words (n : Z) (v : list Z) : Prop := zlen v = n /\ Forall u64 v.

(** The contract.  Spec only. *)
Record ed_low_ok (c : edcurve) (L : ed_low) : Prop := {
  lo_order : is_words 4 (el_order L) /\ limbs_val (el_order L) = ed_l c;
  lo_decode : forall P, on_ed c P -> el_decode L (ed_enc P) = Some (ed_words P);
  lo_decode_sound : forall b w, bytes b -> zlen b = 32 -> el_decode L b = Some w -> exists P, on_ed c P /\ b = ed_enc P;
  lo_mulbase : forall s, is_words 4 s -> el_mulbase L s = ed_words (ed_mul c (limbs_val s) (ed_b c));
  lo_muldouble : forall s P m, is_words 4 s -> limbs_val s < ed_l c -> on_ed c P -> is_words 4 m -> limbs_val m < ed_l c ->
    el_muldouble L s (ed_words P) m = ed_words (ed_add c (ed_mul c (limbs_val s) P) (ed_mul c (limbs_val m) (ed_b c)));
  lo_neg : forall x, 0 <= x < ed_p c -> el_neg L (words4 x) = words4 ((- x) mod ed_p c);
  lo_mod_n : forall x, is_words 8 x -> el_mod_n L x = words4 (limbs_val x mod ed_l c);
  lo_madd_n : forall x y z, is_words 4 x -> is_words 4 y -> is_words 4 z ->
    el_madd_n L x y z = words4 ((limbs_val x * limbs_val y + limbs_val z) mod ed_l c) }.
