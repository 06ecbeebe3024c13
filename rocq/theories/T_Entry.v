(** Property C47: the processor state around public functions. *)
Require Import Verif.Base Verif.M_Entry.

Scheme call_mind := Induction for call Sort Prop
with steps_mind := Induction for steps Sort Prop.
Combined Scheme call_steps_ind from call_mind, steps_mind.

(** The registers that are wiped, by number.  Spec only. *)
Definition wiped (a : arch) (i : Z) : Prop := 0 <= i < match a with X86_64 => 16 | Aarch64 => 32 end.

Lemma drop_dit m (secret : bool) s e s1 s2 : (if secret then new_secret m s else new_public m s) = Some (e, s1) ->
  dit s2 = dit s1 -> dit (entry_drop m e s2) = dit s.
Proof.
  unfold new_secret, new_public, enter_cpu_state, entry_drop, leave_cpu_state, maybe_enable, maybe_disable, dit_read.
  destruct (mc_required m), secret, (mc_arch m), (mc_dit m), (dit s) eqn:D; cbn; intros H; try discriminate H; injection H as <- <-; cbn; congruence.
Qed.

Lemma dit_same m :
  (forall c inside s, dit (fst (fst (run m inside c s))) = dit s) /\
  (forall b inside s, dit (fst (fst (run_steps m inside b s))) = dit s).
Proof.
  apply call_steps_ind.
  - intros secret body IH inside s. cbn [run]. destruct (if secret then new_secret m s else new_public m s) as [[e s1]|] eqn:E; [|reflexivity].
    specialize (IH (inside || secret) s1). destruct (run_steps m (inside || secret) body s1) as [[s2 u] tr]. cbn [fst] in *.
    eapply drop_dit; eassumption.
  - reflexivity.
  - intros f rest IH inside s. cbn [run_steps]. specialize (IH inside {| dit := dit s; vec := f (vec s) |}).
    destruct (run_steps m inside rest _) as [[s2 u] tr]. exact IH.
  - intros c IHc rest IHr inside s. cbn [run_steps]. specialize (IHc inside s). destruct (run m inside c s) as [[s1 u] tr]. cbn [fst] in IHc.
    destruct u; [exact IHc|]. specialize (IHr inside s1). destruct (run_steps m inside rest s1) as [[s2 u2] tr2]. cbn [fst] in *. congruence.
  - reflexivity.
Qed.

(** Whatever a call does, however deeply calls nest and however they end, the
    flag afterwards is what it was before. *)
Theorem C47_dit_restored : forall m c s, dit (fst (fst (run m false c s))) = dit s.
Proof. intros m c s. apply (proj1 (dit_same m)). Qed.

Lemma dit_inside m : mc_arch m = Aarch64 -> mc_dit m = true ->
  (forall c inside s, (inside = true -> dit s = true) -> Forall (fun '(ins, st) => ins = true -> dit st = true) (snd (run m inside c s))) /\
  (forall b inside s, (inside = true -> dit s = true) -> Forall (fun '(ins, st) => ins = true -> dit st = true) (snd (run_steps m inside b s))).
Proof.
  intros A D. apply call_steps_ind.
  - intros secret body IH inside s H. cbn [run]. destruct (if secret then new_secret m s else new_public m s) as [[e s1]|] eqn:E; [|constructor].
    specialize (IH (inside || secret) s1). destruct (run_steps m (inside || secret) body s1) as [[s2 u] tr]. cbn [snd] in *. apply IH. intros K.
    revert E. unfold new_secret, new_public, enter_cpu_state, maybe_enable, dit_read. rewrite A, D. destruct (mc_required m); [|destruct secret; discriminate].
    destruct secret.
    + destruct (dit s) eqn:DS; cbn; intros E; injection E as <- <-; [exact DS|reflexivity].
    + intros E. injection E as <- <-. apply H. now rewrite orb_false_r in K.
  - constructor.
  - intros f rest IH inside s H. cbn [run_steps]. specialize (IH inside {| dit := dit s; vec := f (vec s) |} H).
    destruct (run_steps m inside rest _) as [[s2 u] tr]. constructor; [exact H|exact IH].
  - intros c IHc rest IHr inside s H. cbn [run_steps]. specialize (IHc inside s H). pose proof (proj1 (dit_same m) c inside s) as DS.
    destruct (run m inside c s) as [[s1 u] tr]. cbn [fst snd] in *. destruct u; [exact IHc|].
    assert (H1 : inside = true -> dit s1 = true) by (intros K; rewrite DS; auto).
    specialize (IHr inside s1 H1). destruct (run_steps m inside rest s1) as [[s2 u2] tr2]. cbn [snd] in *. apply Forall_app. auto.
  - constructor.
Qed.

(** While anything is computed within a secret function, directly or in
    functions it calls, public or secret, also after such calls have returned,
    the flag is set, if the processor has it. *)
Theorem C47_dit_set_in_secret : forall m c s, mc_arch m = Aarch64 -> mc_dit m = true ->
  Forall (fun '(secret, st) => secret = true -> dit st = true) (snd (run m false c s)).
Proof. intros m c s A D. apply (proj1 (dit_inside m A D)). discriminate. Qed.

Lemma dit_outside m :
  (forall c s, Forall (fun '(ins, st) => ins = false -> dit st = dit s) (snd (run m false c s))) /\
  (forall b s, Forall (fun '(ins, st) => ins = false -> dit st = dit s) (snd (run_steps m false b s))).
Proof.
  assert (T : forall b s d, Forall (fun '(ins, st) => ins = false -> dit st = d) (snd (run_steps m true b s))).
  { assert (TT : (forall c s d, Forall (fun '(ins, st) => ins = false -> dit st = d) (snd (run m true c s))) /\
                 (forall b s d, Forall (fun '(ins, st) => ins = false -> dit st = d) (snd (run_steps m true b s)))); [|apply TT].
    apply call_steps_ind.
    - intros secret body IH s d. cbn [run]. destruct (if secret then new_secret m s else new_public m s) as [[e s1]|]; [|constructor].
      cbn [orb]. specialize (IH s1 d). destruct (run_steps m true body s1) as [[s2 u] tr]. exact IH.
    - constructor.
    - intros f rest IH s d. cbn [run_steps]. specialize (IH {| dit := dit s; vec := f (vec s) |} d). destruct (run_steps m true rest _) as [[s2 u] tr]. constructor; [discriminate|exact IH].
    - intros c IHc rest IHr s d. cbn [run_steps]. specialize (IHc s d). destruct (run m true c s) as [[s1 u] tr]. destruct u; [exact IHc|].
      specialize (IHr s1 d). destruct (run_steps m true rest s1) as [[s2 u2] tr2]. apply Forall_app. auto.
    - constructor. }
  apply call_steps_ind.
  - intros secret body IH s. cbn [run]. destruct secret.
    + destruct (new_secret m s) as [[e s1]|]; [|constructor]. cbn [orb]. specialize (T body s1 (dit s)). destruct (run_steps m true body s1) as [[s2 u] tr]. exact T.
    + unfold new_public. destruct (mc_required m); [|constructor]. cbn [orb]. specialize (IH s). destruct (run_steps m false body s) as [[s2 u] tr]. exact IH.
  - constructor.
  - intros f rest IH s. cbn [run_steps]. specialize (IH {| dit := dit s; vec := f (vec s) |}). destruct (run_steps m false rest _) as [[s2 u] tr]. constructor; [reflexivity|exact IH].
  - intros c IHc rest IHr s. cbn [run_steps]. specialize (IHc s). pose proof (proj1 (dit_same m) c false s) as DS. destruct (run m false c s) as [[s1 u] tr]. cbn [fst] in DS. destruct u; [exact IHc|].
    specialize (IHr s1). destruct (run_steps m false rest s1) as [[s2 u2] tr2]. cbn [snd] in *. apply Forall_app. split; [exact IHc|]. rewrite DS in IHr. exact IHr.
  - constructor.
Qed.

(** Outside secret functions the flag is the caller's. *)
Theorem C47_dit_untouched_outside : forall m c s, Forall (fun '(secret, st) => secret = false -> dit st = dit s) (snd (run m false c s)).
Proof. intros m c s. apply (proj1 (dit_outside m)). Qed.

(** After a secret function, however it ends, the vector registers named in
    [wiped] hold zero, unless the processor lacks a required feature, in which
    case nothing at all was computed. *)
Theorem C47_registers_wiped : forall m inside body s i, mc_required m = true -> wiped (mc_arch m) i ->
  vec (fst (fst (run m inside (Call true body) s))) i = 0.
Proof.
  intros m inside body s i R W. cbn [run]. unfold new_secret. rewrite R. destruct (enter_cpu_state m s) as [st s1]. cbn iota.
  destruct (run_steps m (inside || true) body s1) as [[s2 u] tr]. cbn [fst entry_drop en_secret en_cpu_state].
  unfold leave_cpu_state, wiped in *. destruct (mc_arch m).
  - cbn [vzeroall vec]. destruct (Z.leb_spec 0 i), (Z.ltb_spec i 16); cbn [andb]; lia || reflexivity.
  - cbn [zero_neon_registers vec]. destruct (Z.leb_spec 0 i), (Z.ltb_spec i 32); cbn [andb]; lia || reflexivity.
Qed.

(** Without a required feature every call panics before computing anything. *)
Theorem C47_features_required : forall m inside c s, mc_required m = false -> run m inside c s = (s, true, []).
Proof. intros m inside [secret body] s R. cbn [run]. unfold new_secret, new_public. rewrite R. now destruct secret. Qed.

(** On x86_64 "the vector registers" are not all of them: AVX-512, which
    AES-GCM uses when it is there (low/x86_64/cpu.rs:165-181), has registers 16 to 31,
    and what a secret function leaves there stays (cpu.rs:24 has a TODO). *)
Theorem C47_avx512_registers_refuted : forall secret i, 16 <= i < 32 -> exists m body s,
  mc_arch m = X86_64 /\ mc_required m = true /\
  vec s i = 0 /\ vec (fst (fst (run m false (Call true body) s))) i = secret.
Proof.
  intros secret i I. exists {| mc_arch := X86_64; mc_required := true; mc_dit := false |}, (Compute (fun v j => if j =? i then secret else v j) Done), {| dit := false; vec := fun _ => 0 |}.
  split; [reflexivity|]. split; [reflexivity|]. split; [reflexivity|]. cbn. destruct (Z.leb_spec 0 i), (Z.ltb_spec i 16); cbn [andb]; try lia. now rewrite Z.eqb_refl.
Qed.
Print Assumptions C47_dit_restored.
Print Assumptions C47_dit_set_in_secret.
Print Assumptions C47_dit_untouched_outside.
Print Assumptions C47_registers_wiped.
Print Assumptions C47_features_required.
Print Assumptions C47_avx512_registers_refuted.

(** A case: a public function that computes, calls a secret one that calls a
    public and a secret one and then panics, on a machine with DIT, the flag
    clear at first. *)
Example C47_some :
  let m := {| mc_arch := Aarch64; mc_required := true; mc_dit := true |} in
  let leak := fun (_ : Z -> Z) (_ : Z) => 7 in
  let inner := Call true (Compute leak (Sub (Call false (Compute leak Done)) (Sub (Call true (Compute leak Done)) (Compute leak (Stop true))))) in
  let c := Call false (Compute leak (Sub inner (Compute leak Done))) in
  let s := {| dit := false; vec := fun _ => 5 |} in
  let '(s', unwinding, tr) := run m false c s in
  dit s' = false /\ vec s' 31 = 0 /\ unwinding = true /\
  map (fun '(ins, st) => (ins, dit st)) tr = [(false, false); (true, true); (true, true); (true, true); (true, true)].
Proof. cbn. repeat split; reflexivity. Qed.
