(** The weights with which the events of a many-body decay are accepted
    (detail/PROPOSAL/decay/ManyBodyPhaseSpace.cxx), with a matrix element of the
    user. *)
From Verif Require Import Prelude Vec_Model Propagator_Model Particle_Model Decay_Model.

Section Weights.
Variables (nan : forall A, outcome A) (reg : registry).
(** daughters_, broad_phase_statistic_ and the matrix element that the user gave,
    [None] for nullptr: ManyBodyPhaseSpace.cxx:18-47. *)
Variables (daughters : list pdef) (statistic : Z) (element : option (pstate -> list particle -> R)).

(** matrix_element_, ManyBodyPhaseSpace.cxx:32-38, DefaultEvaluate 187-193 *)
Definition element_of : pstate -> list particle -> R := match element with Some e => e | None => fun _ _ => 1 end.

(** ParticleState(), Particle.cxx:46-54 *)
Definition blank : pstate := mkpstate (mkvec 0 0 0) (mkvec 0 0 0) 0 0 0.
(** The parent of SampleEstimateMaxWeight, ManyBodyPhaseSpace.cxx:263-265 *)
Definition resting (parent : pdef) : pstate := mkpstate (mkvec 0 0 0) (mkvec 0 0 0) (pd_mass parent) 0 0.
(** One event and its weight, ManyBodyPhaseSpace.cxx:268-270, 276-278; the
    number of random numbers that it uses. *)
Definition sample_event (normalization : R) (parent : pdef) (rnd : nat -> R) (k : nat) (ps : list particle) : outcome (R * list particle) :=
  olet x := one_event nan reg daughters (mkparams normalization 0 0) parent rnd k ps in
  let (kin, ps) := x in
  Ok (k_weight kin * element_of (resting parent) ps, ps).
Definition numbers_per_event : nat := length daughters - 2 + 2 * (length daughters - 1).
(** The loop, ManyBodyPhaseSpace.cxx:274-289, with [n] events still to come *)
Fixpoint sample_loop (n : nat) (normalization : R) (parent : pdef) (rnd : nat -> R) (k : nat) (ps : list particle) (lo hi : R) : outcome (params * nat) :=
  match n with
  | O => Ok (mkparams normalization hi lo, k)
  | S n =>
    olet x := sample_event normalization parent rnd k ps in
    let (result, ps) := x in
    sample_loop n normalization parent rnd (k + numbers_per_event) ps
      (if result <? lo then result else lo) (if hi <? result then result else hi)
  end.
(** SampleEstimateMaxWeight, ManyBodyPhaseSpace.cxx:252-290, from the [k]th random
    number on; the number of the next one is part of the result. *)
Definition sample_estimate (normalization : R) (parent : pdef) (rnd : nat -> R) (k : nat) : outcome (params * nat) :=
  let ps := map (fun d => mkparticle (pd_type d) blank) daughters in
  olet x := sample_event normalization parent rnd k ps in
  let (result, ps) := x in
  sample_loop (Z.to_nat (statistic - 1)) normalization parent rnd (k + numbers_per_event) ps result result.

(** parameter_map_: the first entry that is equal; equal definitions have equal
    hashes (ParticleDef.cxx:245-260). *)
Fixpoint recall (cache : list (pdef * params)) (parent : pdef) : option params :=
  match cache with
  | [] => None
  | (d, p) :: cache => if pdef_eqb parent d then Some p else recall cache parent
  end.
(** GetPhaseSpaceParams, ManyBodyPhaseSpace.cxx:203-220, with estimate_ of the
    constructor, lines 32-43 *)
Definition get_params (cache : list (pdef * params)) (parent : pdef) (rnd : nat -> R) (k : nat) : outcome (params * list (pdef * params) * nat) :=
  match recall cache parent with
  | Some par => Ok (par, cache, k)
  | None =>
    olet norm := calculate_normalization nan (map pd_mass daughters) (pd_mass parent) in
    olet x := (match element with
               | None => olet par := estimate_max_weight nan (map pd_mass daughters) norm (pd_mass parent) in Ok (par, k)
               | Some _ => sample_estimate norm parent rnd k
               end) in
    let (par, k) := x in
    Ok (par, (parent, par) :: cache, k)
  end.
End Weights.
