(** Vocabulary of the properties of continuous losses. *)
From Coquelicot Require Hierarchy RInt.
From Verif Require Import Prelude Particle_Model Limits_Model Cross_Model Integral_Model Ionization_Model.

Notation integral_of f a b := (@RInt.RInt Hierarchy.R_CompleteNormedModule f a b).
Notation integrable f a b := (@RInt.ex_RInt Hierarchy.R_NormedModule f a b).

(** The mean energy lost in losses with a relative size between [a] and [b];
    [sigma v] is the differential cross section at the energy [E]. *)
Definition lost_between (E : R) (sigma : R -> R) (a b : R) : R := E * integral_of (fun v => v * sigma v) a b.
(** ... in the losses that are sampled with a cut *)
Definition stochastic_part (E : R) (sigma : R -> R) (kin : R -> limits) (cut : energy_cut) : R :=
  let lim := integration_limits kin (Some cut) E in lost_between E sigma (v_min lim) (v_max lim).
(** A numerical integral deviates by [e] from the integral of [F]. *)
Definition deviates (F : R -> R) (a b e : R) (r : run R) : Prop :=
  exists x, r = Some (Ok x) /\ x = integral_of F a b + e.

(** [sigma] is the differential cross section at the energy [E]. *)
Record is_differential (kin : R -> limits) (differential : R -> R -> outcome R) (E : R) (sigma : R -> R) : Prop := {
  id_order : v_min (kin E) <= v_max (kin E);
  id_value : forall v, v_min (kin E) < v <= v_max (kin E) -> differential E v = Ok (sigma v);
  id_integrable : integrable (fun v => v * sigma v) (v_min (kin E)) (v_max (kin E))
}.

(** A cut the constructor accepts *)
Definition accepted (c : energy_cut) : Prop := exists e v r, new_energy_cut e v r = Ok c.
(** Positive charges, masses and numbers of atoms, a positive ionization potential *)
Record sound_material (m : material) : Prop := {
  sm_some : mat_components m <> [];
  sm_positive : Forall (fun c => 0 < c_atoms c /\ 0 < c_charge c /\ 0 < c_atomic c) (mat_components m);
  sm_I : 0 < mat_I m
}.
