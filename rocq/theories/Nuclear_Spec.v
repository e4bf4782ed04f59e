(** Vocabulary of the properties of nuclear interactions. *)
From Verif Require Import Prelude Particle_Model Limits_Model Cross_Model Photo_Model.

(** The mean mass of the protons and neutrons of a nucleus *)
Definition mean_nucleon (c : component) : R :=
  c_charge c / c_atomic c * MP + (1 - c_charge c / c_atomic c) * MN.
(** A photon with the energy [E] and a nucleon at rest have enough energy, in the frame
    of their centre of mass, for a nucleon and a pion. *)
Definition makes_pion (c : component) (E : R) : Prop :=
  (mean_nucleon c + MPI) ^ 2 <= mean_nucleon c ^ 2 + 2 * mean_nucleon c * E.
(** A cross section with this threshold *)
Definition has_threshold (c : component) (E : R) (sigma : outcome R) : Prop :=
  exists x, sigma = Ok x /\ (makes_pion c E -> 0 < x) /\ (~ makes_pion c E -> x = 0).
