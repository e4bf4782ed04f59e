(** What is said about the tables for energies below 50 MeV. *)
From Coquelicot Require Import Coquelicot.
From Verif Require Import Prelude Cross_Model Photo_Model Limits_Model Interpolant_Model Interpolant_Spec.

(** [g'] is what is left of the table [g] by some calls. *)
Definition used (nan : forall A, outcome A) (g g' : grid) : Prop :=
  exists qs ys, calls (grid_call nan) g qs = Ok (ys, g').

(** [n] is the cross section in barn that belongs to the differential one per gram:
    [sigma] is defined within the limits and its integral is n barn times the number of
    atoms in a gram. *)
Definition total_in_barn (c : component) (lim : limits) (sigma : R -> outcome R) (n : R) : Prop :=
  exists s : R -> R, (forall v, v_min lim <= v <= v_max lim -> sigma v = Ok (s v)) /\
    is_RInt s (v_min lim) (v_max lim) (NA / c_atomic c * (n / 10 ^ 24)).
