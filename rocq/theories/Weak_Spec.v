(** What is said about weak interactions. *)
From Verif Require Import Prelude Cross_Model Photo_Model Differential_Spec Integral_Spec Interpolant_Model Interpolant_Spec Weak_Tables Weak_Model.

(** Points that make a table, the nodes [x2] of the second variable being different ones
    in every row *)
Definition tabular_sheet (x1 : list R) (x2 y : list (list R)) : Prop :=
  length x1 = length y /\ length x2 = length y /\ (2 <= length x1)%nat /\ ordered x1 /\
  forall j, (j < length y)%nat -> tabular (nth j x2 []) (nth j y []).

(** [v] is got with [r] points at a time: in [r] rows around [q1] from the polynomial in
    the second variable through [r] points of the row around [q2], and from the
    polynomial in the first variable through these values *)
Definition interpolated (r : nat) (x1 : list R) (x2 y : list (list R)) (q1 q2 v : R) : Prop :=
  exists start row, central x1 start r q1 /\
    (forall j, (start <= j < start + r)%nat -> exists first, central (nth j x2 []) first r q2 /\
       extrapolates (points (nth j x2 []) (nth j y []) first r) q2 (row j)) /\
    extrapolates (map (fun j => (nth j x1 0, row j)) (seq start r)) q1 v.

(** The tables used for a particle of the given charge: negative particles take a charge
    from the nucleon like antineutrinos do. *)
Definition proton_sigma (charge : R) : list (list R) :=
  numbers (if Rlt_dec charge 0 then sigma_nubar_proton else sigma_nu_proton).
Definition neutron_sigma (charge : R) : list (list R) :=
  numbers (if Rlt_dec charge 0 then sigma_nubar_neutron else sigma_nu_neutron).
(** The cross section of an atom whose protons have the cross section [p] and whose
    neutrons [n], in picobarn, divided among its nucleons, in square centimetres for a
    gram of such atoms; negative ones are taken for zero. *)
Definition mean_cross (c : component) (p n : R) : R :=
  NA / c_atomic c * / 10 ^ 36 * Rmax ((c_charge c * p + (c_atomic c - c_charge c) * n) / c_atomic c) 0.
(** In every history of calls with positive energies for elements, the answer to the
    question for charge, component, energy and v is [f]. *)
Definition answers_weak (nan : forall A, outcome A) (w : weak_tables) (f : R -> component -> R -> R -> R) : Prop :=
  forall qs, Forall (fun q => let '(charge, c, E, v) := q in 0 < E /\ element c) qs ->
  exists w', weak_calls nan w qs = Ok (map (fun q => let '(charge, c, E, v) := q in f charge c E v) qs, w').
Definition log10 (E : R) : R := ln E / ln 10.
