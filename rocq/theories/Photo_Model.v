(** Model of the photoelectric effect (crosssection/parametrization/Photoeffect.cxx). *)
From Verif Require Import Prelude Propagator_Model Limits_Model Particle_Model Cross_Model.

(** Constants.cxx:50, 62 *)
Definition NA : R := 6022140857 * 10 ^ 14.
Definition RE : R := 28179403227 / 10 ^ 23.

Section Photo.
Variable nan : forall A, outcome A.
Notation quo := (quo nan).
Notation log := (log nan).
Definition root (x : R) : outcome R := if x <? 0 then nan R else Ok (sqrt x).

(** Photoeffect.cxx:25-28 *)
Definition photoeffect_cutoff (c : component) : R := (c_charge c * ALPHA) ^ 2 * ME / 2.

(** Photoeffect.cxx:30-36 *)
Definition kshell_total_ratio (c : component) : outcome R :=
  olet l := log (c_charge c) in
  Ok (1 + 1481 / 10 ^ 5 * l * l - 788 / 10 ^ 6 * l * l * l).

(** Photoeffect.cxx:89-114, PhotoeffectSauter.  Both sides of the branch on
    Z_pi_alpha_beta are kept; [root], [quo] and [log] leave the reals where the
    arithmetic does. *)
Definition sauter (E : R) (c : component) : outcome R :=
  let Z := c_charge c in
  let sigma_T := 8 * PI * RE * RE / 3 in
  let I := (Z * ALPHA) ^ 2 * ME / 2 in
  let gamma := 1 + (E - I) / ME in
  olet gamma_beta := root (gamma * gamma - 1) in
  olet ratio := quo ME E in
  olet a := quo (gamma * (gamma - 2)) (gamma + 1) in
  olet b := quo 1 (gamma * gamma_beta) in
  olet lg := log (gamma + gamma_beta) in
  let sigma := 15 / 10 * sigma_T * Z ^ 5 * ALPHA ^ 4 * ratio ^ 5 * gamma_beta ^ 3 * (4 / 3 + a * (1 - b * lg)) in
  olet z := quo (Z * ALPHA * gamma) gamma_beta in
  let pz := PI * z in
  olet i := quo 1 z in
  olet non_rel :=
    (if pz <? 10
     then olet s := quo ((1 + z * z) * pz) (sinh pz) in Ok (s * exp (z * (PI - 4 * atan i)))
     else Ok ((1 + z * z) * 2 * pz * exp (z * (- 4 * atan i)))) in
  Ok (sigma * non_rel).

(** Photoeffect.cxx:38-43 and the rate of lines 47-49, 65-66 before the division
    by the weight *)
Definition photoeffect_rate (E : R) (c : component) : outcome R :=
  olet k := sauter E c in
  olet x := (if k =? 0 then Ok 0 else olet r := kshell_total_ratio c in Ok (k * r)) in
  olet q := quo NA (c_atomic c) in
  Ok (q * x).

(** Photoeffect as a cross section; [registry] is Component::GetComponentForHash
    and the lower energy limit the smallest cut-off (Photoeffect.cxx:18-23). *)
Definition photoeffect (registry : N -> outcome component) (m : medium) (lower : R) (cut : option energy_cut) : cross_base :=
  direct nan photoeffect_rate registry photoeffect_cutoff true m lower Photoeffect cut.
End Photo.
