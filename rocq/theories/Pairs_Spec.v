(** What is said about the production of pairs: vocabulary of the theorems. *)
From Verif Require Import Prelude Particle_Model Limits_Model Cross_Model Photo_Model Products_Model Differential_Model.

(** The asymmetry of an electron pair, (E+ - E-) / (E+ + E-), reaches up to *)
Definition largest_asymmetry (mass E v : R) : R :=
  sqrt (1 - 4 * ME / (v * E)) * (1 - 6 * (mass / E) ^ 2 / (1 - v)).
(** That of a pair of particles with the mass [m], in the parametrization of muon pairs *)
Definition largest_pair_asymmetry (m E v : R) : R := 1 - 2 * m / (v * E).

(** The cross section of Kelner, Kokoulin and Petrukhin (Proc. 12th ICRC (1971) 2436;
    Phys. Atom. Nucl. 61 (1998) 448) for an electron pair that takes the share [v] of
    the energy [E] with the asymmetry [rho] (counted together with - [rho]): [mass] and
    [z] are those of the particle, [Z] and [B] the charge and the radiation logarithm of
    the nucleus. *)
Section Kelner.
Variables mass z Z B E v rho : R.
Let r2 : R := rho ^ 2.
Definition kelner_beta : R := v ^ 2 / (2 * (1 - v)).
Definition kelner_xi : R := (mass * v / (2 * ME)) ^ 2 * (1 - r2) / (1 - v).
Let beta : R := kelner_beta.
Let xi : R := kelner_xi.
(** The part of the electron and that of the heavy particle, and what the first tends
    to for a large [xi] *)
Definition phi_electron : R :=
  ((2 + r2) * (1 + beta) + xi * (3 + r2)) * ln (1 + 1 / xi) + (1 - r2 - beta) / (1 + xi) - (3 + r2).
Definition phi_electron_leading : R := (3 / 2 - r2 / 2 + beta * (1 + r2)) / xi.
Definition phi_heavy : R :=
  ((1 + r2) * (1 + 3 / 2 * beta) - (1 + 2 * beta) * (1 - r2) / xi) * ln (1 + xi)
  + xi * (1 - r2 - beta) / (1 + xi) + (1 + 2 * beta) * (1 - r2).
(** The logarithms *)
Let Ye : R := (5 - r2 + 4 * beta * (1 + r2)) / (2 * (1 + 3 * beta) * ln (3 + 1 / xi) - r2 - 2 * beta * (2 - r2)).
Let Ym : R := (4 + r2 + 3 * beta * (1 + r2)) / ((1 + r2) * (3 / 2 + 2 * beta) * ln (3 + xi) + 1 - 3 / 2 * r2).
Let screening (Y : R) : R := 1 + 2 * ME * SQRTE * B * Rpower Z (- (1 / 3)) / (E * v * (1 - r2)) * ((1 + xi) * (1 + Y)).
Definition log_electron : R :=
  ln (B * Rpower Z (- (1 / 3)) * sqrt ((1 + xi) * (1 + Ye)) / screening Ye)
  - 1 / 2 * ln (1 + (3 / 2 * (ME / mass) / Rpower Z (- (1 / 3))) ^ 2 * ((1 + xi) * (1 + Ye))).
Definition log_heavy : R := ln (2 / 3 * (mass / ME) * B * Rpower Z (- (1 / 3)) ^ 2 / screening Ym).
(** The share of the atomic electrons *)
Definition electrons_zeta : R :=
  let g1 := if Req_EM_T Z 1 then 44 / 10 ^ 6 else 195 / 10 ^ 7 in
  let g2 := if Req_EM_T Z 1 then 48 / 10 ^ 6 else 53 / 10 ^ 6 in
  let a := 73 / 1000 * ln (E / mass / (1 + g1 / Rpower Z (- (1 / 3)) ^ 2 * (E / mass))) - 26 / 100 in
  let b := 58 / 1000 * ln (E / mass / (1 + g2 / Rpower Z (- (1 / 3)) * (E / mass))) - 14 / 100 in
  if Rlt_dec 0 a then if Rlt_dec 0 b then a / b else 0 else 0.
Definition kelner_formula : R :=
  4 / (3 * PI) * Z * (Z + electrons_zeta) * (ALPHA * RE * z) ^ 2 * ((1 - v) / v)
  * (phi_electron * Rmax 0 log_electron + (z * ME / mass) ^ 2 * phi_heavy * Rmax 0 log_heavy).
End Kelner.

(** The suppression of electron pairs by the medium (Polityko et al., J. Phys. G 28
    (2002) 427): [e] is the energy where it sets in, [density] the correction of the
    density, [s] its parameter. *)
Definition suppression_parameter (e density E v rho : R) : R := 1 / 4 * sqrt (e / (density * E * v * (1 - rho ^ 2))).
Definition pair_suppression_factor (s mass v rho : R) : R :=
  let b := kelner_beta v in
  let x := kelner_xi mass v rho in
  let r2 := rho ^ 2 in
  let d1 := 6 * s / (6 * s + 1) in
  let d2 := 36 * s ^ 2 / (36 * s ^ 2 + 1) in
  let t := PI / 2 - atan (6 * s * (x + 1)) in
  let l1 := ln ((36 * s ^ 2 * (1 + x) ^ 2 + 1) / (36 * s ^ 2 * x ^ 2)) in
  let l2 := ln ((6 * s * (1 + x) + 1) / (6 * s * x)) in
  let A := d2 / 2 * (1 + 2 * d2 * x) * l1 - d2 - 6 * d2 * s * (1 + (36 * s ^ 2 - 1) / (36 * s ^ 2 + 1) * x) * t in
  let B := d1 * (1 + d1 * x) * l2 - d1 in
  let C := - d2 ^ 2 * x * l1 + d2 + d2 ^ 2 * (36 * s ^ 2 - 1) / (6 * s) * x * t in
  let D := d1 - d1 ^ 2 * x * l2 in
  ((1 + b) * (A + (1 + r2) * B) + b * (C + (1 + r2) * D) + (1 - r2) * (6 * s * t)) / phi_electron mass v rho.
(** What is left of a cross section [y]; the factor is not computed where the effect is
    very small. *)
Definition pair_suppressed (s mass v rho y : R) : R :=
  if Rlt_dec (10 ^ 10) (6 * s * (kelner_xi mass v rho + 1)) then y else Rmax 0 (y * pair_suppression_factor s mass v rho).
