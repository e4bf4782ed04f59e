(** The cross section of Sandrock, Soedingrekso and Rhode for electron pairs
    (arXiv:1807.08475): vocabulary of the theorems. *)
From Verif Require Import Prelude Particle_Model Limits_Model Cross_Model Photo_Model Products_Model Differential_Model Pairs_Spec.

(** [d] is the dilogarithm; [mass] and [z] are those of the particle, [Z], [A] and [B]
    the charge, the mass number and the radiation logarithm of the nucleus; the pair takes
    the share [v] of the energy [E] with the asymmetry [rho]. *)
Section Sandrock.
Variables (d : R -> R) (mass z Z A B E v rho : R).
Let r2 : R := rho ^ 2.
Let beta : R := kelner_beta v.
Let xi : R := kelner_xi mass v rho.
Let Be : R := phi_electron mass v rho.
Let Bm : R := phi_heavy mass v rho.
Let Dn : R := 154 / 100 * Rpower A (27 / 100).
Let K (h : R) : R := 2 * ME * exp h * B * Rpower Z (- (1 / 3)) * (1 + xi) / (E * v * (1 - r2)).

(** The part of the electron: the coefficient of the second logarithm, the correction,
    and the logarithms *)
Definition electron_second : R :=
  ((1 - r2) * (1 + beta) + xi * (3 - r2)) * ln (1 + 1 / xi) + 2 * (1 - beta - r2) / (1 + xi) - (3 - r2).
Definition electron_delta : R :=
  ((2 + r2) * (1 + beta) + xi * (3 + r2)) * d (1 / (1 + xi)) - (2 + r2) * xi * ln (1 + 1 / xi) - (xi + r2 + beta) / (1 + xi).
Definition electron_logarithm (f g h : R) : R :=
  let D := electron_delta / Be in
  ln (f * B * Rpower Z (- (1 / 3)) * sqrt (1 + xi) / (exp (- D) + K h)) - D
  - 1 / 2 * ln (exp (- D) + g * (ME / mass * Dn) ^ 2 * (1 + xi)).
Definition electron_part : R :=
  (Be - electron_second) * electron_logarithm 1 1 (1 / 2)
  + electron_second * electron_logarithm (exp (- (1 / 6))) (exp (- (1 / 3))) (1 / 3).

(** The part of the heavy particle *)
Definition heavy_second : R :=
  ((1 - beta) * (1 - r2) - xi * (1 + r2)) * ln (1 + xi) / xi - 2 * (1 - beta - r2) / (1 + xi) + 1 - beta - (1 + beta) * r2.
Definition heavy_delta : R :=
  ((1 + r2) * (1 + 3 / 2 * beta) - (1 + 2 * beta) * (1 - r2) / xi) * d (xi / (1 + xi))
  + (1 + 3 / 2 * beta) * (1 - r2) / xi * ln (1 + xi)
  + (1 - r2 - beta / 2 * (1 + r2) + (1 - r2) / (2 * xi) * beta) * xi / (1 + xi).
Definition heavy_logarithm (h : R) : R :=
  let X := exp (- (heavy_delta / Bm)) in ln (X * (mass / ME) * B * Rpower Z (- (1 / 3)) / Dn / (X + K h)).
Definition heavy_part : R := (Bm - heavy_second) * heavy_logarithm (1 / 2) + heavy_second * heavy_logarithm (1 / 3).

Definition sandrock_formula : R :=
  4 / (3 * PI) * Z * (Z + electrons_zeta mass Z E) * (ALPHA * RE * z) ^ 2 * ((1 - v) / v)
  * (Rmax 0 electron_part + (z * ME / mass) ^ 2 * Rmax 0 heavy_part).
End Sandrock.
