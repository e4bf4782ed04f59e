(** Model of EpairSandrockSoedingreksoRhode::FunctionToIntegral
    (detail/PROPOSAL/crosssection/parametrization/EpairProduction.cxx:296-471).  [mass]
    and [charge] are those of the particle, [c] is the component, [E] the energy, [v] the
    relative loss.  [nan] is the outcome of arithmetic whose result is infinite or not a
    number. *)
From Verif Require Import Prelude Particle_Model Limits_Model Cross_Model Photo_Model Products_Model Differential_Model
  Integral_Model Continuous_Model Pairs_Model Dilog_Model.

Section Sandrock.
Variable nan : forall A, outcome A.
Notation quo := (quo nan).
Notation log := (log nan).
Notation root := (Photo_Model.root nan).

(** zeta, EpairProduction.cxx:319-339 *)
Definition sandrock_zeta (mass : R) (c : component) (E : R) : outcome R :=
  let g1 := if c_charge c =? 1 then 44 / 10 ^ 6 else 195 / 10 ^ 7 in
  let g2 := if c_charge c =? 1 then 48 / 10 ^ 6 else 53 / 10 ^ 6 in
  olet q := quo E mass in
  olet a := quo (g1 * Rpower (c_charge c) (2 / 3) * E) mass in
  olet a := quo q (1 + a) in
  olet l := log a in
  let zeta1 := 73 / 1000 * l - 26 / 100 in
  olet b := quo g2 (inverse_cube_root (c_charge c)) in
  olet b := quo (b * E) mass in
  olet b := quo q (1 + b) in
  olet l := log b in
  let zeta2 := 58 / 1000 * l - 14 / 100 in
  if (0 <? zeta1) && (0 <? zeta2) then quo zeta1 zeta2 else Ok 0.

(** Be, Ce2 and De, EpairProduction.cxx:348-360 *)
Definition electron_terms (r2 beta xi : R) : outcome (R * R * R) :=
  olet i := quo 1 xi in
  olet l := log (1 + i) in
  olet j := quo (1 - r2 - beta) (1 + xi) in
  let Be := ((2 + r2) * (1 + beta) + xi * (3 + r2)) * l + j - (3 + r2) in
  olet j := quo (2 * (1 - beta - r2)) (1 + xi) in
  let Ce2 := ((1 - r2) * (1 + beta) + xi * (3 - r2)) * l + j - (3 - r2) in
  olet y := quo 1 (1 + xi) in
  olet d := dilog nan y in
  olet j := quo (xi + r2 + beta) (1 + xi) in
  Ok (Be, Ce2, ((2 + r2) * (1 + beta) + xi * (3 + r2)) * d - (2 + r2) * xi * l - j).

(** Le1 and Le2, EpairProduction.cxx:362-402, with D = De / Be.  They differ in the
    factors [f] and [g], which are 1 in Le1 and not written, and in the exponent [h]. *)
Definition electron_log (f g h mass : R) (c : component) (E v r2 xi D : R) : outcome R :=
  let Z13 := inverse_cube_root (c_charge c) in
  let B := log_constant c in
  olet w := quo (2 * ME * exp h * B * Z13 * (1 + xi)) (E * v * (1 - r2)) in
  olet m := quo ME mass in
  let m := m * nuclear_radius (c_atomic c) in
  let n := m * m * g * (1 + xi) in
  olet s := root (1 + xi) in
  if 0 <? D then
    let X := exp (- D) in
    olet q := quo (B * Z13 * f * s) (X + w) in
    olet l := log q in
    olet l' := log (X + n) in
    Ok (l - D - 1 / 2 * l')
  else
    let Xinv := exp D in
    olet q := quo (B * Z13 * f * s) (1 + Xinv * w) in
    olet l := log q in
    olet l' := log (1 + Xinv * n) in
    Ok (l - 1 / 2 * D - 1 / 2 * l').

(** Bm, Cm2 and Dm, EpairProduction.cxx:412-430 *)
Definition heavy_terms (r2 beta xi : R) : outcome (R * R * R) :=
  olet i := quo 1 xi in
  olet l := log (1 + xi) in
  olet j := quo (xi * (1 - r2 - beta)) (1 + xi) in
  let Bm := ((1 + r2) * (1 + 3 * beta / 2) - i * (1 + 2 * beta) * (1 - r2)) * l + j + (1 + 2 * beta) * (1 - r2) in
  olet k := quo (((1 - beta) * (1 - r2) - xi * (1 + r2)) * l) xi in
  olet j := quo (2 * (1 - beta - r2)) (1 + xi) in
  let Cm2 := k - j + 1 - beta - (1 + beta) * r2 in
  olet y := quo xi (1 + xi) in
  olet d := dilog nan y in
  olet k := quo ((1 + 3 * beta / 2) * (1 - r2)) xi in
  olet k' := quo (1 - r2) (2 * xi) in
  olet j := quo ((1 - r2 - beta / 2 * (1 + r2) + k' * beta) * xi) (1 + xi) in
  Ok (Bm, Cm2, ((1 + r2) * (1 + 3 * beta / 2) - i * (1 + 2 * beta) * (1 - r2)) * d + k * l + j).

(** Lm1 and Lm2, EpairProduction.cxx:432-454, with D = Dm / Bm *)
Definition heavy_log (h mass : R) (c : component) (E v r2 xi D : R) : outcome R :=
  let Z13 := inverse_cube_root (c_charge c) in
  let B := log_constant c in
  olet w := quo (2 * ME * exp h * B * Z13 * (1 + xi)) (E * v * (1 - r2)) in
  if 0 <? D then
    let X := exp (- D) in
    olet q := quo (X * mass) ME in
    olet q := quo (q * B * Z13) (nuclear_radius (c_atomic c)) in
    olet q := quo q (X + w) in
    log q
  else
    olet q := quo mass ME in
    olet q := quo (q * B * Z13) (nuclear_radius (c_atomic c)) in
    olet q := quo q (1 + w * exp D) in
    log q.

(** EpairSandrockSoedingreksoRhode::FunctionToIntegral, EpairProduction.cxx:296-471 *)
Definition sandrock_pair (lpm : option (R * R)) (mass charge : R) (c : component) (E v r : R) : outcome R :=
  let a := ALPHA * RE * charge in
  let prefactor := 4 / (3 * PI) * c_charge c * (a * a) in
  let r := 1 - r in
  let r2 := r * r in
  olet zeta := sandrock_zeta mass c E in
  olet beta := quo (v * v) (2 * (1 - v)) in
  let aux := mass * v / (2 * ME) in
  olet xi := quo (aux * aux * (1 - r2)) (1 - v) in
  olet (Be, Ce2, De) := electron_terms r2 beta xi in
  olet D := quo De Be in
  olet Le1 := electron_log 1 1 (1 / 2) mass c E v r2 xi D in
  olet Le2 := electron_log (exp (- (1 / 6))) (exp (- (1 / 3))) (1 / 3) mass c E v r2 xi D in
  olet w := quo (prefactor * (c_charge c + zeta) * (1 - v)) v in
  let diagram_e := Rmax 0 (w * ((Be - Ce2) * Le1 + Ce2 * Le2)) in
  olet (Bm, Cm2, Dm) := heavy_terms r2 beta xi in
  olet D := quo Dm Bm in
  olet Lm1 := heavy_log (1 / 2) mass c E v r2 xi D in
  olet Lm2 := heavy_log (1 / 3) mass c E v r2 xi D in
  olet m := quo ME mass in
  let m := m * charge in
  let diagram_mu := Rmax 0 (w * (m * m) * ((Bm - Cm2) * Lm1 + Cm2 * Lm2)) in
  let aux := diagram_e + diagram_mu in
  olet aux := suppressed nan lpm E v r2 beta xi aux in
  if aux <? 0 then Ok 0 else Ok aux.
End Sandrock.
