(** Model of the parametrizations of ionization
    (detail/PROPOSAL/crosssection/parametrization/Ionization.cxx).  [nan] is the
    outcome of arithmetic whose result is infinite or not a number; the constants
    are the decimal numbers of Constants.cxx, except PI, which is the number pi. *)
From Verif Require Import Prelude Particle_Model Limits_Model Cross_Model Photo_Model.

(** Constants.cxx:9, 52-53 *)
Definition LOG10 : R := 2302585092994046 / 10 ^ 15.
Definition IONK : R := 307075 / 10 ^ 6.

(** What ionization reads of a Medium (PROPOSAL/medium/Medium.h): the components,
    the ionization potential in eV and the parameters of the density correction *)
Record material := mkmaterial {
  mat_components : list component;
  mat_I : R;
  mat_C : R;
  mat_a : R;
  mat_m : R;
  mat_X0 : R;
  mat_X1 : R;
  mat_d0 : R
}.

Section Ionization.
Variable nan : forall A, outcome A.
Notation quo := (quo nan).
Notation log := (log nan).

(** calculate_proton_massnumber_fraction, Components.cxx:271-281 *)
Definition proton_fraction (cs : list component) : outcome R :=
  quo (fold_left (fun a c => a + c_atoms c * c_charge c) cs 0) (fold_left (fun a c => a + c_atoms c * c_atomic c) cs 0).

(** Ionization::Delta, Ionization.cxx:24-38 *)
Definition density_effect (m : material) (beta gamma : R) : outcome R :=
  olet l := log (beta * gamma) in
  let X := l / ln 10 in
  if X <? mat_X0 m then Ok (mat_d0 m * Rpower 10 (2 * (X - mat_X0 m)))
  else if X <? mat_X1 m then Ok (2 * LOG10 * X + mat_C m + mat_a m * Rpower (mat_X1 m - X) (mat_m m))
  else Ok (2 * LOG10 * X + mat_C m).

(** ** Bethe, Bloch and Rossi *)
(** std::sqrt(std::max(square_momentum, 0)) / energy *)
Definition velocity (mass E : R) : outcome R := quo (sqrt (Rmax ((E - mass) * (E + mass)) 0)) E.
(** IonizBetheBlochRossi::CrossSectionWithoutInelasticCorrection,
    Ionization.cxx:186-218 *)
Definition rossi_core (mass charge : R) (m : material) (E v : R) : outcome R :=
  olet beta := velocity mass E in
  olet gamma := quo E mass in
  let beta := beta * beta in
  olet g := quo 1 gamma in
  olet s := quo v (1 + g) in
  let spin := s * (1 / 2 * s) in
  olet share := quo v (v_max (ionization_limits mass (mat_I m) E)) in
  let result := 1 - beta * share + spin in
  olet f := proton_fraction (mat_components m) in
  olet k := quo (IONK * charge * charge * f) (2 * beta * E * v * v) in
  Ok (result * k).
(** InelCorrection, Ionization.cxx:167-179 *)
Definition inelastic (mass : R) (m : material) (E v : R) : outcome R :=
  olet gamma := quo E mass in
  olet a := log (1 + 2 * v * E / ME) in
  olet share := quo v (v_max (ionization_limits mass (mat_I m) E)) in
  olet q := quo (1 - share) (1 - v) in
  olet b := log q in
  olet r := quo (2 * gamma * (1 - v) * ME) (mass * v) in
  olet c := log r in
  Ok (ALPHA / (2 * PI) * (a * (2 * b + c) - b * b)).
(** DifferentialCrossSection, Ionization.cxx:80-107: the first factor is written
    out a second time there. *)
Definition rossi (mass charge : R) (m : material) (E v : R) : outcome R :=
  olet x := rossi_core mass charge m E v in
  olet i := inelastic mass m E v in
  Ok (x * (1 + i)).
(** FunctionToDEdxIntegral, Ionization.cxx:110-117 *)
Definition rossi_dedx (mass charge : R) (m : material) (E v : R) : outcome R :=
  olet x := rossi_core mass charge m E v in
  olet i := inelastic mass m E v in
  Ok (v * x * i).
(** IonizationLoss, Ionization.cxx:119-156; [cuts] is the member cuts_ *)
Definition ionization_loss (cuts : energy_cut) (mass charge : R) (m : material) (E : R) : outcome R :=
  let limits := ionization_limits mass (mat_I m) E in
  olet beta := velocity mass E in
  olet gamma := quo E mass in
  let v_up := Rmin (v_max limits) (get_cut cuts E) in
  olet aux := quo (beta * gamma) (/ 10 ^ 6 * mat_I m) in
  olet l1 := log (v_up * (2 * ME * E)) in
  olet l2 := log aux in
  olet g := quo 1 gamma in
  olet s := quo v_up (2 * (1 + g)) in
  let result := l1 + 2 * l2 + s * s in
  let aux := beta * beta in
  olet share := quo v_up (v_max limits) in
  olet d := density_effect m beta gamma in
  let result := result - (aux * (1 + share) + d) in
  olet f := proton_fraction (mat_components m) in
  olet k := quo (IONK * charge * charge * f) (2 * aux) in
  Ok (if v_up =? v_min limits then 0 else if 0 <? result then result * k else 0).

(** ** Berger and Seltzer, positrons *)
(** IonizBergerSeltzerBhabha::DifferentialCrossSection, Ionization.cxx:256-290 *)
Definition bhabha (mass : R) (m : material) (E v : R) : outcome R :=
  olet gamma := quo E mass in
  olet epsilon := quo (v * E) (E - mass) in
  olet r := quo 1 (gamma * gamma) in
  let betasquared := 1 - r in
  olet y := quo 1 (gamma + 1) in
  let B1 := 2 - y * y in
  let B2 := (1 - 2 * y) * (3 + y * y) in
  let B4 := (1 - 2 * y) ^ 3 in
  let B3 := (1 - 2 * y) ^ 2 + B4 in
  olet q := quo 1 (betasquared * epsilon * epsilon) in
  olet p := quo B1 epsilon in
  let aux := q - p + B2 - B3 * epsilon + B4 * epsilon * epsilon in
  olet g := quo 1 (gamma - 1) in
  olet h := quo 1 gamma in
  olet c := quo 1 (1 - h) in
  olet f := proton_fraction (mat_components m) in
  Ok (Rmax (aux * g * c * (2 * PI * RE ^ 2 * NA * f)) 0).
(** The last steps of both formulas, Ionization.cxx:331-344 and 453-466 *)
Definition berger_seltzer (m : material) (betasquared gamma tau F : R) : outcome R :=
  olet q := quo ((/ 10 ^ 6 * mat_I m) ^ 2) ME in
  olet q := quo (2 * (tau + 2)) q in
  olet l := log q in
  olet d := density_effect m (sqrt betasquared) gamma in
  let result := l + F - d in
  olet k := quo (2 * PI * RE * RE * ME) betasquared in
  olet f := proton_fraction (mat_components m) in
  Ok (Rmax (result * k * (NA * f)) 0).
(** FunctionToDEdxIntegral, Ionization.cxx:293-345; the argument v is not used. *)
Definition bhabha_dedx (cuts : energy_cut) (mass : R) (m : material) (E : R) : outcome R :=
  let limits := bhabha_limits mass E in
  if v_min limits =? v_max limits then Ok 0
  else
    let v_up := Rmin (get_cut cuts E) (v_max limits) in
    let bigDelta := Rmin (v_max limits * E / ME) (v_up * E / ME) in
    let gamma := E / ME in
    olet r := quo 1 (gamma * gamma) in
    let betasquared := 1 - r in
    let tau := gamma - 1 in
    olet y := quo 1 (gamma + 1) in
    let aux := tau + 2 * bigDelta - 3 * bigDelta * bigDelta * y / 2 - (bigDelta - bigDelta ^ 3 / 3) * y * y
               - (bigDelta * bigDelta / 2 - tau * bigDelta ^ 3 / 3 + bigDelta ^ 4 / 4) * y ^ 3 in
    olet q := quo betasquared tau in
    olet l := log (tau * bigDelta) in
    berger_seltzer m betasquared gamma tau (l - aux * q).

(** ** Berger and Seltzer, electrons *)
(** IonizBergerSeltzerMoller::DifferentialCrossSection, Ionization.cxx:383-415 *)
Definition moller (mass : R) (m : material) (E v : R) : outcome R :=
  olet gamma := quo E mass in
  olet epsilon := quo (v * E) (E - mass) in
  olet r := quo 1 (gamma * gamma) in
  let betasquared := 1 - r in
  olet a := quo ((gamma - 1) ^ 2) (gamma * gamma) in
  olet e := quo 1 epsilon in
  olet b := quo (2 * gamma - 1) (gamma * gamma) in
  olet e' := quo 1 (1 - epsilon) in
  let aux := a + e * (e - b) + e' * (e' - b) in
  olet aux := quo aux betasquared in
  olet g := quo 1 (gamma - 1) in
  olet h := quo 1 gamma in
  olet c := quo 1 (1 - h) in
  olet f := proton_fraction (mat_components m) in
  Ok (Rmax (aux * g * c * (2 * PI * RE ^ 2 * NA * f)) 0).
(** FunctionToDEdxIntegral, Ionization.cxx:418-467 *)
Definition moller_dedx (cuts : energy_cut) (mass : R) (m : material) (E : R) : outcome R :=
  let limits := moller_limits mass E in
  if v_max limits =? v_min limits then Ok 0
  else
    let v_up := Rmin (get_cut cuts E) (v_max limits) in
    let bigDelta := Rmin (v_max limits * E / ME) (v_up * E / ME) in
    let gamma := E / ME in
    olet r := quo 1 (gamma * gamma) in
    let betasquared := 1 - r in
    let tau := gamma - 1 in
    olet q := quo bigDelta tau in
    olet l := log (1 - q) in
    let aux := bigDelta * bigDelta / 2 + (2 * tau + 1) * l in
    olet aux := quo aux (gamma * gamma) in
    olet l := log ((tau - bigDelta) * bigDelta) in
    olet t := quo tau (tau - bigDelta) in
    berger_seltzer m betasquared gamma tau (aux - 1 - betasquared + l + t).
End Ionization.
