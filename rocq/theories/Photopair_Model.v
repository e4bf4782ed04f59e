(** Model of the production of electron pairs by photons
    (detail/PROPOSAL/crosssection/parametrization/PhotoPairProduction.cxx) and of pairs of
    muons (PhotoMuPairProduction.cxx).  [nan] is
    the outcome of arithmetic whose result is infinite or not a number; std::pow with
    a fractional exponent is Rpower, which agrees for positive arguments. *)
From Verif Require Import Prelude Particle_Model Limits_Model Cross_Model Photo_Model Products_Model Differential_Model.

(** PhotoMuPairProduction::GetKinematicLimits, PhotoMuPairProduction.cxx:16-30; sqrt
    is applied to positive numbers only *)
Definition photo_muon_pair_limits (E : R) : limits :=
  if E <=? 2 * MMU * SQRTE then mklimits (1 / 2) (1 / 2)
  else mklimits (1 / 2 * (1 - sqrt (1 - 2 * SQRTE * MMU / E))) (1 / 2 * (1 + sqrt (1 - 2 * SQRTE * MMU / E))).

Section Photopair.
Variable nan : forall A, outcome A.
Notation quo := (quo nan).
Notation log := (log nan).

(** PhotoPairLPM::suppression_factor, PhotoPairProduction.cxx:372-438 *)
Definition pair_suppression (m : lpm_medium) (density : R) (c : component) (E x : R) : outcome R :=
  let Z3 := inverse_cube_root (c_charge c) in
  olet s1 := quo 1 (Z3 * log_constant c) in
  let s1 := s1 * s1 * SQRT2 in
  olet q := quo (l_energy m) (density * E * x * (1 - x)) in
  olet r := root nan q in
  let sp := 125 / 1000 * r in
  olet xi := lpm_xi nan s1 sp in
  olet g := quo (RE * ME) (ALPHA * ME * x) in
  let Gamma := 1 + 4 * PI * l_sum_charge m * RE * g * g * l_mol_density m * density in
  olet s := quo sp (sqrt xi) in
  let s := s * Gamma in
  olet a := quo (lpm_G s) (Gamma * Gamma) in
  olet b := quo (2 * (x * x + (1 - x) * (1 - x)) * lpm_phi s) Gamma in
  quo (xi / 3 * (a + b)) (1 - 4 / 3 * x * (1 - x)).
(** result *= lpm_->suppression_factor(...) if there is one *)
Definition suppressed (suppression : option (R -> R -> outcome R)) (E x r : R) : outcome R :=
  match suppression with
  | Some factor => olet s := factor E x in Ok (r * s)
  | None => Ok r
  end.

(** PhotoPairKochMotz::DifferentialCrossSectionWithoutA,
    PhotoPairProduction.cxx:132-207 *)
Definition koch_motz_raw (suppression : option (R -> R -> outcome R)) (c : component) (E v : R) : outcome R :=
  let Z := c_charge c in
  let Z3 := inverse_cube_root Z in
  olet logZ := log Z in
  olet delta := quo (ME * ME) (2 * E * v * (1 - v)) in
  let x := 136 * Z3 * 2 * delta / ME in
  olet phi := screening_functions nan x in
  let f_c := coulomb Z in
  olet L := radiation_logarithms nan Z in
  olet xi := quo (snd L) (fst L - f_c) in
  let f_c := if E <? 50 then 0 else f_c in
  let result := Z * (Z + xi) in
  let result := result * (RE * RE * ALPHA *
    ((2 * v * v - 2 * v + 1) * (fst phi - 4 / 3 * logZ - 4 * f_c) + 2 / 3 * v * (1 - v) * (snd phi - 4 / 3 * logZ - 4 * f_c))) in
  olet result := suppressed suppression E v result in
  quo (result * NA) (c_atomic c).
(** PhotoPairKochMotz::DifferentialCrossSection, PhotoPairProduction.cxx:114-130.
    [data] is the interpolated table and [total] the integral of the uncorrected
    cross section over the kinematic limits; neither depends on v. *)
Definition koch_motz (data total : R -> outcome R) (suppression : option (R -> R -> outcome R)) (c : component) (E v : R) : outcome R :=
  if 50 <? E then koch_motz_raw suppression c E v
  else olet n := total E in
       olet d := data E in
       olet A := quo d n in
       olet r := koch_motz_raw suppression c E v in
       Ok (A * r).

(** The form factors of PhotoPairTsai, PhotoPairProduction.cxx:226-308: (Phi1, Phi2,
    Psi1, Psi2) for the momentum transfer [delta].  [dilog] is the dilogarithm
    (MathMethods.h). *)
Section Tsai.
Variable dilog : R -> R.
Definition tsai_light (Z delta : R) : outcome (R * R * R * R) :=
  let eta := if Z <=? 3 / 2 then 1 else 16875 / 10 ^ 4 in
  olet logZ := log Z in
  let C := delta / (2 * ALPHA * ME * eta) in
  olet l := log (1 / (2 * eta * ALPHA)) in
  olet lC := log (1 + C * C) in
  olet i := quo 1 C in
  olet i2 := quo 1 (C * C) in
  olet lI := log (1 + i2) in
  olet lC2 := log (C * C) in
  let t := C * atan i in
  Ok (4 / 3 * logZ + 4 * l + 13 / 3 - 2 * lC - 13 / 2 * t + 1 / 6 / (1 + i2),
      4 / 3 * logZ + 4 * l + 11 / 3 - 2 * lC + 25 * (C * C) * (1 - t) - 14 * (C * C) * lI,
      8 / 3 * logZ + 4 * l + 23 / 3 - 2 * lC - 175 / 10 * t + 8 * (C * C) * lI - 1 / 6 / (1 + i2),
      8 / 3 * logZ + 4 * l + 21 / 3 - 2 * lC - 105 * (C * C) * (1 - t) + 50 * (C * C) * lI
      - 24 * (C * C) * (- lC2 * lI + dilog (1 + i2) - dilog 1)).
(** Lithium and beryllium: the arguments of two of the arcus tangents and of one
    factor are those of the other form factor. *)
Definition tsai_medium (Z delta : R) : outcome (R * R * R * R) :=
  let a := (if Z <=? 7 / 2 then 100 else 106) * Rpower Z (- (1 / 3)) / ME in
  let ap := (if Z <=? 7 / 2 then 4186 / 10 else 5714 / 10) * Rpower Z (- (2 / 3)) / ME in
  let b := delta * a in
  let bp := delta * ap in
  olet la := log (a * a * Rpower Z (2 / 3) * (ME * ME)) in
  olet lb := log (1 + b * b) in
  olet i := quo 1 b in
  olet i2 := quo 1 (b * b) in
  olet li := log (1 + i2) in
  olet lap := log (ap * ap * Rpower Z (4 / 3) * (ME * ME)) in
  olet lbp := log (1 + bp * bp) in
  olet ip := quo 1 bp in
  olet ip2 := quo 1 (bp * bp) in
  olet lip := log (1 + ip2) in
  Ok (2 * (1 + la) - 2 * lb - 4 * b * atan i,
      2 * (2 / 3 + la) - 2 * lb + 8 * (b * b) * (1 - b * atan i - 75 / 100 * li),
      2 * (1 + lap) - 2 * lbp - 4 * bp * atan i,
      2 * (2 / 3 + lap) - 2 * lbp + 8 * (bp * bp) * (1 - b * atan ip - 75 / 100 * lip)).
Definition tsai_heavy (Z delta : R) : outcome (R * R * R * R) :=
  olet gamma := quo (200 * delta) (ME * Rpower Z (1 / 3)) in
  olet epsilon := quo (200 * delta) (ME * Rpower Z (2 / 3)) in
  olet l := log (1 + (55846 / 10 ^ 5 * gamma) ^ 2) in
  let Phi1 := 20863 / 1000 - 2 * l - 4 * (1 - 6 / 10 * exp (- (9 / 10) * gamma) - 4 / 10 * exp (- (15 / 10) * gamma)) in
  olet p := quo 1 (1 + 65 / 10 * gamma + 6 * gamma ^ 2) in
  let Phi2 := Phi1 - 2 / 3 * p in
  olet l' := log (1 + (3621 / 1000 * epsilon) ^ 2) in
  let Psi1 := 28340 / 1000 - 2 * l' - 4 * (1 - 7 / 10 * exp (- 8 * epsilon) - 3 / 10 * exp (- (292 / 10) * epsilon)) in
  olet p' := quo 1 (1 + 40 * epsilon + 400 * epsilon ^ 2) in
  let Psi2 := Psi1 - 2 / 3 * p' in
  Ok (Phi1, Phi2, Psi1, Psi2).
Definition tsai_form_factors (Z delta : R) : outcome (R * R * R * R) :=
  if Z <=? 25 / 10 then tsai_light Z delta
  else if Z <=? 45 / 10 then tsai_medium Z delta
  else tsai_heavy Z delta.
(** The momentum of the electron, PhotoPairProduction.cxx:325-326 *)
Definition electron_momentum (k x : R) : outcome R := root nan ((x * k) ^ 2 - ME ^ 2).
(** PhotoPairTsai::DifferentialCrossSection, PhotoPairProduction.cxx:209-338 *)
Definition tsai (suppression : option (R -> R -> outcome R)) (c : component) (k x : R) : outcome R :=
  let Z := c_charge c in
  olet logZ := log Z in
  olet delta := quo (ME ^ 2) (2 * k * x * (1 - x)) in
  olet F := tsai_form_factors Z delta in
  let '(Phi1, Phi2, Psi1, Psi2) := F in
  let z := (Z / 137) ^ 2 in
  let f := 1202 / 1000 * z - 10369 / 10 ^ 4 * z ^ 2 + 1008 / 1000 * z ^ 3 / (1 + z) in
  let aux := (4 / 3 * x ^ 2 - 4 / 3 * x + 1) * (Z ^ 2 * (Phi1 - 4 / 3 * logZ - 4 * f) + Z * (Psi1 - 8 / 3 * logZ))
             - 2 / 3 * x * (1 - x) * (Z ^ 2 * (Phi1 - Phi2) + Z * (Psi1 - Psi2)) in
  olet n := quo (ALPHA * RE ^ 2) k in
  let aux := aux * n in
  olet p := electron_momentum k x in
  olet t := quo (x * k ^ 2) p in
  let aux := aux * t in
  olet aux := suppressed suppression k x aux in
  olet n := quo NA (c_atomic c) in
  Ok (Rmax (n * aux) 0).
End Tsai.

(** PhotoMuPairBurkhardtKelnerKokoulin::DifferentialCrossSection,
    PhotoMuPairProduction.cxx:39-73 *)
Definition photo_muon_pair (c : component) (E x : R) : outcome R :=
  olet delta := quo (MMU * MMU) (2 * E * x * (1 - x)) in
  let B := log_constant c in
  let Z := c_charge c in
  let Z3 := inverse_cube_root Z in
  let D := nuclear_radius (c_atomic c) in
  olet aux1 := quo (MMU / ME * B * Z3) (1 + B * Z3 * SQRTE * delta / ME) in
  olet aux2 := quo D (1 + delta * (D * SQRTE - 2) / MMU) in
  olet l1 := log aux1 in
  olet l2 := log aux2 in
  olet i := quo 1 Z in
  let Phi := if 1 <? Z then l1 - (1 - i) * l2 else l1 - l2 in
  olet a := quo MMU delta in
  olet aux1 := quo a (delta * MMU / (ME * ME) + SQRTE) in
  olet q := quo 1 (delta * SQRTE * b_prime c * Z3 * Z3 / ME) in
  let aux2 := 1 + q in
  olet l1 := log aux1 in
  olet l2 := log aux2 in
  let electron_contribution := i * (l1 - l2) in
  let aux := x * x + (1 - x) * (1 - x) + 2 / 3 * x * (1 - x) in
  let result := 4 * Z * Z * ALPHA * (RE * ME / MMU) ^ 2 * (Phi + electron_contribution) * aux in
  olet n := quo NA (c_atomic c) in
  Ok (Rmax (n * result) 0).
End Photopair.
