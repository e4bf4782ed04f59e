(** Model of the differential cross sections of Compton scattering, annihilation and
    bremsstrahlung (detail/PROPOSAL/crosssection/parametrization/Compton.cxx,
    Annihilation.cxx, Bremsstrahlung.cxx).  [mass] and [charge] are those of the
    particle, [c] is the component it hits, [E] the energy and [v] the relative
    loss.  [nan] is the outcome of arithmetic whose result is infinite or not a
    number.  The constants are the decimal numbers of Constants.cxx, except PI,
    which is the number pi. *)
From Verif Require Import Prelude Particle_Model Limits_Model Cross_Model Photo_Model Products_Model.

(** Constants.cxx:10 *)
Definition SQRT2 : R := 1414213562373095 / 10 ^ 15.
(** Component::SetLogConstant and SetBPrime, Components.cxx:128-244; [truncate (Z + 1
    / 2)] is std::round of a positive charge. *)
Definition log_constant (c : component) : R :=
  match truncate (c_charge c + 1 / 2) with
  | 1%Z => 2024 / 10 | 2%Z => 1519 / 10 | 3%Z => 1599 / 10 | 4%Z => 1723 / 10
  | 5%Z => 1779 / 10 | 6%Z => 1783 / 10 | 7%Z => 1766 / 10 | 8%Z => 1734 / 10
  | 9%Z => 1700 / 10 | 10%Z => 1658 / 10 | 11%Z => 1658 / 10 | 12%Z => 1671 / 10
  | 13%Z => 1691 / 10 | 14%Z => 1708 / 10 | 15%Z => 1722 / 10 | 16%Z => 1734 / 10
  | 17%Z => 1743 / 10 | 18%Z => 1748 / 10 | 19%Z => 1751 / 10 | 20%Z => 1756 / 10
  | 21%Z => 1762 / 10 | 22%Z => 1768 / 10 | 26%Z => 1758 / 10 | 29%Z => 1731 / 10
  | 32%Z => 1730 / 10 | 35%Z => 1735 / 10 | 42%Z => 1759 / 10 | 50%Z => 1774 / 10
  | 53%Z => 1786 / 10 | 74%Z => 1776 / 10 | 82%Z => 1780 / 10 | 92%Z => 1798 / 10
  | _ => 1827 / 10
  end.
Definition b_prime (c : component) : R := match truncate (c_charge c + 1 / 2) with 1%Z => 446 | _ => 1429 end.
(** std::pow(Z, -1. / 3) and 1.54 * std::pow(A, 0.27) for positive numbers *)
Definition inverse_cube_root (Z : R) : R := Rpower Z (- (1 / 3)).
Definition nuclear_radius (A : R) : R := 154 / 100 * Rpower A (27 / 100).

Section Differential.
Variable nan : forall A, outcome A.
Notation quo := (quo nan).
Notation log := (log nan).

(** ** Compton scattering *)
(** ComptonKleinNishina::DifferentialCrossSection, Compton.cxx:36-58.  The assertion
    energy >= mass of the photon is left out. *)
Definition klein_nishina (c : component) (E v : R) : outcome R :=
  let kp := E / ME in
  olet C1 := quo 1 (kp * kp) in
  let C2 := 1 - 2 * (1 + kp) * C1 in
  let C3 := (1 + 2 * kp) * C1 in
  let epsilon := 1 - v in
  olet a := quo C1 epsilon in
  olet b := quo (a + C2) epsilon in
  let aux := b + C3 + epsilon in
  olet aux := quo aux E in
  let aux := aux * (PI * RE ^ 2 * ME) in
  olet n := quo NA (c_atomic c) in
  Ok (n * c_charge c * aux).

(** ** Annihilation *)
(** AnnihilationHeitler::CalculatedNdx, Annihilation.cxx:34-48; [weight] is
    detail::weight_component. *)
Definition heitler_rate (mass weight : R) (c : component) (E : R) : outcome R :=
  if E <=? mass then Ok 0
  else
    olet gamma := quo E mass in
    olet p := root nan (gamma * gamma - 1) in
    olet a := quo (gamma * gamma + 4 * gamma + 1) (gamma * gamma - 1) in
    olet l := log (gamma + p) in
    olet b := quo (gamma + 3) p in
    let aux := a * l - b in
    olet n := quo (NA * c_charge c) (c_atomic c) in
    olet k := quo (n * PI * RE * RE) (gamma + 1) in
    olet k := quo k weight in
    Ok (aux * k).

(** ** Bremsstrahlung *)
(** The least momentum given to the nucleus: p_def.mass * p_def.mass * v /
    (2 * energy * (1 - v)) *)
Definition momentum (mass E v : R) : outcome R := quo (mass * mass * v) (2 * E * (1 - v)).
(** BremsPetrukhinShestakov::CalculateParametrization, Bremsstrahlung.cxx:126-150 *)
Definition petrukhin_shestakov (mass : R) (c : component) (E v : R) : outcome R :=
  let Z3 := inverse_cube_root (c_charge c) in
  olet delta := momentum mass E v in
  let Fd := 189 * Z3 / ME in
  olet Fd := quo (mass * Fd) (1 + SQRTE * delta * Fd) in
  let Fd := if 10 <? c_charge c then Fd * (2 / 3 * Z3) else Fd in
  olet l := log Fd in
  Ok ((4 / 3 * (1 - v) + v * v) * l).
(** Where the loss is too large to be shared with an atomic electron,
    Bremsstrahlung.cxx:178-181, 387-390 *)
Definition electron_limit (mass E : R) : outcome R :=
  let square_momentum := (E - mass) * (E + mass) in
  let p := sqrt (Rmax square_momentum 0) in
  quo (ME * (E - mass)) (E * (E - p + ME)).
(** BremsKelnerKokoulinPetrukhin::CalculateParametrization,
    Bremsstrahlung.cxx:157-208 *)
Definition kelner (mass : R) (c : component) (E v : R) : outcome R :=
  olet delta := momentum mass E v in
  let Z3 := inverse_cube_root (c_charge c) in
  let Dn := nuclear_radius (c_atomic c) in
  olet a := quo ME (delta * SQRTE * log_constant c * Z3) in
  olet atomic_elastic := log (1 + a) in
  olet b := quo (delta * (Dn * SQRTE - 2)) mass in
  olet d := quo Dn (1 + b) in
  olet nuclear_elastic := log d in
  olet maxV := electron_limit mass E in
  olet atomic_inelastic :=
    (if v <? maxV then
       olet e := quo mass (delta * (delta * mass / (ME * ME) + SQRTE)) in
       olet l1 := log e in
       olet f := quo ME (delta * SQRTE * b_prime c * Z3 * Z3) in
       olet l2 := log (1 + f) in
       Ok (l1 - l2)
     else Ok 0) in
  let nuclear_inelastic := if c_charge c =? 1 then 0 else nuclear_elastic in
  olet g := quo mass delta in
  olet l := log g in
  olet h := quo (nuclear_inelastic + atomic_inelastic) (c_charge c) in
  Ok ((4 / 3 * (1 - v) + v * v) * (l - 1 / 2 - atomic_elastic - nuclear_elastic + h)).
(** The Coulomb correction and the radiation logarithms of Tsai,
    Bremsstrahlung.cxx:229-264, 507-545, PhotoPairProduction.cxx:152-189 *)
Definition coulomb (Z : R) : R :=
  let aux := (ALPHA * Z) * (ALPHA * Z) in
  aux * (1 / (1 + aux) + 20206 / 10 ^ 5 + aux * (- (369 / 10 ^ 4) + aux * (83 / 10 ^ 4 - 2 / 10 ^ 3 * aux))).
Definition radiation_logarithms (Z : R) : outcome (R * R) :=
  let Z3 := inverse_cube_root Z in
  match truncate (Z + 1 / 2) with
  | 1%Z => Ok (531 / 100, 6144 / 1000)
  | 2%Z => Ok (479 / 100, 5621 / 1000)
  | 3%Z => Ok (474 / 100, 5805 / 1000)
  | 4%Z => Ok (471 / 100, 5924 / 1000)
  | _ => olet Lr := log (18415 / 100 * Z3) in olet Lp := log (1194 * Z3 * Z3) in Ok (Lr, Lp)
  end.
(** BremsCompleteScreening::CalculateParametrization, Bremsstrahlung.cxx:216-273 *)
Definition complete_screening (c : component) (v : R) : outcome R :=
  let Z := c_charge c in
  olet L := radiation_logarithms Z in
  quo ((4 / 3 * (1 - v) + v * v) * (Z * (fst L - coulomb Z) + snd L) + 1 / 9 * (1 - v) * (Z + 1)) Z.
(** BremsAndreevBezrukovBugaev::CalculateParametrization,
    Bremsstrahlung.cxx:280-343 *)
Definition andreev (mass : R) (c : component) (E v : R) : outcome R :=
  let Z := c_charge c in
  let Z3 := inverse_cube_root Z in
  let a1 := 18415 / 100 * Z3 / (SQRTE * ME) in
  let a2 := 1194 * Z3 * Z3 / (SQRTE * ME) in
  let qc := 19 / 10 * MMU * Z3 in
  olet aux := quo (2 * mass) qc in
  let zeta := sqrt (1 + aux * aux) in
  olet delta := momentum mass E v in
  let x1 := a1 * delta in
  let x2 := a2 * delta in
  olet d :=
    (if Z =? 1 then Ok (0, 0)
     else
       olet q := quo mass qc in
       olet aux1 := log q in
       olet r := quo (zeta + 1) (zeta - 1) in
       olet l := log r in
       let aux2 := 1 / 2 * zeta * l in
       Ok (aux1 + aux2, aux1 + 1 / 2 * ((3 - zeta * zeta) * aux2 + aux * aux))) in
  olet q1 := quo ((mass * a1) * (mass * a1)) (1 + x1 * x1) in
  olet aux1 := log q1 in
  olet q2 := quo ((mass * a2) * (mass * a2)) (1 + x2 * x2) in
  olet aux2 := log q2 in
  olet e1 := quo (1 + aux2) Z in
  olet e2 := quo (2 / 3 + aux2) Z in
  let psi1 := 1 / 2 * ((1 + aux1) + e1) in
  let psi2 := 1 / 2 * ((2 / 3 + aux1) + e2) in
  olet i1 := quo 1 x1 in
  olet i2 := quo 1 x2 in
  let t1 := x1 * atan i1 in
  let t2 := x2 * atan i2 in
  olet f := quo t2 Z in
  let psi1 := psi1 - (t1 + f) in
  olet s1 := quo (x1 * x1) (1 + x1 * x1) in
  olet m1 := log s1 in
  let psi2 := psi2 + 2 * (x1 * x1) * (1 - t1 + 75 / 100 * m1) in
  olet s2 := quo (x2 * x2) (1 + x2 * x2) in
  olet m2 := log s2 in
  olet g := quo (2 * (x2 * x2) * (1 - t2 + 75 / 100 * m2)) Z in
  let psi2 := psi2 + g in
  let psi1 := psi1 - fst d in
  let psi2 := psi2 - snd d in
  let result := (2 - 2 * v + v * v) * psi1 - 2 / 3 * (1 - v) * psi2 in
  Ok (if result <? 0 then 0 else result).
(** The radiative correction of BremsSandrockSoedingreksoRhode,
    Bremsstrahlung.cxx:402-421: the third branch tests v >= 0.01, which the second
    branch leaves true. *)
Definition radiative (v : R) : outcome R :=
  if (v <? 0) || (1 <? v) then Ok 0
  else if v <? 2 / 100 then Ok (- (349 / 10 ^ 5) + 14884 / 100 * v + - (987531 / 1000) * v * v)
  else if v <? 1 / 10 then
    Ok (1642 / 10 ^ 4 + 132573 / 1000 * v + - (585361 / 1000) * v * v + 140777 / 100 * v * v * v)
  else if v <? 9 / 10 then
    let s := - (28922 / 10 ^ 4) + - (190156 / 10 ^ 4) * v + 57698 / 1000 * v * v in
    olet tmp := log (1 - v) in
    olet l := log v in
    Ok (s + (- (63418 / 1000) * v * l + 141166 / 10 ^ 4 * tmp + 184206 / 10 ^ 5 * tmp * tmp))
  else
    let s := 213419 / 100 + 581823 / 1000 * v + - (270885 / 100) * v * v in
    olet tmp := log (1 - v) in
    olet l := log v in
    Ok (s + (476705 / 100 * v * l + 152918 / 10 ^ 5 * tmp + 361933 / 10 ^ 6 * tmp * tmp)).
(** BremsSandrockSoedingreksoRhode::CalculateParametrization,
    Bremsstrahlung.cxx:345-427 *)
Definition sandrock (mass : R) (c : component) (E v : R) : outcome R :=
  let Z := c_charge c in
  let Z13 := inverse_cube_root Z in
  let rad_log := log_constant c in
  let Dn := nuclear_radius (c_atomic c) in
  olet mu_qc := quo mass (MMU * exp 1 / Dn) in
  let rho := sqrt (1 + 4 * mu_qc * mu_qc) in
  olet r := quo (rho + 1) (rho - 1) in
  olet log_rho := log r in
  olet lq := log mu_qc in
  let delta1 := lq + 1 / 2 * rho * log_rho in
  let delta2 := lq + 1 / 4 * (3 * rho - rho * rho * rho) * log_rho + 2 * mu_qc * mu_qc in
  olet delta := momentum mass E v in
  olet p1 := quo (rad_log * Z13 * (mass / ME)) (1 + rad_log * Z13 * exp (1 / 2) * delta / ME) in
  olet phi1 := log p1 in
  olet p2 := quo (rad_log * Z13 * exp (- 1 / 6) * (mass / ME)) (1 + rad_log * Z13 * exp (1 / 3) * delta / ME) in
  olet phi2 := log p2 in
  olet z := quo 1 Z in
  let phi1 := if Z =? 1 then phi1 - delta1 else phi1 - delta1 * (1 - z) in
  let phi2 := if Z =? 1 then phi2 - delta2 else phi2 - delta2 * (1 - z) in
  olet maxV := electron_limit mass E in
  olet s_atomic :=
    (if v <? maxV then
       olet q := quo mass delta in
       olet q := quo q (mass * delta / (ME * ME) + SQRTE) in
       olet s1 := log q in
       olet f := quo ME (delta * b_prime c * Z13 * Z13 * SQRTE) in
       olet s2 := log (1 + f) in
       Ok ((4 / 3 * (1 - v) + v * v) * (s1 - s2))
     else Ok 0) in
  olet s_rad := radiative v in
  Ok (Rmax (((2 - 2 * v + v * v) * phi1 - 2 / 3 * (1 - v) * phi2) + z * s_atomic + 1 / 4 * ALPHA * phi1 * s_rad) 0).
(** BremsElectronScreening::CalculateParametrization, Bremsstrahlung.cxx:483-564.
    [correction] is the table of correction factors (interpolant_->InterpolateArray
    at the logarithm of the charge and the kinetic energy). *)
Definition screening_functions (x : R) : outcome (R * R) :=
  if x <=? 1 then Ok (20867 / 1000 - 3242 / 1000 * x + 625 / 1000 * (x * x), 20029 / 1000 - 1930 / 1000 * x - 86 / 1000 * (x * x))
  else olet l := log (x + 952 / 1000) in
       let phi1 := 2112 / 100 - 4184 / 1000 * l in Ok (phi1, phi1).
Definition electron_screening (correction : R -> R -> outcome R) (mass : R) (c : component) (E v : R) : outcome R :=
  let Z := c_charge c in
  let Z3 := inverse_cube_root Z in
  olet logZ := log Z in
  olet delta := momentum mass E v in
  let x := 136 * Z3 * 2 * delta / ME in
  olet phi := screening_functions x in
  olet L := radiation_logarithms Z in
  olet xi := quo (snd L) (fst L - coulomb Z) in
  olet A_fac := (if E <? 50 then correction logZ (E - mass) else Ok 1) in
  let f_c := if E <? 50 then 0 else coulomb Z in
  let result := A_fac * Z * (Z + xi) in
  let aux := (2 - 2 * v + v * v) * (fst phi - 4 / 3 * logZ - 4 * f_c) - 2 / 3 * (1 - v) * (snd phi - 4 / 3 * logZ - 4 * f_c) in
  Ok (result * aux).

(** Bremsstrahlung::DifferentialCrossSection, Bremsstrahlung.cxx:94-113, and the one
    of BremsElectronScreening, lines 467-481, which leaves out 2 Z.  [suppression] is
    the factor of lpm_ if there is one. *)
Definition brems_prefactor (screening : bool) (mass charge : R) (c : component) : outcome R :=
  olet r := quo ME mass in
  Ok (if screening then charge * charge * r * RE else 2 * charge * charge * r * RE * c_charge c).
Definition bremsstrahlung (screening : bool) (parametrization : R -> R -> outcome R) (suppression : option (R -> R -> outcome R))
  (mass charge : R) (c : component) (E v : R) : outcome R :=
  olet result := parametrization E v in
  olet aux := brems_prefactor screening mass charge c in
  olet a := quo ALPHA v in
  let aux := aux * (aux * a * result) in
  olet aux := match suppression with
              | Some factor => olet s := factor E v in Ok (aux * s)
              | None => Ok aux
              end in
  olet n := quo NA (c_atomic c) in
  Ok (n * aux).

(** ** The suppression of Landau, Pomeranchuk and Migdal *)
(** The part that BremsLPM::suppression_factor (Bremsstrahlung.cxx:601-667) and
    PhotoPairLPM::suppression_factor (PhotoPairProduction.cxx:372-438) share: the
    functions xi, phi and G of s' and s.  std::log(sp) / std::log(s1) is computed
    before the branches but used in the second one only. *)
Definition lpm_xi (s1 sp : R) : outcome R :=
  if sp <? s1 then Ok 2
  else if sp <? 1 then
    olet a := log sp in
    olet b := log s1 in
    olet h := quo a b in
    olet q := quo (8 / 100 * (1 - h) * (1 - (1 - h) * (1 - h))) b in
    Ok (1 + h - q)
  else Ok 1.
Definition lpm_phi (s : R) : R :=
  if s <? 154954 / 10 ^ 5 then
    1 - exp (- 6 * s * (1 + (3 - PI) * s) + s * s * s / (623 / 1000 + 796 / 1000 * s + 658 / 1000 * (s * s)))
  else 1 - 12 / 1000 / (s * s * (s * s)).
Definition lpm_G (s : R) : R :=
  if s <? 710390 / 10 ^ 6 then
    let ps := 1 - exp (- 4 * s - 8 * (s * s) / (1 + 3936 / 1000 * s + 497 / 100 * (s * s) - 5 / 100 * (s * s) * s + 750 / 100 * (s * s) * (s * s))) in
    3 * ps - 2 * lpm_phi s
  else if s <? 904912 / 10 ^ 6 then 36 * (s * s) / (36 * (s * s) + 1)
  else 1 - 22 / 1000 / (s * s * (s * s)).
(** What a medium contributes: mol_density_, sum_charge_ and eLpm_, which the
    constructor (Bremsstrahlung.cxx:568-599) derives from an integral of the
    unsuppressed loss *)
Record lpm_medium := mklpm { l_mol_density : R; l_sum_charge : R; l_energy : R }.
(** BremsLPM::suppression_factor, Bremsstrahlung.cxx:601-667 *)
Definition brems_suppression (mass : R) (m : lpm_medium) (density : R) (c : component) (E v : R) : outcome R :=
  let Z3 := inverse_cube_root (c_charge c) in
  let Dn := nuclear_radius (c_atomic c) in
  let aux_nuc := mass / MMU * Dn in
  olet s1 := quo ME (mass * Z3 * log_constant c) in
  let s1 := s1 * s1 * (1 + aux_nuc * aux_nuc) * SQRT2 in
  olet q := quo (l_energy m * v) (density * E * (1 - v)) in
  olet r := root nan q in
  let sp := 125 / 1000 * r in
  olet xi := lpm_xi s1 sp in
  olet g := quo (RE * ME) (ALPHA * mass * v) in
  let Gamma := 1 + 4 * PI * l_sum_charge m * RE * g * g * l_mol_density m * density in
  olet s := quo sp (sqrt xi) in
  let s := s * Gamma in
  olet a := quo (v * v * lpm_G s) (Gamma * Gamma) in
  olet b := quo (2 * (1 + (1 - v) * (1 - v)) * lpm_phi s) Gamma in
  quo (xi / 3 * (a + b)) (4 / 3 * (1 - v) + v * v).
End Differential.
