(** Model of the production of electron and muon pairs by charged particles
    (detail/PROPOSAL/crosssection/parametrization/EpairProduction.cxx,
    MupairProduction.cxx).  [mass] and [charge] are those of the particle, [c] is the
    component, [E] the energy, [v] the relative loss.  EpairSandrockSoedingreksoRhode
    is in Sandrock_Model.  [nan] is the outcome of arithmetic whose result is infinite or
    not a number. *)
From Verif Require Import Prelude Particle_Model Limits_Model Cross_Model Photo_Model Products_Model Differential_Model
  Integral_Model Continuous_Model.

Section Pairs.
Variable nan : forall A, outcome A.
Notation quo := (quo nan).
Notation log := (log nan).
Notation root := (Photo_Model.root nan).

(** ** Electron pairs *)
(** The largest asymmetry of a pair: rMax in
    EpairProductionRhoIntegral::DifferentialCrossSection,
    EpairProduction.cxx:144-152.  The function goes on to integrate from 1 - rMax to
    1. *)
Definition epair_rho_max (mass E v : R) : outcome R :=
  olet a := quo (4 * ME) (E * v) in
  let aux := 1 - a in
  olet b := quo (6 * mass * mass) (E * E * (1 - v)) in
  let aux2 := 1 - b in
  if (0 <? aux) && (0 <? aux2) then Ok (sqrt aux * aux2) else Ok 0.

(** EpairLPM::suppression_factor, EpairProduction.cxx:581-617; [e] is eLpm_ *)
Definition epair_suppression (e density E v r2 b x : R) : outcome R :=
  olet q := quo e (density * E * v * (1 - r2)) in
  olet q := root q in
  let s := 1 / 4 * q in
  let s6 := 6 * s in
  let atan_ := s6 * (x + 1) in
  if 1 / COMPUTER_PRECISION <? atan_ then Ok 1
  else
    let s36 := 36 * s * s in
    olet d1 := quo s6 (s6 + 1) in
    olet d2 := quo s36 (s36 + 1) in
    let atan_ := atan atan_ - PI / 2 in
    olet l := quo (s36 * (1 + x) * (1 + x) + 1) (s36 * x * x) in
    olet log1 := log l in
    olet l := quo (s6 * (1 + x) + 1) (s6 * x) in
    olet log2 := log l in
    olet w := quo (s36 - 1) (s36 + 1) in
    let A := 1 / 2 * d2 * (1 + 2 * d2 * x) * log1 - d2 + 6 * d2 * s * (1 + w * x) * atan_ in
    let B := d1 * (1 + d1 * x) * log2 - d1 in
    olet y := quo (d2 * d2 * (s36 - 1)) (6 * s) in
    let C := - d2 * d2 * x * log1 + d2 - y * x * atan_ in
    let D := d1 - d1 * d1 * x * log2 in
    let E' := - s6 * atan_ in
    olet i := quo 1 x in
    olet log3 := log (1 + i) in
    olet j := quo (1 - r2 - b) (1 + x) in
    quo ((1 + b) * (A + (1 + r2) * B) + b * (C + (1 + r2) * D) + (1 - r2) * E')
        (((2 + r2) * (1 + b) + x * (3 + r2)) * log3 + j - (3 + r2)).
(** aux *= lpm_->suppression_factor(...) if there is one; [lpm] holds eLpm_ and
    density_correction_ *)
Definition suppressed (lpm : option (R * R)) (E v r2 b x aux : R) : outcome R :=
  match lpm with
  | None => Ok aux
  | Some (e, density) => olet f := epair_suppression e density E v r2 b x in Ok (aux * f)
  end.

(** The factor Phi_e of EpairKelnerKokoulinPetrukhin::FunctionToIntegral,
    EpairProduction.cxx:227-238: the expression for large xi and the full one *)
Definition phi_e_short (r2 beta xi : R) : outcome R := quo (3 / 2 - r2 / 2 + beta * (1 + r2)) xi.
Definition phi_e_full (r2 beta xi : R) : outcome R :=
  olet i := quo 1 xi in
  olet l := log (1 + i) in
  olet j := quo (1 - r2 - beta) (1 + xi) in
  Ok (((2 + r2) * (1 + beta) + xi * (3 + r2)) * l + j - (3 + r2)).
Definition phi_e (r2 beta xi : R) : outcome R :=
  olet i := quo 1 xi in
  if i <? HALF_PRECISION then phi_e_short r2 beta xi else phi_e_full r2 beta xi.
(** Phi_mu, EpairProduction.cxx:240-248 *)
Definition phi_mu (r2 beta xi : R) : outcome R :=
  olet i := quo ((1 + 2 * beta) * (1 - r2)) xi in
  olet l := log (1 + xi) in
  olet j := quo (xi * (1 - r2 - beta)) (1 + xi) in
  Ok (((1 + r2) * (1 + 3 / 2 * beta) - i) * l + j + (1 + 2 * beta) * (1 - r2)).
(** The contribution of the atomic electrons, EpairProduction.cxx:250-272 *)
Definition atomic_electrons (mass : R) (c : component) (E : R) : outcome R :=
  let Z3 := inverse_cube_root (c_charge c) in
  let g1 := if c_charge c =? 1 then 44 / 10 ^ 6 else 195 / 10 ^ 7 in
  let g2 := if c_charge c =? 1 then 48 / 10 ^ 6 else 53 / 10 ^ 6 in
  olet aux := quo E mass in
  olet a := quo (g1 * aux) (Z3 * Z3) in
  olet a := quo aux (1 + a) in
  olet l := log a in
  let aux1 := 73 / 1000 * l - 26 / 100 in
  olet b := quo (g2 * aux) Z3 in
  olet b := quo aux (1 + b) in
  olet l := log b in
  let aux2 := 58 / 1000 * l - 14 / 100 in
  if (0 <? aux1) && (0 <? aux2) then quo aux1 aux2 else Ok 0.
(** EpairKelnerKokoulinPetrukhin::FunctionToIntegral, EpairProduction.cxx:174-291 *)
Definition kelner_pair (lpm : option (R * R)) (mass charge : R) (c : component) (E v r : R) : outcome R :=
  let r := 1 - r in
  let r2 := r * r in
  let Z3 := inverse_cube_root (c_charge c) in
  let aux := mass * v / (2 * ME) in
  olet xi := quo (aux * aux * (1 - r2)) (1 - v) in
  olet beta := quo (v * v) (2 * (1 - v)) in
  olet i := quo 1 xi in
  olet l := log (3 + i) in
  olet Ye := quo (5 - r2 + 4 * beta * (1 + r2)) (2 * (1 + 3 * beta) * l - r2 - 2 * beta * (2 - r2)) in
  olet l := log (3 + xi) in
  olet Ymu := quo (4 + r2 + 3 * beta * (1 + r2)) ((1 + r2) * (3 / 2 + 2 * beta) * l + 1 - 3 / 2 * r2) in
  olet aux := quo (3 / 2 * ME) (mass * Z3) in
  let aux1 := (1 + xi) * (1 + Ye) in
  olet aux2 := quo (2 * ME * SQRTE * log_constant c * Z3) (E * v * (1 - r2)) in
  olet s := root aux1 in
  olet q := quo (log_constant c * Z3 * s) (1 + aux2 * aux1) in
  olet l1 := log q in
  olet l2 := log (1 + aux * aux * aux1) in
  let Le := l1 - 1 / 2 * l2 in
  olet q := quo (log_constant c) aux in
  olet q := quo (q * Z3) (1 + aux2 * (1 + xi) * (1 + Ymu)) in
  olet Lmu := log q in
  olet diagram_e := (if 0 <? Le then olet p := phi_e r2 beta xi in Ok (p * Le) else Ok 0) in
  olet diagram_mu := (if 0 <? Lmu then olet p := phi_mu r2 beta xi in Ok (p * Lmu) else Ok 0) in
  olet atomic := atomic_electrons mass c E in
  let aux := ALPHA * RE * charge in
  let aux := aux * (aux / (3 / 2 * PI) * 2 * c_charge c * (c_charge c + atomic)) in
  olet q := quo ME mass in
  let aux1 := q * charge in
  olet w := quo (1 - v) v in
  let aux := aux * (w * (diagram_e + aux1 * aux1 * diagram_mu)) in
  olet aux := suppressed lpm E v r2 beta xi aux in
  if aux <? 0 then Ok 0 else Ok aux.

(** ** The parametrization of muon pairs *)
(** phi, MupairProduction.cxx:111-119, EpairProduction.cxx:503-511 *)
Definition pair_phi (r2 beta xi : R) : outcome R :=
  olet i := quo 1 xi in
  olet l := log (1 + i) in
  let aux := ((2 + r2) * (1 + beta) + xi * (3 + r2)) * l in
  olet l := log (1 + xi) in
  let aux1 := ((1 + r2) * (1 + 3 / 2 * beta) - i * (1 + 2 * beta) * (1 - r2)) * l in
  let aux2 := - 1 - 3 * r2 + beta * (1 - 2 * r2) in
  Ok (aux + aux1 + aux2).
(** U, MupairProduction.cxx:122-128 (with m the mass of the muon) and
    EpairProduction.cxx:514-520 (the mass of the electron); [k] is the numerator *)
Definition pair_U (k m B Z3 E v Y xi r2 : R) : outcome R :=
  let aux1 := 2 * SQRTE * (m * m) * B * Z3 * (1 + xi) * (1 + Y) in
  let aux2 := ME * E * v * (1 - r2) in
  olet q := quo aux1 aux2 in
  quo k (1 + q).
(** The rest: MupairProduction.cxx:130-159, EpairProduction.cxx:522-548; [ratio] is the
    mass of the particle divided by that of the pair particles (the code multiplies
    mass * v / (2 * MMU) at once), [radius] the
    classical radius *)
Definition pair_integrand (k m B ratio radius charge Z E v r : R) : outcome (R * (R * R * R)) :=
  let r2 := r * r in
  olet q := quo (2 * m) (v * E) in
  let rMax := 1 - q in
  let Z3 := inverse_cube_root Z in
  let aux := ratio * v / 2 in
  olet xi := quo (aux * aux * (1 - r2)) (1 - v) in
  olet beta := quo (v * v) (2 * (1 - v)) in
  olet phi := pair_phi r2 beta xi in
  olet y := quo m E in
  olet y := root y in
  let Y := 12 * y in
  olet U := pair_U k m B Z3 E v Y xi r2 in
  olet xi2 := quo (v * v * (1 - rMax * rMax)) (4 * (1 - v)) in
  olet U_max := pair_U k m B Z3 E v Y xi2 (rMax * rMax) in
  let X := 1 + U - U_max in
  let aux := ALPHA * radius * charge * Z in
  olet w := quo (2 * aux * phi * (1 - v)) (3 / 2 * PI * v) in
  let aux := aux * w in
  olet aux := (if 0 <? X then olet l := log X in Ok (aux * l) else Ok 0) in
  Ok (if aux <? 0 then 0 else aux, (r2, beta, xi)).
(** EpairForElectronPositron::FunctionToIntegral, EpairProduction.cxx:477-550 *)
Definition electron_pair (lpm : option (R * R)) (charge : R) (c : component) (E v rho : R) : outcome R :=
  let Z3 := inverse_cube_root (c_charge c) in
  olet a := pair_integrand (log_constant c * Z3) ME (log_constant c) 1 RE charge (c_charge c) E v rho in
  let '(aux, (r2, beta, xi)) := a in
  suppressed lpm E v r2 beta xi aux.
(** MupairKelnerKokoulinPetrukhin::FunctionToIntegral, MupairProduction.cxx:83-160;
    the name atomic_weight stands for comp.GetAtomInMolecule() there *)
Definition muon_pair (mass charge : R) (c : component) (E v r : R) : outcome R :=
  let Z3 := inverse_cube_root (c_charge c) in
  let A_pow := Rpower (c_atoms c) (- (27 / 100)) in
  let B := 183 in
  olet a := pair_integrand (65 / 100 * A_pow * B * Z3 * MMU / ME) MMU B (mass / MMU) (RE * ME / MMU) charge (c_charge c) E v r in
  Ok (fst a).
(** rMax in MupairProductionRhoIntegral::DifferentialCrossSection,
    MupairProduction.cxx:62-69 (None: the result is 0 at once).  The function goes on
    to integrate from 0 to rMax. *)
Definition muon_pair_rho_max (E v : R) : outcome (option R) :=
  olet q := quo (2 * MMU) (v * E) in
  let aux := 1 - q in
  Ok (if aux <? 0 then None else Some aux).

(** ** The cross sections for a given loss *)
Variable qags : (R -> outcome R) -> R -> R -> outcome R.
(** EpairProductionRhoIntegral::DifferentialCrossSection, EpairProduction.cxx:139-167;
    [f] is FunctionToIntegral.  The two integrals are computed from left to right
    (C++ leaves the order open). *)
Definition epair_differential (f : R -> outcome R) (mass : R) (c : component) (E v : R) : run R :=
  flet rMax := done (epair_rho_max mass E v) in
  let aux := Rmax (1 - rMax) COMPUTER_PRECISION in
  flet w := done (quo NA (c_atomic c)) in
  flet (x, g) := integrate nan qags fine_integral (1 - rMax) aux f 2 0 in
  flet (y, _) := integrate nan qags g aux 1 f 4 0 in
  done (Ok (w * (x + y))).
(** MupairProductionRhoIntegral::DifferentialCrossSection, MupairProduction.cxx:62-79 *)
Definition muon_pair_differential (f : R -> outcome R) (c : component) (E v : R) : run R :=
  flet rMax := done (muon_pair_rho_max E v) in
  match (rMax : option R) with
  | None => done (Ok 0)
  | Some rMax =>
    flet w := done (quo NA (c_atomic c)) in
    flet x := integral nan qags fine_integral 0 rMax f 2 in
    done (Ok (w * x))
  end.
End Pairs.
