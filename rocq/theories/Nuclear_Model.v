(** Model of the inelastic interactions of photons with nuclei
    (detail/PROPOSAL/crosssection/parametrization/Photoproduction.cxx) and of charged
    particles in the approximation of real photons (PhotoRealPhotonAssumption.cxx,
    Photonuclear.cxx).  [nan] is the outcome of arithmetic whose result is infinite or
    not a number; std::pow with a fractional exponent is Rpower, which agrees for
    positive arguments. *)
From Verif Require Import Prelude Propagator_Model Particle_Model Limits_Model Cross_Model Photo_Model Products_Model.

(** averageNucleonWeight_, Components.cxx:44-45; molar masses are positive *)
Definition nucleon_weight (c : component) : R := (c_charge c * MP + (c_atomic c - c_charge c) * MN) / c_atomic c.
(** Photoproduction::GetCutOff, Photoproduction.cxx:26-30 *)
Definition production_cutoff (c : component) : R := MPI + MPI * MPI / (2 * nucleon_weight c).

Section Nuclear.
Variable nan : forall A, outcome A.
Notation quo := (quo nan).
Notation log := (log nan).
Notation root := (root nan).

(** ** The cross section of a photon and a nucleon, in microbarn *)
(** PhotoproductionZeus::PhotonNucleonCrossSection, Photoproduction.cxx:89-99 *)
Definition zeus (c : component) (E : R) : outcome R :=
  if E <? production_cutoff c then Ok 0
  else let nu := E / 10 ^ 3 in
       let aux := 2 / 10 ^ 3 * nu * nucleon_weight c in
       Ok (635 / 10 * Rpower aux (97 / 1000) + 145 * Rpower aux (- (1 / 2))).
(** PhotoproductionBezrukovBugaev, Photoproduction.cxx:114-122 *)
Definition bezrukov_bugaev (c : component) (E : R) : outcome R :=
  if E <? production_cutoff c then Ok 0
  else olet l := log (213 / 10 ^ 4 * (E / 10 ^ 3)) in Ok (1143 / 10 + 1647 / 1000 * l * l).
(** PhotoproductionCaldwell, Photoproduction.cxx:139-146 *)
Definition caldwell (c : component) (E : R) : outcome R :=
  if E <? production_cutoff c then Ok 0
  else let nu := E / 10 ^ 3 in
       olet l := log nu in
       olet r := root nu in
       olet q := quo (1518 / 10) r in
       Ok (492 / 10 + 111 / 10 * l + q).
(** PhotoproductionKokoulin, Photoproduction.cxx:156-170 *)
Definition kokoulin (c : component) (E : R) : outcome R :=
  if E <? production_cutoff c then Ok 0
  else let nu := E / 10 ^ 3 in
       if nu <=? 200 then
         if nu <=? 17 then olet r := root nu in olet q := quo 82 r in Ok (961 / 10 + q)
         else bezrukov_bugaev c E
       else caldwell c E.
(** PhotoproductionRhode, Photoproduction.cxx:201-213; [table] is the interpolation
    of the constructor's table, which is in Rhode_Model *)
Definition rhode (table : R -> outcome R) (c : component) (E : R) : outcome R :=
  if E <? production_cutoff c then Ok 0
  else let nu := E / 10 ^ 3 in
       if nu <=? 1 / 10 then Ok 0
       else if nu <=? 200 then olet y := table nu in Ok (Rmax y 0)
       else caldwell c E.
(** PhotoproductionHeck: sigma_bw, Q and the three resonances (mass, width, strength
    and w), Photoproduction.cxx:216-219, 258-270 *)
Definition breit_wigner (s E M Gamma Sigma0 : R) : outcome R :=
  olet a := quo s (E * E) in
  quo (a * Sigma0 * Gamma * Gamma * s) ((s - M * M) ^ 2 + Gamma * Gamma * s).
Definition onset (E E_th w : R) : outcome R :=
  if E <? E_th then Ok 0
  else if w + E_th <=? E then Ok 1
  else quo (E - E_th) w.
Definition resonances : list (R * R * R * R) :=
  [(1231 / 1000, 11 / 100, 31125 / 1000, 17 / 100); (1515 / 1000, 11 / 100, 25567 / 1000, 38 / 100); (1680 / 1000, 125 / 1000, 17508 / 1000, 38 / 100)].
(** PhotoproductionHeck::PhotonNucleonCrossSection, Photoproduction.cxx:233-256 *)
Definition heck (c : component) (E : R) : outcome R :=
  if E <? production_cutoff c then Ok 0
  else let E := E / 10 ^ 3 in
       let m_n := nucleon_weight c / 10 ^ 3 in
       let s := m_n * m_n + 2 * m_n * E in
       let s0 := (10761 / 10 ^ 4) ^ 2 in
       olet rs := root s in
       olet continuum :=
         (if rs <? 1939 / 100
          then olet q := quo s0 s in
               olet r := root (1 - q) in
               Ok ((737 / 10 * Rpower s (73 / 1000) + 1917 / 10 * Rpower s (- (602 / 1000))) * r)
          else Ok (593 / 10 * Rpower s (93 / 1000) + 1202 / 10 * Rpower s (- (358 / 1000)))) in
       fold_left (fun total res =>
         let '(M, Gamma, Sigma0, w) := res in
         olet t := total in
         olet b := breit_wigner s E M Gamma Sigma0 in
         olet q := onset E (152 / 1000) w in
         Ok (t + b * q)) resonances (Ok continuum).

(** ** The cross section of an atom *)
(** ShadowingFactor, Photoproduction.cxx:39-46 *)
Definition shadowing (nucleon : component -> R -> outcome R) (c : component) (E : R) : outcome R :=
  if c_charge c =? 1 then Ok 1
  else olet k := nucleon c E in
       let x := 282 / 10 ^ 5 * Rpower (c_atomic c) (1 / 3) * k in
       olet q := quo 3 (x * x * x) in
       Ok (q * (x * x / 2 - 1 + exp (- x) * (1 + x))).
(** PhotonAtomCrossSection, Photoproduction.cxx:32-37 *)
Definition atom_cross_section (nucleon : component -> R -> outcome R) (c : component) (E : R) : outcome R :=
  olet k := nucleon c E in
  if k =? 0 then Ok 0
  else olet s := shadowing nucleon c E in Ok (c_atomic c * k * (3 / 4 * s + 1 / 4)).
(** PhotoproductionHeckC7Shadowing::PhotonAtomCrossSection,
    Photoproduction.cxx:285-290 *)
Definition atom_cross_section_c7 (nucleon : component -> R -> outcome R) (c : component) (E : R) : outcome R :=
  olet k := nucleon c E in
  if k =? 0 then Ok 0 else Ok (k * Rpower (c_atomic c) (91 / 100)).
(** The rate of Photoproduction.cxx:48-54, 67-69 before the division by the weight *)
Definition production_rate (atom : component -> R -> outcome R) (c : component) (E : R) : outcome R :=
  olet n := quo NA (c_atomic c) in
  olet k := atom c E in
  Ok (n / 10 ^ 30 * k).
(** GetLowerEnergyLim, Photoproduction.cxx:19-24; [inf] is the constant INF *)
Definition production_lower (inf : R) (m : medium) : R :=
  fold_left (fun a c => Rmin a (production_cutoff c)) (m_components m) inf.
(** Photoproduction as a cross section (Cross_Model.direct); the energy is not
    compared with the cut-off outside of the cross section of a nucleon,
    Photoproduction.cxx:63-73. *)
Definition production_cross (atom : component -> R -> outcome R) (registry : N -> outcome component) (inf : R) (m : medium)
  (cut : option energy_cut) : cross_base :=
  direct nan (fun E c => production_rate atom c E) registry production_cutoff false m (production_lower inf m) Photoproduction cut.

(** ** Charged particles *)
(** PhotoRealPhotonAssumption::DifferentialCrossSection,
    PhotoRealPhotonAssumption.cxx:46-96; [hard] is CalculateHardComponent, zero for
    the SoftComponent *)
Definition real_photon (nucleon : component -> R -> outcome R) (hard : R -> R -> outcome R) (mass charge : R)
  (c : component) (E v : R) : outcome R :=
  olet sgn := nucleon c (v * E) in
  let m1 := 54 / 100 in
  let m2 := 18 / 10 in
  olet a := quo 2 v in
  olet b := quo 2 (v * v) in
  let kappa := 1 - a + b in
  olet G :=
    (if c_charge c =? 1 then Ok 1
     else let tmp := 282 / 10 ^ 5 * Rpower (c_atomic c) (1 / 3) * sgn in
          olet q := quo 3 tmp in
          olet r := quo ((1 + tmp) * exp (- tmp) - 1) (tmp * tmp) in
          Ok (q * (1 / 2 + r))) in
  let G := G * 3 in
  let aux := v * mass / 10 ^ 3 in
  olet t := quo (aux * aux) (1 - v) in
  let aum := mass / 10 ^ 3 * (mass / 10 ^ 3) in
  olet aux := quo (2 * aum) t in
  olet q1 := quo m1 t in
  olet l1 := log (1 + q1) in
  olet f1 := quo (kappa * m1) (m1 + t) in
  olet q2 := quo m2 t in
  olet l2 := log (1 + q2) in
  olet f2 := quo (G * (m1 - 4 * t)) (m1 + t) in
  olet l3 := log (1 + t / m2) in
  let aux := G * ((kappa + 4 * aum / m1) * l1 - f1 - aux) + ((kappa + 2 * aum / m2) * l2 - aux) + aux * (f2 + q2 * l3) in
  let aux := aux * (ALPHA / (8 * PI) * c_atomic c * v * sgn / 10 ^ 30) in
  olet h := hard E v in
  let aux := aux + c_atomic c / 10 ^ 30 * h in
  olet n := quo NA (c_atomic c) in
  Ok (n * charge * charge * aux).
(** SoftComponent::CalculateHardComponent, Photonuclear.cxx:67-70 *)
Definition soft (E v : R) : outcome R := Ok 0.
End Nuclear.
