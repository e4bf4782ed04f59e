(** Model of the deflections by stochastic losses
    (detail/PROPOSAL/scattering/stochastic_deflection) and of the class that
    keeps them (PROPOSAL/scattering/Scattering.h, ScatteringMultiplier.h).
    [nan] is the outcome of arithmetic whose result is infinite or not a number. *)
From Verif Require Import Prelude Particle_Model Limits_Model Math_Model Vec_Model Geometry_Model Propagator_Model.

Section Deflection.
Variable nan : forall A, outcome A.
Definition quotient (a b : R) : outcome R := if b =? 0 then nan R else Ok (a / b).
Definition root (a : R) : outcome R := if a <? 0 then nan R else Ok (sqrt a).
(** [std::pow] with an exponent other than zero and, for a negative base, one
    that is not a whole number *)
Definition power (x y : R) : outcome R :=
  if 0 <? x then Ok (Rpower x y) else if (x =? 0) && (0 <? y) then Ok 0 else nan R.
Definition logarithm (x : R) : outcome R := if 0 <? x then Ok (ln x) else nan R.
Definition arc_cosine (x : R) : outcome R := if Rabs x <=? 1 then Ok (acos x) else nan R.
Definition arc_sine (x : R) : outcome R := if Rabs x <=? 1 then Ok (asin x) else nan R.
(** [rnd[i]] of a vector *)
Definition number (rnd : list R) (i : nat) : outcome R :=
  match nth_error rnd i with Some r => Ok r | None => UB out_of_bounds end.
(** UnitSphericalVector {zenith, 2 * PI * rnd[i]} *)
Definition around (theta : R) (rnd : list R) (i : nat) : outcome (R * R) :=
  olet r := number rnd i in Ok (theta, 2 * PI * r).
(** lambda = 1 / rms^2 and sqrt(SampleFromExponential(rnd, lambda)),
    BremsGinneken.cxx:72-74, EpairGinneken.cxx:30-32, PhotoGinneken.cxx:19-21;
    for rms = 0 lambda is infinite and the angle zero. *)
Definition exponential_angle (p rms : R) : outcome R :=
  if p <? 1 then
    if rms =? 0 then Ok 0
    else root (sample_from_exponential p (1 / (rms * rms)))
  else nan R.

(** BremsTsaiApproximation.cxx:7-19; for a loss of zero e_f/epsilon is infinite. *)
Definition brems_tsai (m e_i e_f : R) (rnd : list R) : outcome (R * R) :=
  let epsilon := e_i - e_f in
  olet least := (if epsilon =? 0 then (if 0 <? e_f then Ok 1 else nan R)
                 else Ok (Rmin 1 (e_f / epsilon))) in
  olet r_max := quotient (least * e_i * 1) m in
  olet r0 := number rnd 0 in
  let a := r0 * r_max * r_max / (1 + r_max * r_max) in
  olet b := quotient a (1 - a) in
  olet r := root b in
  olet q := quotient m e_i in
  olet s := quotient epsilon e_f in
  around (s * (q * r)) rnd 1.

(** BremsGinneken::f_nu_g, BremsGinneken.cxx:13-15; [nu] and [k_4] are positive
    where it is used. *)
Definition f_nu_g (n k_4 nu : R) : R :=
  Rpower nu (1 / n + 1) + Rpower (2 / 10 / k_4) (1 / n) * nu - Rpower (2 / 10 / k_4) (1 / n).
(** BremsGinneken::get_nu_g, BremsGinneken.cxx:17-27 *)
Definition get_nu_g (n k_4 : R) : outcome R :=
  let f := f_nu_g n k_4 in
  if f (1 / 2) * f 1 <? 0
  then olet nu := bisection f (1 / 2) 1 (/ 10 ^ 5) 101 in Ok ((fst nu + snd nu) / 2)
  else Ok (1 / 2).
(** BremsGinneken::get_rms_theta, BremsGinneken.cxx:29-57 *)
Definition brems_rms (e_i e_f m Z : R) : outcome R :=
  olet nu := quotient (e_i - e_f) (e_i - m) in
  if nu <=? 1 / 2 then
    olet p := power e_i (- (1 / 3)) in
    let k_1 := 92 / 1000 * p in
    olet q := quotient (52 / 1000) e_i in
    olet z := power Z (- (1 / 4)) in
    let k_2 := q * z in
    olet r := power e_i (- (92 / 100)) in
    let k_3 := 22 / 100 * r in
    olet s := root nu in
    Ok (Rmax (Rmin (k_1 * s) k_2) (k_3 * nu))
  else
    olet p := power e_i (- (91 / 100)) in
    let k_4 := 26 / 100 * p in
    olet h := power e_i (1 / 2) in
    let n := 81 / 100 * h / (h + 18 / 10) in
    olet a := power nu (1 + n) in
    olet b := power (1 - nu) (- n) in
    let rms := k_4 * a * b in
    if rms <? 2 / 10 then Ok rms
    else
      olet nu_g := get_nu_g n k_4 in
      olet a := power nu_g (1 + n) in
      olet b := power (1 - nu_g) (1 / 2 - n) in
      let k_5 := k_4 * a * b in
      olet c := power (1 - nu) (- (1 / 2)) in
      let rms := k_5 * c in
      if rms <? 2 / 10 then Throw invalid_argument else Ok rms.
(** BremsGinneken.cxx:59-77; [Z] is the charge of the component. *)
Definition brems_ginneken (m Z e_i e_f : R) (rnd : list R) : outcome (R * R) :=
  olet rms := brems_rms (e_i / 1000) (e_f / 1000) (m / 1000) Z in
  olet r0 := number rnd 0 in
  olet theta := exponential_angle r0 rms in
  around theta rnd 1.

(** EpairGinneken.cxx:9-35 *)
Definition epair_rms (e_i e_f m : R) : outcome R :=
  olet nu := quotient (e_i - e_f) (e_i - m) in
  olet r := power nu (25 / 100) in
  olet s := quotient nu (nu + 1) in
  let least := Rmin (89 / 10 / 10000 * r * (1 + 15 / 10 / 100000 * e_i) + 32 / 1000 * s) (1 / 10) in
  olet l := logarithm e_i in
  olet inverse := quotient 1 (1 - nu) in
  olet t := quotient ((23 / 10 + l) * inverse) e_i in
  olet w := quotient (2 * (ME / 1000)) e_i in
  olet q := quotient (t * (nu - w) ^ 2) (nu * nu) in
  Ok (q * least).
Definition epair_ginneken (m e_i e_f : R) (rnd : list R) : outcome (R * R) :=
  olet rms := epair_rms (e_i / 1000) (e_f / 1000) (m / 1000) in
  olet r0 := number rnd 0 in
  olet theta := exponential_angle r0 rms in
  around theta rnd 1.

(** IonizNaive.cxx:6-14 *)
Definition ioniz_naive (m e_i e_f : R) (rnd : list R) : outcome (R * R) :=
  olet p_i := root ((e_i + m) * (e_i - m)) in
  olet p_f := root ((e_f + m) * (e_f - m)) in
  olet c := quotient ((e_i + ME) * e_f - e_i * ME - m * m) (p_i * p_f) in
  olet theta := arc_cosine c in
  around theta rnd 0.

(** PhotoBorogPetrukhin.cxx:7-21 *)
Definition photo_borog (m e_i e_f : R) (rnd : list R) : outcome (R * R) :=
  olet m_0 := root (4 / 10) in
  let m_0 := m_0 * 1000 in
  let epsilon := e_i - e_f in
  olet y := quotient epsilon e_i in
  let t_max := 2 * MP * epsilon in
  olet t_min := quotient (m * m * y * y) (1 - y) in
  let t_1 := Rmin (epsilon * epsilon) (m_0 * m_0) in
  olet r0 := number rnd 0 in
  olet base := quotient (t_max * (t_min + t_1)) (t_min * (t_max + t_1)) in
  olet b := (if r0 =? 0 then Ok 1 else power base r0) in
  olet t_p := quotient (t_max * t_1) ((t_max + t_1) * b - t_max) in
  olet sin2 := quotient (t_p - t_min) (4 * (e_i * e_f - m * m) - 2 * t_min) in
  olet s := root sin2 in
  olet half := arc_sine s in
  around (2 * half) rnd 1.

(** PhotoGinneken.cxx:8-24 *)
Definition photo_rms (e_i e_f m : R) : outcome R :=
  olet nu := quotient (e_i - e_f) (e_i - m) in
  olet a := quotient (39 / 100) (e_i * (1 - nu)) in
  olet h := root e_i in
  olet b := power (h * nu * (1 - nu)) (17 / 100) in
  olet c := quotient (135 / 1000) (e_i * nu) in
  Ok (a * b * (1 - c)).
Definition photo_ginneken (m e_i e_f : R) (rnd : list R) : outcome (R * R) :=
  olet rms := photo_rms (e_i / 1000) (e_f / 1000) (m / 1000) in
  olet r0 := number rnd 0 in
  olet theta := exponential_angle r0 rms in
  around theta rnd 1.

(** ** The calculators and the class Scattering *)
Inductive deflector := BremsTsai | BremsGinneken | EpairGinneken | IonizNaive | PhotoBorog | PhotoGinneken.
(** GetInteractionType: bremsstrahlung/Bremsstrahlung.h and its siblings *)
Definition type_of (d : deflector) : itype :=
  match d with
  | BremsTsai | BremsGinneken => Brems
  | EpairGinneken => Epair
  | IonizNaive => Ioniz
  | PhotoBorog | PhotoGinneken => Photonuclear
  end.
(** RequiredRandomNumbers: n_rnd of the headers *)
Definition required (d : deflector) : nat := match d with IonizNaive => 1 | _ => 2 end.
(** CalculateStochasticDeflection of the calculators; [charge] is the look-up of a
    component by its hash (only BremsGinneken uses it). *)
Definition deflection (charge : N -> outcome R) (m : R) (d : deflector) (e_i e_f : R) (rnd : list R) (component : N) : outcome (R * R) :=
  match d with
  | BremsTsai => brems_tsai m e_i e_f rnd
  | BremsGinneken => olet Z := charge component in brems_ginneken m Z e_i e_f rnd
  | EpairGinneken => epair_ginneken m e_i e_f rnd
  | IonizNaive => ioniz_naive m e_i e_f rnd
  | PhotoBorog => photo_borog m e_i e_f rnd
  | PhotoGinneken => photo_ginneken m e_i e_f rnd
  end.

(** Scattering::init_deflection, Scattering.h:31-46: a map from the types, into
    which the calculators are assigned one after the other. *)
Fixpoint registered (ds : list deflector) (t : itype) : option deflector :=
  match ds with
  | [] => None
  | d :: ds => match registered ds t with
               | Some d' => Some d'
               | None => if itype_eqb (type_of d) t then Some d else None
               end
  end.
(** ScatteringMultiplier::_scale_deflect, ScatteringMultiplier.h:11-21; the
    assertion is not compiled in.  An empty list of factors is the class
    Scattering, whose _scale_deflect returns its argument (Scattering.h:59-63). *)
Fixpoint scale_deflect (factors : list (itype * R)) (t : itype) (zenith : R) : R :=
  match factors with
  | [] => zenith
  | (t', k) :: factors => if itype_eqb t' t then zenith * k else scale_deflect factors t zenith
  end.
(** ScatteringMultiplier::_scale_scatter, ScatteringMultiplier.h:23-31 *)
Definition scale_scatter (k : R) (o : offset) : offset :=
  mkoffset (o_sx o * k) (o_sy o * k) (o_tx o * k) (o_ty o * k).
(** Scattering's constructor and queries, Scattering.h:106-159, in the form in
    which the propagation uses them *)
Definition make_scattering (multiple : option (R -> R -> R -> list R -> outcome offset)) (charge : N -> outcome R) (m : R)
  (ds : list deflector) (k : R) (factors : list (itype * R)) : scattering :=
  mkscattering
    (match multiple with
     | Some f => Some (fun grammage e_i e_f rnd => olet o := f grammage e_i e_f rnd in Ok (scale_scatter k o))
     | None => None
     end)
    (fun t => match registered ds t with
              | Some d => Some (required d, fun e_i e_f rnd component =>
                            olet a := deflection charge m d e_i e_f rnd component in
                            Ok (scale_deflect factors (type_of d) (fst a), snd a))
              | None => None
              end).
End Deflection.
