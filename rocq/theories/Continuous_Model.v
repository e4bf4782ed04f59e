(** Model of the continuous losses
    (detail/PROPOSAL/crosssection/CrossSectionDEDX, CrossSectionDE2DX).  All
    integrals are computed by the class Integral; [qags] is its fallback. *)
From Verif Require Import Prelude Particle_Model Limits_Model Cross_Model Photo_Model Integral_Model Utility_Model Ionization_Model.

(** Constants.cxx:42 *)
Definition HALF_PRECISION : R := / 10 ^ 5.

(** A parametrization for one particle and one target, Parametrization.h:64-96:
    GetKinematicLimits, DifferentialCrossSection and FunctionToDEdxIntegral *)
Record parametrization := mkparametrization {
  p_limits : R -> limits;
  p_differential : R -> R -> outcome R;
  p_dedx : R -> R -> outcome R
}.
(** Parametrization.h:84-88 *)
Definition standard (limits : R -> limits) (differential : R -> R -> outcome R) : parametrization :=
  mkparametrization limits differential (fun E v => olet y := differential E v in Ok (v * y)).

Section Continuous.
Variable nan : forall A, outcome A.
Variable qags : (R -> outcome R) -> R -> R -> outcome R.
(** Integral(IROMB, IMAXS, IPREC) *)
Definition fine_integral : engine := new_integral 5 40 IPREC.
(** The value of one integration with a new object *)
Definition integral (g : engine) (a b : R) (f : R -> outcome R) (method : Z) : run R :=
  flet (v, _) := integrate nan qags g a b f method 0 in done (Ok v).

(** How the functions define_dedx_integral of CrossSectionDEDXIntegral.cxx compute
    the integral: lines 22-36 with 53-65 for most parametrizations, 38-53 with
    171-181 for photonuclear interaction and production of muon pairs, 67-81 for
    IonizBetheBlochRossi with its IonizationLoss, 83-105 for the formulas of Berger
    and Seltzer, 107-130 for Compton scattering, 132-169 for pair production *)
Inductive scheme :=
| Plain | Logarithmic | Rossi (loss : R -> outcome R) | Formula (value : R -> outcome R) | Reflected | Split.

Definition compton_integral (p : parametrization) (a b E : R) : run R :=
  flet t_min := done (log nan (1 - b)) in
  flet t_max := done (log nan (1 - a)) in
  integral default_integral t_min t_max (fun t => olet y := p_dedx p E (1 - exp t) in Ok (exp t * y)) 2.
(** Lines 139-168: the integrals of one call use one object after the other's
    settings have been replaced. *)
Definition split_integral (p : parametrization) (a b E : R) : run R :=
  let direct := p_dedx p E in
  let reverse := fun v => olet y := p_differential p E (1 - v) in Ok ((1 - v) * y) in
  let r1 := 8 / 10 in
  let rUp := b * (1 - HALF_PRECISION) in
  flet rflag := done (if r1 <? rUp
                      then olet y1 := direct r1 in olet y2 := direct rUp in Ok (2 * y1 <? y2)
                      else Ok false) in
  if (rflag : bool) then
    let r1 := (if b <? r1 then b else r1) in
    let r1 := (if r1 <? a then a else r1) in
    let r2 := Rmax (1 - b) COMPUTER_PRECISION in
    let r2 := (if 1 - r1 <? r2 then 1 - r1 else r2) in
    flet (x, g) := integrate nan qags default_integral a r1 direct 4 0 in
    flet (y, g) := integrate nan qags g (1 - b) r2 reverse 2 0 in
    flet (z, _) := integrate nan qags g r2 (1 - r1) reverse 4 0 in
    done (Ok (x + y + z))
  else integral default_integral a b direct 4.
Definition dedx_integral (s : scheme) (p : parametrization) (cut : energy_cut) (E : R) : run R :=
  let lim := p_limits p E in
  let a := v_min lim in
  let b := get_cut_within cut lim E in
  match s with
  | Plain => integral default_integral a b (p_dedx p E) 2
  | Logarithmic => integral fine_integral a b (p_dedx p E) 4
  | Rossi loss =>
    flet x := integral fine_integral a b (p_dedx p E) 4 in
    flet l := done (loss E) in
    flet q := done (quo nan l E) in done (Ok (x + q))
  | Formula value => flet y := done (value E) in done (quo nan y E)
  | Reflected => compton_integral p a b E
  | Split => split_integral p a b E
  end.
(** CrossSectionDEDXIntegral::Calculate, CrossSectionDEDXIntegral.cxx:185-188 *)
Definition continuous_loss (s : scheme) (p : parametrization) (cut : energy_cut) (E : R) : run R :=
  flet x := dedx_integral s p cut E in done (Ok (x * E)).
(** CrossSectionDE2DXIntegral.cxx:15-50, with FunctionToDE2dxIntegral,
    Parametrization.h:90-94 *)
Definition continuous_variance (p : parametrization) (cut : energy_cut) (E : R) : run R :=
  let lim := p_limits p E in
  flet x := integral default_integral (v_min lim) (get_cut_within cut lim E)
              (fun v => olet y := p_differential p E v in Ok (v * v * y)) 2 in
  done (Ok (x * E * E)).

(** The rate of the sampled losses, CrossSectionDNDXIntegral.cxx:16-41 with 140-153,
    for all parametrizations except ionization, Compton scattering and pair
    production by photons *)
Definition sampled_rate (p : parametrization) (cut : option energy_cut) (E : R) : run R :=
  let lim := integration_limits (p_limits p) cut E in
  if v_min lim <? v_max lim then integral default_integral (v_min lim) (v_max lim) (p_differential p E) 4 else done (Ok 0).

(** The ionization of a particle in a medium; [own] is the cut given to the
    constructor of the parametrization. *)
Definition rossi_parametrization (mass charge : R) (m : material) : parametrization :=
  mkparametrization (ionization_limits mass (mat_I m)) (rossi nan mass charge m) (rossi_dedx nan mass charge m).
Definition rossi_scheme (own : energy_cut) (mass charge : R) (m : material) : scheme :=
  Rossi (ionization_loss nan own mass charge m).
Definition bhabha_parametrization (own : energy_cut) (mass : R) (m : material) : parametrization :=
  mkparametrization (bhabha_limits mass) (bhabha nan mass m) (fun E _ => bhabha_dedx nan own mass m E).
Definition bhabha_scheme (own : energy_cut) (mass : R) (m : material) : scheme := Formula (bhabha_dedx nan own mass m).
Definition moller_parametrization (own : energy_cut) (mass : R) (m : material) : parametrization :=
  mkparametrization (moller_limits mass) (moller nan mass m) (fun E _ => moller_dedx nan own mass m E).
Definition moller_scheme (own : energy_cut) (mass : R) (m : material) : scheme := Formula (moller_dedx nan own mass m).
End Continuous.
