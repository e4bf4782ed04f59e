(** Sampling of a loss from a differential cross section: the upper limit of the
    integral that has a given value
    (src/PROPOSAL/detail/PROPOSAL/crosssection/CrossSectionDNDX/CrossSectionDNDXIntegral.cxx). *)
From Verif Require Import Prelude Propagator_Model Limits_Model Cross_Model Function_Model Integral_Model Continuous_Model.

Section Sampling.
Variable nan : forall A, outcome A.
Variable qags : (R -> outcome R) -> R -> R -> outcome R.

(** _define_dndx_upper_lim, CrossSectionDNDXIntegral.cxx:88-103, for all
    parametrizations except Compton scattering *)
Definition place_loss (differential : R -> outcome R) (a b ratio : R) : run R :=
  flet (_, g) := integrate_ratio nan qags default_integral a b differential 4 ratio 0 in
  flet (x, _) := get_upper_limit nan qags g in
  done (Ok x).

(** define_dndx_upper_lim for Compton scattering, CrossSectionDNDXIntegral.cxx:119-137;
    the power of the substitution is the default one, Integral.h:140-146 *)
Definition place_compton (differential : R -> outcome R) (a b ratio : R) : run R :=
  flet t_min := done (log nan (1 - a)) in
  flet t_max := done (log nan (1 - b)) in
  flet (_, g) := integrate_ratio nan qags default_integral t_min t_max
                   (fun t => olet y := differential (1 - exp t) in Ok (exp t * y)) 3 ratio 0 in
  flet (x, _) := get_upper_limit nan qags g in
  done (Ok (1 - exp x)).

Definition place (s : spacing) : (R -> outcome R) -> R -> R -> R -> run R :=
  match s with LogCompton => place_compton | _ => place_loss end.

(** CrossSectionDNDXIntegral::GetUpperLimit, CrossSectionDNDXIntegral.cxx:154-159 *)
Definition upper_direct (s : spacing) (p : parametrization) (cut : option energy_cut) (E rate : R) : run R :=
  let lim := integration_limits (p_limits p) cut E in
  place s (p_differential p E) (v_min lim) (v_max lim) (- rate).
End Sampling.
