(** Model of the propagation utilities that integrate over the energy:
    displacement, interaction, decay, time and continuous randomization
    (PROPOSAL/propagation_utility and detail/PROPOSAL/propagation_utility).
    Assertions are compiled out, log messages and hashes are left out. *)
From Verif Require Import Prelude Vec_Model Geometry_Model Propagator_Model Cross_Model Integral_Model Math_Model.

(** Constants.cxx:22-23, 51, 10 *)
Definition IPREC : R := / 10 ^ 6.
Definition IPREC2 : R := / 10 ^ 5.
Definition SPEED : R := 29979245800.
Definition SQRT2 : R := 1414213562373095 / 10 ^ 15.

Section Utility.
Variable nan : forall A, outcome A.
(** Integral::qags *)
Variable qags : (R -> outcome R) -> R -> R -> outcome R.

(** ** The functions that are integrated *)
Notation divide := (quotient nan).
(** std::sqrt of a non-negative number *)
Definition root (x : R) : outcome R := if x <? 0 then nan R else Ok (sqrt x).
(** CrossSectionVector::GetLowerLim, CrossSectionVector.h:24-33, after the check
    of the constructor, Displacement.h:22-31: [std::max_element] with "greater". *)
Definition new_displacement (cross : list cross_base) : outcome R :=
  match max_element (fun a b => x_lower b <? x_lower a) cross with
  | None => Throw invalid_argument
  | Some x => Ok (x_lower x)
  end.
(** ExactTimeBuilder::FunctionToIntegral, TimeBuilder.cxx:40-48; [disp] is the
    function of the displacement. *)
Definition time_function (disp : R -> outcome R) (mass E : R) : outcome R :=
  let square_momentum := Rmax ((E - mass) * (E + mass)) 0 in
  let momentum := sqrt square_momentum in
  olet aux := disp E in
  if aux =? 0 then Ok 0 else divide (aux * E) (momentum * SPEED).
(** Decay::FunctionToIntegral, Decay.cxx:7-13 *)
Definition decay_function (disp : R -> outcome R) (mass E : R) : outcome R :=
  olet momentum := root ((E - mass) * (E + mass)) in
  olet aux := divide (SPEED * momentum) mass in
  olet d := disp E in
  divide d aux.
(** ContRand::FunctionToIntegral, ContRand.cxx:28-35 *)
Fixpoint dE2dx_loop (cross : list cross_base) (E acc : R) : outcome R :=
  match cross with
  | [] => Ok acc
  | x :: l => olet r := x_dE2dx x E in dE2dx_loop l E (acc + r)
  end.
Definition cont_rand_function (disp : R -> outcome R) (cross : list cross_base) (E : R) : outcome R :=
  olet s := dE2dx_loop cross E 0 in
  olet d := disp E in Ok (d * s).

(** ** Integrals *)
(** A UtilityIntegral (PropagationUtilityIntegral.cxx:8-16), or a
    UtilityInterpolant (PropagationUtilityInterpolant.cxx:26-32) after its tables
    have been built; [t_table] is [interpolant_->evaluate]. *)
Inductive calculator :=
| Direct (f : R -> outcome R) (lower : R) (g : engine)
| Tabulated (f : R -> outcome R) (lower : R) (table : R -> R) (reverse : bool).
Definition lower_of (c : calculator) : R := match c with Direct _ l _ => l | Tabulated _ l _ _ => l end.

Definition new_direct (f : R -> outcome R) (lower : R) : calculator := Direct f lower (new_integral 5 40 IPREC2).
(** UtilityInterpolant::BuildTables, PropagationUtilityInterpolant.cxx:34-61: the
    values at the nodes.  Every value is computed with a new engine. *)
Definition node_value (f : R -> outcome R) (lower upper : R) (reverse : bool) (E : R) : run R :=
  flet (v, _) := (if reverse then integrate nan qags (new_integral 5 40 IPREC2) upper E f 4 0
                  else integrate nan qags (new_integral 5 40 IPREC2) E lower f 4 0) in
  done (Ok v).
(** [spline node low high nodes] is the interpolant of the library
    CubicInterpolation through the values of [node]; [upper] is
    InterpolationSettings::UPPER_ENERGY_LIM. *)
Definition new_tabulated (spline : (R -> run R) -> R -> R -> nat -> run (R -> R))
  (f : R -> outcome R) (lower upper : R) (nodes : nat) (reverse : bool) : run calculator :=
  flet table := spline (node_value f lower upper reverse) lower upper nodes in
  done (Ok (Tabulated f lower table reverse)).

(** UtilityIntegral::Calculate, PropagationUtilityIntegral.cxx:18-22, and
    UtilityInterpolant::Calculate, PropagationUtilityInterpolant.cxx:64-79 *)
Definition calculate (c : calculator) (E_i E_f : R) : run (R * calculator) :=
  match c with
  | Direct f lower g =>
    flet (v, g) := integrate nan qags g E_i E_f f 4 0 in done (Ok (v, Direct f lower g))
  | Tabulated f lower table reverse =>
    if E_i - E_f <? E_i * IPREC
    then done (olet y := f ((E_i + E_i) / 2) in Ok (y * (E_f - E_i), c))
    else let upper_value := table E_i in
         let lower_value := table E_f in
         done (Ok (if reverse then lower_value - upper_value else upper_value - lower_value, c))
  end.

(** cubic_splines::find_parameter: table, value, lower and upper end of the
    range and first guess; [None] is std::runtime_error. *)
Variable find_parameter : (R -> R) -> R -> R -> R -> R -> option R.

(** UtilityIntegral::GetUpperLimit, PropagationUtilityIntegral.cxx:24-37, and
    UtilityInterpolant::GetUpperLimit, PropagationUtilityInterpolant.cxx:82-130.
    MathException leaves the function when the first bisection throws it. *)
Definition get_upper (c : calculator) (E rnd : R) : run (R * calculator) :=
  match c with
  | Direct f lower g =>
    flet (sum, g) := integrate_ratio nan qags g E lower f 4 (- rnd) 0 in
    if sum <? rnd then done (Throw logic_error)
    else flet (x, g) := get_upper_limit nan qags g in done (Ok (x, Direct f lower g))
  | Tabulated f lower table reverse =>
    flet (max_rnd, _) := calculate c E lower in
    if max_rnd <? rnd then done (Throw logic_error)
    else if rnd =? max_rnd then done (Ok (lower, c))
    else
      let rnd := (if reverse then - rnd else rnd) in
      let to_upper := table E in
      let h := fun x => table x - (to_upper - rnd) in
      flet (a, b) := done (bisection h lower E ((E - lower) * / 100) 101) in
      let guess := (if b =? E then E else (a + b) / 2) in
      match find_parameter table (to_upper - rnd) a b guess with
      | Some x => done (Ok (x, c))
      | None => flet (a, _) := done (bisection h lower E (/ 10 ^ 6) 101) in done (Ok (a, c))
      end
  end.

(** ** The utilities *)
(** [-std::log(rnd)] *)
Definition minus_log (rnd : R) : outcome ext :=
  if rnd <? 0 then nan ext else if rnd =? 0 then Ok PInf else Ok (Fin (- ln rnd)).
(** InteractionBuilder::EnergyInteraction, InteractionBuilder.cxx:66-74 *)
Definition energy_interaction (c : calculator) (E rnd : R) : run (R * calculator) :=
  flet rndi := done (minus_log rnd) in
  flet (most, c) := calculate c E (lower_of c) in
  match rndi with
  | PInf => done (Ok (lower_of c, c))
  | Fin r => if most <=? r then done (Ok (lower_of c, c)) else get_upper c E r
  end.
(** DecayBuilder::EnergyDecay, DecayBuilder.cxx:27-35; an infinite number times
    zero or a negative density is not followed. *)
Definition energy_decay (c : calculator) (lifetime E rnd density : R) : run (R * calculator) :=
  flet rndd := done (minus_log rnd) in
  flet rndd := done (match rndd with
                     | PInf => if 0 <? density then Ok PInf else nan ext
                     | Fin r => Ok (Fin (r * density))
                     end) in
  flet (most, c) := calculate c E (lower_of c) in
  flet most := done (divide most lifetime) in
  match rndd with
  | PInf => done (Ok (lower_of c, c))
  | Fin r => if most <=? r then done (Ok (lower_of c, c)) else get_upper c E (r * lifetime)
  end.
(** ExactTimeBuilder::TimeElapsed, TimeBuilder.cxx:31-38 *)
Definition time_elapsed (c : calculator) (E_i E_f grammage density : R) : run (R * calculator) :=
  flet (t, c) := calculate c E_i E_f in
  flet t := done (divide t density) in done (Ok (t, c)).
(** ApproximateTimeBuilder::TimeElapsed, TimeBuilder.cxx:73-78 *)
Definition approximate_time_elapsed (E_i E_f grammage density : R) : outcome R := divide grammage (density * SPEED).

(** SampleFromGaussian, MathMethods.cxx:405-413; [erf] is std::erf, [ppf] is
    normalppf. *)
Definition sample_from_gaussian (erf : R -> R) (ppf : R -> outcome R) (mean sigma rnd min max : R) : outcome R :=
  if sigma =? 0 then Ok mean
  else
    olet zlo := divide (min - mean) (SQRT2 * sigma) in
    olet zhi := divide (max - mean) (SQRT2 * sigma) in
    let xlo := / 2 + erf zlo / 2 in
    let xhi := / 2 + erf zhi / 2 in
    olet q := ppf (xlo + (xhi - xlo) * rnd) in
    Ok (sigma * q + mean).
(** ContRand's constructor, ContRand.cxx:7-26 *)
Definition new_cont_rand (cross : list cross_base) : outcome unit :=
  if existsb (fun x => match x_cut x with Some cut => cut_cont_rand cut | None => false end) cross
  then Ok tt else Throw invalid_argument.
(** ContRandBuilder::EnergyRandomize, ContRandBuilder.h:29-38 *)
Definition energy_randomize (erf : R -> R) (ppf : R -> outcome R) (c : calculator)
  (E_i E_f rnd min_energy : R) : run (R * calculator) :=
  flet (var, c) := calculate c E_i E_f in
  let sigma := sqrt (Rmax var 0) in
  flet E := done (sample_from_gaussian erf ppf E_f sigma rnd (Rmax (lower_of c) min_energy) E_i) in
  done (Ok (E, c)).
End Utility.
