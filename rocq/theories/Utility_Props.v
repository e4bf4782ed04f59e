(** Properties of the propagation utilities (C42, C58, C59).

    [nan] is the outcome of arithmetic that leaves the real numbers, [qags] the
    adaptive routine that is called when Romberg's method does not converge,
    [find] the Newton-Raphson method of the library CubicInterpolation.  A
    calculator integrates a function of the energy, anew ([Direct]) or with a
    table ([Tabulated]). *)
From Verif Require Import Prelude PreludeFacts Function_Model Integral_Model Function_Spec Integral_Spec Math_Model Function_Proofs
  Trapezoid_Proofs Integral_Proofs Upper_Proofs Vec_Model Geometry_Model Propagator_Model Cross_Model
  Utility_Model Utility_Spec Utility_Proofs Direct_Proofs Twin_Proofs Grammage_Proofs Inverse_Proofs Utility_Examples.

(** ** C42: sums of grammages and times *)
(** With a table, whatever its values: energies that differ by a millionth *)
Theorem C42_table_additive : forall nan qags f lower table reverse E1 E2 E3, 0 < E2 -> apart E1 E2 -> apart E2 E3 ->
  let c := Tabulated f lower table reverse in exists v w,
  gives (calculate nan qags c E1 E2) v /\ gives (calculate nan qags c E2 E3) w /\ gives (calculate nan qags c E1 E3) (v + w).
Proof. exact table_additive. Qed.
Print Assumptions C42_table_additive.
(** For closer energies the function is evaluated once: with a table without
    error the sums differ by the variation of the function. *)
Theorem C42_table_additive_partial : forall nan qags f F lower table (reverse : bool) E1 E2 E3 w,
  (forall E, lower <= E -> f E = Ok (F E)) ->
  (forall E, lower <= E -> derivable_pt_lim table E (if reverse then F E else - F E)) ->
  0 < lower -> lower <= E3 <= E2 -> E2 <= E1 -> 0 <= w -> steady F lower E1 (E1 / 10 ^ 6) w ->
  exists v12 v23 v13, let c := Tabulated f lower table reverse in
    gives (calculate nan qags c E1 E2) v12 /\ gives (calculate nan qags c E2 E3) v23 /\ gives (calculate nan qags c E1 E3) v13 /\
    Rabs (v12 + v23 - v13) <= 3 * w * (E1 / 10 ^ 6).
Proof. exact table_additive_near. Qed.
Print Assumptions C42_table_additive_partial.
Theorem C42_table_additive_refuted : forall nan qags,
  let f := fun E => Ok (- E) in let table := fun E => E * E / 2 in let c := Tabulated f (/ 2) table false in
  (forall E, derivable_pt_lim table E E) /\ exists v w u,
  gives (calculate nan qags c 1 (1 - 5 / 10 ^ 7)) v /\ gives (calculate nan qags c (1 - 5 / 10 ^ 7) (/ 2)) w /\
  gives (calculate nan qags c 1 (/ 2)) u /\ u < v + w.
Proof. exact (fun nan qags => conj close_exact (table_additive_refuted nan qags)). Qed.
Print Assumptions C42_table_additive_refuted.
(** By integration, with whatever calls before *)
Theorem C42_direct_additive_partial : forall nan qags find f lower c0 G c c' c'' E1 E2 E3, log_polynomial qags f c0 G ->
  later nan qags find (new_direct f lower) c -> later nan qags find (new_direct f lower) c' -> later nan qags find (new_direct f lower) c'' ->
  0 < E3 < E2 -> E2 < E1 -> logs_apart E1 E2 -> logs_apart E2 E3 -> logs_apart E1 E3 ->
  exists v w, gives (calculate nan qags c E1 E2) v /\ gives (calculate nan qags c' E2 E3) w /\ gives (calculate nan qags c'' E1 E3) (v + w).
Proof. exact direct_additive. Qed.
Print Assumptions C42_direct_additive_partial.
Theorem C42_direct_value_partial : forall nan qags find f lower c0 G c E_i E_f, log_polynomial qags f c0 G ->
  later nan qags find (new_direct f lower) c -> 0 < E_f < E_i -> logs_apart E_i E_f ->
  gives (calculate nan qags c E_i E_f) (G (ln E_f) - G (ln E_i)).
Proof. exact direct_value. Qed.
Print Assumptions C42_direct_value_partial.
Theorem C42_direct_additive_refuted : forall nan qags (find : (R -> R) -> R -> R -> R -> R -> option R) f lower, (forall E, 0 < E -> f E = Ok (- / E)) ->
  (forall h lo hi, lo < hi -> (forall t, lo < t < hi -> h t = Ok (-1)) -> qags h lo hi = Ok (lo - hi)) ->
  exists E1 E2 E3 v, 0 < E3 < E2 /\ E2 < E1 /\ gives (calculate nan qags (new_direct f lower) E1 E2) 0 /\
    gives (calculate nan qags (new_direct f lower) E2 E3) 0 /\ gives (calculate nan qags (new_direct f lower) E1 E3) v /\ 0 < v.
Proof. exact direct_additive_refuted. Qed.
Print Assumptions C42_direct_additive_refuted.
Example C42_direct_example : forall nan find, exists v w,
  gives (calculate nan minus_width (new_direct proportional 1) 100 10) v /\
  gives (calculate nan minus_width (new_direct proportional 1) 10 1) w /\
  gives (calculate nan minus_width (new_direct proportional 1) 100 1) (v + w) /\
  gives (calculate nan minus_width (new_direct proportional 1) 100 10) (ln 10) /\
  log_polynomial minus_width proportional [-1] (fun t => - t) /\ logs_apart 100 10 /\
  later nan minus_width find (new_direct proportional 1) (new_direct proportional 1).
Proof.
  intros nan find. pose proof (later_none nan minus_width find (new_direct proportional 1)) as N.
  destruct (direct_additive nan minus_width find proportional 1 [-1] (fun t => - t) _ _ _ 100 10 1 proportional_polynomial N N N) as (v & w & A & B & C);
    [lra|lra|exact apart_100_10|exact apart_10_1|exact apart_100_1|].
  exists v, w. split; [exact A|]. split; [exact B|]. split; [exact C|].
  split; [|split; [exact proportional_polynomial|split; [exact apart_100_10|exact N]]].
  replace (ln 10) with (- ln 10 - - ln 100) by (rewrite ln_100; ring).
  apply (direct_value nan minus_width find proportional 1 [-1] (fun t => - t)); [exact proportional_polynomial|exact N|lra|exact apart_100_10].
Qed.
Example C42_table_example : forall nan qags,
  gives (calculate nan qags unit_calculator 100 10) 90 /\ apart 100 10 /\ apart 10 1 /\
  (forall E, 1 <= E -> unit_loss E = Ok (-1)) /\ (forall E, 1 <= E -> derivable_pt_lim identity_table E (- -1)) /\
  steady (fun _ => -1) 1 100 (100 / 10 ^ 6) 0.
Proof.
  intros nan qags. assert (A : apart 100 10) by (unfold apart; lra). split.
  - eexists. unfold unit_calculator. rewrite table_value by exact A. unfold table_difference, identity_table.
    replace (100 - 10) with 90 by lra. reflexivity.
  - split; [exact A|]. split; [unfold apart; lra|]. split; [reflexivity|]. split; [intros; apply unit_derivative|apply unit_steady].
Qed.
(** Equal energies *)
Theorem C42_table_equal : forall nan qags f lower table reverse E y, 0 < E -> f E = Ok y ->
  gives (calculate nan qags (Tabulated f lower table reverse) E E) 0.
Proof. exact table_equal. Qed.
Print Assumptions C42_table_equal.
Theorem C42_direct_equal : forall nan qags find f lower c E, later nan qags find (new_direct f lower) c ->
  gives (calculate nan qags c E E) 0.
Proof. exact direct_equal. Qed.
Print Assumptions C42_direct_equal.
(** A table and the integral *)
Theorem C42_table_value_partial : forall nan qags (find : (R -> R) -> R -> R -> R -> R -> option R)
  f lower upper c0 G (reverse : bool) table eps E_i E_f, log_polynomial qags f c0 G -> 0 < lower ->
  tabulates nan qags eps f lower upper reverse table -> lower <= E_f -> apart E_i E_f -> E_i <= upper ->
  (let reference := if reverse then upper else lower in same_or_apart reference E_i /\ same_or_apart reference E_f) ->
  exists v, gives (calculate nan qags (Tabulated f lower table reverse) E_i E_f) v /\ Rabs (v - (G (ln E_f) - G (ln E_i))) <= 2 * eps.
Proof. exact table_direct. Qed.
Print Assumptions C42_table_value_partial.
Example C42_table_value_example : forall nan,
  tabulates nan minus_width 0 proportional 1 100 false (fun E => if Req_EM_T E 10 then ln 10 else
    match node_value nan minus_width proportional 1 100 false E with Some (Ok v) => v | _ => 0 end) /\
  same_or_apart 1 10 /\ same_or_apart 1 100 /\ apart 100 10.
Proof.
  intro nan. split; [|split; [|split; [|unfold apart; lra]]].
  - intros E v HE Hv. destruct (Req_EM_T E 10) as [->|N].
    + rewrite (node_polynomial nan minus_width (fun _ _ _ _ _ => None) proportional 1 100 [-1] (fun t => - t) false 10 proportional_polynomial) in Hv;
        [|lra|lra|right; exact apart_10_1].
      injection Hv as <-. rewrite ln_1. replace (ln 10 - (- 0 - - ln 10)) with 0 by ring. rewrite Rabs_R0. lra.
    + rewrite Hv, Rminus_eq_0, Rabs_R0. lra.
  - right. pose proof apart_10_1 as X. unfold logs_apart in *. rewrite Rmin_comm, Rabs_minus_sym. exact X.
  - right. pose proof apart_100_1 as X. unfold logs_apart in *. rewrite Rmin_comm, Rabs_minus_sym. exact X.
Qed.
(** The energy after a grammage: where the table has an exact inverse, within
    the width of the last bisection *)
Theorem C42_table_inverse : forall nan qags find f lower table reverse E E', finds_within 0 find -> continuity table ->
  (forall x y, lower <= x <= E -> lower <= y <= E -> table x = table y -> x = y) ->
  apart E lower -> 0 < E -> lower <= E' <= E -> 0 <= table_difference table reverse E E' <= table_difference table reverse E lower ->
  exists x, gives (get_upper nan qags find (Tabulated f lower table reverse) E (table_difference table reverse E E')) x /\
    x <= E' /\ E' - x <= Rmax (/ 10 ^ 6) ((E - lower) / 2 ^ 101).
Proof. exact upper_back. Qed.
Print Assumptions C42_table_inverse.
Theorem C42_table_upper : forall nan qags find f lower table reverse eps E s, finds_within eps find -> 0 <= eps -> continuity table ->
  apart E lower -> 0 < E -> lower < E -> 0 <= s <= table_difference table reverse E lower ->
  let c := Tabulated f lower table reverse in
  exists x z, get_upper nan qags find c E s = Some (Ok (x, c)) /\ lower <= x /\ x <= z <= E /\
    z - x <= Rmax (/ 10 ^ 6) ((E - lower) / 2 ^ 101) /\ Rabs (table_difference table reverse E z - s) <= eps.
Proof. exact upper_found. Qed.
Print Assumptions C42_table_upper.
Theorem C42_table_beyond : forall nan qags find f lower table reverse E s, apart E lower -> table_difference table reverse E lower < s ->
  get_upper nan qags find (Tabulated f lower table reverse) E s = Some (Throw logic_error).
Proof. exact upper_beyond. Qed.
Print Assumptions C42_table_beyond.
Example C42_inverse_example : finds_within 0 find_exact /\ continuity identity_table /\ apart 100 1 /\
  0 <= table_difference identity_table false 100 10 <= table_difference identity_table false 100 1 /\
  forall nan qags, exists x, gives (get_upper nan qags find_exact unit_calculator 100 90) x /\ x <= 10 /\ 10 - x <= Rmax (/ 10 ^ 6) ((100 - 1) / 2 ^ 101).
Proof.
  assert (A : apart 100 1) by (unfold apart; lra).
  assert (D : 0 <= table_difference identity_table false 100 10 <= table_difference identity_table false 100 1)
    by (unfold table_difference, identity_table; lra).
  split; [exact find_exact_within|]. split; [exact identity_continuous|]. split; [exact A|]. split; [exact D|].
  intros nan qags. replace 90 with (table_difference identity_table false 100 10) by (unfold table_difference, identity_table; lra).
  apply upper_back; try assumption; try lra; [exact find_exact_within|exact identity_continuous|]. intros x y _ _ H. exact H.
Qed.
(** By integration, with whatever calls before, for losses proportional to the
    energy: the logarithm of the energy is found within 1e-5. *)
Theorem C42_direct_inverse_partial : forall nan qags find a f, 0 < a -> constants_exact (- a) qags ->
  log_polynomial qags f [- a] (fun t => - a * t) -> forall lower c c' E E',
  later nan qags find (new_direct f lower) c -> later nan qags find (new_direct f lower) c' ->
  0 < lower < E' -> E' < E -> E - lower > E / 10 ^ 10 -> logs_apart E lower -> logs_apart E E' ->
  exists s x, gives (calculate nan qags c E E') s /\ gives (get_upper nan qags find c' E s) x /\ 0 < x /\ Rabs (ln x - ln E') < / 10 ^ 5.
Proof. exact direct_back. Qed.
Print Assumptions C42_direct_inverse_partial.
Theorem C42_direct_upper_partial : forall nan qags find a f, 0 < a -> constants_exact (- a) qags ->
  log_polynomial qags f [- a] (fun t => - a * t) -> forall lower c E s,
  later nan qags find (new_direct f lower) c -> 0 < lower < E -> E - lower > E / 10 ^ 10 -> logs_apart E lower ->
  0 <= s < a * (ln E - ln lower) ->
  exists x, gives (get_upper nan qags find c E s) x /\ 0 < x /\ Rabs (ln x - (ln E - s / a)) < / 10 ^ 5.
Proof. exact direct_inverse. Qed.
Print Assumptions C42_direct_upper_partial.
Example C42_direct_inverse_example : constants_exact (- (1)) minus_width /\ log_polynomial minus_width proportional [- (1)] (fun t => - (1) * t) /\
  forall nan find, exists s x, gives (calculate nan minus_width (new_direct proportional 1) 100 10) s /\
    gives (get_upper nan minus_width find (new_direct proportional 1) 100 s) x /\ 0 < x /\ Rabs (ln x - ln 10) < / 10 ^ 5.
Proof.
  split; [exact minus_width_exact|]. split; [exact proportional_line|]. intros nan find.
  apply (direct_back nan minus_width find 1 proportional Rlt_0_1 minus_width_exact proportional_line 1); try constructor; try lra;
    [exact apart_100_1|exact apart_100_10].
Qed.
(** Close to the lower limit an exception is thrown although the grammage is
    less than the one to the lower limit, and the table has no error. *)
Theorem C42_near_limit_refuted : forall nan qags find,
  let f := fun E => Ok (- E) in let table := fun E => E * E / 2 in let c := Tabulated f 1 table false in
  (forall E, derivable_pt_lim table E E) /\ exists E s most,
  1 < E /\ 0 < s < most /\ gives (calculate nan qags c E 1) most /\ get_upper nan qags find c E s = Some (Throw math_exception).
Proof. exact (fun nan qags find => conj close_exact (upper_exception_refuted nan qags find)). Qed.
Print Assumptions C42_near_limit_refuted.
(** Times *)
Theorem C42_exact_time : forall nan qags c E_i E_f grammage density v, density <> 0 -> gives (calculate nan qags c E_i E_f) v ->
  gives (time_elapsed nan qags c E_i E_f grammage density) (v / density).
Proof. exact time_value. Qed.
Print Assumptions C42_exact_time.
Theorem C42_approximate_time : forall nan E1 E2 E3 g1 g2 density, density <> 0 -> exists t1 t2,
  approximate_time_elapsed nan E1 E2 g1 density = Ok t1 /\ approximate_time_elapsed nan E2 E3 g2 density = Ok t2 /\
  approximate_time_elapsed nan E1 E3 (g1 + g2) density = Ok (t1 + t2) /\ t1 * density * 29979245800 = g1.
Proof. exact approximate_additive. Qed.
Print Assumptions C42_approximate_time.
Example C42_time_example : forall nan qags, exists t, gives (time_elapsed nan qags unit_calculator 100 10 0 2) t /\ t = 45.
Proof.
  intros nan qags. exists (90 / 2). split; [|lra]. apply time_value; [lra|]. apply (C42_table_example nan qags).
Qed.

(** ** C58: energies of the next interaction and decay *)
(** Between the lower limit and the energy, with a table *)
Theorem C58_table_interaction : forall nan qags find eps f lower table reverse E rnd, let c := Tabulated f lower table reverse in
  finds_within eps find -> 0 < E -> lower < E -> apart E lower -> 0 <= rnd <= 1 ->
  exists x, energy_interaction nan qags find c E rnd = Some (Ok (x, c)) /\ lower <= x <= E.
Proof. exact interaction_table. Qed.
Print Assumptions C58_table_interaction.
Theorem C58_table_decay : forall nan qags find eps f lower table reverse lifetime E rnd density, let c := Tabulated f lower table reverse in
  finds_within eps find -> 0 < E -> lower < E -> apart E lower -> 0 <= rnd <= 1 -> 0 < lifetime -> 0 < density ->
  exists x, energy_decay nan qags find c lifetime E rnd density = Some (Ok (x, c)) /\ lower <= x <= E.
Proof. exact decay_table. Qed.
Print Assumptions C58_table_decay.
(** The sampled energy is the one at which minus the logarithm of the random
    number has been integrated, or the lower limit if there is none. *)
Theorem C58_table_place : forall nan qags find eps f lower table reverse E rnd x, let c := Tabulated f lower table reverse in
  finds_within eps find -> 0 <= eps -> continuity table -> 0 < E -> lower < E -> apart E lower -> 0 < rnd <= 1 ->
  gives (energy_interaction nan qags find c E rnd) x ->
  (x = lower /\ table_difference table reverse E lower <= - ln rnd) \/
  (exists z, x <= z <= E /\ z - x <= Rmax (/ 10 ^ 6) ((E - lower) / 2 ^ 101) /\ Rabs (table_difference table reverse E z - - ln rnd) <= eps).
Proof. exact interaction_table_place. Qed.
Print Assumptions C58_table_place.
Example C58_table_example : finds_within 0 find_exact /\ apart 100 1 /\ forall nan qags, exists x,
  energy_interaction nan qags find_exact unit_calculator 100 (exp (-90)) = Some (Ok (x, unit_calculator)) /\ 1 <= x <= 100.
Proof.
  assert (A : apart 100 1) by (unfold apart; lra). split; [exact find_exact_within|]. split; [exact A|]. intros nan qags.
  apply (interaction_table nan qags find_exact 0 unit_loss 1 identity_table false 100 (exp (-90))); try lra; [exact find_exact_within|exact A|].
  split; [left; apply exp_pos|]. rewrite <- exp_0. left. apply exp_increasing. lra.
Qed.
(** By integration, with whatever calls before: the loss is known between the
    limits, and the adaptive routine does not notice when the axis is mirrored. *)
Theorem C58_direct_interaction_partial : forall nan qags, (forall A (v : A), nan A <> Ok v) -> mirrors qags ->
  forall find f lower c E rnd x F, later nan qags find (new_direct f lower) c -> 0 < lower < E ->
  (forall y, lower < y < E -> f y = Ok (F y)) -> 0 <= rnd <= 1 ->
  gives (energy_interaction nan qags find c E rnd) x -> lower <= x <= E.
Proof. exact direct_interaction. Qed.
Print Assumptions C58_direct_interaction_partial.
Theorem C58_direct_decay_partial : forall nan qags, (forall A (v : A), nan A <> Ok v) -> mirrors qags ->
  forall find f lower c lifetime E rnd density x F, later nan qags find (new_direct f lower) c -> 0 < lower < E ->
  (forall y, lower < y < E -> f y = Ok (F y)) -> 0 <= rnd <= 1 -> 0 < lifetime -> 0 < density ->
  gives (energy_decay nan qags find c lifetime E rnd density) x -> lower <= x <= E.
Proof. exact direct_decay. Qed.
Print Assumptions C58_direct_decay_partial.
(** For losses proportional to the energy there is a result, and it is the
    inverse of the distribution function at the random number. *)
Theorem C58_direct_sample_partial : forall nan qags find a f, 0 < a -> constants_exact (- a) qags ->
  log_polynomial qags f [- a] (fun t => - a * t) -> forall lower c E rnd,
  later nan qags find (new_direct f lower) c -> 0 < lower < E -> E - lower > E / 10 ^ 10 -> logs_apart E lower -> 0 < rnd <= 1 ->
  exists x, gives (energy_interaction nan qags find c E rnd) x /\ 0 < x /\ Rabs (ln x - Rmax (ln lower) (ln E + ln rnd / a)) < / 10 ^ 5.
Proof. exact direct_sample. Qed.
Print Assumptions C58_direct_sample_partial.
Example C58_direct_example : forall find, let nan := fun A => @Throw A math_exception in
  mirrors minus_width /\ (forall y, 1 < y < 100 -> proportional y = Ok (-1 / y)) /\
  later nan minus_width find (new_direct proportional 1) (new_direct proportional 1) /\
  exists x, gives (energy_interaction nan minus_width find (new_direct proportional 1) 100 (/ 10)) x /\ 1 <= x <= 100 /\ Rabs (ln x - ln 10) < / 10 ^ 5.
Proof.
  intros find nan. pose proof (later_none nan minus_width find (new_direct proportional 1)) as N.
  split; [exact minus_width_mirrors|]. split; [reflexivity|]. split; [exact N|].
  destruct (direct_sample nan minus_width find 1 proportional Rlt_0_1 minus_width_exact proportional_line 1 _ 100 (/ 10) N) as (x & G & _ & B);
    [lra|lra|exact apart_100_1|lra|].
  exists x. split; [exact G|]. split.
  - apply (direct_interaction nan minus_width ltac:(discriminate) minus_width_mirrors find proportional 1 _ 100 (/ 10) x (fun y => -1 / y) N); try lra; [reflexivity|exact G].
  - pose proof ln_10. rewrite ln_1, ln_Rinv in B by lra. rewrite ln_100 in B. rewrite Rmax_right in B by lra.
    replace (2 * ln 10 + - ln 10 / 1) with (ln 10) in B by lra. exact B.
Qed.
(** An electron can be so close to its rest mass that the integral to the lower
    limit is found but not the energy of the interaction: an exception. *)
Theorem C58_near_limit_refuted : forall nan qags find a f, 0 < a -> log_polynomial qags f [- a] (fun t => - a * t) ->
  forall c, later nan qags find (new_direct f (5109989461 / 10 ^ 10)) c ->
  exists E rnd, 5109989461 / 10 ^ 10 < E /\ 0 < rnd < 1 /\ energy_interaction nan qags find c E rnd = Some (Throw logic_error).
Proof. exact near_sample_refuted. Qed.
Print Assumptions C58_near_limit_refuted.
Example C58_near_limit_example : log_polynomial minus_width proportional [- (1)] (fun t => - (1) * t) /\
  forall nan find, later nan minus_width find (new_direct proportional (5109989461 / 10 ^ 10)) (new_direct proportional (5109989461 / 10 ^ 10)).
Proof. split; [exact proportional_line|]. intros. constructor. Qed.
(** The limit of a displacement is the lowest one of its cross sections. *)
Theorem C58_lower_limit : forall cross v, new_displacement cross = Ok v ->
  (exists x, In x cross /\ x_lower x = v) /\ (forall x, In x cross -> v <= x_lower x).
Proof. exact displacement_lower. Qed.
Print Assumptions C58_lower_limit.
Theorem C58_no_cross_section : forall cross, new_displacement cross = Throw invalid_argument <-> cross = [].
Proof. exact displacement_empty. Qed.
Print Assumptions C58_no_cross_section.

(** ** C59: continuous randomization *)
Theorem C59_range : forall nan qags erf ppf c E_i E_f rnd min_energy var, quantile SQRT2 erf ppf ->
  gives (calculate nan qags c E_i E_f) var -> 0 <= rnd <= 1 -> Rmax (lower_of c) min_energy <= E_f <= E_i ->
  exists x, gives (energy_randomize nan qags erf ppf c E_i E_f rnd min_energy) x /\ Rmax (lower_of c) min_energy <= x <= E_i.
Proof. exact randomize_range. Qed.
Print Assumptions C59_range.
Theorem C59_no_variance : forall nan qags erf ppf c E_i E_f rnd min_energy var, gives (calculate nan qags c E_i E_f) var -> var <= 0 ->
  gives (energy_randomize nan qags erf ppf c E_i E_f rnd min_energy) E_f.
Proof. exact randomize_none. Qed.
Print Assumptions C59_no_variance.
Theorem C59_constructor : forall cross,
  new_cont_rand cross = Ok tt <-> exists x cut, In x cross /\ x_cut x = Some cut /\ cut_cont_rand cut = true.
Proof. exact cont_rand_needs. Qed.
Print Assumptions C59_constructor.
Example C59_example : forall nan qags, exists x,
  gives (energy_randomize nan qags squash quantile_example unit_calculator 100 10 (3 / 4) 5) x /\ Rmax 1 5 <= x <= 100.
Proof.
  intros nan qags. apply (randomize_range nan qags squash quantile_example unit_calculator 100 10 (3 / 4) 5 90).
  - exact quantile_exists.
  - apply C42_table_example.
  - lra.
  - cbn. rewrite Rmax_right; lra.
Qed.
