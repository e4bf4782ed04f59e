(** C72: the tables of a cross section cover the energies at which it is not zero. *)
From Verif Require Import Prelude Cross_Model Axis_Model Axis_Spec Axis_Proofs Axis_Examples.

(** The continuous losses from tables are those without tables for all energies between
    the limits, except for a gap of a tenth of the distance between two nodes above the
    energy at which the process sets in, where they are zero.  [spline] is the library
    of the splines, which has to hold a positive function. *)
Theorem C72_losses : forall spline f a T, exact_spline spline -> sane a -> sets_in f T -> T < a_up a ->
  exists calc, make_dedx spline f a = Ok (Some calc) /\
    forall E, a_low a <= E <= a_up a -> calc E = f E \/ (T < E < T * ratio a (1 / 10) /\ calc E = 0).
Proof. exact c72_losses. Qed.
Print Assumptions C72_losses.
Example C72_losses_meets : exact_spline perfect /\ sane muon_axis /\ sets_in (above 200) 200 /\ 200 < a_up muon_axis.
Proof. split; [exact perfect_exact|]. split; [exact muon_axis_sane|]. split; [exact (above_sets_in 200)|]. cbn; lra. Qed.

(** A table is left out only when there are no losses up to the highest energy *)
Theorem C72_no_losses : forall spline f a T, sane a -> sets_in f T -> a_up a <= T ->
  make_dedx spline f a = Ok None /\ forall E, E <= a_up a -> f E = 0.
Proof. exact c72_no_losses. Qed.
Print Assumptions C72_no_losses.
Example C72_no_losses_meets : sane muon_axis /\ sets_in (above (10 ^ 15)) (10 ^ 15) /\ a_up muon_axis <= 10 ^ 15.
Proof. split; [exact muon_axis_sane|]. split; [exact (above_sets_in (10 ^ 15))|]. cbn; lra. Qed.

(** The same for the rates; but a process without a rate is refused with an exception *)
Theorem C72_rates : forall spline f a T, exact_spline spline -> sane a -> sets_in f T -> T < a_up a ->
  exists low table, rate_table spline f a = Ok (low, table) /\
    (forall E, a_low a <= E < low -> f E = 0 \/ T < E < T * ratio a (1 / 10)) /\
    (forall E, low <= E <= a_up a -> table E = f E /\ 0 < f E).
Proof. exact c72_rates. Qed.
Print Assumptions C72_rates.
Theorem C72_no_rates : forall spline f a T, sane a -> sets_in f T -> a_up a <= T -> rate_table spline f a = Throw logic_error.
Proof. exact c72_no_rates. Qed.
Print Assumptions C72_no_rates.

(** The mean free path from a table of rates is the one without a table *)
Theorem C72_mean_free_path : forall cross spline f a T, exact_spline spline -> sane a -> sets_in f T -> T < a_up a ->
  (forall E, a_low a <= E <= a_up a -> total_rate cross E = Ok (f E)) ->
  exists table, rate_table spline f a = Ok table /\
    forall E, a_low a <= E <= a_up a -> ~ T < E < T * ratio a (1 / 10) ->
      mean_free_path cross (Some table) E = mean_free_path cross None E.
Proof. exact c72_mean_free_path. Qed.
Print Assumptions C72_mean_free_path.
Example C72_mean_free_path_meets : forall E, total_rate [above_cross] E = Ok (above 200 E).
Proof. exact above_rate. Qed.

(** For the variance of the losses it holds for processes that set in above the lowest
    energy ... *)
Theorem C72_variance_partial : forall spline f a T, exact_spline spline -> sane a -> sets_in f T -> a_low a <= T < a_up a ->
  exists calc, make_de2dx spline f a = Ok calc /\
    forall E, a_low a <= E <= a_up a -> calc E = f E \/ (T < E < T * ratio a (1 / 2) /\ calc E = 0).
Proof. exact c72_variance. Qed.
Print Assumptions C72_variance_partial.
Example C72_variance_meets : exact_spline perfect /\ sane muon_axis /\ sets_in (above 200) 200 /\ a_low muon_axis <= 200 < a_up muon_axis.
Proof. split; [exact perfect_exact|]. split; [exact muon_axis_sane|]. split; [exact (above_sets_in 200)|]. cbn; lra. Qed.
Theorem C72_no_variance : forall spline f a T, sane a -> sets_in f T -> a_up a <= T -> make_de2dx spline f a = Throw logic_error.
Proof. exact c72_no_variance. Qed.
Print Assumptions C72_no_variance.

(** ... and is false of those that are there at the lowest energy already, like Compton
    scattering: zero minus one is the largest unsigned number.  The function that is not
    zero at the energy of that node either cannot be tabulated, ... *)
Theorem C72_variance_throws_refuted : forall spline f a, sane a -> 0 < f (a_low a) -> 0 < f (far a) ->
  make_de2dx spline f a = Throw math_exception.
Proof. exact c72_variance_throws. Qed.
Print Assumptions C72_variance_throws_refuted.
Example C72_variance_throws_meets : sane muon_axis /\ 0 < (fun E => E * E) (a_low muon_axis) /\ 0 < (fun E => E * E) (far muon_axis).
Proof. exact square_positive. Qed.
(** ... and one that is zero (or no number) there gives a table that begins above all
    the energies at which there is something: all the variance is lost. *)
Theorem C72_variance_refuted : forall spline f a T, sane a -> (forall E, a_low a <= E <= T -> 0 < f E) -> (forall E, T < E -> f E = 0) ->
  a_low a <= T < far a ->
  exists calc, make_de2dx spline f a = Ok calc /\ forall E, a_low a <= E <= T -> calc E = 0 /\ 0 < f E.
Proof. exact c72_variance_lost. Qed.
Print Assumptions C72_variance_refuted.
Example C72_variance_refuted_meets : let f := square_until (10 ^ 14) in
  sane muon_axis /\ (forall E, a_low muon_axis <= E <= 10 ^ 14 -> 0 < f E) /\ (forall E, 10 ^ 14 < E -> f E = 0) /\
  a_low muon_axis <= 10 ^ 14 < far muon_axis.
Proof. exact square_case. Qed.

(** On every axis there is a process that sets in below the highest energy and whose
    table would begin above it *)
Theorem C72_order_refuted : forall a, sane a -> exists f T, a_low a < T < a_up a /\ sets_in f T /\
  exists b, refine_dedx f a = Ok (Some b) /\ refine_dndx f a = Ok b /\ a_up b < a_low b.
Proof. exact c72_order_refuted. Qed.
Print Assumptions C72_order_refuted.
(** which does not happen when the process sets in before the last node but one *)
Theorem C72_order : forall f a T, sane a -> sets_in f T -> T * ratio a 1 <= a_up a ->
  exists b, refine_dedx f a = Ok (Some b) /\ refine_dndx f a = Ok b /\
    a_up b = a_up a /\ a_nodes b = a_nodes a /\ a_low a <= a_low b <= a_up b.
Proof. exact c72_order. Qed.
Print Assumptions C72_order.
