(** Properties of the numerical integration (C39-C41, C56, C57).

    [nan] is the outcome of arithmetic that leaves the real numbers, [qags] the
    adaptive routine that is called when Romberg's method does not converge.
    [None] would be a loop that does not end. *)
From Verif Require Import Prelude PreludeFacts Function_Model Integral_Model Function_Spec Integral_Spec Function_Proofs
  Trapezoid_Proofs Neville_Proofs Expansion_Proofs Romberg_Proofs Integral_Proofs Values_Proofs Safety_Proofs Upper_Proofs Place_Proofs Overrun_Proofs
  Integral_Examples.

(** ** C39: exchanged and equal limits *)
Theorem C39_antisymmetric : forall nan qags g a b f method p,
  opposite (integrate nan qags g a b f method p) (integrate nan qags g b a f method p).
Proof. exact c39_antisymmetric. Qed.
Print Assumptions C39_antisymmetric.
Theorem C39_empty_range_partial : forall nan qags g a f method p,
  (method = 3%Z -> (0 < p -> 0 <= a) /\ (p < 0 -> a <= 0)) ->
  (method = 5%Z -> (0 < p -> a <= 0 \/ 1 < a) /\ (p < 0 -> a < 1)) ->
  exists g', integrate nan qags g a a f method p = Some (Ok (0, g')).
Proof. exact c39_equal. Qed.
Print Assumptions C39_empty_range_partial.
(** The substitution of the third method does not suit negative limits: the
    limits and the integrand of the object are kept.  A new object has none, and
    std::bad_function_call is thrown. *)
Theorem C39_empty_range_refuted : forall nan qags r s q f a p, a < 0 -> 0 < p ->
  integrate nan qags (new_integral r s q) a a f 3 p = Some (Throw bad_function_call).
Proof. exact c39_equal_refuted. Qed.
Print Assumptions C39_empty_range_refuted.
Example C39_example : forall nan, exists v g', 0 < v /\
  integrate nan exactly_one default_integral 0 1 (fun x => Ok (polynomial ninth x)) 2 0 = Some (Ok (v, g')).
Proof.
  intro nan. destruct (exact_opened nan exactly_one default_integral 0 1 ninth 0 (fun x => x ^ 10 / 10)) as [(g' & H)|(h & g' & _ & H)].
  - apply default_roomy.
  - left. reflexivity.
  - lra.
  - apply zero_one.
  - cbn. lia.
  - apply ninth_integral.
  - exists (1 ^ 10 / 10 - 0 ^ 10 / 10), g'. split; [lra|exact H].
  - exists (1 - 0), g'. split; [lra|exact H].
Qed.

(** ** C40: refinement of the sums *)
(** A step of the open rule triples the number of cells, a step of the closed
    rule doubles it. *)
Theorem C40_open_refinement : forall nan g F k,
  (forall x, e_min g < x < e_max g -> evaluate nan g x = Ok (F x)) -> e_min g < e_max g -> (1 <= k)%nat ->
  trapezoid3 nan g (Z.of_nat (3 * k)) (midpoint_sum F (e_min g) (e_max g) k) =
  Some (Ok (midpoint_sum F (e_min g) (e_max g) (3 * k))).
Proof. exact trapezoid3_triple. Qed.
Print Assumptions C40_open_refinement.
Theorem C40_closed_refinement : forall nan g F k,
  (forall x, e_min g < x < e_max g -> evaluate nan g x = Ok (F x)) -> e_min g < e_max g -> (1 <= k)%nat ->
  trapezoid nan g (Z.of_nat (2 * k)) (trapezoid_sum F (e_min g) (e_max g) k) =
  Some (Ok (trapezoid_sum F (e_min g) (e_max g) (2 * k))).
Proof. exact trapezoid_double. Qed.
Print Assumptions C40_closed_refinement.
Theorem C40_first : forall nan g F old,
  (forall x, e_min g < x < e_max g -> evaluate nan g x = Ok (F x)) -> e_min g < e_max g ->
  trapezoid3 nan g 1 old = Some (Ok (midpoint_sum F (e_min g) (e_max g) 1)).
Proof. exact trapezoid3_first. Qed.
Print Assumptions C40_first.
(** The variant that searches for a place on the way gives the same sum. *)
Theorem C40_sampling_refinement : forall nan g n old i v g',
  trapezoid3s nan g n old i = Some (Ok (v, g')) -> trapezoid3 nan g n old = Some (Ok v).
Proof. exact trapezoid3s_sum. Qed.
Print Assumptions C40_sampling_refinement.
Example C40_example : forall nan, (forall t, evaluate nan started t = Ok 1) /\ e_min started < e_max started.
Proof. intro nan. split; [apply reciprocal_evaluates; reflexivity|]. cbn. pose proof ln_two. lra. Qed.

(** ** C41: the buffers *)
(** Twelve or more steps: no call sequence is undefined, and every call ends. *)
Theorem C41_no_overrun_partial : forall nan qags romberg steps precision cs, (12 <= steps)%nat -> (forall A, defined (nan A)) ->
  (forall h a b, (forall x, defined (h x)) -> defined (qags h a b)) -> (forall c, In c cs -> call_defined c) ->
  exists o, session nan qags cs (new_integral romberg steps precision) = Some o /\ defined o.
Proof. exact session_defined. Qed.
Print Assumptions C41_no_overrun_partial.
Example C41_example : forall nan, (forall A, defined (nan A)) ->
  (forall c, In c [IntegrateWithRandomRatio (1 / 2) 2 reciprocal 4 (1 / 4) 0; GetUpperLimit; Integrate 2 1 reciprocal 1 0] -> call_defined c) /\
  exists vs, exists g, session nan exactly_one [IntegrateWithRandomRatio (1 / 2) 2 reciprocal 4 (1 / 4) 0; GetUpperLimit] single = Some (Ok (vs, g)).
Proof.
  intros nan N. split.
  - intros c [<-|[<-|[<-|[]]]]; cbn; try exact I; intros x u; discriminate.
  - cbn [session]. rewrite quarter_integral. cbn [fbind]. destruct (quarter_place nan) as (g2 & ->). eexists. eexists. reflexivity.
Qed.
(** Fewer steps than points of the extrapolation: every integration writes
    beyond the buffers. *)
Theorem C41_few_steps_refuted : forall nan qags romberg steps precision a b f p, (1 <= steps < romberg)%nat -> (steps < 12)%nat ->
  (forall x, exists y, f x = Ok y) -> negligible (Rmin a b) (Rmax a b) = false -> a <> b ->
  integrate nan qags (new_integral romberg steps precision) a b f 2 p = Some (UB out_of_bounds).
Proof. exact short_overruns. Qed.
Print Assumptions C41_few_steps_refuted.
(** SetRomberg does not enlarge the work arrays. *)
Theorem C41_set_romberg_refuted : forall nan qags m a b f p, (5 < m <= 12)%nat ->
  (forall x, exists y, f x = Ok y) -> negligible (Rmin a b) (Rmax a b) = false -> a <> b ->
  integrate nan qags (with_romberg default_integral m) a b f 2 p = Some (UB out_of_bounds).
Proof. exact wide_overruns. Qed.
Print Assumptions C41_set_romberg_refuted.
Example C41_refuted_example : (1 <= 4 < 5)%nat /\ (5 < 6 <= 12)%nat /\ negligible (Rmin 0 1) (Rmax 0 1) = false.
Proof. rewrite Rmin_left, Rmax_right by lra. repeat split; try lia. apply zero_one. Qed.

(** ** C56: the values of the integrals *)
(** The closed rule, the open rule, the open rule in the logarithm and in the
    variable of a substitution: the value is the extrapolation of consecutive
    sums to vanishing cell width, and differs from the one with a point fewer by
    less than the precision. *)
Theorem C56_closed : forall nan qags g a b f p F, roomy g -> a < b -> negligible a b = false ->
  (forall x, a <= x <= b -> f x = Ok (F x)) ->
  computed qags F a b 2 (trapezoid_sum F a b) (e_steps g) (e_romberg g) (e_precision g) (integrate nan qags g a b f 1 p).
Proof. exact value_closed. Qed.
Print Assumptions C56_closed.
Theorem C56_open : forall nan qags g a b f p F, roomy g -> e_random g = 0 \/ e_random g = 1 -> a < b -> negligible a b = false ->
  (forall x, a < x < b -> f x = Ok (F x)) ->
  computed qags F a b 3 (midpoint_sum F a b) (e_steps g) (e_romberg g) (e_precision g) (integrate nan qags g a b f 2 p).
Proof. exact value_opened. Qed.
Print Assumptions C56_open.
(** Whatever random number an earlier call has left *)
Theorem C56_open_after_sampling : forall nan qags g a b f p F v g', roomy g -> a < b -> negligible a b = false ->
  (forall x, a < x < b -> f x = Ok (F x)) -> integrate nan qags g a b f 2 p = Some (Ok (v, g')) ->
  exists g1 : engine, computed qags F a b 3 (midpoint_sum F a b) (e_steps g) (e_romberg g) (e_precision g) (Some (Ok (v, g1))).
Proof. exact value_opened_stale. Qed.
Print Assumptions C56_open_after_sampling.
Theorem C56_logarithm : forall nan qags g a b f p F, roomy g -> 0 < a < b -> negligible (ln a) (ln b) = false ->
  (forall x, a < x < b -> f x = Ok (F x)) ->
  computed qags (fun t => exp t * F (exp t)) (ln a) (ln b) 3 (midpoint_sum (fun t => exp t * F (exp t)) (ln a) (ln b))
    (e_steps g) (e_romberg g) (e_precision g) (integrate nan qags g a b f 4 p).
Proof. exact value_log. Qed.
Print Assumptions C56_logarithm.
Theorem C56_substitution : forall nan qags g a b f p F, roomy g -> 0 < p -> 0 < a < b ->
  negligible (Rpower b (- 1 / p)) (Rpower a (- 1 / p)) = false -> (forall x, a < x < b -> f x = Ok (F x)) ->
  computed qags (substituted F p) (Rpower b (- 1 / p)) (Rpower a (- 1 / p)) 3
    (midpoint_sum (substituted F p) (Rpower b (- 1 / p)) (Rpower a (- 1 / p)))
    (e_steps g) (e_romberg g) (e_precision g) (integrate nan qags g a b f 3 p).
Proof. exact value_substitution. Qed.
Print Assumptions C56_substitution.
(** Polynomials with at most twice as many coefficients as points are integrated
    without error, whatever the precision: up to the degree nine by default. *)
Theorem C56_polynomial_closed : forall nan qags g a b c p G, roomy g -> a < b -> negligible a b = false ->
  (length c <= 2 * e_romberg g)%nat -> (forall x, derivable_pt_lim G x (polynomial c x)) ->
  computed_exactly qags (polynomial c) a b (G b - G a) (integrate nan qags g a b (fun x => Ok (polynomial c x)) 1 p).
Proof. exact exact_closed. Qed.
Print Assumptions C56_polynomial_closed.
Theorem C56_polynomial_open : forall nan qags g a b c p G, roomy g -> e_random g = 0 \/ e_random g = 1 -> a < b -> negligible a b = false ->
  (length c <= 2 * e_romberg g)%nat -> (forall x, derivable_pt_lim G x (polynomial c x)) ->
  computed_exactly qags (polynomial c) a b (G b - G a) (integrate nan qags g a b (fun x => Ok (polynomial c x)) 2 p).
Proof. exact exact_opened. Qed.
Print Assumptions C56_polynomial_open.
Theorem C56_polynomial_logarithm : forall nan qags g a b c p G, roomy g -> 0 < a < b -> negligible (ln a) (ln b) = false ->
  (length c <= 2 * e_romberg g)%nat -> (forall t, derivable_pt_lim G t (polynomial c t)) ->
  computed_exactly qags (fun t => exp t * (polynomial c (ln (exp t)) / exp t)) (ln a) (ln b) (G (ln b) - G (ln a))
    (integrate nan qags g a b (fun x => Ok (polynomial c (ln x) / x)) 4 p).
Proof. exact exact_log. Qed.
Print Assumptions C56_polynomial_logarithm.
Example C56_example : roomy default_integral /\ e_random default_integral = 0 /\ negligible 0 1 = false /\
  (length ninth <= 2 * e_romberg default_integral)%nat /\ (forall x, derivable_pt_lim (fun x => x ^ 10 / 10) x (polynomial ninth x)) /\
  negligible (ln (1 / 2)) (ln 2) = false.
Proof.
  split; [apply default_roomy|]. split; [reflexivity|]. split; [apply zero_one|]. split; [cbn; lia|]. split; [apply ninth_integral|].
  rewrite ln_half. apply half_two_apart.
Qed.
(** The substitution with limits on both sides of zero never looks at the
    integrand between the limits: it integrates from the upper limit to infinity
    and turns the sign. *)
Theorem C56_substitution_refuted : forall nan qags g a b f,
  (forall h lo hi, lo < hi -> (forall t, lo < t < hi -> h t = Ok 1) -> qags h lo hi = Ok (hi - lo)) ->
  roomy g -> a <= 0 < b -> (forall x, b < x -> f x = Ok (/ x ^ 2)) ->
  exists g', integrate nan qags g a b f 3 1 = Some (Ok (- / b, g')).
Proof. exact value_beyond. Qed.
Print Assumptions C56_substitution_refuted.
Example C56_refuted_example : exists f, (forall x, 1 < x -> f x = Ok (/ x ^ 2)) /\ (forall x, -1 <= x <= 1 -> f x = Ok 0) /\
  (forall h lo hi, lo < hi -> (forall t : R, lo < t < hi -> h t = Ok 1) -> exactly_one h lo hi = Ok (hi - lo)).
Proof.
  exists (fun x => Ok (if 1 <? x then / x ^ 2 else 0)). split; [|split].
  - intros x H. rewrite ltb_yes by exact H. reflexivity.
  - intros x H. rewrite ltb_no by lra. reflexivity.
  - reflexivity.
Qed.

(** ** C57: the place of a given fraction *)
(** IntegrateWithRandomRatio and GetUpperLimit: the place lies between the
    limits.  A negative ratio is a value of the integral. *)
Theorem C57_logarithm_partial : forall nan qags, (forall A (v : A), nan A <> Ok v) ->
  forall g a b f ratio p v g1 x g2, (1 <= e_steps g)%nat -> 0 < a -> 0 < b ->
  negligible (ln (Rmin a b)) (ln (Rmax a b)) = false ->
  integrate_ratio nan qags g a b f 4 ratio p = Some (Ok (v, g1)) -> (0 <= ratio \/ - ratio < v) ->
  get_upper_limit nan qags g1 = Some (Ok (x, g2)) -> Rmin a b <= x <= Rmax a b.
Proof. exact upper_log. Qed.
Print Assumptions C57_logarithm_partial.
Theorem C57_substitution_partial : forall nan qags, (forall A (v : A), nan A <> Ok v) ->
  forall g a b f ratio p v g1 x g2, (1 <= e_steps g)%nat ->
  (0 < p -> 0 < a /\ 0 < b /\ negligible (Rpower (Rmax a b) (- 1 / p)) (Rpower (Rmin a b) (- 1 / p)) = false) ->
  (p < 0 -> a < 0 /\ b < 0 /\ negligible (- Rpower (- Rmax a b) (1 / p)) (- Rpower (- Rmin a b) (1 / p)) = false) ->
  (p = 0 -> (a <> 0 \/ b <> 0) /\ negligible (Rmin a b) (Rmax a b) = false) ->
  integrate_ratio nan qags g a b f 3 ratio p = Some (Ok (v, g1)) -> (0 <= ratio \/ - ratio < Rabs v) ->
  get_upper_limit nan qags g1 = Some (Ok (x, g2)) -> Rmin a b <= x <= Rmax a b.
Proof. exact upper_substitution. Qed.
Print Assumptions C57_substitution_partial.
(** For integrands that are not negative the value that is asked for may be any
    one, also one larger than the integral. *)
Theorem C57_not_negative_logarithm_partial : forall nan qags, (forall A (v : A), nan A <> Ok v) ->
  forall g a b f ratio p v g1 x g2, (2 <= e_romberg g <= e_steps g)%nat -> 0 < a -> 0 < b ->
  negligible (ln (Rmin a b)) (ln (Rmax a b)) = false ->
  (forall u y, Rmin a b <= u <= Rmax a b -> f u = Ok y -> 0 <= y) ->
  integrate_ratio nan qags g a b f 4 ratio p = Some (Ok (v, g1)) ->
  get_upper_limit nan qags g1 = Some (Ok (x, g2)) -> Rmin a b <= x <= Rmax a b.
Proof. exact upper_log_positive. Qed.
Print Assumptions C57_not_negative_logarithm_partial.
Theorem C57_not_negative_plain_partial : forall nan qags, (forall A (v : A), nan A <> Ok v) ->
  forall g a b f ratio v g1 x g2, (2 <= e_romberg g <= e_steps g)%nat -> a <> 0 \/ b <> 0 ->
  negligible (Rmin a b) (Rmax a b) = false -> (forall u y, Rmin a b <= u <= Rmax a b -> f u = Ok y -> 0 <= y) ->
  integrate_ratio nan qags g a b f 3 ratio 0 = Some (Ok (v, g1)) ->
  get_upper_limit nan qags g1 = Some (Ok (x, g2)) -> Rmin a b <= x <= Rmax a b.
Proof. exact upper_plain_positive. Qed.
Print Assumptions C57_not_negative_plain_partial.
(** A quarter of the integral of 1/x from 1/2 to 2 *)
Example C57_example : forall nan, exists g1 g2,
  integrate_ratio nan exactly_one single (1 / 2) 2 reciprocal 4 (1 / 4) 0 = Some (Ok (2 * ln 2, g1)) /\
  get_upper_limit nan exactly_one g1 = Some (Ok (exp (- ln 2 / 2), g2)).
Proof.
  intro nan. destruct (quarter_place nan) as (g2 & H). exists sampled1, g2. split; [apply quarter_integral|exact H].
Qed.
(** Limits that are told apart, but whose logarithms are not: the logarithm of
    the lower limit is returned. *)
Theorem C57_close_limits_refuted : forall nan, exists a b f v g1 g2, 0 < a < b /\ ln a < a /\
  integrate_ratio nan exactly_one default_integral a b f 4 1 0 = Some (Ok (v, g1)) /\
  get_upper_limit nan exactly_one g1 = Some (Ok (ln a, g2)).
Proof. exact close_refuted. Qed.
Print Assumptions C57_close_limits_refuted.
