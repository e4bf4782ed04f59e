(** Properties C24-C28: polynomials, splines, root searches, sample statistics. *)
From Verif Require Import Prelude Geometry_Model Function_Model Function_Spec Function_Proofs Polynom_Proofs
  Spline_Model Spline_Spec Spline_Proofs Math_Model Math_Spec Math_Proofs Math_Examples.
From Coq Require Import Sorted.

(** ** C24: polynomial algebra *)
Theorem C24_evaluate : forall c x, c <> [] -> poly_evaluate c x = Ok (polynomial c x).
Proof. exact c24_evaluate. Qed.
Print Assumptions C24_evaluate.

Theorem C24_derivative : forall c x,
  derivable_pt_lim (polynomial c) x (polynomial (poly_derivative c) x).
Proof. exact c24_derivative. Qed.
Print Assumptions C24_derivative.

Theorem C24_antiderivative : forall c k x,
  derivable_pt_lim (polynomial (poly_antiderivative c k)) x (polynomial c x) /\
  polynomial (poly_antiderivative c k) 0 = k.
Proof. exact c24_antiderivative. Qed.
Print Assumptions C24_antiderivative.

(** Missing from the full property: shifts whose absolute value is positive but at
    most GEOMETRY_PRECISION, which the code ignores. *)
Theorem C24_shift_partial : forall c x, c <> [] -> GEOMETRY_PRECISION < Rabs x ->
  exists c', poly_shift c x = Ok c' /\ length c' = length c /\
    forall y, polynomial c' y = polynomial c (y + x).
Proof. exact c24_shift. Qed.
Print Assumptions C24_shift_partial.

Theorem C24_small_shift_refuted : exists c x c' y, c <> [] /\ poly_shift c x = Ok c' /\
  polynomial c' y <> polynomial c (y + x).
Proof. exact c24_shift_refuted. Qed.
Print Assumptions C24_small_shift_refuted.

Example C24_example : [1; -2; 3] <> [] /\ GEOMETRY_PRECISION < Rabs 2 /\ polynomial [1; -2; 3] 2 = 9.
Proof.
  split; [discriminate|]. split; [rewrite Rabs_right; unfold GEOMETRY_PRECISION; lra|]. cbn. ring.
Qed.

(** ** C25: copies of polynomials are independent values *)
(** Refuted: a copy shares its coefficients with the original. *)
Theorem C25_copy_refuted : exists ops h objs, meaningful 0 ops /\ polynom_run ([], []) ops = Ok (h, objs) /\
  forall vs, value_run [] ops vs -> map (get_coefficient h) objs <> map Ok vs.
Proof. exact c25_refuted. Qed.
Print Assumptions C25_copy_refuted.

(** Programs without copies behave as if every object was a value. *)
Theorem C25_no_copies_partial : forall ops, no_copies ops -> meaningful 0 ops ->
  exists h objs vs, polynom_run ([], []) ops = Ok (h, objs) /\ value_run [] ops vs /\
    map (get_coefficient h) objs = map Ok vs.
Proof. exact c25_no_copies. Qed.
Print Assumptions C25_no_copies_partial.

(** With copies, a shift changes exactly the objects which stem from the same
    construction. *)
Theorem C25_shift_reaches_all_copies_partial : forall ops i x, meaningful 0 (ops ++ [Shift i x]) ->
  exists h objs h', polynom_run ([], []) ops = Ok (h, objs) /\
    polynom_run ([], []) (ops ++ [Shift i x]) = Ok (h', objs) /\
    length objs = length (origins [] 0 ops) /\
    forall j p, nth_error objs j = Some p ->
      exists c, get_coefficient h p = Ok c /\
        (nth_error (origins [] 0 ops) j <> nth_error (origins [] 0 ops) i -> get_coefficient h' p = Ok c) /\
        (nth_error (origins [] 0 ops) j = nth_error (origins [] 0 ops) i ->
           exists c', get_coefficient h' p = Ok c' /\ length c' = length c /\
             forall y, polynomial c' y = polynomial c (y + x)).
Proof. exact c25_origins. Qed.
Print Assumptions C25_shift_reaches_all_copies_partial.

Example C25_example :
  (no_copies [Construct [1; 2]; Construct [3]; Shift 0 5] /\ meaningful 0 [Construct [1; 2]; Construct [3]; Shift 0 5]) /\
  (meaningful 0 ([Construct [1; 2]; Copy 0; Construct [3]] ++ [Shift 0 5]) /\
   origins [] 0 [Construct [1; 2]; Copy 0; Construct [3]] = [0; 0; 1]%nat).
Proof.
  assert (GEOMETRY_PRECISION < Rabs 5) by (rewrite Rabs_right; unfold GEOMETRY_PRECISION; lra).
  split; split; auto.
  - intros i [|[|[|[]]]]; discriminate.
  - cbn. repeat split; auto; discriminate.
  - cbn. repeat split; auto; try discriminate; lia.
Qed.

(** ** C26: splines *)
Theorem C26_linear : forall nan xs ys, nodes xs ys ->
  exists s, linear_spline nan xs ys = Ok s /\
    (forall i, (i < length xs)%nat -> spline_evaluate s (node xs i) = Ok (node ys i)) /\
    (forall i t, (i + 1 < length xs)%nat -> node xs i <= t <= node xs (i + 1) ->
       spline_evaluate s t =
       Ok (node ys i + (node ys (i + 1) - node ys i) * ((t - node xs i) / (node xs (i + 1) - node xs i)))).
Proof. exact c26_linear. Qed.
Print Assumptions C26_linear.

(** Missing: nodes x_i with 0 < |x_i| <= GEOMETRY_PRECISION, see below. *)
Theorem C26_cubic_partial : forall nan xs ys, nodes xs ys ->
  (forall i, (i + 1 < length xs)%nat -> node xs i = 0 \/ GEOMETRY_PRECISION < Rabs (node xs i)) ->
  exists s, cubic_spline nan xs ys = Ok s /\ natural_cubic xs ys (sp_polys s) /\
    (forall i, (i < length xs)%nat -> spline_evaluate s (node xs i) = Ok (node ys i)) /\
    (forall i p t, nth_error (sp_polys s) i = Some p -> node xs i < t <= node xs (i + 1) ->
       spline_evaluate s t = Ok (polynomial p t)).
Proof. exact c26_cubic_interpolates. Qed.
Print Assumptions C26_cubic_partial.

Theorem C26_tiny_node_refuted : forall nan,
  exists xs ys s, nodes xs ys /\ cubic_spline nan xs ys = Ok s /\
    spline_evaluate s (node xs 0) <> Ok (node ys 0).
Proof. exact c26_tiny_refuted. Qed.
Print Assumptions C26_tiny_node_refuted.

(** The antiderivative of a linear or cubic spline is a differentiable function
    on the whole line with the requested start value and the spline as its
    derivative. *)
Theorem C26_antiderivative : forall nan nan' xs ys s c, nodes xs ys ->
  linear_spline nan xs ys = Ok s \/
  (cubic_spline nan' xs ys = Ok s /\
   forall i, (i + 1 < length xs)%nat -> node xs i = 0 \/ GEOMETRY_PRECISION < Rabs (node xs i)) ->
  exists s' F, spline_antiderivative s c = Ok s' /\ F (node xs 0) = c /\
    (forall x, spline_evaluate s' x = Ok (F x)) /\
    (forall x, exists y, spline_evaluate s x = Ok y /\ derivable_pt_lim F x y).
Proof. exact c26_antiderivative_full. Qed.
Print Assumptions C26_antiderivative.

(** Derivative() leaves the spline as it is. *)
Theorem C26_derivative_refuted : forall nan,
  exists xs ys s, nodes xs ys /\ linear_spline nan xs ys = Ok s /\
    exists i p, nth_error (sp_polys s) i = Some p /\
      spline_derivative s = s /\ ~ derivable_pt_lim (polynomial p) 0 (polynomial p 0).
Proof. exact c26_derivative_refuted. Qed.
Print Assumptions C26_derivative_refuted.

(** A spline made from polynomials and intervals. *)
Theorem C26_constructor_refuted :
  exists polys sub, length polys = (length sub - 1)%nat /\ StronglySorted Rlt sub /\
    (exists x, spline_evaluate (spline_from polys sub) x = UB out_of_bounds) /\
    (forall c, spline_antiderivative (spline_from polys sub) c = UB out_of_bounds).
Proof. exact c26_from_refuted. Qed.
Print Assumptions C26_constructor_refuted.

Example C26_example : nodes [0; 1; 3; 4] [2; -1; 5; 0] /\
  (forall i, (i + 1 < 4)%nat -> node [0; 1; 3; 4] i = 0 \/ GEOMETRY_PRECISION < Rabs (node [0; 1; 3; 4] i)).
Proof. split; [exact nodes_example|exact resolved_example]. Qed.

(** ** C27: root searches *)
Theorem C27_newton_rejects : forall f df nan x1 x2 xacc xinit n,
  f x1 * f x2 > 0 -> newton_raphson f df nan x1 x2 xinit n xacc = Throw math_exception.
Proof. exact c27_newton_rejects. Qed.
Print Assumptions C27_newton_rejects.

(** [nan] stands for an arithmetic result which is not a real number. *)
Theorem C27_newton_stays_in_bracket : forall f df nan x1 x2 xacc xinit n r,
  (forall v, nan <> Ok v) -> between x1 x2 xinit ->
  newton_raphson f df nan x1 x2 xinit n xacc = Ok r -> f x1 * f x2 <= 0 /\ between x1 x2 r.
Proof. exact c27_newton_bracket. Qed.
Print Assumptions C27_newton_stays_in_bracket.

Theorem C27_newton_answers_partial : forall f df nan x1 x2 xacc xinit n,
  between x1 x2 xinit -> f x1 * f x2 <= 0 ->
  (forall t, between x1 x2 t -> f t = 0 -> df t <> 0) ->
  exists r, newton_raphson f df nan x1 x2 xinit n xacc = Ok r.
Proof. exact c27_newton_defined. Qed.
Print Assumptions C27_newton_answers_partial.

(** If the number of steps did not matter, the answer is accurate. *)
Theorem C27_newton_converged : forall f df nan x1 x2 xacc xinit n r,
  (forall v, nan <> Ok v) -> continuity f -> 0 < xacc -> between x1 x2 xinit -> (2 <= n)%nat ->
  newton_raphson f df nan x1 x2 xinit n xacc = Ok r ->
  newton_raphson f df nan x1 x2 xinit (n + 1) xacc = Ok r ->
  converged f df x1 x2 xacc r.
Proof. exact c27_newton_converged. Qed.
Print Assumptions C27_newton_converged.

(** A root with a vanishing derivative which is met exactly gives NaN. *)
Theorem C27_newton_flat_root_refuted : exists f df x1 x2 xinit,
  continuity f /\ (forall t, derivable_pt_lim f t (df t)) /\ f x1 * f x2 < 0 /\ between x1 x2 xinit /\ f xinit = 0 /\
  forall nan n xacc, (2 <= n)%nat -> newton_raphson f df nan x1 x2 xinit n xacc = (olet r := nan in Ok r).
Proof. exact c27_nan_refuted. Qed.
Print Assumptions C27_newton_flat_root_refuted.

Theorem C27_bisection : forall f x1 x2 xacc passes, continuity f -> f x1 * f x2 <= 0 ->
  exists a b z k, bisection f x1 x2 xacc passes = Ok (a, b) /\
    between x1 x2 a /\ between x1 x2 b /\ a <= z <= b /\ f z = 0 /\ f a * f b <= 0 /\
    b - a = Rabs (x2 - x1) / 2 ^ k /\ (k <= passes)%nat /\ (k = passes \/ b - a < xacc) /\
    (forall j, (1 <= j < k)%nat -> xacc <= Rabs (x2 - x1) / 2 ^ j).
Proof. exact c27_bisection. Qed.
Print Assumptions C27_bisection.

Theorem C27_bisection_rejects : forall f x1 x2 xacc passes, f x1 * f x2 > 0 ->
  bisection f x1 x2 xacc passes = Throw math_exception.
Proof. exact c27_bisection_rejects. Qed.
Print Assumptions C27_bisection_rejects.

Example C27_example : forall nan,
  continuity (fun x => x - 1 / 2) /\ between 0 2 1 /\ (0 - 1 / 2) * (2 - 1 / 2) <= 0 /\
  newton_raphson (fun x => x - 1 / 2) (fun _ => 1) nan 0 2 1 3 (/ 1000000) = Ok (1 / 2) /\
  newton_raphson (fun x => x - 1 / 2) (fun _ => 1) nan 0 2 1 (3 + 1) (/ 1000000) = Ok (1 / 2).
Proof.
  intros nan. split; [apply line_continuous|]. split; [exact between_example|]. split; [lra|].
  split; apply newton_example; lia.
Qed.

(** ** C28: streaming mean and variance *)
Theorem C28_welford : forall l, l <> [] -> welford_all l = (mean l, variance l).
Proof. exact c28_welford. Qed.
Print Assumptions C28_welford.

Example C28_example : [1; 2; 6] <> [] /\ mean [1; 2; 6] = 3 /\ variance [1; 2; 6] = 14 / 3.
Proof. split; [discriminate|]. unfold variance, mean, total. cbn. split; field. Qed.
