(** Property C92: the quadrature rule used when Romberg's method fails. *)
From Coq Require Import List.
From Coquelicot Require Import Coquelicot.
From Verif Require Import Prelude Kronrod_Model Kronrod_Spec Kronrod_Proofs Kronrod_Examples.
Local Open Scope R_scope.

(** Polynomials up to the degree 31 are integrated up to 10^-15 of their coefficients. *)
Theorem C92_polynomials : forall f a b cs I, polynomial_between a b f cs -> (length cs <= 32)%nat -> is_RInt f a b I ->
  Rabs (k_value (gauss_kronrod f a b) - I) <= Rabs (b - a) / 10 ^ 15 * magnitudes cs.
Proof. exact polynomials. Qed.
Print Assumptions C92_polynomials.
Example C92_example : polynomial_between 0 1 square square_coefficients /\ (length square_coefficients <= 20)%nat /\ is_RInt square 0 1 (1 / 3) /\
  Rabs (1 - 0) * magnitudes square_coefficients / 10 ^ 5 <= Rabs (1 / 3) /\ Rabs (k_value (gauss_kronrod square 0 1) - 1 / 3) <= 1 / 10 ^ 15.
Proof. exact (conj square_between (conj square_short (conj square_integral (conj square_large square_value)))). Qed.

(** For any function the value is as good as the best approximation by such a polynomial. *)
Theorem C92_approximated : forall f a b cs d I, a <= b -> (length cs <= 32)%nat ->
  (forall u, -1 <= u <= 1 -> Rabs (f ((a + b) / 2 + (b - a) / 2 * u) - polynomial cs u) <= d) -> is_RInt f a b I ->
  Rabs (k_value (gauss_kronrod f a b) - I) <= (b - a) * (magnitudes cs / 10 ^ 15 + 3 * d).
Proof. exact approximated. Qed.
Print Assumptions C92_approximated.
Example C92_approximated_example : (forall u, -1 <= u <= 1 -> Rabs (exp ((-1 + 1) / 2 + (1 - -1) / 2 * u) - polynomial (1 :: nil) u) <= 2) /\
  is_RInt exp (-1) 1 (exp 1 - exp (-1)).
Proof. exact (conj exp_close exp_integral). Qed.

(** The other results are the values of the rule for the magnitude and for the deviation from the mean. *)
Theorem C92_magnitude : forall f a b, a <= b -> k_abs (gauss_kronrod f a b) = k_value (gauss_kronrod (fun x => Rabs (f x)) a b).
Proof. exact magnitude. Qed.
Print Assumptions C92_magnitude.
Theorem C92_roughness : forall f a b, a < b ->
  k_asc (gauss_kronrod f a b) = k_value (gauss_kronrod (fun x => Rabs (f x - k_value (gauss_kronrod f a b) / (b - a))) a b).
Proof. exact roughness. Qed.
Print Assumptions C92_roughness.

(** The reported error is never below what rounding allows, unless the function is tiny. *)
Theorem C92_roundoff : forall f a b, let k := gauss_kronrod f a b in UFLOW / (50 * EPMACH) < k_abs k -> 50 * EPMACH * k_abs k <= k_error k.
Proof. exact roundoff. Qed.
Print Assumptions C92_roundoff.
Example C92_roundoff_example : UFLOW / (50 * EPMACH) < k_abs (gauss_kronrod square 0 1).
Proof. exact square_not_tiny. Qed.

(** Up to the degree 19 the reported error is as small. *)
Theorem C92_error : forall f a b cs, polynomial_between a b f cs -> (length cs <= 20)%nat ->
  0 <= k_error (gauss_kronrod f a b) <= Rabs (b - a) / 10 ^ 12 * magnitudes cs.
Proof. exact error. Qed.
Print Assumptions C92_error.

(** The value lies between the bounds of any function, up to 10^-15 of these. *)
Theorem C92_between : forall f a b lo hi, a <= b -> (forall x, a <= x <= b -> lo <= f x <= hi) ->
  (lo - Rabs lo / 10 ^ 15) * (b - a) <= k_value (gauss_kronrod f a b) <= (hi + Rabs hi / 10 ^ 15) * (b - a).
Proof. exact between. Qed.
Print Assumptions C92_between.
Example C92_between_example : 0 <= 1 /\ forall x, 0 <= x <= 1 -> 0 <= square x <= 1.
Proof. exact (conj Rle_0_1 square_range). Qed.

(** Swapping the limits turns the sign of the value, and nothing else. *)
Theorem C92_swapped : forall f a b, let k := gauss_kronrod f a b in
  gauss_kronrod f b a = mkkronrod (- k_value k) (k_error k) (k_abs k) (k_asc k).
Proof. exact swapped. Qed.
Print Assumptions C92_swapped.

(** What is accepted without bisection and without a complaint has a reported error within the requested one. *)
Theorem C92_accepted : forall limit epsabs epsrel f a b o, qags_start limit epsabs epsrel f a b = Some o -> q_ier o = 0%Z ->
  q_abserr o <= Rmax epsabs (epsrel * Rabs (q_value o)) \/ q_abserr o = 0.
Proof. exact accepted. Qed.
Print Assumptions C92_accepted.
Example C92_accepted_example : exists f o, qags_start 50 (/ 10 ^ 50) (/ 10 ^ 6) f (-1) 1 = Some o /\ q_ier o = 0%Z.
Proof. exact some_accepted. Qed.

(** If only one interval is allowed there is a complaint, and if no accuracy can be met there is no evaluation. *)
Theorem C92_single : forall epsabs epsrel f a b, 0 <= epsabs \/ 0 <= epsrel ->
  let k := gauss_kronrod f a b in qags_start 1 epsabs epsrel f a b = Some (mkquadpack (k_value k) (k_error k) 21 1).
Proof. exact single. Qed.
Print Assumptions C92_single.
Theorem C92_impossible : forall limit epsabs epsrel f a b, epsabs < 0 -> epsrel < 0 ->
  qags_start limit epsabs epsrel f a b = Some (mkquadpack 0 0 0 6).
Proof. exact impossible. Qed.
Print Assumptions C92_impossible.

(** Polynomials up to the degree 19 that do not cancel need no bisection: 21 evaluations are enough, unless the
    function looks as rough as it can. *)
Theorem C92_at_once : forall f a b cs I, polynomial_between a b f cs -> (length cs <= 20)%nat -> is_RInt f a b I ->
  Rabs (b - a) * magnitudes cs / 10 ^ 5 <= Rabs I ->
  let k := gauss_kronrod f a b in qags_first f a b = Some (mkquadpack (k_value k) (k_error k) 21 0) \/ k_error k = k_asc k.
Proof. exact at_once. Qed.
Print Assumptions C92_at_once.

(** The reported error is no bound: a positive integral is reported to vanish, with the error 0 and no complaint. *)
Theorem C92_error_refuted : exists f I, (forall x, continuous f x) /\ is_RInt f (-1) 1 I /\ 0 < I /\
  qags_first f (-1) 1 = Some (mkquadpack 0 0 21 0).
Proof. exact blind. Qed.
Print Assumptions C92_error_refuted.
