(** Property C92: the bisections that follow the first evaluation of the rule. *)
From Coq Require Import List.
From Coquelicot Require Import Coquelicot.
From Verif Require Import Prelude Kronrod_Model Kronrod_Spec Bisect_Model Bisect_Spec Bisect_Proofs Bisect_Examples.
Local Open Scope R_scope.

(** Whatever is bisected and extrapolated, a result without a complaint is the sum of the rule over a subdivision of the
    interval into at most [limit] parts, and the sum of the reported errors is within the requested accuracy. *)
Theorem C92_bisected : forall limit epsabs epsrel c f a b o, (1 <= limit)%nat -> qags limit epsabs epsrel c f a b = Ok o -> q_ier o = 0%Z ->
  exists l, subdivision a b l /\ q_value o = total (fun x y => k_value (gauss_kronrod f x y)) l /\
    q_abserr o = total (fun x y => k_error (gauss_kronrod f x y)) l /\
    q_abserr o <= Rmax epsabs (epsrel * Rabs (q_value o)) /\ q_neval o = (42 * Z.of_nat (length l) - 21)%Z /\ (length l <= limit)%nat /\
    (a <= b -> Forall (fun s => a <= fst s <= snd s /\ snd s <= b) l).
Proof. exact bisected. Qed.
Print Assumptions C92_bisected.
Example C92_bisected_example : exists f o, qags 50 (/ 10 ^ 50) (/ 10 ^ 6) plain f (-1) 1 = Ok o /\ q_ier o = 0%Z.
Proof. exact plain_accepted. Qed.

(** It lies between the bounds of the function. *)
Theorem C92_bisected_between : forall limit epsabs epsrel c f a b o lo hi, (1 <= limit)%nat -> qags limit epsabs epsrel c f a b = Ok o ->
  q_ier o = 0%Z -> a <= b -> (forall x, a <= x <= b -> lo <= f x <= hi) ->
  (lo - Rabs lo / 10 ^ 15) * (b - a) <= q_value o <= (hi + Rabs hi / 10 ^ 15) * (b - a).
Proof. exact bisected_between. Qed.
Print Assumptions C92_bisected_between.

(** It is the integral, as well as the function is approximated by a polynomial of degree 31 on the whole interval. *)
Theorem C92_bisected_approximated : forall limit epsabs epsrel c f a b o cs d I, (1 <= limit)%nat -> qags limit epsabs epsrel c f a b = Ok o ->
  q_ier o = 0%Z -> a < b -> (length cs <= 32)%nat ->
  (forall u, -1 <= u <= 1 -> Rabs (f ((a + b) / 2 + (b - a) / 2 * u) - polynomial cs u) <= d) -> is_RInt f a b I ->
  Rabs (q_value o - I) <= (b - a) * (magnitudes cs / 10 ^ 15 + 3 * d).
Proof. exact bisected_approximated. Qed.
Print Assumptions C92_bisected_approximated.

(** There is a result, and no access beyond the lists, if only existing subintervals are bisected. *)
Theorem C92_defined : forall limit epsabs epsrel c f a b, (1 <= limit)%nat ->
  (forall last, (2 <= last <= limit)%nat -> (S (c_index c last) < last)%nat) -> exists o, qags limit epsabs epsrel c f a b = Ok o.
Proof. exact defined. Qed.
Print Assumptions C92_defined.
Example C92_defined_example : forall last, (2 <= last <= 50)%nat -> (S (c_index plain last) < last)%nat.
Proof. exact plain_index. Qed.

(** A result that extrapolation gave always comes with a complaint, even if the extrapolation has converged. *)
Theorem C92_extrapolated : forall sure defabs last st ier x, q_ier (finish sure defabs last st ier (Some x)) <> 0%Z.
Proof. exact extrapolation_complains. Qed.
Print Assumptions C92_extrapolated.
