(** Specification vocabulary for the numerical integration. *)
From Verif Require Import Prelude Function_Spec Integral_Model.

(** f 0 + ... + f (n - 1) *)
Fixpoint sum_below (n : nat) (f : nat -> R) : R :=
  match n with O => 0 | S m => sum_below m f + f m end.

(** The composite midpoint rule with [n] cells of equal width *)
Definition midpoint_sum (F : R -> R) (a b : R) (n : nat) : R :=
  let h := (b - a) / INR n in
  h * sum_below n (fun j => F (a + (INR j + / 2) * h)).
(** The composite trapezoid rule with [n] cells of equal width *)
Definition trapezoid_sum (F : R -> R) (a b : R) (n : nat) : R :=
  let h := (b - a) / INR n in
  h * sum_below n (fun j => (F (a + INR j * h) + F (a + (INR j + 1) * h)) / 2).

(** [v] is the value at [x] of the polynomial of the lowest degree through the
    points: there is one with as many coefficients as there are points, and
    every such polynomial has the value [v]. *)
Definition extrapolates (points : list (R * R)) (x v : R) : Prop :=
  (exists c, (length c <= length points)%nat /\ (forall p, In p points -> polynomial c (fst p) = snd p) /\ polynomial c x = v) /\
  (forall c, (length c <= length points)%nat -> (forall p, In p points -> polynomial c (fst p) = snd p) -> polynomial c x = v).

(** The points of Romberg's method: the sums with q^j cells against the square
    of the relative width of a cell, for j from [first] on. *)
Definition romberg_points (q : nat) (sum : nat -> R) (first number : nat) : list (R * R) :=
  map (fun j => ((/ INR (q ^ j)) ^ 2, sum (q ^ j)%nat)) (seq first number).

(** Two results that differ by the sign of the value *)
Definition opposite {E} (r s : option (outcome (R * E))) : Prop :=
  match r, s with
  | Some (Ok (v, g)), Some (Ok (w, h)) => w = - v /\ h = g
  | Some (Throw e), Some (Throw e') => e = e'
  | Some (UB u), Some (UB u') => u = u'
  | _, _ => False
  end.

(** What Romberg's method gives: the value extrapolated to cells of width zero
    from [m] consecutive sums, when it differs by less than the precision,
    relative to [scale], from the one without the first or the last sum. *)
Definition converged (q : nat) (sum : nat -> R) (steps m : nat) (precision : R) (scale : R -> R) (v : R) : Prop :=
  exists first, (first + m <= steps)%nat /\ extrapolates (romberg_points q sum first m) 0 v /\
    ((2 <= m)%nat -> exists j w, (j <= 1)%nat /\ extrapolates (romberg_points q sum (first + j) (m - 1)) 0 w /\
       Rabs (v - w) < precision * Rabs (scale v)).
(** The value itself, unless it is zero *)
Definition own_scale (v : R) : R := if Req_EM_T v 0 then 1 else v.

(** The result of an integration of [F] from [lo] to [hi] by Romberg's method, or
    by the routine [other] when the method does not converge. *)
Definition computed {E} (other : (R -> outcome R) -> R -> R -> outcome R) (F : R -> R) (lo hi : R)
  (q : nat) (sum : nat -> R) (steps m : nat) (precision : R) (r : option (outcome (R * E))) : Prop :=
  (exists v g, r = Some (Ok (v, g)) /\ converged q sum steps m precision own_scale v) \/
  (exists h g, (forall x, lo < x < hi -> h x = Ok (F x)) /\ r = Some (olet v := other h lo hi in Ok (v, g))).
(** The same, when the value is known exactly *)
Definition computed_exactly {E} (other : (R -> outcome R) -> R -> R -> outcome R) (F : R -> R) (lo hi v : R)
  (r : option (outcome (R * E))) : Prop :=
  (exists g, r = Some (Ok (v, g))) \/
  (exists h g, (forall x, lo < x < hi -> h x = Ok (F x)) /\ r = Some (olet v := other h lo hi in Ok (v, g))).

(** There is room for all sums. *)
Record fits (g : engine) : Prop := {
  fits_romberg : (1 <= e_romberg g)%nat;
  fits_work : (e_romberg g <= e_work g)%nat;
  fits_ix : (e_steps g <= length (e_ix g))%nat;
  fits_iy : (e_steps g <= length (e_iy g))%nat
}.
(** Room in the buffers, no overflow of the number of nodes *)
Definition roomy (g : engine) : Prop := fits g /\ (3 ^ Z.of_nat (e_steps g) <= INT_MAX)%Z.
(** The integrand after the substitution x = t^(-p) *)
Definition substituted (F : R -> R) (p t : R) : R := p * (Rpower t (- p) / t) * F (Rpower t (- p)).
(** Free of undefined behaviour *)
Definition defined {A} (x : outcome A) : Prop := forall u, x <> UB u.
(** The integrands a call passes are. *)
Definition call_defined (c : call) : Prop := match c with
  | Integrate _ _ f _ _ => forall x, defined (f x)
  | IntegrateWithRandomRatio _ _ f _ _ _ => forall x, defined (f x)
  | GetUpperLimit => True
  end.
