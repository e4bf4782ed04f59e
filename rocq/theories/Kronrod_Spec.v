(** Polynomials about the middle of an interval (C92). *)
From Coq Require Import List.
From Verif Require Import Prelude.
Import ListNotations.
Local Open Scope R_scope.
(** The polynomial with the coefficients [cs], the constant one first *)
Fixpoint polynomial (cs : list R) (u : R) : R := match cs with [] => 0 | c :: cs => c + u * polynomial cs u end.
Fixpoint magnitudes (cs : list R) : R := match cs with [] => 0 | c :: cs => Rabs c + magnitudes cs end.
(** [f] is a polynomial between [a] and [b]; the variable runs from -1 to 1 *)
Definition polynomial_between (a b : R) (f : R -> R) (cs : list R) : Prop :=
  forall u, -1 <= u <= 1 -> f ((a + b) / 2 + (b - a) / 2 * u) = polynomial cs u.
