(** Vocabulary of C90. *)
From Coquelicot Require Import Coquelicot.
From Verif Require Import Prelude.

(** The real part of the dilogarithm: the integral of - ln |1 - t| / t from 0 to x, as
    the continuous function with this derivative that vanishes at 0.  The derivative does
    not exist at 1; at 0 the formula has no value. *)
Record dilogarithm (f : R -> R) : Prop := {
  dl_zero : f 0 = 0;
  dl_continuous : forall x, continuous f x;
  dl_derivative : forall x, x <> 0 -> x <> 1 -> is_derive f x (- ln (Rabs (1 - x)) / x)
}.
