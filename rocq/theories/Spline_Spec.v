(** Specification vocabulary for splines. *)
From Verif Require Import Prelude Geometry_Model Function_Spec.
From Coq Require Import Sorted.

(** Usable nodes: at least two, strictly increasing, one value each. *)
Definition nodes (xs ys : list R) : Prop :=
  (2 <= length xs)%nat /\ length ys = length xs /\ StronglySorted Rlt xs.
(** Values of the i-th node. *)
Definition node (xs : list R) (i : nat) : R := nth i xs 0.

(** No node but the last is non-zero and closer to zero than the precision of
    the polynomial shift. *)
Definition resolved (xs : list R) : Prop :=
  forall i, (i + 1 < length xs)%nat -> node xs i = 0 \/ GEOMETRY_PRECISION < Rabs (node xs i).

(** The pieces [ps] form the natural cubic spline through the nodes: piece i
    interpolates both of its nodes, first and second derivatives agree at the
    inner nodes and the second derivative vanishes at both ends.  The derivatives
    are given by polynomials of degree at most two and one. *)
Definition natural_cubic (xs ys : list R) (ps : list (list R)) : Prop :=
  length ps = (length xs - 1)%nat /\
  exists d1 d2 : nat -> R -> R,
    (forall i p t, nth_error ps i = Some p ->
       length p = 4%nat /\
       derivable_pt_lim (polynomial p) t (d1 i t) /\ derivable_pt_lim (d1 i) t (d2 i t)) /\
    (forall i p, nth_error ps i = Some p ->
       polynomial p (node xs i) = node ys i /\ polynomial p (node xs (i + 1)) = node ys (i + 1)) /\
    (forall i, (i + 2 < length xs)%nat ->
       d1 i (node xs (i + 1)) = d1 (i + 1)%nat (node xs (i + 1)) /\
       d2 i (node xs (i + 1)) = d2 (i + 1)%nat (node xs (i + 1))) /\
    d2 0%nat (node xs 0) = 0 /\ d2 (length xs - 2)%nat (node xs (length xs - 1)) = 0.
