(** What is said about the tables: a process that sets in at an energy, and tables that
    are as good as they can be. *)
From Verif Require Import Prelude Axis_Model.

(** The axis makes sense: positive energies in their order, at least two nodes, the
    number of which is an unsigned int *)
Definition sane (a : axis) : Prop := 0 < a_low a < a_up a /\ (2 <= a_nodes a < 2 ^ 32)%Z.
(** Nothing up to the energy [T], something above *)
Definition sets_in (f : R -> R) (T : R) : Prop := (forall E, E <= T -> f E = 0) /\ (forall E, T < E -> 0 < f E).
(** The ratio of the energies of nodes at a distance [x] *)
Definition ratio (a : axis) (x : R) : R := Rpower (a_up a / a_low a) (x / (IZR (a_nodes a) - 1)).
(** A table of a function that is positive everywhere on the axis holds the function *)
Definition exact_spline (spline : (R -> R) -> axis -> R -> R) : Prop :=
  forall f a, (forall E, a_low a <= E <= a_up a -> 0 < f E) -> forall E, a_low a <= E <= a_up a -> spline f a E = f E.
(** The energy of the node with the largest number of type unsigned int: far beyond the
    largest double for every axis of practical use, thus infinity *)
Definition far (a : axis) : R := node a (IZR (2 ^ 32 - 1)).
