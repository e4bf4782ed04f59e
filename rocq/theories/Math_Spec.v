(** Specification vocabulary for root searches and sample statistics. *)
From Verif Require Import Prelude.

(** x lies in the closed interval with the ends a and b, in either order. *)
Definition between (a b x : R) : Prop := Rmin a b <= x <= Rmax a b.

(** The ordinary mean and (population) variance of a list of samples. *)
Definition total (l : list R) : R := fold_right Rplus 0 l.
Definition mean (l : list R) : R := total l / INR (length l).
Definition variance (l : list R) : R := total (map (fun x => (x - mean l) ^ 2) l) / INR (length l).

(** r is an acceptable answer of a root search: it is within xacc of a root, or
    it is the result of a Newton step from a point of the bracket, and that step
    was shorter than xacc. *)
Definition converged (f df : R -> R) (a b xacc r : R) : Prop :=
  (exists z, f z = 0 /\ Rabs (r - z) < xacc) \/
  (exists t, between a b t /\ df t <> 0 /\ r = t - f t / df t /\ Rabs (f t / df t) < xacc).
