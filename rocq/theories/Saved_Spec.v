(** Specification vocabulary for saved splines and for CalculateSpline. *)
From Verif Require Import Prelude Geometry_Model Function_Spec Spline_Model Spline_Spec.

(** [r'] is [r] rounded to six significant digits *)
Definition six_digits (r r' : R) : Prop :=
  exists m e : Z, 10 ^ 5 * powerRZ 10 e <= Rabs r < 10 ^ 6 * powerRZ 10 e /\ r' = IZR m * powerRZ 10 e /\ Rabs (r - r') <= powerRZ 10 e / 2.
(** What the default precision of streams does to numbers *)
Definition writes_six_digits (shown : R -> R) : Prop := shown 0 = 0 /\ forall r, r <> 0 -> six_digits r (shown r).
(** A number with at most six digits *)
Definition short (r : R) : Prop := exists m e : Z, (Z.abs m < 10 ^ 6)%Z /\ r = IZR m * powerRZ 10 e.

(** One polynomial with at least one coefficient for each interval, in numbers that fit
    into unsigned int *)
Definition complete (s : spline) : Prop :=
  length (sp_polys s) = sp_n s /\ length (sp_sub s) = S (sp_n s) /\ (1 <= sp_n s)%nat /\ (N.of_nat (sp_n s) <= 4294967295)%N /\
  forall p, In p (sp_polys s) -> p <> [] /\ (N.of_nat (length p) <= 4294967295)%N.
(** Every number of a spline *)
Definition each_number (s : spline) (P : R -> Prop) : Prop := (forall r, In r (sp_sub s) -> P r) /\ forall p r, In p (sp_polys s) -> In r p -> P r.

(** The functions [f 0], [f 1], ... are the pieces of the natural cubic spline through the
    nodes *)
Definition natural_pieces (xs ys : list R) (f : nat -> R -> R) : Prop :=
  exists d1 d2 : nat -> R -> R,
    (forall i t, (i + 1 < length xs)%nat -> derivable_pt_lim (f i) t (d1 i t) /\ derivable_pt_lim (d1 i) t (d2 i t)) /\
    (forall i, (i + 1 < length xs)%nat -> f i (node xs i) = node ys i /\ f i (node xs (i + 1)) = node ys (i + 1)) /\
    (forall i, (i + 2 < length xs)%nat -> d1 i (node xs (i + 1)) = d1 (i + 1)%nat (node xs (i + 1)) /\ d2 i (node xs (i + 1)) = d2 (i + 1)%nat (node xs (i + 1))) /\
    d2 0%nat (node xs 0) = 0 /\ d2 (length xs - 2)%nat (node xs (length xs - 1)) = 0.
