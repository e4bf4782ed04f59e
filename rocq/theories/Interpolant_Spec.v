(** What is said about tables. *)
From Verif Require Import Prelude Function_Spec Integral_Spec Interpolant_Model.

(** The nodes of a table are in order, upwards or downwards. *)
Definition increasing (l : list R) : Prop :=
  forall i j, (i < j < length l)%nat -> nth i l 0 < nth j l 0.
Definition decreasing (l : list R) : Prop :=
  forall i j, (i < j < length l)%nat -> nth j l 0 < nth i l 0.
Definition ordered (l : list R) : Prop := increasing l \/ decreasing l.

(** Points that make a table *)
Definition tabular (x y : list R) : Prop :=
  length x = length y /\ (2 <= length x)%nat /\ ordered x.
Definition tabular_grid (x1 x2 : list R) (y : list (list R)) : Prop :=
  length x1 = length y /\ (2 <= length x1)%nat /\ ordered x1 /\ Forall (tabular x2) y.

(** The number of points that are used at once *)
Definition order (romberg : Z) (n : nat) : nat := Nat.min (Z.to_nat romberg) n.

(** In every history of calls the answer to [q] is [f q]. *)
Definition answers {O} (call : O -> R * R -> outcome (R * O)) (o : O) (f : R * R -> R) : Prop :=
  forall qs, exists o', calls call o qs = Ok (map f qs, o').
Definition table_call (nan : forall A, outcome A) (t : inter) (q : R * R) : outcome (R * inter) := array nan t (fst q).
Definition limit_call (nan : forall A, outcome A) (t : inter) (q : R * R) : outcome (R * inter) := find_limit nan t (fst q).
Definition grid_call (nan : forall A, outcome A) (g : grid) (q : R * R) : outcome (R * grid) := grid_array nan g (fst q) (snd q).
(** The same for a function of one number *)
Definition reads (nan : forall A, outcome A) (t : inter) (f : R -> R) : Prop := answers (table_call nan) t (fun q => f (fst q)).
Definition finds (nan : forall A, outcome A) (t : inter) (f : R -> R) : Prop := answers (limit_call nan) t (fun q => f (fst q)).
Definition reads_grid (nan : forall A, outcome A) (g : grid) (f : R -> R -> R) : Prop :=
  answers (grid_call nan) g (fun q => f (fst q) (snd q)).

(** The [m] points from number [start] on *)
Definition points (x y : list R) (start m : nat) : list (R * R) :=
  map (fun i => (nth i x 0, nth i y 0)) (seq start m).
(** In the order of the nodes, [q] is between those before number [k] and those from [k]
    on. *)
Definition divides (x : list R) (k : nat) (q : R) : Prop :=
  increasing x /\ (forall j, (j < k)%nat -> nth j x 0 <= q) /\ (forall j, (k <= j < length x)%nat -> q <= nth j x 0) \/
  decreasing x /\ (forall j, (j < k)%nat -> q <= nth j x 0) /\ (forall j, (k <= j < length x)%nat -> nth j x 0 <= q).
(** The window of [m] nodes from [start] on has [q] in its middle, the numbers of nodes
    on the two sides differing by one at most; only where the table begins there may be
    fewer of them before [q], and only where it ends fewer after [q]. *)
Definition central (x : list R) (start m : nat) (q : R) : Prop :=
  (start + m <= length x)%nat /\
  exists k, (k <= length x)%nat /\ divides x k q /\
    (start = 0%nat \/ start <= k /\ m <= 2 * (k - start) + 1)%nat /\
    ((start + m)%nat = length x \/ 2 * (k - start) <= m + 1)%nat.

(** A polynomial in two variables with less than [m1] powers of the first and less than
    [m2] powers of the second one *)
Definition polynomial2 (c : list (list R)) (q1 q2 : R) : R := polynomial (map (fun d => polynomial d q2) c) q1.
Definition between (a b v : R) : Prop := Rmin a b <= v <= Rmax a b.
