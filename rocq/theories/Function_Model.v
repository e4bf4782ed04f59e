(** Model of the class Polynom, detail/PROPOSAL/math/Function.cxx.  A polynomial
    is the array [coeff_] of [N_] doubles, lowest power first. *)
From Verif Require Import Prelude Geometry_Model.

(** [a[i]] of an array: an index past the end is undefined behaviour. *)
Definition arr_get {A} (l : list A) (i : nat) : outcome A :=
  match nth_error l i with Some a => Ok a | None => UB out_of_bounds end.
(** [a[i] = v] *)
Fixpoint arr_set {A} (l : list A) (i : nat) (v : A) : outcome (list A) :=
  match l, i with
  | [], _ => UB out_of_bounds
  | _ :: l', O => Ok (v :: l')
  | a :: l', S i' => olet r := arr_set l' i' v in Ok (a :: r)
  end.

(** A loop over indices with a mutable state. *)
Fixpoint loop {S} (body : S -> nat -> outcome S) (is : list nat) (s : S) : outcome S :=
  match is with
  | [] => Ok s
  | i :: is' => olet s' := body s i in loop body is' s'
  end.

(** Polynom::evaluate, Function.cxx:46-53.  [coeff_[N_ - 1]] with N_ = 0 reads
    before the array. *)
Definition poly_evaluate (c : list R) (x : R) : outcome R :=
  match rev c with
  | [] => UB out_of_bounds
  | a :: l => Ok (fold_left (fun aux ci => aux * x + ci) l a)
  end.

(** The table [t] of Polynom::shift: [None] is an uninitialised double. *)
Definition table := list (list (option R)).
Definition t_get (t : table) (i j : nat) : outcome R :=
  olet row := arr_get t i in
  olet v := arr_get row j in
  match v with Some r => Ok r | None => UB uninitialised end.
Definition t_set (t : table) (i j : nat) (v : R) : outcome table :=
  olet row := arr_get t i in
  olet row' := arr_set row j (Some v) in
  arr_set t i row'.

(** Polynom::shift, Function.cxx:55-80.  The division by std::pow(x, i) is by a
    non-zero number because |x| > GEOMETRY_PRECISION.  The leaked table is not
    modelled.  N_ = 0 (n = -1) does nothing. *)
Definition shift_init (c : list R) (x : R) (n : nat) (t : table) (i : nat) : outcome table :=
  olet a := arr_get c (n - i - 1) in
  olet t1 := t_set t i 0 (a * x ^ (n - i - 1)) in
  olet b := arr_get c n in
  t_set t1 i (i + 1) (b * x ^ n).
Definition shift_cell (j : nat) (t : table) (i : nat) : outcome table :=
  olet a := t_get t (i - 1) j in
  olet b := t_get t (i - 1) (j + 1) in
  t_set t i (j + 1) (a + b).
Definition shift_column (n : nat) (t : table) (j : nat) : outcome table :=
  loop (shift_cell j) (seq (j + 1) (n - j)) t.
Definition shift_result (x : R) (n : nat) (t : table) (c : list R) (i : nat) : outcome (list R) :=
  olet v := t_get t n (i + 1) in
  arr_set c i (v / x ^ i).
Definition poly_shift (c : list R) (x : R) : outcome (list R) :=
  if GEOMETRY_PRECISION <? Rabs x then
    match c with
    | [] => Ok c
    | _ =>
      let n := (length c - 1)%nat in
      let t0 := repeat (repeat None (length c)) (length c) in
      olet t1 := loop (shift_init c x n) (seq 0 n) t0 in
      olet t2 := loop (shift_column n) (seq 0 n) t1 in
      loop (shift_result x n t2) (seq 0 n) c
    end
  else Ok c.

(** Polynom::GetDerivative, Function.cxx:82-89 *)
Definition poly_derivative (c : list R) : list R :=
  map (fun i => nth i c 0 * INR i) (seq 1 (length c - 1)).
(** Polynom::GetAntiderivative, Function.cxx:91-98 *)
Definition poly_antiderivative (c : list R) (constant : R) : list R :=
  constant :: map (fun i => nth i c 0 / INR (i + 1)) (seq 0 (length c)).

(** Polynom::operator==, Function.cxx:32-40 *)
Fixpoint poly_eqb (c d : list R) : bool :=
  match c, d with
  | [], [] => true
  | a :: c', b :: d' => (a =? b) && poly_eqb c' d'
  | _, _ => false
  end.

(** ** Polynom objects on the heap *)
(** The object holds N_ and the pointer coeff_; arrays are never freed (the
    destructor is empty, Function.h:47). *)
Definition heap := list (list R).
Record polynom := mkpolynom { p_n : nat; p_coeff : nat }.
(** Polynom(std::vector<double>), Function.cxx:15-19 *)
Definition new_polynom (h : heap) (c : list R) : heap * polynom :=
  (h ++ [c], mkpolynom (length c) (length h)).
(** Polynom(const Polynom&), Function.cxx:30; clone and operator= likewise copy
    the pointer. *)
Definition copy_polynom (p : polynom) : polynom := mkpolynom (p_n p) (p_coeff p).
(** The coefficients of an object *)
Definition get_coefficient (h : heap) (p : polynom) : outcome (list R) :=
  olet a := arr_get h (p_coeff p) in
  if (length a <? p_n p)%nat then UB out_of_bounds else Ok (firstn (p_n p) a).
Definition evaluate_object (h : heap) (p : polynom) (x : R) : outcome R :=
  olet c := get_coefficient h p in poly_evaluate c x.
(** shift writes through the pointer *)
Definition shift_object (h : heap) (p : polynom) (x : R) : outcome heap :=
  olet c := get_coefficient h p in
  olet c' := poly_shift c x in
  arr_set h (p_coeff p) c'.

(** A program that works on Polynom values: constructions, copies (copy
    constructor, operator= of a fresh object, clone) and in-place shifts of the
    objects made so far. *)
Inductive polynom_op :=
| Construct (c : list R)
| Copy (i : nat)
| Shift (i : nat) (x : R).
Definition polynom_state : Type := heap * list polynom.
Definition polynom_step (s : polynom_state) (o : polynom_op) : outcome polynom_state :=
  let '(h, objs) := s in
  match o with
  | Construct c => let '(h', p) := new_polynom h c in Ok (h', objs ++ [p])
  | Copy i => olet p := arr_get objs i in Ok (h, objs ++ [copy_polynom p])
  | Shift i x => olet p := arr_get objs i in olet h' := shift_object h p x in Ok (h', objs)
  end.
Fixpoint polynom_run (s : polynom_state) (ops : list polynom_op) : outcome polynom_state :=
  match ops with
  | [] => Ok s
  | o :: ops' => olet s' := polynom_step s o in polynom_run s' ops'
  end.
