(** Model of density distributions as C++ objects: comparison and ownership of
    the data behind their pointers. *)
From Verif Require Import Prelude Vec_Model Geometry_Model Propagator_Model Function_Model Spline_Model Math_Model Density_Model.

(** ** Comparison *)
(** The concrete axis classes, density_distr.h:60-99 *)
Inductive axis_object := Cartesian (a p0 : vec) | Radial (p0 : vec).
Definition fp0 (ax : axis_object) : vec := match ax with Cartesian _ p0 => p0 | Radial p0 => p0 end.
Definition axis_of (ax : axis_object) : axis :=
  match ax with Cartesian a p0 => cartesian_axis a p0 | Radial p0 => radial_axis p0 end.

(** The concrete densities with the data members that compare looks at.  The
    spline classes hold pointers: [spline_ptr] and [integrated_ptr] are the
    addresses and [s] the spline stored at the first of them. *)
Inductive density_kind :=
  | Homogeneous
  | Exponential (sigma d0 : R)
  | Polynomial (c : list R)
  | Splines (spline_ptr integrated_ptr : nat) (s : spline).
Record density_object := mkdobj { do_axis : axis_object; do_rho : R; do_kind : density_kind }.

(** compare of the four classes: density_homogeneous.cxx:31-36,
    density_exponential.cxx:26-35, density_polynomial.cxx:39-46,
    density_splines.cxx:41-50 *)
Definition kind_eqb (k l : density_kind) : bool :=
  match k, l with
  | Homogeneous, Homogeneous => true
  | Exponential s d, Exponential s' d' => (s =? s') && (d =? d')
  | Polynomial c, Polynomial c' => poly_eqb c c'
  | Splines p i _, Splines p' i' _ => (p =? p')%nat && (i =? i')%nat
  | _, _ => false
  end.
(** Density_distr::operator==, density_distr.cxx:41-50.  The axes are compared
    through references to the base class, so that the non-virtual
    Axis::operator!= (density_distr.cxx:74-82) is called, which only looks at
    fp0_. *)
Definition density_eqb (x y : density_object) : bool :=
  vec_eqb (fp0 (do_axis x)) (fp0 (do_axis y)) && (do_rho x =? do_rho y) && kind_eqb (do_kind x) (do_kind y).

(** The density as seen by the propagation. *)
Definition density_of (nan : outcome R) (x : density_object) : outcome density :=
  let ax := axis_of (do_axis x) in
  match do_kind x with
  | Homogeneous => Ok (homogeneous nan (do_rho x))
  | Exponential s d => Ok (exponential nan ax s d (do_rho x))
  | Polynomial c => Ok (polynomial_density nan ax c (do_rho x))
  | Splines _ _ s => spline_density nan ax s (do_rho x)
  end.

(** ** Ownership *)
(** Heap cells are numbered in the order of their allocation; [true] marks a
    cell that has not been freed. *)
Definition cells := list bool.
Fixpoint update {A} (l : list A) (i : nat) (v : A) : list A :=
  match l, i with
  | [], _ => []
  | _ :: l', O => v :: l'
  | a :: l', S j => a :: update l' j v
  end.
(** A density object holds the pointer axis_ and, for Density_splines, the
    pointers spline_ and integrated_spline_; [None] is a destroyed object. *)
Record owner := mkowner { ow_splines : list nat; ow_axis : nat }.
Definition objects := list (option owner).
Definition memory : Type := cells * objects.

(** delete of a cell *)
Definition delete (h : cells) (p : nat) : outcome cells :=
  match nth_error h p with
  | Some true => Ok (update h p false)
  | _ => UB double_free
  end.
Fixpoint delete_all (h : cells) (ps : list nat) : outcome cells :=
  match ps with
  | [] => Ok h
  | p :: ps' => olet h' := delete h p in delete_all h' ps'
  end.
(** reading through a pointer *)
Definition access (h : cells) (ps : list nat) : outcome unit :=
  if forallb (fun p => nth p h false) ps then Ok tt else UB use_after_free.

Inductive density_op :=
  | Create (splines : bool)   (** constructor from an axis (and a spline) *)
  | Clone (i : nat)           (** copy constructor or clone() *)
  | Query (i : nat)           (** Evaluate, Calculate, ... *)
  | Destroy (i : nat).        (** destructor *)
Definition density_step (m : memory) (o : density_op) : outcome memory :=
  let '(h, os) := m in
  let n := length h in
  match o with
  (* density_distr.cxx:39 (axis.clone()), density_splines.cxx:9-14 (two clones) *)
  | Create false => Ok (h ++ [true], os ++ [Some (mkowner [] n)])
  | Create true => Ok (h ++ [true; true; true], os ++ [Some (mkowner [S n; S (S n)] n)])
  | Clone i =>
    match nth_error os i with
    | Some (Some w) =>
      (* density_distr.cxx:16-17 clones the axis, density_splines.cxx:19-22
         copies the two spline pointers *)
      olet _ := access h [ow_axis w] in
      Ok (h ++ [true], os ++ [Some (mkowner (ow_splines w) n)])
    | _ => UB use_after_free
    end
  | Query i =>
    match nth_error os i with
    | Some (Some w) => olet _ := access h (ow_axis w :: ow_splines w) in Ok m
    | _ => UB use_after_free
    end
  | Destroy i =>
    match nth_error os i with
    | Some (Some w) =>
      (* density_splines.h:49-52, then density_distr.h:119 *)
      olet h' := delete_all h (ow_splines w ++ [ow_axis w]) in
      Ok (h', update os i None)
    | _ => UB double_free
    end
  end.
Fixpoint density_run (m : memory) (ops : list density_op) : outcome memory :=
  match ops with
  | [] => Ok m
  | o :: ops' => olet m' := density_step m o in density_run m' ops'
  end.
