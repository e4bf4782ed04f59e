(** Specification vocabulary for density objects. *)
From Verif Require Import Prelude DensityObj_Model.

(** A program that keeps to the rules of the language: it only uses objects that
    have been created and not yet destroyed.  [live] tells for each object
    created so far whether it still exists. *)
Fixpoint proper (live : list bool) (ops : list density_op) : Prop :=
  match ops with
  | [] => True
  | Create _ :: ops' => proper (live ++ [true]) ops'
  | Clone i :: ops' => nth_error live i = Some true /\ proper (live ++ [true]) ops'
  | Query i :: ops' => nth_error live i = Some true /\ proper live ops'
  | Destroy i :: ops' => nth_error live i = Some true /\ proper (update live i false) ops'
  end.
(** No spline density is copied; [sp] tells for each object whether it is one. *)
Fixpoint no_spline_copies (sp : list bool) (ops : list density_op) : Prop :=
  match ops with
  | [] => True
  | Create b :: ops' => no_spline_copies (sp ++ [b]) ops'
  | Clone i :: ops' => nth_error sp i = Some false /\ no_spline_copies (sp ++ [false]) ops'
  | _ :: ops' => no_spline_copies sp ops'
  end.

(** The axes have the same class and the same direction. *)
Definition parallel (x y : axis_object) : Prop :=
  match x, y with
  | Cartesian a _, Cartesian b _ => a = b
  | Radial _, Radial _ => True
  | _, _ => False
  end.
(** Equal addresses hold the same spline. *)
Definition same_pointees (k l : density_kind) : Prop :=
  match k, l with Splines p _ s, Splines q _ t => p = q -> s = t | _, _ => True end.
