(** Specification vocabulary for densities. *)
From Verif Require Import Prelude Vec_Model Propagator_Model Shapes_Spec.
From Coquelicot Require Import Coquelicot.

(** g is the grammage (column density) of the straight line of length l from x
    along d: the line integral of the mass density. *)
Definition grammage (dn : density) (x d : vec) (l g : R) : Prop :=
  is_RInt (fun t => d_evaluate dn (at_ x d t)) 0 l g.
