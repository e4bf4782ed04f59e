(** The functions the propagation utilities integrate, as they are written on paper. *)
From Verif Require Import Prelude Cross_Model.
Notation each f cross E l := (Forall2 (fun x r => f x E = Ok r) cross l).
(** The momentum of a particle *)
Definition momentum (mass E : R) : R := sqrt (E * E - mass * mass).
Definition light_speed : R := 29979245800.
