(** Subdivisions of an interval (C92). *)
From Coq Require Import List Permutation.
From Verif Require Import Prelude.
Import ListNotations.
Local Open Scope R_scope.
(** Each interval begins where the one before it ends. *)
Fixpoint consecutive (a : R) (l : list (R * R)) (b : R) : Prop :=
  match l with [] => a = b | (x, y) :: l => x = a /\ consecutive y l b end.
(** The intervals, in some order, lead from [a] to [b]. *)
Definition subdivision (a b : R) (l : list (R * R)) : Prop := exists l', Permutation l l' /\ consecutive a l' b.
Definition total (g : R -> R -> R) (l : list (R * R)) : R := fold_right (fun s t => g (fst s) (snd s) + t) 0 l.
