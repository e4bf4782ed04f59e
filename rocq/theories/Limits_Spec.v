(** Vocabulary of the properties of kinematic limits. *)
From Verif Require Import Prelude Limits_Model.

Definition ordered (l : limits) : Prop := v_min l <= v_max l.
Definition in_limits (l : limits) (v : R) : Prop := v_min l <= v <= v_max l.
(** Whenever there is a loss to sample from, every allowed loss leaves a particle
    with mass [m] and energy [E] at least its rest mass. *)
Definition leaves (m E : R) (l : limits) : Prop :=
  v_min l < v_max l -> forall v, in_limits l v -> m <= E * (1 - v).
