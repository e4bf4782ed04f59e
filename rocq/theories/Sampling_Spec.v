(** What is said about sampled losses: vocabulary of the theorems. *)
From Verif Require Import Prelude Propagator_Model Limits_Model Cross_Model Continuous_Model Limits_Spec.

(** The differential cross section is not negative between the limits. *)
Definition not_negative (lim : limits) (sigma : R -> outcome R) : Prop :=
  forall v y, in_limits lim v -> sigma v = Ok y -> 0 <= y.

(** The limits are equal up to rounding, or their logarithms are not. *)
Definition resolved (lim : limits) : Prop :=
  v_max lim - v_min lim <= v_min lim / 10 ^ 10 \/
  Rabs (ln (v_min lim)) / 10 ^ 10 < ln (v_max lim) - ln (v_min lim).

(** All losses that [upper] gives lie between the limits. *)
Definition places (lim : limits) (upper : R -> outcome R) : Prop :=
  forall rate v, upper rate = Ok v -> in_limits lim v.

(** The losses by [x] on each of its targets lie between limits. *)
Definition places_targets (x : cross_base) (E : R) (lim : N -> limits) : Prop :=
  forall h r l, x_per_target x E = Ok l -> In (h, r) l -> places (lim h) (x_loss x h E).
