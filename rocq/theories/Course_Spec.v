(** Specification vocabulary for the course of energy and time along a track. *)
From Verif Require Import Prelude Vec_Model Geometry_Model Density_Model Propagator_Model Utility_Model Course_Model.

(** [b] is the state that follows [a]. *)
Definition followed_by (t : track) (a b : pstate) : Prop :=
  exists i, nth_error (tr_states t) i = Some a /\ nth_error (tr_states t) (S i) = Some b.

(** The calculators of a sector return energies between the lower limit and the
    energy they are given, and losses that are fractions of the energy.  Random
    numbers are between zero and one. *)
Record in_range (L : R) (s : sector) : Prop := {
  ir_lower : u_lower_lim (s_utility s) = L;
  ir_interaction : forall E r e, L <= E -> 0 <= r <= 1 -> u_interaction (s_utility s) E r = Ok e -> e <= E;
  ir_decay : forall f E r density e, u_decay (s_utility s) = Some f -> L <= E -> 0 <= r <= 1 -> f E r density = Ok e -> e <= E;
  ir_upper : forall E g e, L <= E -> u_upper_limit (s_utility s) E g = Ok e -> L <= e <= E;
  ir_cont_rand : forall f E e r m x, u_cont_rand (s_utility s) = Some f -> 0 <= r <= 1 ->
    Rmax L m <= e <= E -> f E e r m = Ok x -> Rmax L m <= x <= E;
  ir_loss : forall E r l, u_sample_loss (s_utility s) E r = Ok l -> 0 <= v_loss l <= 1
}.
(** The time for a loss of energy is not negative. *)
Definition forward_time (L : R) (s : sector) : Prop :=
  forall E e g t p, L <= e <= E -> u_time (s_utility s) E e g (d_evaluate (s_density s) p) = Ok t -> 0 <= t.

(** A table with this lower limit *)
Definition table_from (L : R) (c : calculator) : Prop :=
  exists f table reverse, c = Tabulated f L table reverse.
(** A table of a function that is not positive; the values in the table have the
    same sign. *)
Definition table_of_losses (L : R) (c : calculator) : Prop :=
  exists f table reverse, c = Tabulated f L table reverse /\
    (forall E y, L <= E -> f E = Ok y -> y <= 0) /\
    (forall E E', L <= E' <= E -> if reverse then table E <= table E' else table E' <= table E).
(** Every calculator of the collection is a table with this lower limit. *)
Record tables (L : R) (c : collection) : Prop := {
  tb_displacement : table_from L (c_displacement c);
  tb_interaction : table_from L (c_interaction c);
  tb_decay : forall d lifetime, c_decay c = Some (d, lifetime) -> table_from L d;
  tb_cont_rand : forall d, c_cont_rand c = Some d -> table_from L d;
  tb_loss : forall E r l, c_sample_loss c E r = Ok l -> 0 <= v_loss l <= 1
}.

(** A sector with the approximate clock in a homogeneous medium *)
Definition approximate_clock nan qags find erf ppf (s : sector) : Prop :=
  exists g col inf rho, s = mksector g (assemble nan qags find erf ppf col) (homogeneous inf rho) /\ c_time col = None /\ 0 < rho.
(** Between the states [a] and [b] the clock advances as that of light (in
    centimetres per second), up to the resolution of borders in centimetres. *)
Definition in_step (a b : pstate) : Prop :=
  Rabs (29979245800 * (time b - time a) - (propagated_distance b - propagated_distance a)) <= / 1000.
