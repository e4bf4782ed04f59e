(** Properties of the course of energy and time along a track (C81). *)
From Verif Require Import Prelude Vec_Model Geometry_Model Density_Model Propagator_Model Utility_Model Utility_Spec Utility_Examples
  Course_Model Course_Spec Course_Proofs CourseTable_Proofs Clock_Proofs Course_Examples.

(** ** C81: energies do not rise and clocks do not run backwards *)
(** Sectors whose calculators stay in range, with one lower limit that is not
    below the minimal energy; particles that start above the limit.  From one
    state of the track to the next the energy does not rise, it is never
    negative, and only the last one can be below the limit. *)
Theorem C81_energy_partial : forall rs sectors L max_steps fuel st md me cond t, (forall k, 0 <= rs k <= 1) -> 0 <= L -> me <= L ->
  (forall s, In s sectors -> in_range L s) -> L <= energy st ->
  propagate rs sectors fuel max_steps st md me cond = Some (Ok t) ->
  forall a b, followed_by t a b -> L <= energy a /\ 0 <= energy b <= energy a.
Proof.
  exact (fun rs sectors L ms fuel st md me cond t N P M R S H a b F =>
    let X := course rs sectors L ms fuel st md me cond t False N P M R (False_ind _) S H a b F in conj (proj1 X) (proj1 (proj2 X))).
Qed.
Print Assumptions C81_energy_partial.
Theorem C81_time_partial : forall rs sectors L max_steps fuel st md me cond t, (forall k, 0 <= rs k <= 1) -> 0 <= L -> me <= L ->
  (forall s, In s sectors -> in_range L s) -> (forall s, In s sectors -> forward_time L s) -> L <= energy st ->
  propagate rs sectors fuel max_steps st md me cond = Some (Ok t) ->
  forall a b, followed_by t a b -> time a <= time b.
Proof.
  exact (fun rs sectors L ms fuel st md me cond t N P M R T S H a b F =>
    proj2 (proj2 (course rs sectors L ms fuel st md me cond t True N P M R (fun _ => T) S H a b F)) I).
Qed.
Print Assumptions C81_time_partial.
(** The calculators with tables stay in range, whatever is in the tables; the
    time runs forward with a table of losses. *)
Theorem C81_tables : forall nan qags find eps erf ppf L col g d, finds_within eps find -> quantile SQRT2 erf ppf -> tables L col ->
  in_range L (mksector g (assemble nan qags find erf ppf col) d).
Proof. exact (fun nan qags find eps erf ppf L col g d F Q T => tables_in_range nan qags find eps F erf ppf Q L col g d T). Qed.
Print Assumptions C81_tables.
Theorem C81_tables_track_partial : forall nan qags find eps erf ppf, finds_within eps find -> quantile SQRT2 erf ppf ->
  forall rs sectors L max_steps fuel st md me cond t, (forall k, 0 <= rs k <= 1) -> 0 <= L -> me <= L ->
  (forall s, In s sectors -> exists g d col c, s = mksector g (assemble nan qags find erf ppf col) d /\ tables L col /\
     c_time col = Some c /\ table_of_losses L c /\ forall p, 0 < d_evaluate d p) ->
  L <= energy st -> propagate rs sectors fuel max_steps st md me cond = Some (Ok t) ->
  forall a b, followed_by t a b -> L <= energy a /\ 0 <= energy b <= energy a /\ time a <= time b.
Proof. exact (fun nan qags find eps erf ppf F Q => tables_course nan qags find eps F erf ppf Q). Qed.
Print Assumptions C81_tables_track_partial.
Example C81_example : forall nan qags, finds_within 0 find_exact /\ quantile SQRT2 squash quantile_example /\
  (exists g d col c, slab nan qags = mksector g (assemble nan qags find_exact squash quantile_example col) d /\ tables 1 col /\
     c_time col = Some c /\ table_of_losses 1 c /\ forall p, 0 < d_evaluate d p) /\
  propagate no_luck [slab nan qags] 1 10 hundred 100000 0 0 = Some (Ok track_down).
Proof. exact (fun nan qags => conj find_exact_within (conj quantile_exists (conj (slab_ok nan qags) (slab_down nan qags)))). Qed.

(** A particle that starts below the minimal energy gains energy, moves
    backwards, and its clock runs backwards. *)
Theorem C81_start_below_minimum_refuted : forall nan qags, exists rs sectors st md me t a b,
  (forall k, 0 <= rs k <= 1) /\
  (forall s, In s sectors -> exists g d col c, s = mksector g (assemble nan qags find_exact squash quantile_example col) d /\ tables 1 col /\
     c_time col = Some c /\ table_of_losses 1 c /\ forall p, 0 < d_evaluate d p) /\
  1 < energy st < me /\ propagate rs sectors 1 10 st md me 0 = Some (Ok t) /\
  followed_by t a b /\ energy b = 2 * energy a /\ time b < time a /\ propagated_distance b < propagated_distance a.
Proof. exact start_below. Qed.
Print Assumptions C81_start_below_minimum_refuted.

(** ** Time *)
(** With the approximate clock and homogeneous media the time between the states
    of a track is the time light needs for the distance between them, up to the
    resolution of borders, whatever the tables are. *)
Theorem C81_light_speed : forall nan qags find erf ppf rs sectors fuel max_steps st md me cond t,
  (forall s, In s sectors -> approximate_clock nan qags find erf ppf s) ->
  propagate rs sectors fuel max_steps st md me cond = Some (Ok t) ->
  forall a b, followed_by t a b ->
  Rabs (29979245800 * (time b - time a) - (propagated_distance b - propagated_distance a)) <= / 1000.
Proof. exact light_speed. Qed.
Print Assumptions C81_light_speed.
Example C81_light_speed_example : forall nan qags,
  approximate_clock nan qags find_exact squash quantile_example (lake nan qags) /\
  propagate no_luck [lake nan qags] 1 10 hundred 100000 0 0 = Some (Ok track_light).
Proof. exact (fun nan qags => conj (lake_clock nan qags) (lake_run nan qags)). Qed.

(** A decay happens where the table of the decay integral reaches the random
    number of lifetimes times the density; the particle is stopped at the lower
    limit if the table does not reach it. *)
Theorem C81_lifetime : forall nan qags find erf ppf col f L table reverse lifetime E rnd density most,
  c_decay col = Some (Tabulated f L table reverse, lifetime) -> 0 < lifetime -> 0 < rnd ->
  value_of (calculate nan qags (Tabulated f L table reverse) E L) = Ok most ->
  exists g, u_decay (assemble nan qags find erf ppf col) = Some g /\
    (most <= lifetime * density * - ln rnd -> g E rnd density = Ok L) /\
    (lifetime * density * - ln rnd < most ->
     g E rnd density = value_of (get_upper nan qags find (Tabulated f L table reverse) E (lifetime * density * - ln rnd))).
Proof. exact decay_lifetime. Qed.
Print Assumptions C81_lifetime.
Example C81_lifetime_example : forall nan qags, c_decay decay_collection = Some (unit_calculator, 3) /\
  value_of (calculate nan qags unit_calculator 100 1) = Ok 99.
Proof. exact unit_decays. Qed.
