(** Properties C01-C07 and C55: the propagation loop. *)
From Verif Require Import Prelude Vec_Model Geometry_Model Propagator_Model Propagator_Spec
  Propagator_Proofs Overshoot_Proofs Propagate_Proofs Toy Numbers_Proofs Toy_Runs.

(** ** C01: which sector a particle is in *)
Theorem C01_sector_lookup : forall sectors p d,
  (forall s, get_current_sector sectors p d = Ok s <-> innermost sectors p d s) /\
  (forall s, secondaries_get_current_sector sectors p d = Ok s <-> innermost sectors p d s) /\
  ((forall s, In s sectors -> ~ contains s p d) ->
     get_current_sector sectors p d = UB deref_end /\
     secondaries_get_current_sector sectors p d = Throw logic_error) /\
  ((exists s, In s sectors /\ contains s p d) ->
     exists s, get_current_sector sectors p d = Ok s).
Proof. exact c01_lookup. Qed.
Print Assumptions C01_sector_lookup.

Example C01_example :
  get_current_sector [inner1; outer1] (px 0) ex = Ok inner1 /\
  get_current_sector [inner1; outer1] (px 100) ex = Ok outer1.
Proof. exact (conj lookup_start1 lookup_end1). Qed.

(** ** C02: distance to the next border *)
Theorem C02_distance_to_border : forall sectors p d g x,
  calculate_distance_to_border sectors p d g = x <-> is_nearest_border sectors p d g x.
Proof. exact c02_border. Qed.
Print Assumptions C02_distance_to_border.

Example C02_example : calculate_distance_to_border [inner1; outer1] (px 0) ex (ball 0 200) = 100.
Proof. exact border1_outer. Qed.

(** ** C03: which event comes first *)
Theorem C03_event_arbitration : forall e_decay e_min e_stoch k,
  maximize e_decay e_min e_stoch = k <-> wins e_decay e_min e_stoch k.
Proof. exact c03_maximize. Qed.
Print Assumptions C03_event_arbitration.

Example C03_example : maximize 5 5 5 = Decay /\ maximize 1 2 3 = Stochastic.
Proof. exact maximize_examples. Qed.

(** ** C04: one propagation step *)
Theorem C04_step_ending : forall rs sectors fuel max_steps st e_next final s mes me n st' at' s' n',
  advance_particle rs sectors fuel max_steps st e_next final s mes me n = Some (Ok (st', at', s', n')) ->
  legal_ending sectors st e_next final me mes st' at' s'.
Proof. exact c04_legal. Qed.
Print Assumptions C04_step_ending.

Theorem C04_step_terminates : forall rs sectors max_steps st e_next final s mes me n,
  advance_particle rs sectors (S max_steps) max_steps st e_next final s mes me n <> None.
Proof. exact c04_terminates. Qed.
Print Assumptions C04_step_terminates.

Theorem C04_fuel_irrelevant : forall rs sectors fuel max_steps st e_next final s mes me n r,
  advance_particle rs sectors fuel max_steps st e_next final s mes me n = Some r ->
  advance_particle rs sectors (S max_steps) max_steps st e_next final s mes me n = Some r.
Proof. exact c04_fuel. Qed.
Print Assumptions C04_fuel_irrelevant.

Theorem C04_no_logic_error : forall rs sectors,
  (forall s, In s sectors -> quiet_sector s) ->
  forall fuel max_steps st e_next final s mes me n,
  quiet_sector s -> e_next <> -1 -> propagated_distance st <= final ->
  advance_particle rs sectors fuel max_steps st e_next final s mes me n <> Some (Throw logic_error).
Proof. exact c04_no_logic_error. Qed.
Print Assumptions C04_no_logic_error.

(** Without [propagated_distance st <= final] the internal error is reachable:
    a particle that has already travelled one unit too far. *)
Theorem C04_logic_error_refuted :
  exists sectors st e_next final s, (forall s', In s' sectors -> quiet_sector s') /\ In s sectors /\
    contains s (position st) (direction st) /\ 0 < e_next < energy st /\
    forall rs, exists fuel max_steps,
      advance_particle rs sectors fuel max_steps st e_next final s false 0 0 = Some (Throw logic_error).
Proof. exact c04_logic_error_refuted. Qed.
Print Assumptions C04_logic_error_refuted.

Example C04_example : forall rs,
  advance_particle rs [ball2] 11 10 start 500 100000 ball2 false 200 1 =
  Some (Ok (mkpstate (px 500) ex 500 500 500, ReachedInteraction, ball2, 1%nat)) /\
  quiet_sector ball2.
Proof. exact c04_example. Qed.

(** ** C05: the maximal distance *)
Theorem C05_max_distance_partial : forall rs sectors,
  (forall s, In s sectors -> proper_losses s) ->
  forall fuel max_steps st md me cond t pre last st' l,
  propagate_events rs sectors fuel max_steps st md me cond = Some (Ok (t, pre ++ [last])) ->
  tr_states t = l ++ [st'] ->
  ev_advancement last <> ReachedBorder -> propagated_distance st' <= md.
Proof. exact c05_partial. Qed.
Print Assumptions C05_max_distance_partial.

(** A single step that does not run into the limit on the number of retries
    overshoots by more than the position resolution only if the interaction
    point itself, which is not limited by the maximal distance, coincides with
    the border. *)
Theorem C05_step_overshoot : forall rs sectors fuel max_steps st e_next final s mes me n st' at' s' n',
  (fuel <= max_steps)%nat ->
  advance_particle rs sectors fuel max_steps st e_next final s mes me n = Some (Ok (st', at', s', n')) ->
  propagated_distance st' <= final + / 1000 \/
  exists x, interaction_at s' st e_next x /\
    Rabs (propagated_distance st + x - propagated_distance st') <= / 1000.
Proof. exact c05_overshoot. Qed.
Print Assumptions C05_step_overshoot.

(** The full statement is false: the final state can lie beyond the requested
    maximal distance (here by 90 of 10). *)
Theorem C05_max_distance_refuted :
  exists sectors st md me cond t st' l,
    (forall s, In s sectors -> proper_losses s) /\ propagated_distance st <= md /\
    (forall rs, exists fuel max_steps, propagate rs sectors fuel max_steps st md me cond = Some (Ok t)) /\
    tr_states t = l ++ [st'] /\ md + 90 <= propagated_distance st'.
Proof. exact c05_refuted. Qed.
Print Assumptions C05_max_distance_refuted.

Example C05_example : forall rs, exists ev,
  propagate_events rs [ball2] 2 10 start 100000 200 0 = Some (Ok (track2, ev)) /\
  tr_states track2 = [start; mkpstate (px 500) ex 500 500 500; after_loss] ++ [mkpstate (px 550) ex 200 550 550].
Proof. exact c05_example. Qed.

(** ** C06: shape of the returned track *)
Theorem C06_track_shape : forall rs sectors,
  (forall s, In s sectors -> proper_losses s) ->
  forall fuel max_steps st md me cond t,
  propagate rs sectors fuel max_steps st md me cond = Some (Ok t) -> well_shaped st t.
Proof. exact c06_shape. Qed.
Print Assumptions C06_track_shape.

Example C06_example :
  (forall s, In s [ball2] -> proper_losses s) /\
  forall rs, propagate rs [ball2] 2 10 start 100000 200 0 = Some (Ok track2).
Proof. exact c06_example. Qed.

(** ** C07: reasons to stop *)
Theorem C07_stop_reasons : forall rs sectors,
  (forall s, In s sectors -> proper_losses s) ->
  forall fuel max_steps st md me cond t,
  propagate rs sectors fuel max_steps st md me cond = Some (Ok t) ->
  exists pre last,
    propagate_events rs sectors fuel max_steps st md me cond = Some (Ok (t, pre ++ [last])) /\
    stop_reason cond last /\ Forall (fun e => ~ stop_reason cond e) pre.
Proof. exact c07_events. Qed.
Print Assumptions C07_stop_reasons.

Theorem C07_observable_stop : forall rs sectors,
  (forall s, In s sectors -> proper_losses s) ->
  forall fuel max_steps st md me cond t,
  propagate rs sectors fuel max_steps st md me cond = Some (Ok t) ->
  observable_stop sectors md me cond t.
Proof. exact c07_observable. Qed.
Print Assumptions C07_observable_stop.

Example C07_example : forall rs,
  propagate rs [inner1; outer1] 1 10 start 10 1 1 = Some (Ok track1) /\
  propagate rs [ball2] 2 10 start 100000 200 0 = Some (Ok track2).
Proof. exact c07_example. Qed.

(** ** C55: random numbers of a step *)
Theorem C55_step_numbers : forall rs sectors, (forall k, rs k <> -1) ->
  forall fuel max_steps st e_next final s mes me n st' at' s' n',
  advance_particle rs sectors fuel max_steps st e_next final s mes me n = Some (Ok (st', at', s', n')) ->
  (forall ms, multiple_of s' = Some ms ->
   exists k g e o, n' = (n + 4 * k + 4)%nat /\
     ms g (energy st) e (block rs (n + 4 * k)) = Ok o /\
     direction st' = snd (scatter_initial_direction (direction st) o) /\
     moved st st' (fst (scatter_initial_direction (direction st) o))
       (propagated_distance st' - propagated_distance st) /\
     (forall cr, u_cont_rand (s_utility s') = Some cr -> mes = false \/ at' <> ReachedInteraction ->
      exists e', cr (energy st) e' (rs (n + 4 * k)%nat) me = Ok (energy st') /\
        (at' <> ReachedBorder -> e' = e))) /\
  (forall cr, u_cont_rand (s_utility s') = Some cr -> mes = false \/ at' <> ReachedInteraction ->
   exists k e', cr (energy st) e' (rs (n + 4 * k)%nat) me = Ok (energy st')).
Proof. exact c55_numbers. Qed.
Print Assumptions C55_step_numbers.

Example C55_example : forall rs, rs 0%nat <> -1 ->
  advance_particle rs [shaky] 1 10 (mkpstate (px 0) ex 1000 0 0) 500 100000 shaky false 0 0 =
  Some (Ok (mkpstate (px 500) ex (500 - rs 0%nat) 500 500, ReachedInteraction, shaky, 4%nat)).
Proof. exact run4. Qed.
