(** Specification vocabulary for the propagation properties; it does not use
    the model's step functions. *)
From Verif Require Import Prelude Vec_Model Geometry_Model Propagator_Model.

(** A sector contains the ray (p, d): the forward ray meets the geometry's
    border exactly once (first distance positive, second one "none"). *)
Definition contains (s : sector) (p d : vec) : Prop :=
  let '(first, second) := g_distance_to_border (s_geometry s) p d in
  0 < first /\ second < 0.

(** C01: [s] is the first sector, in configuration order, among the containing
    sectors of maximal hierarchy. *)
Definition innermost (sectors : list sector) (p d : vec) (s : sector) : Prop :=
  exists before after,
    sectors = before ++ s :: after /\
    contains s p d /\
    (forall s', In s' before -> contains s' p d -> (hierarchy s' < hierarchy s)%N) /\
    (forall s', In s' after -> contains s' p d -> (hierarchy s' <= hierarchy s)%N).

(** C02: the candidates for the next border, seen from geometry [g]. *)
Definition border_candidate (sectors : list sector) (p d : vec) (g : geometry) (x : R) : Prop :=
  x = fst (g_distance_to_border g p d) \/
  (exists s, In s sectors /\
     (g_hierarchy g < hierarchy s)%N /\
     x = fst (g_distance_to_border (s_geometry s) p d) /\ 0 <= x).

Definition is_nearest_border (sectors : list sector) (p d : vec) (g : geometry) (x : R) : Prop :=
  border_candidate sectors p d g x /\
  forall y, border_candidate sectors p d g y -> x <= y.

(** C03: the winner has maximal energy and ties are won by the earlier of
    decay, minimal energy, stochastic. *)
Definition kind_energy (e_decay e_min e_stoch : R) (k : event_kind) : R :=
  match k with Decay => e_decay | MinimalE => e_min | Stochastic => e_stoch end.
Definition priority (k : event_kind) : nat :=
  match k with Decay => 0 | MinimalE => 1 | Stochastic => 2 end.
Definition wins (e_decay e_min e_stoch : R) (k : event_kind) : Prop :=
  let e := kind_energy e_decay e_min e_stoch in
  forall k', k' <> k -> e k' < e k \/ (e k' = e k /\ (priority k < priority k')%nat).

(** C04: how one advance step moved the particle. *)
Definition moved (st st' : pstate) (mean : vec) (distance : R) : Prop :=
  position st' = vadd (position st) (scale distance mean) /\
  propagated_distance st' = propagated_distance st + distance.

(** Energy [e], grammage [g] and path length [x] describe the same step: either
    [g] is the grammage needed to reach [e] and [x] its length, or [g] is the
    grammage of the length [x] and [e] the energy reached with it. *)
Definition consistent_step (s : sector) (st : pstate) (e g x : R) : Prop :=
  (u_track_integral (s_utility s) (energy st) e = Ok g /\
   exists m, d_correct (s_density s) (position st) (direction st) g m = Ok x) \/
  (d_calculate (s_density s) (position st) (direction st) x = Ok g /\
   u_upper_limit (s_utility s) (energy st) g = Ok e).

(** The final energy is [e] up to continuous randomisation. *)
Definition energy_up_to_randomisation (s : sector) (st st' : pstate) (e min_energy : R) : Prop :=
  (u_cont_rand (s_utility s) = None /\ energy st' = e) \/
  exists cr r, u_cont_rand (s_utility s) = Some cr /\
    cr (energy st) e r min_energy = Ok (energy st').

(** The clock advances by the elapsed time of the step in its sector. *)
Definition clock_advanced (s : sector) (st st' : pstate) (e g : R) : Prop :=
  exists dt, u_time (s_utility s) (energy st) e g (d_evaluate (s_density s) (position st)) = Ok dt /\
    time st' = time st + dt.

(** Without scattering the particle flies straight; otherwise flight direction
    and new direction belong to one scattering offset. *)
Definition scattered (s : sector) (st : pstate) (mean new : vec) : Prop :=
  match u_scattering (s_utility s) with
  | None => mean = direction st /\ new = direction st
  | Some _ => exists o, (mean, new) = scatter_initial_direction (direction st) o
  end.

(** [min_energy_step]: the step was requested in order to reach the minimal
    energy. [distance] is the distance moved, [border] the distance to the next
    border along the flight direction, [x] the length that belongs to the energy
    loss. *)
Definition legal_ending (sectors : list sector) (st : pstate) (e_next final_distance min_energy : R)
    (min_energy_step : bool) (st' : pstate) (at' : advancement) (s' : sector) : Prop :=
  exists mean distance border e g x,
    moved st st' mean distance /\
    scattered s' st mean (direction st') /\
    is_nearest_border sectors (position st) mean (s_geometry s') border /\
    consistent_step s' st e g x /\
    clock_advanced s' st st' e g /\
    match at' with
    | ReachedInteraction =>
        distance = x /\ e = e_next /\
        distance <= border /\ distance <= final_distance - propagated_distance st /\
        contains s' (position st) mean /\
        (if min_energy_step then energy st' = e_next
         else energy_up_to_randomisation s' st st' e_next min_energy)
    | ReachedMaxDistance =>
        distance = x /\
        distance = final_distance - propagated_distance st /\ distance <= border /\
        contains s' (position st) mean /\
        energy_up_to_randomisation s' st st' e min_energy
    | ReachedBorder =>
        distance = border /\ Rabs (x - border) <= / 1000 /\
        energy_up_to_randomisation s' st st' e min_energy
    end.

(** No callback of a sector throws std::logic_error. *)
Definition no_logic_error {A} (x : outcome A) : Prop := x <> Throw logic_error.
Definition quiet_sector (s : sector) : Prop :=
  (forall a b, no_logic_error (u_track_integral (s_utility s) a b)) /\
  (forall a b, no_logic_error (u_upper_limit (s_utility s) a b)) /\
  (forall a b c d, no_logic_error (u_time (s_utility s) a b c d)) /\
  (forall cr, u_cont_rand (s_utility s) = Some cr -> forall a b c d, no_logic_error (cr a b c d)) /\
  (forall sc ms, u_scattering (s_utility s) = Some sc -> sc_multiple sc = Some ms ->
     forall a b c l, no_logic_error (ms a b c l)) /\
  (forall a b c d, no_logic_error (d_correct (s_density s) a b c d)) /\
  (forall a b c, no_logic_error (d_calculate (s_density s) a b c)).

(** C06: the rows contributed by one propagation step: a continuous-loss row,
    optionally followed by one stochastic or decay row at the same place, time
    and distance; a decay row repeats the state. *)
Definition row := (pstate * itype * N)%type.
Inductive step_rows : list row -> Prop :=
| only_continuous s : step_rows [(s, ContinuousEnergyLoss, 0%N)]
| with_event s s' t h :
    t <> Undefined -> t <> ContinuousEnergyLoss ->
    position s' = position s -> time s' = time s -> propagated_distance s' = propagated_distance s ->
    (t = DecayType -> s' = s) ->
    step_rows [(s, ContinuousEnergyLoss, 0%N); (s', t, h)].

Definition well_shaped (init : pstate) (t : track) : Prop :=
  length (tr_types t) = length (tr_states t) /\
  length (tr_hashes t) = length (tr_states t) /\
  (exists steps : list (list row),
     steps <> [] /\
     Forall step_rows steps /\
     combine (combine (tr_states t) (tr_types t)) (tr_hashes t)
       = (init, ContinuousEnergyLoss, 0%N) :: concat steps) /\
  (forall i, nth_error (tr_types t) i = Some DecayType -> S i = length (tr_types t)).

(** What the interaction calculator may return: never the two tags that
    Propagate itself uses (cross sections do not carry them), and the undefined
    loss of an interaction-free particle has relative loss 0
    (Interaction.cxx, SampleLoss). *)
Definition proper_losses (s : sector) : Prop :=
  forall e r l, u_sample_loss (s_utility s) e r = Ok l ->
    loss_type l <> ContinuousEnergyLoss /\ loss_type l <> DecayType /\
    (loss_type l = Undefined -> v_loss l = 0).

(** C07: the documented reasons to stop after an iteration. *)
Definition stop_reason (cond : N) (ev : event) : Prop :=
  (ev_kind ev = MinimalE /\ ev_advancement ev = ReachedInteraction) \/
  (ev_kind ev = Decay /\ ev_advancement ev = ReachedInteraction) \/
  ev_advancement ev = ReachedMaxDistance \/
  (ev_kind ev = Stochastic /\ ev_advancement ev = ReachedInteraction /\ ev_energy ev <= ev_min_energy ev) \/
  (ev_advancement ev = ReachedBorder /\ (cond < ev_hierarchy_i ev)%N /\ (ev_hierarchy_f ev < cond)%N).

(** Observable counterpart for the returned track: the last row is a decay, or
    the final energy is not above the larger of the requested minimal energy
    and the lower limit of a sector, or the maximal distance is reached
    exactly, or the final point lies in a sector whose hierarchy is below the
    condition. *)
Definition observable_stop (sectors : list sector) (max_distance min_energy : R) (cond : N)
    (t : track) : Prop :=
  exists st, (exists l, tr_states t = l ++ [st]) /\
  ((exists l, tr_types t = l ++ [DecayType]) \/
   (exists s, In s sectors /\ energy st <= Rmax min_energy (u_lower_lim (s_utility s))) \/
   propagated_distance st = max_distance \/
   (exists s, innermost sectors (position st) (direction st) s /\ (hierarchy s < cond)%N)).

(** C05: the point where the particle would interact lies at distance [x]. *)
Definition interaction_at (s : sector) (st : pstate) (e_next x : R) : Prop :=
  exists g m, u_track_integral (s_utility s) (energy st) e_next = Ok g /\
    d_correct (s_density s) (position st) (direction st) g m = Ok x.

(** C55: four consecutive values of the random stream, and the multiple
    scattering of a sector. *)
Definition block (rs : nat -> R) (k : nat) : list R := [rs k; rs (k + 1)%nat; rs (k + 2)%nat; rs (k + 3)%nat].
Definition multiple_of (s : sector) : option (R -> R -> R -> list R -> outcome offset) :=
  match u_scattering (s_utility s) with Some sc => sc_multiple sc | None => None end.
