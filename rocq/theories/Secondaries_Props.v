(** Properties C08, C09, C43-C48: queries on a propagated track. *)
From Verif Require Import Prelude Vec_Model Geometry_Model Propagator_Model Propagator_Spec Shapes_Model Shapes_Spec
  Secondaries_Model Secondaries_Spec Secondaries_Proofs Queries_Proofs Hit_Proofs Hit_Convex_Proofs HitHollow_Proofs Density_Model Toy Toy_Runs Queries_Examples.
From Coq Require Import String Permutation.
Import List ListNotations.

(** ** C08: the reported losses add up to the energy difference *)
Theorem C08_losses_add_up : forall rs sectors,
  (forall s, In s sectors -> proper_losses s) ->
  forall fuel max_steps st md me cond t,
  propagate rs sectors fuel max_steps st md me cond = Some (Ok t) ->
  exists ls lc last,
    get_stochastic_losses t = Ok ls /\ get_continuous_losses t = Ok lc /\
    (exists l, tr_states t = l ++ [last]) /\
    sum (map cl_energy lc) + sum (map sl_energy ls) = energy st - energy last.
Proof. exact c08_sum. Qed.
Print Assumptions C08_losses_add_up.

Example C08_example : forall rs,
  (forall s, In s [ball2] -> proper_losses s) /\
  propagate rs [ball2] 2 10 start 100000 200 0 = Some (Ok track2).
Proof. intros rs. split; [intros s [<-|[]]; apply toy_proper|apply run2]. Qed.

(** ** C09: the loss lists are complete, exclusive and consistent *)
Theorem C09_losses_describe_rows : forall t, parallel t ->
  exists ls lc,
    get_stochastic_losses t = Ok ls /\ get_continuous_losses t = Ok lc /\
    Forall2 describes_stochastic (filter is_stochastic (history t)) ls /\
    Forall2 describes_continuous (filter is_continuous (history t)) lc.
Proof. exact c09_rows. Qed.
Print Assumptions C09_losses_describe_rows.

Theorem C09_rows_partition : forall t, parallel t ->
  Permutation (history t)
    (filter is_continuous (history t) ++ filter is_stochastic (history t) ++ filter is_decay (history t)).
Proof. exact c09_partition. Qed.
Print Assumptions C09_rows_partition.

Theorem C09_filters_select_partial : forall t l, parallel t ->
  get_stochastic_losses t = Ok l ->
  (forall ty, ty <> ContinuousEnergyLoss -> ty <> DecayType ->
     get_stochastic_losses_of t ty = Ok (filter (fun x => itype_eqb (sl_type x) ty) l)) /\
  (forall g, get_stochastic_losses_in t g =
     Ok (filter (fun x => is_inside g (sl_position x) (sl_direction x)) l)).
Proof. exact c09_filters. Qed.
Print Assumptions C09_filters_select_partial.

Theorem C09_continuous_filter_selects : forall t l g, parallel t ->
  get_continuous_losses t = Ok l ->
  get_continuous_losses_in t g = Ok (filter (fun x => is_inside g (cl_end x) (cl_dir_f x)) l).
Proof. exact c09_continuous_filter. Qed.
Print Assumptions C09_continuous_filter_selects.

(** The filter by type is not restricted to stochastic losses: asking for the
    continuous type gives "stochastic" losses which are not in the unfiltered
    list. *)
Theorem C09_type_filter_refuted :
  exists sectors st md me cond t l l',
    (forall rs, exists fuel ms, propagate rs sectors fuel ms st md me cond = Some (Ok t)) /\
    get_stochastic_losses t = Ok l /\ get_stochastic_losses_of t ContinuousEnergyLoss = Ok l' /\
    (exists x, In x l' /\ ~ In x l).
Proof. exact c09_type_refuted. Qed.
Print Assumptions C09_type_filter_refuted.

(** The filter by name agrees with the filter by type for the known names, and
    is undefined behaviour for all others. *)
Theorem C09_named_filter_partial : forall t name,
  (forall ty, In (ty, name) type_names ->
     get_stochastic_losses_named t name = get_stochastic_losses_of t ty) /\
  (~ In name (map snd type_names) -> get_stochastic_losses_named t name = UB deref_end).
Proof. exact c09_named. Qed.
Print Assumptions C09_named_filter_partial.

Example C09_example : parallel track2 /\
  exists l x, get_stochastic_losses track2 = Ok l /\ l = [x] /\ sl_type x = Brems.
Proof. split; [exact parallel2|]. do 2 eexists. repeat split. Qed.

(** ** C43: GetStateForDistance *)
Theorem C43_state_for_distance : forall sectors nan t x r, measured t ->
  get_state_for_distance sectors nan t x = Ok r ->
  exists first, nth_error (tr_states t) 0 = Some first /\
    ((x <= propagated_distance first /\ r = first) \/
     (propagated_distance first < x /\
      (forall s, In s (tr_states t) -> propagated_distance s <= x) /\ exists l, tr_states t = l ++ [r]) \/
     (exists i a b, neighbours t i a b /\
        propagated_distance a <= x < propagated_distance b /\
        (forall j s, (j <= i)%nat -> nth_error (tr_states t) j = Some s -> propagated_distance s <= x) /\
        propagated_distance r = x /\ continued sectors a b (x - propagated_distance a) r)).
Proof. exact c43_distance. Qed.
Print Assumptions C43_state_for_distance.

Theorem C43_state_for_distance_defined : forall sectors nan t x, measured t -> tr_states t <> [] ->
  (forall i a b d, neighbours t i a b -> propagated_distance a <= x < propagated_distance b -> heading a b d ->
     exists s g e dt, innermost sectors (position a) d s /\
       d_calculate (s_density s) (position a) (direction a) (x - propagated_distance a) = Ok g /\
       u_upper_limit (s_utility s) (energy a) g = Ok e /\
       u_time (s_utility s) (energy a) e (x - propagated_distance a) (d_evaluate (s_density s) (position a)) = Ok dt) ->
  exists r, get_state_for_distance sectors nan t x = Ok r.
Proof. exact c43_defined. Qed.
Print Assumptions C43_state_for_distance_defined.

Example C43_example : measured track2 /\ forall nan,
  get_state_for_distance [ball2] nan track2 525 = Ok (mkpstate (px 525) ex 225 525 525).
Proof. exact (conj measured2 query2). Qed.

(** ** C44: GetStateForEnergy *)
Theorem C44_state_for_energy : forall sectors nan t e r, parallel t ->
  (forall i a b, neighbours t i a b -> energy b < energy a ->
     nth_error (tr_types t) (S i) = Some ContinuousEnergyLoss -> 0 < apart a b) ->
  get_state_for_energy sectors nan t e = Ok r ->
  exists first, nth_error (tr_states t) 0 = Some first /\
    ((energy first <= e /\ r = first) \/
     (e < energy first /\ (forall s, In s (tr_states t) -> e <= energy s) /\ exists l, tr_states t = l ++ [r]) \/
     (exists i a b ty, neighbours t i a b /\ nth_error (tr_types t) (S i) = Some ty /\
        energy b < e <= energy a /\
        (forall j s, (j <= i)%nat -> nth_error (tr_states t) j = Some s -> e <= energy s) /\
        (ty <> ContinuousEnergyLoss -> r = a) /\
        (ty = ContinuousEnergyLoss ->
           energy r = e /\ heading a b (direction r) /\
           exists s g x m, innermost sectors (position a) (direction r) s /\
             u_track_integral (s_utility s) (energy a) e = Ok g /\
             d_correct (s_density s) (position a) (direction a) g m = Ok x /\
             position r = at_ (position a) (direction r) x /\
             propagated_distance r = propagated_distance a + x))).
Proof. exact c44_energy. Qed.
Print Assumptions C44_state_for_energy.

Example C44_example : parallel track2 /\
  (forall i a b, neighbours track2 i a b -> energy b < energy a ->
     nth_error (tr_types track2) (S i) = Some ContinuousEnergyLoss -> 0 < apart a b) /\
  forall nan, get_state_for_energy [ball2] nan track2 225 = Ok (mkpstate (px 525) ex 225 525 525).
Proof. exact (conj parallel2 (conj apart2 energy2)). Qed.

(** ** C45: entry and exit points *)
Theorem C45_entry_point : forall sectors t g r,
  get_entry_point sectors t g = Ok (Some r) ->
  exists first, nth_error (tr_states t) 0 = Some first /\
    ((is_entering g (position first) (direction first) = true /\ r = first) \/
     (is_inside g (position first) (direction first) = false /\
      exists i a b d, neighbours t i a b /\ heading a b d /\
        (let x := fst (g_distance_to_border g (position a) d) in
         found_on sectors a b b x (apart a b - x) r) /\
        (forall j a' b' d', (j < i)%nat -> neighbours t j a' b' -> 0 < apart a' b' -> heading a' b' d' ->
           ~ 0 <= fst (g_distance_to_border g (position a') d') <= apart a' b'))).
Proof. exact c45_entry_some. Qed.
Print Assumptions C45_entry_point.

Theorem C45_no_entry_point : forall sectors t g,
  get_entry_point sectors t g = Ok None ->
  exists first, nth_error (tr_states t) 0 = Some first /\
    is_entering g (position first) (direction first) = false /\
    (is_inside g (position first) (direction first) = true \/
     forall i a b d, neighbours t i a b -> 0 < apart a b -> heading a b d ->
       ~ 0 <= fst (g_distance_to_border g (position a) d) <= apart a b).
Proof. exact c45_entry_none. Qed.
Print Assumptions C45_no_entry_point.

Theorem C45_exit_point : forall sectors t g r,
  get_exit_point sectors t g = Ok (Some r) ->
  exists first last l, nth_error (tr_states t) 0 = Some first /\ tr_states t = l ++ [last] /\
    ((is_leaving g (position last) (direction last) = true /\ r = last) \/
     (is_inside g (position last) (direction last) = false /\
      ((exists i a b d, neighbours t i a b /\ heading a b d /\
          (let x := fst (g_distance_to_border g (position b) (vneg d)) in
           found_on sectors a b a (apart a b - x) (apart a b - x) r) /\
          (forall j a' b' d', (i < j)%nat -> neighbours t j a' b' -> 0 < apart a' b' -> heading a' b' d' ->
             ~ 0 <= fst (g_distance_to_border g (position b') (vneg d')) <= apart a' b')) \/
       (is_leaving g (position first) (direction first) = true /\ r = first)))).
Proof. exact c45_exit_some. Qed.
Print Assumptions C45_exit_point.

Theorem C45_sphere_border : forall sectors t r h c rad ri, 0 <= ri < rad ->
  enters_on sectors t r (sphere h c rad ri) (sphere_surface c rad ri) /\
  leaves_on sectors t r (sphere h c rad ri) (sphere_surface c rad ri).
Proof. exact c45_sphere. Qed.
Print Assumptions C45_sphere_border.

Theorem C45_box_border : forall sectors t r h c x y z, 0 <= x -> 0 <= y -> 0 <= z ->
  enters_on sectors t r (box h c x y z) (fun q => exists f, on_face c x y z q f) /\
  leaves_on sectors t r (box h c x y z) (fun q => exists f, on_face c x y z q f).
Proof. exact c45_box. Qed.
Print Assumptions C45_box_border.

Theorem C45_cylinder_border : forall sectors t r h c rad ri z, 0 <= ri < rad ->
  enters_on sectors t r (cylinder h c rad ri z) (cylinder_surface c rad ri z) /\
  leaves_on sectors t r (cylinder h c rad ri z) (cylinder_surface c rad ri z).
Proof. exact c45_cylinder. Qed.
Print Assumptions C45_cylinder_border.

(** The toy track crosses a sphere of radius 10 around its point 250. *)
Example C45_example :
  get_entry_point [ball2] track2 probe = Ok (Some (mkpstate (px 240) ex 760 240 240)) /\
  get_exit_point [ball2] track2 probe = Ok (Some (mkpstate (px 260) ex 740 260 260)).
Proof. exact (conj entry2 exit2). Qed.

(** The energy lost in a geometry that contains the whole track dereferences a
    null pointer. *)
Theorem C45_energy_lost_refuted :
  exists sectors st md me cond t g,
    (forall rs, exists fuel ms, propagate rs sectors fuel ms st md me cond = Some (Ok t)) /\
    get_elost sectors t g = UB null_deref.
Proof. exact c45_elost_refuted. Qed.
Print Assumptions C45_energy_lost_refuted.

(** ** C46: HitGeometry *)
Theorem C46_hit_sphere_partial : forall h c r, 0 < r -> forall t,
  clear_of_border c r (tr_states t) -> tr_states t <> [] ->
  (forall l s, tr_states t = l ++ [s] -> unit (direction s)) ->
  exists answer, hit_geometry t (sphere h c r 0) = Ok answer /\
    (answer = true <-> exists q, on_track (tr_states t) q /\ dist q c < r).
Proof. exact c46_hit. Qed.
Print Assumptions C46_hit_sphere_partial.

Example C46_example : clear_of_border (px 525) 10 (tr_states track2).
Proof. exact clear2. Qed.

Theorem C46_hit_box_partial : forall h c x y z, 0 < x -> 0 < y -> 0 < z -> forall t,
  clear_of_box c x y z (tr_states t) -> tr_states t <> [] -> all_rays (no_edges c x y z) (tr_states t) ->
  exists answer, hit_geometry t (box h c x y z) = Ok answer /\
    (answer = true <-> exists q, on_track (tr_states t) q /\ box_interior c x y z q).
Proof. exact c46_box. Qed.
Print Assumptions C46_hit_box_partial.

Example C46_box_example :
  clear_of_box (px 525) 20 20 20 (tr_states track2) /\ all_rays (no_edges (px 525) 20 20 20) (tr_states track2).
Proof. exact clear_box2. Qed.

Theorem C46_hit_cylinder_partial : forall h c r z, 0 < r -> 0 < z -> forall t,
  clear_of_cylinder c r z (tr_states t) -> tr_states t <> [] -> all_rays (no_rim c r z) (tr_states t) ->
  exists answer, hit_geometry t (cylinder h c r 0 z) = Ok answer /\
    (answer = true <-> exists q, on_track (tr_states t) q /\ cylinder_interior c r z q).
Proof. exact c46_cylinder. Qed.
Print Assumptions C46_hit_cylinder_partial.

Example C46_cylinder_example :
  clear_of_cylinder (px 525) 10 20 (tr_states track2) /\ all_rays (no_rim (px 525) 10 20) (tr_states track2).
Proof. exact clear_cylinder2. Qed.

(** A hollow sphere, when no state of the track is in the hole. *)
Theorem C46_hit_hollow_sphere_partial : forall h c r ri, 0 < ri < r -> forall t,
  clear_of_border c r (tr_states t) -> clear_of_hole c ri (tr_states t) -> tr_states t <> [] ->
  (forall l s, tr_states t = l ++ [s] -> unit (direction s)) ->
  exists answer, hit_geometry t (sphere h c r ri) = Ok answer /\
    (answer = true <-> exists q, on_track (tr_states t) q /\ ri < dist q c < r).
Proof. exact c46_hollow_sphere. Qed.
Print Assumptions C46_hit_hollow_sphere_partial.

Example C46_hollow_sphere_example : clear_of_border (px 525) 10 (tr_states track2) /\ clear_of_hole (px 525) 5 (tr_states track2).
Proof. exact (conj clear2 clear_hole2). Qed.

(** A track that ends in the hole of a hollow sphere has passed through its
    shell, but the answer is no. *)
Theorem C46_hollow_refuted : exists t g q,
  g = sphere 0 (mkvec 0 0 0) 10 5 /\ length (tr_states t) = 2%nat /\
  (forall s, In s (tr_states t) -> unit (direction s)) /\
  on_track (tr_states t) q /\ dist q (mkvec 0 0 0) = 7 /\ hit_geometry t g = Ok false.
Proof. exact c46_hollow. Qed.
Print Assumptions C46_hollow_refuted.

(** ** C47: closest approach *)
Theorem C47_closest_approach_partial : forall sectors g u t r,
  straight u (tr_states t) -> get_closest_approach_point sectors t g = Ok r ->
  forall q, on_track (tr_states t) q ->
  sqdist (position r) (g_position g) <=
    sqdist q (g_position g) + PARTICLE_POSITION_RESOLUTION * PARTICLE_POSITION_RESOLUTION.
Proof. exact (fun sectors g u t r => c47_closest sectors g u (tr_states t) r). Qed.
Print Assumptions C47_closest_approach_partial.

(** Missing: tracks with scattering, for which the search stops at the first
    local minimum. *)
Theorem C47_closest_approach_refuted :
  exists t g, forall sectors, exists r s,
    get_closest_approach_point sectors t g = Ok r /\ In s (tr_states t) /\
    sqdist (position s) (g_position g) + 9 <= sqdist (position r) (g_position g).
Proof. exact c47_refuted. Qed.
Print Assumptions C47_closest_approach_refuted.

Example C47_example : straight ex (tr_states track2).
Proof. exact straight2. Qed.

(** ** C48: time of an interpolated state *)
(** With the approximate clock (speed of light) and density 2, the whole step
    takes the time of light, an intermediate state of the same step half of it. *)
Theorem C48_time_refuted :
  exists sectors st md me cond t a b,
    (forall rs, exists fuel ms, propagate rs sectors fuel ms st md me cond = Some (Ok t)) /\
    tr_states t = [a; b] /\
    propagated_distance b - propagated_distance a = SPEED * (time b - time a) /\
    forall nan, exists r, get_state_for_distance sectors nan t 100 = Ok r /\
      propagated_distance r - propagated_distance a = 2 * (SPEED * (time r - time a)).
Proof. exact c48_refuted. Qed.
Print Assumptions C48_time_refuted.

(** With the exact clock the interpolated time is that of the energies passed. *)
Theorem C48_exact_time_partial : forall sectors nan t x r (clock : sector -> R -> R -> outcome R),
  (forall s, In s sectors -> u_time (s_utility s) = exact_time (clock s)) ->
  measured t -> get_state_for_distance sectors nan t x = Ok r ->
  In r (tr_states t) \/
  exists i a b s dt, neighbours t i a b /\ propagated_distance a <= x < propagated_distance b /\
    innermost sectors (position a) (direction r) s /\ clock s (energy a) (energy r) = Ok dt /\
    time r = time a + dt / d_evaluate (s_density s) (position a).
Proof. exact c48_exact. Qed.
Print Assumptions C48_exact_time_partial.
