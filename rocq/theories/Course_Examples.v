(** A particle in a ball with tables of a constant loss. *)
From Verif Require Import Prelude PreludeFacts Vec_Model Geometry_Model Density_Model Propagator_Model Propagator_Spec Propagator_Proofs Toy Toy_Runs
  Trapezoid_Proofs Integral_Proofs Integral_Model Utility_Model Utility_Spec Utility_Proofs Utility_Examples Course_Model Course_Spec.

Definition halving (E rnd : R) : outcome loss := Ok (mkloss Brems 1 (1 / 2)).
Definition unit_collection : collection :=
  mkcollection unit_calculator unit_calculator None (Some unit_calculator) None halving None.
Definition slab nan qags : sector :=
  mksector (ball 1 10000) (assemble nan qags find_exact squash quantile_example unit_collection) toy_density.
Definition no_luck : nat -> R := fun _ => 0.

Lemma slab_ok nan qags : exists g d col c, slab nan qags = mksector g (assemble nan qags find_exact squash quantile_example col) d /\ tables 1 col /\
  c_time col = Some c /\ table_of_losses 1 c /\ forall p, 0 < d_evaluate d p.
Proof.
  exists (ball 1 10000), toy_density, unit_collection, unit_calculator.
  assert (T : table_from 1 unit_calculator) by (exists unit_loss, identity_table, false; reflexivity).
  split; [reflexivity|]. split; [|split; [reflexivity|split]].
  - split; try assumption; try discriminate. intros E r l H. injection H as <-. cbn. lra.
  - exists unit_loss, identity_table, false. split; [reflexivity|]. split.
    + intros E y _ H. injection H as <-. lra.
    + intros E E' H. unfold identity_table. lra.
  - intro p. cbn. lra.
Qed.

Lemma slab_lower nan qags : u_lower_lim (s_utility (slab nan qags)) = 1.
Proof. reflexivity. Qed.
Lemma slab_interaction nan qags : u_interaction (s_utility (slab nan qags)) 100 0 = Ok 1.
Proof.
  unfold slab, assemble. cbn [s_utility u_interaction c_interaction unit_collection]. unfold Utility_Model.energy_interaction, minus_log.
  rewrite ltb_no by lra. destruct (Reqb_spec 0 0) as [_|X]; [|lra]. cbn [done fbind].
  unfold unit_calculator. rewrite table_value by (cbn; unfold apart; lra). reflexivity.
Qed.
Lemma slab_border nan qags : calculate_distance_to_border [slab nan qags] (px 0) ex (ball 1 10000) = 10000 - 0.
Proof. unfold calculate_distance_to_border. cbn [fold_left slab s_geometry]. rewrite !ball_hierarchy. cbn. rewrite ball_ahead by lra. reflexivity. Qed.
Lemma slab_lookup nan qags : get_current_sector [slab nan qags] (px 0) ex = Ok (slab nan qags).
Proof. unfold get_current_sector. cbn [filter slab s_geometry]. rewrite !ball_inside by lra. reflexivity. Qed.

Definition hundred : pstate := mkpstate (px 0) ex 100 0 0.
(** Down to the lower limit *)
Definition track_down : track :=
  mktrack [hundred; mkpstate (px 99) ex 1 99 99] [ContinuousEnergyLoss; ContinuousEnergyLoss] [0; 0]%N.
(** Up to the minimal energy *)
Definition track_up : track :=
  mktrack [hundred; mkpstate (px (-100)) ex 200 (-100) (-100)] [ContinuousEnergyLoss; ContinuousEnergyLoss] [0; 0]%N.

Lemma slab_run nan qags me e x t : Rmax me 1 = e -> 1 <= e -> 
  value_of (calculate nan qags unit_calculator 100 e) = Ok x -> x <= 10000 -> t = mkpstate (px x) ex e x x ->
  propagate no_luck [slab nan qags] 1 10 hundred 100000 me 0 = Some (Ok (mktrack [hundred; t] [ContinuousEnergyLoss; ContinuousEnergyLoss] [0; 0]%N)).
Proof.
  intros M E1 C B ->. unfold propagate, propagate_events, propagate_init.
  change (position hundred) with (px 0). change (direction hundred) with ex.
  rewrite slab_lookup. cbn [obind propagate_loop].
  assert (D : calculate nan qags unit_calculator 100 e = Some (Ok (x, unit_calculator))).
  { revert C. unfold unit_calculator. cbn [calculate]. unfold done, unit_loss. destruct (_ <? _); cbn; intro C; injection C as ->; reflexivity. }
  destruct (first_try no_luck [slab nan qags] 10 10 hundred e 100000 (slab nan qags) true e 1 x x x (10000 - 0)) as [H _];
    try reflexivity; try lia; try lra.
  { exact C. }
  { unfold slab, assemble. cbn [s_utility s_density u_time c_time unit_collection toy_density d_evaluate]. unfold time_elapsed.
    cbn [energy hundred]. rewrite D. cbn [fbind]. unfold quotient. rewrite eqb_no by lra. cbn. f_equal. field. }
  { apply slab_border. }
  { apply ball_inside; lra. }
  specialize (H ltac:(lra) ltac:(cbn; lra)).
  change (position hundred) with (px 0) in H. change (direction hundred) with ex in H.
  change (time hundred) with 0 in H. change (propagated_distance hundred) with 0 in H.
  rewrite px_add in H. replace (0 + x) with x in H by ring.
  edestruct eval_minimal with (cond := 0%N) (me := me) (rs := no_luck) (p := mkprop (push_back empty_track hundred ContinuousEnergyLoss 0) hundred (slab nan qags) 0)
     (e_stoch := 1) (e_min := e) as (ev & E); [reflexivity| | | | |exact H|].
  { exact (slab_interaction nan qags). }
  { exact M. }
  { lra. }
  { lra. }
  rewrite E. reflexivity.
Qed.
Lemma slab_down nan qags : propagate no_luck [slab nan qags] 1 10 hundred 100000 0 0 = Some (Ok track_down).
Proof.
  apply (slab_run nan qags 0 1 99); try lra; [apply Rmax_right; lra| |reflexivity].
  unfold unit_calculator. rewrite table_value by (unfold apart; lra). unfold table_difference, identity_table. cbn. f_equal. lra.
Qed.
Lemma slab_up nan qags : propagate no_luck [slab nan qags] 1 10 hundred 100000 200 0 = Some (Ok track_up).
Proof.
  apply (slab_run nan qags 200 200 (-100)); try lra; [apply Rmax_left; lra| |reflexivity].
  unfold unit_calculator. cbn [calculate]. destruct (Rltb_spec (100 - 200) (100 * IPREC)) as [X|X].
  - cbn. f_equal. lra.
  - exfalso. apply X. unfold IPREC. lra.
Qed.
Lemma start_below nan qags : exists rs sectors st md me t a b,
  (forall k, 0 <= rs k <= 1) /\
  (forall s, In s sectors -> exists g d col c, s = mksector g (assemble nan qags find_exact squash quantile_example col) d /\ tables 1 col /\
     c_time col = Some c /\ table_of_losses 1 c /\ forall p, 0 < d_evaluate d p) /\
  1 < energy st < me /\ propagate rs sectors 1 10 st md me 0 = Some (Ok t) /\
  followed_by t a b /\ energy b = 2 * energy a /\ time b < time a /\ propagated_distance b < propagated_distance a.
Proof.
  exists no_luck, [slab nan qags], hundred, 100000, 200, track_up, hundred, (mkpstate (px (-100)) ex 200 (-100) (-100)).
  split; [intro; unfold no_luck; lra|]. split; [intros s [<-|[]]; apply slab_ok|]. split; [cbn; lra|]. split; [apply slab_up|].
  split; [exists 0%nat; split; reflexivity|]. cbn. lra.
Qed.

(** The same tables with the approximate clock, with and without decays *)
Definition decay_collection : collection :=
  mkcollection unit_calculator unit_calculator (Some (unit_calculator, 3)) None None halving None.
Definition no_decay_collection : collection :=
  mkcollection unit_calculator unit_calculator None None None halving None.
Definition lake nan qags : sector :=
  mksector (ball 1 10000) (assemble nan qags find_exact squash quantile_example no_decay_collection) (homogeneous (Throw runtime_error) 2).
Definition track_light : track :=
  mktrack [hundred; mkpstate (px (99 / 2)) ex 1 (99 / (2 * Utility_Model.SPEED)) (99 / 2)] [ContinuousEnergyLoss; ContinuousEnergyLoss] [0; 0]%N.
Lemma lake_clock nan qags : approximate_clock nan qags find_exact squash quantile_example (lake nan qags).
Proof. exists (ball 1 10000), no_decay_collection, (Throw runtime_error), 2. split; [reflexivity|]. split; [reflexivity|lra]. Qed.
Lemma lake_border nan qags : calculate_distance_to_border [lake nan qags] (px 0) ex (ball 1 10000) = 10000 - 0.
Proof. unfold calculate_distance_to_border. cbn [fold_left lake s_geometry]. rewrite !ball_hierarchy. cbn. rewrite ball_ahead by lra. reflexivity. Qed.
Lemma lake_lookup nan qags : get_current_sector [lake nan qags] (px 0) ex = Ok (lake nan qags).
Proof. unfold get_current_sector. cbn [filter lake s_geometry]. rewrite !ball_inside by lra. reflexivity. Qed.
Lemma lake_run nan qags : propagate no_luck [lake nan qags] 1 10 hundred 100000 0 0 = Some (Ok track_light).
Proof.
  unfold propagate, propagate_events, propagate_init.
  change (position hundred) with (px 0). change (direction hundred) with ex.
  rewrite lake_lookup. cbn [obind propagate_loop].
  assert (C : value_of (calculate nan qags unit_calculator 100 1) = Ok 99).
  { unfold unit_calculator. rewrite table_value by (unfold apart; lra). unfold table_difference, identity_table. cbn. f_equal. lra. }
  destruct (first_try no_luck [lake nan qags] 10 10 hundred 1 100000 (lake nan qags) true 1 1 99 (99 / 2) (99 / (2 * Utility_Model.SPEED)) (10000 - 0)) as [H _];
    try reflexivity; try lia; try lra.
  { exact C. }
  { unfold lake, homogeneous. cbn [s_density d_correct]. rewrite eqb_no by lra. reflexivity. }
  { unfold lake, assemble. cbn [s_utility s_density u_time c_time no_decay_collection homogeneous d_evaluate]. unfold approximate_time_elapsed, quotient.
    rewrite eqb_no by (unfold Utility_Model.SPEED; lra). reflexivity. }
  { apply lake_border. }
  { apply ball_inside; lra. }
  specialize (H ltac:(lra) ltac:(cbn; lra)).
  change (position hundred) with (px 0) in H. change (direction hundred) with ex in H.
  change (time hundred) with 0 in H. change (propagated_distance hundred) with 0 in H.
  rewrite px_add in H. rewrite !Rplus_0_l in H.
  edestruct eval_minimal with (cond := 0%N) (me := 0) (rs := no_luck) (p := mkprop (push_back empty_track hundred ContinuousEnergyLoss 0) hundred (lake nan qags) 0)
     (e_stoch := 1) (e_min := 1) as (ev & E); [reflexivity| | | | |exact H|].
  { exact (slab_interaction nan qags). }
  { apply Rmax_right; unfold lake; cbn; lra. }
  { lra. }
  { lra. }
  rewrite E. reflexivity.
Qed.
Lemma unit_decays nan qags : c_decay decay_collection = Some (unit_calculator, 3) /\
  value_of (calculate nan qags unit_calculator 100 1) = Ok 99.
Proof.
  split; [reflexivity|]. unfold unit_calculator. rewrite table_value by (unfold apart; lra). unfold table_difference, identity_table. cbn. f_equal. lra.
Qed.
