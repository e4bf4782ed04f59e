(** Concrete runs of the propagation in the environments of [Toy]. *)
From Verif Require Import Prelude PreludeFacts Vec_Model Geometry_Model Propagator_Model Propagator_Spec
  Propagator_Proofs Shapes_Model Shapes_Spec Shapes_Proofs Box_Proofs Vec_Proofs Toy Numbers_Proofs.

Lemma px_add a d : vadd (px a) (scale d ex) = px (a + d).
Proof. unfold vadd, scale, px, ex; cbn. f_equal; ring. Qed.

Lemma eps_tiny : GEOMETRY_PRECISION < / 1000.
Proof. unfold GEOMETRY_PRECISION. apply Rinv_lt_contravar; lra. Qed.

Lemma ball_ahead h r a : 0 < r -> - r < a -> / 1000 <= r - a ->
  g_distance_to_border (ball h r) (px a) ex = (r - a, -1).
Proof. intros. pose proof eps_tiny. rewrite ball_distance, sphere_ahead by lra; auto. Qed.
Lemma ball_left h r a : 0 < r -> r <= a -> g_distance_to_border (ball h r) (px a) ex = (-1, -1).
Proof. intros. rewrite ball_distance, sphere_left by lra; auto. Qed.

Lemma ball_inside h r a : 0 < r -> - r < a -> / 1000 <= r - a -> is_inside (ball h r) (px a) ex = true.
Proof. intros. unfold is_inside. rewrite ball_ahead by lra. cbn [fst snd]. deccmp. reflexivity. Qed.
Lemma ball_not_inside h r a : 0 < r -> r <= a -> is_inside (ball h r) (px a) ex = false.
Proof. intros. unfold is_inside. rewrite ball_left by lra. cbn [fst snd]. deccmp. reflexivity. Qed.

(** ** Run 1: overshooting the maximal distance at a border *)
Definition inner1 := toy_sector 2 100 (fun _ => 1000 - 99.9995).
Definition outer1 := toy_sector 0 200 (fun _ => 1000 - 99.9995).
Definition start : pstate := mkpstate (px 0) ex 1000 0 0.
Definition end1 : pstate := mkpstate (px 100) ex (1000 - 99.9995) 99.9995 100.
Definition track1 : track :=
  mktrack [start; end1] [ContinuousEnergyLoss; ContinuousEnergyLoss] [0%N; 0%N].

Lemma lookup_start1 : get_current_sector [inner1; outer1] (px 0) ex = Ok inner1.
Proof.
  unfold get_current_sector. cbn [filter inner1 outer1 toy_sector s_geometry].
  rewrite !ball_inside by lra. cbn [max_element max_element_from].
  unfold hierarchy, inner1, outer1, toy_sector; cbn [s_geometry]. rewrite !ball_hierarchy. reflexivity.
Qed.
Lemma lookup_end1 : get_current_sector [inner1; outer1] (px 100) ex = Ok outer1.
Proof.
  unfold get_current_sector. cbn [filter inner1 outer1 toy_sector s_geometry].
  rewrite ball_not_inside, ball_inside by lra. reflexivity.
Qed.
Lemma border1 : calculate_distance_to_border [inner1; outer1] (px 0) ex (ball 2 100) = 100.
Proof.
  unfold calculate_distance_to_border. cbn [fold_left inner1 outer1 toy_sector s_geometry].
  rewrite !ball_hierarchy. cbn. rewrite ball_ahead by lra. cbn. lra.
Qed.

(** Evaluation of one iteration of Propagate without decay. *)
Section Eval.
Variables (rs : nat -> R) (sectors : list sector) (fuel ms : nat) (md me : R) (cond : N) (p : prop).
Variables (e_min e_stoch : R) (st1 : pstate) (s1 : sector) (n3 : nat).
Hypotheses (Hd : u_decay (s_utility (p_sector p)) = None)
  (Hi : u_interaction (s_utility (p_sector p)) (energy (p_state p)) (rs (p_draws p)) = Ok e_stoch)
  (He : Rmax me (u_lower_lim (s_utility (p_sector p))) = e_min).

Lemma eval_border s2 :
  0 < e_stoch -> e_min < e_stoch ->
  advance_particle rs sectors fuel ms (p_state p) e_stoch md (p_sector p) false e_min (S (p_draws p))
    = Some (Ok (st1, ReachedBorder, s1, n3)) ->
  get_current_sector sectors (position st1) (direction st1) = Ok s2 ->
  (cond < hierarchy s1)%N -> (hierarchy s2 < cond)%N ->
  exists ev, propagate_iteration rs sectors fuel ms md me cond p =
    Some (Ok (mkprop (push_back (p_track p) st1 ContinuousEnergyLoss 0) st1 s2 n3, ev, false)).
Proof using Hd Hi He.
  intros H0 H1 Ha Hs H2 H3. unfold propagate_iteration, energy_decay, energy_interaction.
  rewrite Hd, Hi, He.
  assert (Hk : maximize 0 e_min e_stoch = Stochastic).
  { apply c03_maximize. intros k' Hk'. destruct k'; cbn; try congruence; left; lra. }
  rewrite Hk. cbv iota zeta. rewrite Ha, Hs. cbn [obind].
  apply N.ltb_lt in H2, H3. rewrite H2, H3. cbn. eauto.
Qed.

Lemma eval_stochastic l st2 n4 :
  0 < e_stoch -> e_min < e_stoch ->
  advance_particle rs sectors fuel ms (p_state p) e_stoch md (p_sector p) false e_min (S (p_draws p))
    = Some (Ok (st1, ReachedInteraction, s1, n3)) ->
  do_stochastic_interaction rs st1 (s_utility s1) n3 = Ok (st2, l, n4) ->
  loss_type l <> Undefined -> e_min < energy st2 ->
  exists ev, propagate_iteration rs sectors fuel ms md me cond p =
    Some (Ok (mkprop (push_back (push_back (p_track p) st1 ContinuousEnergyLoss 0) st2 (loss_type l) (loss_hash l))
                st2 s1 n4, ev, true)).
Proof using Hd Hi He.
  intros H0 H1 Ha Hs H2 H3. unfold propagate_iteration, energy_decay, energy_interaction.
  rewrite Hd, Hi, He.
  assert (Hk : maximize 0 e_min e_stoch = Stochastic).
  { apply c03_maximize. intros k' Hk'. destruct k'; cbn; try congruence; left; lra. }
  rewrite Hk. cbv iota zeta. rewrite Ha, Hs. cbn [obind]. unfold itype_eqb.
  destruct (itype_eq_dec _ _); [contradiction|].
  replace (energy st2 <=? e_min) with false by (symmetry; apply Rleb_false; lra). cbn. eauto.
Qed.

Lemma eval_minimal :
  0 < e_min -> e_stoch <= e_min ->
  advance_particle rs sectors fuel ms (p_state p) e_min md (p_sector p) true e_min (S (p_draws p))
    = Some (Ok (st1, ReachedInteraction, s1, n3)) ->
  exists ev, propagate_iteration rs sectors fuel ms md me cond p =
    Some (Ok (mkprop (push_back (p_track p) st1 ContinuousEnergyLoss 0) st1 s1 n3, ev, false)).
Proof using Hd Hi He.
  intros H0 H1 Ha. unfold propagate_iteration, energy_decay, energy_interaction.
  rewrite Hd, Hi, He.
  assert (Hk : maximize 0 e_min e_stoch = MinimalE).
  { apply c03_maximize. intros k' Hk'. destruct k'; cbn; try congruence; [left; lra|].
    destruct H1; [left; lra|right; split; [lra|lia]]. }
  rewrite Hk. cbv iota zeta. rewrite Ha. eauto.
Qed.
End Eval.

Lemma run1_events rs :
  exists ev, propagate_events rs [inner1; outer1] 1 10 start 10 1 1 = Some (Ok (track1, [ev])).
Proof.
  unfold propagate_events, propagate_init. change (position start) with (px 0). change (direction start) with ex.
  rewrite lookup_start1. cbn [obind propagate_loop].
  destruct (first_try rs [inner1; outer1] 10 10 start (1000 - 99.9995) 10 inner1 false 1 1
              99.9995 99.9995 99.9995 100) as [_ H]; try reflexivity; try lia; try lra.
  { cbn. f_equal; lra. }
  { apply border1. }
  { apply ball_inside; lra. }
  specialize (H ltac:(cbn; lra)).
  assert (Hr : Rabs (99.9995 - 100) <= PARTICLE_POSITION_RESOLUTION).
  { rewrite resolution_value, Rabs_left by lra. lra. }
  specialize (H Hr). clear Hr.
  change (position start) with (px 0) in H. change (direction start) with ex in H.
  change (time start) with 0 in H. change (propagated_distance start) with 0 in H.
  rewrite px_add, !Rplus_0_l in H.
  edestruct eval_border with (cond := 1%N) (me := 1) (p := mkprop (push_back empty_track start ContinuousEnergyLoss 0) start inner1 0)
     as (ev & E); [reflexivity|reflexivity| | | |exact H|apply lookup_end1| | |].
  { cbn. apply Rmax_left; lra. }
  { lra. }
  { lra. }
  { unfold hierarchy; cbn [s_geometry inner1 toy_sector]. rewrite ball_hierarchy. lia. }
  { unfold hierarchy; cbn [s_geometry outer1 toy_sector]. rewrite ball_hierarchy. lia. }
  rewrite E. exists ev. cbn [p_track push_back empty_track tr_states tr_types tr_hashes app].
  reflexivity.
Qed.
Lemma run1 rs : propagate rs [inner1; outer1] 1 10 start 10 1 1 = Some (Ok track1).
Proof. unfold propagate. destruct (run1_events rs) as (ev & ->). reflexivity. Qed.

(** ** Run 2: one stochastic loss, then the minimal energy *)
Definition ball2 := toy_sector 1 10000 (fun e => e / 2).
Definition after_loss : pstate := mkpstate (px 500) ex 250 500 500.
Definition track2 : track :=
  mktrack [start; mkpstate (px 500) ex 500 500 500; after_loss; mkpstate (px 550) ex 200 550 550]
          [ContinuousEnergyLoss; ContinuousEnergyLoss; Brems; ContinuousEnergyLoss] [0; 0; 1; 0]%N.

Lemma border2 a : 0 <= a <= 9999 -> calculate_distance_to_border [ball2] (px a) ex (ball 1 10000) = 10000 - a.
Proof.
  intros Ha. unfold calculate_distance_to_border. cbn [fold_left ball2 toy_sector s_geometry].
  rewrite !ball_hierarchy. cbn. rewrite ball_ahead by lra. reflexivity.
Qed.
Lemma lookup2 a : 0 <= a <= 9999 -> get_current_sector [ball2] (px a) ex = Ok ball2.
Proof.
  intros. unfold get_current_sector. cbn [filter ball2 toy_sector s_geometry].
  rewrite !ball_inside by lra. reflexivity.
Qed.

Lemma run2 rs :
  propagate rs [ball2] 2 10 start 100000 200 0 = Some (Ok track2).
Proof.
  unfold propagate, propagate_events, propagate_init.
  change (position start) with (px 0). change (direction start) with ex.
  rewrite lookup2 by lra. cbn [obind propagate_loop].
  destruct (first_try rs [ball2] 10 10 start 500 100000 ball2 false 200 1
              500 500 500 (10000 - 0)) as [H _]; try reflexivity; try lia; try lra.
  { cbn. f_equal; lra. }
  { apply border2; lra. }
  { apply ball_inside; lra. }
  specialize (H ltac:(lra) ltac:(cbn; lra)).
  change (position start) with (px 0) in H. change (direction start) with ex in H.
  change (time start) with 0 in H. change (propagated_distance start) with 0 in H.
  rewrite px_add in H. replace (0 + 500) with 500 in H by ring.
  edestruct eval_stochastic with (cond := 0%N) (me := 200) (p := mkprop (push_back empty_track start ContinuousEnergyLoss 0) start ball2 0)
     (e_stoch := 500) (e_min := 200) (st2 := after_loss) (l := mkloss Brems 1 (1/2)) (n4 := 2%nat)
     as (ev & E); [reflexivity| | | | |exact H| |discriminate| |].
  { cbn. f_equal; lra. }
  { cbn. apply Rmax_left; lra. }
  { lra. }
  { lra. }
  { cbn. replace (500 * (1 - 1 / 2)) with 250 by field. reflexivity. }
  { cbn. lra. }
  rewrite E. clear E H. cbn [loss_type loss_hash p_track].
  destruct (first_try rs [ball2] 10 10 after_loss 200 100000 ball2 true 200 3
            50 50 50 (10000 - 500)) as [H _]; try reflexivity; try lia; try lra.
  { cbn. f_equal; lra. }
  { apply border2; lra. }
  { apply ball_inside; lra. }
  specialize (H ltac:(lra) ltac:(cbn; lra)).
  change (position after_loss) with (px 500) in H. change (direction after_loss) with ex in H.
  rewrite px_add in H. cbn [time propagated_distance after_loss] in H. replace (500 + 50) with 550 in H by ring.
  edestruct eval_minimal with (cond := 0%N) (me := 200) (p := mkprop
     (push_back (push_back (push_back empty_track start ContinuousEnergyLoss 0)
        (mkpstate (px 500) ex 500 500 500) ContinuousEnergyLoss 0) after_loss Brems 1) after_loss ball2 2)
     (e_stoch := 125) (e_min := 200)
     as (ev2 & E); [reflexivity| | | | |exact H|].
  { cbn. f_equal; lra. }
  { cbn. apply Rmax_left; lra. }
  { lra. }
  { lra. }
  rewrite E. reflexivity.
Qed.

(** ** Run 3: one unit short of the already propagated distance *)
Lemma run3 rs :
  advance_particle rs [ball2] 3 10 (mkpstate (px 0) ex 1000 0 1) 500 0 ball2 false 0 0 = Some (Throw logic_error).
Proof.
  unfold advance_particle, advance_init.
  change (u_track_integral (s_utility ball2) (energy (mkpstate (px 0) ex 1000 0 1)) 500) with (Ok (1000 - 500)).
  cbn [obind advance_loop].
  unfold advance_iteration at 1. unfold propose at 1. cbn [a_energy a_distance ext_is]. deccmp.
  change (s_utility (a_sector _)) with (toy_utility (fun e => e / 2)).
  change (s_density (a_sector _)) with toy_density.
  change (s_geometry (a_sector _)) with (ball 1 10000).
  cbn [toy_utility u_track_integral obind correct_or_inf toy_density d_correct directions_scatter u_scattering
       position direction energy propagated_distance].
  rewrite border2, ball_inside by lra. deccmp.
  replace (Rabs (1000 - 500 - (10000 - 0)) <=? PARTICLE_POSITION_RESOLUTION) with false.
  2:{ symmetry; apply Rleb_false. rewrite Rabs_left by lra. rewrite resolution_value. lra. }
  cbn [Nat.ltb Nat.leb].
  replace (Rmin (10000 - 0) (0 - 1)) with (-1) by (rewrite Rmin_right by lra; ring).
  unfold advance_iteration, propose. cbn [a_energy a_distance ext_is]. deccmp. reflexivity.
Qed.

(** ** Run 4: multiple scattering and continuous randomisation *)
Definition shaky_utility : utility :=
  mkutility 0 None (fun e _ => Ok (e / 2)) (fun _ _ => Ok (mkloss Brems 1 (1/2)))
    (Some (fun _ e_f r _ => Ok (e_f - r)))
    (fun e g => Ok (e - g)) (fun e e' => Ok (e - e')) (fun _ _ g _ => Ok g)
    (Some (mkscattering (Some (fun _ _ _ l => match l with
                                             | [_; _; _; _] => Ok (mkoffset 0 0 0 0)
                                             | _ => UB out_of_bounds end)) (fun _ => None))).
Definition shaky : sector := mksector (ball 1 10000) shaky_utility toy_density.

Lemma run4 rs : rs 0%nat <> -1 ->
  advance_particle rs [shaky] 1 10 (mkpstate (px 0) ex 1000 0 0) 500 100000 shaky false 0 0 =
  Some (Ok (mkpstate (px 500) ex (500 - rs 0%nat) 500 500, ReachedInteraction, shaky, 4%nat)).
Proof.
  intros Hr. unfold advance_particle, advance_init.
  change (u_track_integral (s_utility shaky) (energy (mkpstate (px 0) ex 1000 0 0)) 500) with (Ok (1000 - 500)).
  cbn [obind advance_loop].
  unfold advance_iteration at 1. unfold propose at 1. cbn [a_energy a_distance ext_is]. deccmp.
  change (s_utility (a_sector _)) with shaky_utility.
  change (s_density (a_sector _)) with toy_density.
  change (s_geometry (a_sector _)) with (ball 1 10000).
  cbn [shaky_utility u_track_integral obind correct_or_inf toy_density d_correct
       position direction energy propagated_distance].
  unfold directions_scatter. cbn [shaky_utility u_scattering sc_multiple a_cache a_draws].
  destruct (first_block rs 0) as (c & -> & Hc & Hi). unfold block at 1. cbv beta iota zeta.
  rewrite c37_zero by apply unit_ex. cbn [obind]. cbv beta iota zeta.
  unfold calculate_distance_to_border.
  cbn [fold_left shaky s_geometry position]. rewrite N.ltb_irrefl.
  rewrite ball_inside by lra. rewrite ball_ahead by lra. cbn [fst negb Nat.ltb Nat.leb]. deccmp. cbn [andb].
  unfold advance_finish. cbn [f_sector f_energy f_grammage f_type f_mean f_new f_distance f_cache f_draws andb].
  change (s_utility (a_sector _)) with shaky_utility.
  unfold energy_randomize. cbn [shaky_utility u_cont_rand u_time obind].
  rewrite (cached_hit rs c _ 1 0) by (try rewrite Hc; try assumption; lia).
  rewrite Hc. cbv beta iota.
  cbn [obind position propagated_distance time energy direction f_sector f_energy f_grammage f_type f_mean f_new
       f_distance f_cache f_draws a_sector shaky shaky_utility s_utility u_cont_rand u_time].
  do 2 f_equal. do 2 f_equal. do 1 f_equal. rewrite px_add. do 1 f_equal; [f_equal; ring|ring|ring].
Qed.

(** ** Facts for the property files *)
Lemma border1_outer : calculate_distance_to_border [inner1; outer1] (px 0) ex (ball 0 200) = 100.
Proof.
  unfold calculate_distance_to_border. cbn [fold_left inner1 outer1 toy_sector s_geometry].
  rewrite !ball_hierarchy. cbn. rewrite !ball_ahead by lra. cbn [fst].
  deccmp. unfold Rmin. destruct (Rle_dec _ _); lra.
Qed.
Lemma maximize_examples : maximize 5 5 5 = Decay /\ maximize 1 2 3 = Stochastic.
Proof.
  split; apply c03_maximize; intros k' Hk'; destruct k'; cbn; try congruence;
    try (right; split; [lra|lia]); left; lra.
Qed.
Lemma c04_logic_error_refuted :
  exists sectors st e_next final s, (forall s', In s' sectors -> quiet_sector s') /\ In s sectors /\
    contains s (position st) (direction st) /\ 0 < e_next < energy st /\
    forall rs, exists fuel max_steps,
      advance_particle rs sectors fuel max_steps st e_next final s false 0 0 = Some (Throw logic_error).
Proof.
  exists [ball2], (mkpstate (px 0) ex 1000 0 1), 500, 0, ball2.
  split; [intros s [<-|[]]; apply toy_quiet|]. split; [left; auto|].
  split. { unfold contains; cbn [s_geometry ball2 toy_sector position direction]. rewrite ball_ahead by lra. lra. }
  split; [cbn; lra|]. intros rs. exists 3%nat, 10%nat. apply run3.
Qed.
Lemma c04_example rs :
  advance_particle rs [ball2] 11 10 start 500 100000 ball2 false 200 1 =
  Some (Ok (mkpstate (px 500) ex 500 500 500, ReachedInteraction, ball2, 1%nat)) /\
  quiet_sector ball2.
Proof.
  split; [|apply toy_quiet].
  destruct (first_try rs [ball2] 10 10 start 500 100000 ball2 false 200 1
              500 500 500 (10000 - 0)) as [H _]; try reflexivity; try lia; try lra.
  { cbn. f_equal; lra. }
  { apply border2; lra. }
  { apply ball_inside; lra. }
  specialize (H ltac:(lra) ltac:(cbn; lra)).
  change (position start) with (px 0) in H. change (direction start) with ex in H.
  change (time start) with 0 in H. change (propagated_distance start) with 0 in H.
  rewrite px_add, !Rplus_0_l in H. exact H.
Qed.
Lemma c05_refuted :
  exists sectors st md me cond t st' l,
    (forall s, In s sectors -> proper_losses s) /\ propagated_distance st <= md /\
    (forall rs, exists fuel max_steps, propagate rs sectors fuel max_steps st md me cond = Some (Ok t)) /\
    tr_states t = l ++ [st'] /\ md + 90 <= propagated_distance st'.
Proof.
  exists [inner1; outer1], start, 10, 1, 1%N, track1, end1, [start].
  split. { intros s [<-|[<-|[]]]; apply toy_proper. }
  split; [cbn; lra|]. split. { intros rs. exists 1%nat, 10%nat. apply run1. }
  split; [reflexivity|]. cbn. lra.
Qed.
Lemma c05_example rs : exists ev,
  propagate_events rs [ball2] 2 10 start 100000 200 0 = Some (Ok (track2, ev)) /\
  tr_states track2 = [start; mkpstate (px 500) ex 500 500 500; after_loss] ++ [mkpstate (px 550) ex 200 550 550].
Proof.
  pose proof (run2 rs) as H. unfold propagate in H.
  destruct (propagate_events _ _ _ _ _ _ _ _) as [[[t evs]| |]|]; try discriminate.
  injection H as ->. eexists; split; reflexivity.
Qed.
Lemma c06_example :
  (forall s, In s [ball2] -> proper_losses s) /\
  forall rs, propagate rs [ball2] 2 10 start 100000 200 0 = Some (Ok track2).
Proof. split; [intros s [<-|[]]; apply toy_proper|exact run2]. Qed.
Lemma c07_example rs :
  propagate rs [inner1; outer1] 1 10 start 10 1 1 = Some (Ok track1) /\
  propagate rs [ball2] 2 10 start 100000 200 0 = Some (Ok track2).
Proof. exact (conj (run1 rs) (run2 rs)). Qed.
