(** Concrete cases for the track queries. *)
From Verif Require Import Prelude PreludeFacts Vec_Model Geometry_Model Propagator_Model Propagator_Spec
  Propagator_Proofs Propagate_Proofs Shapes_Model Shapes_Spec Shapes_Proofs Box_Proofs Cylinder_Proofs Surface_Proofs
  Secondaries_Model Secondaries_Spec Secondaries_Proofs Queries_Proofs Hit_Proofs Density_Model Toy Toy_Runs.

(** ** Run 4: a homogeneous medium of density 2 with the approximate clock *)
Definition utility4 : utility :=
  mkutility 0 None (fun _ _ => Ok 0) (fun _ _ => Ok (mkloss Brems 1 (1/2))) None
    (fun e g => Ok (e - g)) (fun e e' => Ok (e - e')) approximate_time None.
Definition sector4 (inf : outcome R) : sector := mksector (ball 1 10000) utility4 (homogeneous inf 2).
Definition track4 : track :=
  mktrack [start; mkpstate (px 400) ex 200 (400 / SPEED) 400] [ContinuousEnergyLoss; ContinuousEnergyLoss] [0; 0]%N.

Lemma SPEED_pos : 0 < SPEED.
Proof. unfold SPEED; lra. Qed.

Lemma border4 inf a : 0 <= a <= 9999 -> calculate_distance_to_border [sector4 inf] (px a) ex (ball 1 10000) = 10000 - a.
Proof.
  intros Ha. unfold calculate_distance_to_border. cbn [fold_left sector4 s_geometry].
  rewrite !ball_hierarchy. cbn. rewrite ball_ahead by lra. reflexivity.
Qed.
Lemma lookup4 inf a : 0 <= a <= 9999 -> get_current_sector [sector4 inf] (px a) ex = Ok (sector4 inf).
Proof.
  intros. unfold get_current_sector. cbn [filter sector4 s_geometry].
  rewrite !ball_inside by lra. reflexivity.
Qed.
Lemma lookup4' inf a : 0 <= a <= 9999 -> secondaries_get_current_sector [sector4 inf] (px a) ex = Ok (sector4 inf).
Proof.
  intros. unfold secondaries_get_current_sector. cbn [filter sector4 s_geometry].
  rewrite !ball_inside by lra. reflexivity.
Qed.

Lemma run4 inf rs : propagate rs [sector4 inf] 1 10 start 100000 200 0 = Some (Ok track4).
Proof.
  pose proof SPEED_pos.
  unfold propagate, propagate_events, propagate_init.
  change (position start) with (px 0). change (direction start) with ex.
  rewrite lookup4 by lra. cbn [obind propagate_loop].
  destruct (first_try rs [sector4 inf] 10 10 start 200 100000 (sector4 inf) true 200 1
              800 400 (400 / SPEED) (10000 - 0)) as [H1 _]; try reflexivity; try lia; try lra.
  { cbn. f_equal; lra. }
  { cbn. destruct (Reqb_spec 2 0); [lra|]. f_equal; lra. }
  { cbn. unfold approximate_time. f_equal. field; lra. }
  { apply border4; lra. }
  { apply ball_inside; lra. }
  specialize (H1 ltac:(lra) ltac:(cbn; lra)).
  change (position start) with (px 0) in H1. change (direction start) with ex in H1.
  change (time start) with 0 in H1. change (propagated_distance start) with 0 in H1.
  rewrite px_add, !Rplus_0_l in H1.
  edestruct eval_minimal with (cond := 0%N) (me := 200) (p := mkprop (push_back empty_track start ContinuousEnergyLoss 0) start (sector4 inf) 0)
     (e_stoch := 0) (e_min := 200)
     as (ev2 & E); [reflexivity| | | | |exact H1|].
  { reflexivity. }
  { cbn. apply Rmax_left; lra. }
  { lra. }
  { lra. }
  rewrite E. reflexivity.
Qed.

Lemma normalize_ex L : 0 < L -> normalize (vsub (px L) (px 0)) = Some ex.
Proof.
  intros HL. unfold normalize, magnitude, vsub, px; cbn [vx vy vz].
  replace ((L - 0) * (L - 0) + (0 - 0) * (0 - 0) + (0 - 0) * (0 - 0)) with (L * L) by ring.
  rewrite sqrt_square by lra. destruct (Reqb_spec L 0); [lra|].
  unfold ex. do 2 f_equal; field; lra.
Qed.

Lemma normalize_or_some {A} v d (k : vec -> outcome A) n : normalize v = Some d -> normalize_or v k n = k d.
Proof. intros H. unfold normalize_or. rewrite H. reflexivity. Qed.

Lemma query4 inf nan :
  get_state_for_distance [sector4 inf] nan track4 100 =
    Ok (mkpstate (px 100) ex 800 (50 / SPEED) 100).
Proof.
  pose proof SPEED_pos.
  unfold get_state_for_distance, at_index. cbn [track4 tr_states tr_types nth_error obind].
  change (propagated_distance start) with 0. cbn [tl find_index propagated_distance]. deccmp.
  change (1 - 1)%nat with 0%nat. cbn [nth_error obind position].
  change (position start) with (px 0). rewrite normalize_or_some with (d := ex) by (apply normalize_ex; lra).
  unfold re_propagate_distance. change (position start) with (px 0). rewrite lookup4' by lra.
  change (propagated_distance start) with 0. change (direction start) with ex. change (energy start) with 1000.
  change (time start) with 0.
  cbn [obind sector4 s_density s_utility homogeneous d_calculate utility4 u_upper_limit u_time d_evaluate].
  unfold homogeneous_integrate, approximate_time. cbn [obind]. rewrite px_add.
  do 2 f_equal; [f_equal; ring|ring|field; lra|ring].
Qed.

(** The propagation itself uses up one unit of time per SPEED of distance; the
    query in between does not. *)
Lemma c48_refuted :
  exists sectors st md me cond t a b,
    (forall rs, exists fuel ms, propagate rs sectors fuel ms st md me cond = Some (Ok t)) /\
    tr_states t = [a; b] /\
    propagated_distance b - propagated_distance a = SPEED * (time b - time a) /\
    forall nan, exists r, get_state_for_distance sectors nan t 100 = Ok r /\
      propagated_distance r - propagated_distance a = 2 * (SPEED * (time r - time a)).
Proof.
  pose proof SPEED_pos.
  exists [sector4 (Throw runtime_error)], start, 100000, 200, 0%N, track4. do 2 eexists.
  split. { intros rs. exists 1%nat, 10%nat. apply run4. }
  split; [reflexivity|]. split; [cbn; field; lra|].
  intros nan. eexists. split; [apply query4|]. cbn. field; lra.
Qed.

(** With the exact clock the time is that of the traversed energies. *)
Lemma c48_exact sectors nan t x r (clock : sector -> R -> R -> outcome R) :
  (forall s, In s sectors -> u_time (s_utility s) = exact_time (clock s)) ->
  measured t -> get_state_for_distance sectors nan t x = Ok r ->
  In r (tr_states t) \/
  exists i a b s dt, neighbours t i a b /\ propagated_distance a <= x < propagated_distance b /\
    innermost sectors (position a) (direction r) s /\ clock s (energy a) (energy r) = Ok dt /\
    time r = time a + dt / d_evaluate (s_density s) (position a).
Proof.
  intros HC HM HQ. pose proof HQ as HQ'. apply c43_distance in HQ; auto.
  destruct HQ as (f & Ef & [(_ & ->)|[(_ & _ & l & E)|(i & a & b & HN & Hx & Hj & _ & Hc)]]).
  - left. eapply nth_error_In; eauto.
  - left. rewrite E. apply in_or_app. right; left; auto.
  - destruct (Rle_lt_dec x (propagated_distance f)) as [L|L].
    { left. unfold get_state_for_distance, at_index in HQ'. rewrite Ef in HQ'. cbn [obind] in HQ'.
      destruct (Rleb_spec x (propagated_distance f)); [|lra]. injection HQ' as ->. eapply nth_error_In; eauto. }
    right. unfold get_state_for_distance, at_index in HQ'. rewrite Ef in HQ'. cbn [obind] in HQ'.
    destruct (Rleb_spec x (propagated_distance f)); [lra|].
    destruct (find_index _ _ _) as [k|] eqn:Ek.
    2:{ exfalso. apply find_index_none with (s := b) in Ek.
        - apply Rltb_false in Ek. lra.
        - destruct HN as [_ HN]. destruct (tr_states t); [discriminate|]. cbn in HN |- *. eapply nth_error_In; eauto. }
    apply find_index_spec in Ek. destruct Ek as (k' & s & -> & K1 & K2 & K3).
    rewrite nth_error_tl in K1. apply Rltb_true in K2.
    replace (1 + k' - 1)%nat with k' in HQ' by lia. change (1 + k')%nat with (S k') in HQ'. rewrite K1 in HQ'.
    destruct (nth_error (tr_states t) k') as [a'|] eqn:Ea; [|discriminate]. cbn [obind] in HQ'.
    assert (HN' : neighbours t k' a' s) by (split; auto).
    assert (Hax : propagated_distance a' <= x).
    { destruct k' as [|k']; [rewrite Ea in Ef; injection Ef as ->; lra|].
      specialize (K3 k' a' ltac:(lia)). rewrite nth_error_tl in K3. specialize (K3 Ea).
      apply Rltb_false in K3. lra. }
    pose proof (HM _ _ _ HN') as Hap. unfold normalize_or in HQ'.
    destruct (normalize _) as [d|] eqn:En.
    2:{ apply normalize_none in En. unfold apart in *. lra. }
    unfold re_propagate_distance in HQ'.
    destruct (secondaries_get_current_sector sectors (position a') d) as [s'| |] eqn:Es; cbn [obind] in HQ'; try discriminate.
    apply c01_lookup in Es. pose proof Es as (b1 & b2 & E & _).
    destruct (d_calculate _ _ _ _) as [g| |] eqn:Eg; cbn [obind] in HQ'; try discriminate.
    destruct (u_upper_limit _ _ _) as [e| |] eqn:Ee; cbn [obind] in HQ'; try discriminate.
    rewrite HC in HQ' by (rewrite E; apply in_or_app; right; left; auto).
    unfold exact_time in HQ'. destruct (clock s' (energy a') e) as [dt| |] eqn:Et; cbn [obind] in HQ'; try discriminate.
    injection HQ' as <-. exists k', a', s, s', dt. cbn [direction energy time].
    split; [auto|]. split; [lra|]. auto.
Qed.

(** ** Losing energy in a geometry the whole track lies in *)
Lemma ball_back h r a : 0 < r -> a < r -> GEOMETRY_PRECISION <= r + a ->
  g_distance_to_border (ball h r) (px a) (vneg ex) = (r + a, -1).
Proof.
  intros Hr Ha He. rewrite ball_distance by lra. pose proof eps_pos.
  rewrite c17_crossings with (L := [r + a]); [reflexivity| |lra|lra| |].
  - unfold unit, dot, vneg, ex; cbn; lra.
  - split; [repeat constructor|]. intros t.
    unfold sphere_crosses, sphere_surface, sqdist, dot, vsub, at_, vadd, scale, vneg, ex, px; cbn.
    split.
    + intros [<-|[]]. split; [lra|]. split; [left; ring|lra].
    + intros (Ht & [Hs|[Hs _]] & _); [|lra]. left.
      assert ((a - t - r) * (a - t + r) = 0) by lra.
      apply Rmult_integral in H0. destruct H0; lra.
  - intros t [<-|[]]. lra.
Qed.
Lemma ball_not_entering h r a : 0 < r -> -r < a -> GEOMETRY_PRECISION <= r - a -> GEOMETRY_PRECISION <= r + a ->
  is_entering (ball h r) (px a) ex = false /\ is_leaving (ball h r) (px a) ex = false.
Proof.
  intros. pose proof eps_pos. unfold is_entering, is_leaving.
  rewrite ball_back by lra. rewrite ball_distance by lra. rewrite sphere_ahead by lra. cbn [fst snd].
  split; deccmp; reflexivity.
Qed.

Lemma elost2 : get_elost [ball2] track2 (ball 0 10000) = UB null_deref.
Proof.
  pose proof eps_tiny.
  destruct (ball_not_entering 0 10000 0) as [E1 _]; try lra.
  destruct (ball_not_entering 0 10000 550) as [_ E2]; try lra.
  unfold get_elost, get_entry_point, get_exit_point, at_index.
  cbn [track2 tr_states nth_error obind].
  change (position start) with (px 0). change (direction start) with ex. rewrite E1, ball_inside by lra.
  cbn [obind length Nat.sub nth_error position direction]. rewrite E2, ball_inside by lra. reflexivity.
Qed.
Lemma c45_elost_refuted :
  exists sectors st md me cond t g,
    (forall rs, exists fuel ms, propagate rs sectors fuel ms st md me cond = Some (Ok t)) /\
    get_elost sectors t g = UB null_deref.
Proof.
  exists [ball2], start, 100000, 200, 0%N, track2, (ball 0 10000).
  split; [|apply elost2]. intros rs. exists 2%nat, 10%nat. apply run2.
Qed.

(** ** The toy track meets the hypotheses of the query theorems *)
Lemma parallel2 : parallel track2.
Proof. split; reflexivity. Qed.
Lemma apart_px a b sa sb : position sa = px a -> position sb = px b -> a <= b -> apart sa sb = b - a.
Proof.
  intros Ha Hb L. unfold apart. rewrite Ha, Hb. unfold magnitude, vsub, px; cbn [vx vy vz].
  replace ((b - a) * (b - a) + (0 - 0) * (0 - 0) + (0 - 0) * (0 - 0)) with ((b - a) * (b - a)) by ring.
  apply sqrt_square; lra.
Qed.
Lemma measured2 : measured track2.
Proof.
  intros i a b (H1 & H2). cbn [track2 tr_states] in *.
  destruct i as [|[|[|[|i]]]]; cbn in H1, H2; try (injection H1 as <-); try (injection H2 as <-); try discriminate.
  - rewrite (apart_px 0 500); cbn; auto; lra.
  - rewrite (apart_px 500 500); cbn; auto; lra.
  - rewrite (apart_px 500 550); cbn; auto; lra.
Qed.
Lemma query2 nan : get_state_for_distance [ball2] nan track2 525 = Ok (mkpstate (px 525) ex 225 525 525).
Proof.
  unfold get_state_for_distance, at_index. cbn [track2 tr_states tr_types nth_error obind].
  change (propagated_distance start) with 0. cbn [tl find_index propagated_distance after_loss]. deccmp.
  change (3 - 1)%nat with 2%nat. cbn [nth_error obind position].
  change (position after_loss) with (px 500).
  rewrite normalize_or_some with (d := ex).
  2:{ unfold normalize, magnitude, vsub, px; cbn [vx vy vz].
      replace ((550 - 500) * (550 - 500) + (0 - 0) * (0 - 0) + (0 - 0) * (0 - 0)) with (50 * 50) by ring.
      rewrite sqrt_square by lra. destruct (Reqb_spec 50 0); [lra|].
      unfold ex. do 2 f_equal; field; lra. }
  unfold re_propagate_distance. change (position after_loss) with (px 500).
  unfold secondaries_get_current_sector, ball2. cbn [filter toy_sector s_geometry]. rewrite ball_inside by lra.
  cbn. rewrite px_add. do 2 f_equal; [f_equal; ring|ring|ring|ring].
Qed.
Lemma energy2 nan : get_state_for_energy [ball2] nan track2 225 = Ok (mkpstate (px 525) ex 225 525 525).
Proof.
  unfold get_state_for_energy, at_index. cbn [track2 tr_states tr_types nth_error obind].
  change (energy start) with 1000. cbn [tl find_index energy after_loss]. deccmp.
  change (3 - 1)%nat with 2%nat. cbn [nth_error obind position itype_eqb].
  change (position after_loss) with (px 500).
  rewrite normalize_or_some with (d := ex).
  2:{ unfold normalize, magnitude, vsub, px; cbn [vx vy vz].
      replace ((550 - 500) * (550 - 500) + (0 - 0) * (0 - 0) + (0 - 0) * (0 - 0)) with (50 * 50) by ring.
      rewrite sqrt_square by lra. destruct (Reqb_spec 50 0); [lra|].
      unfold ex. do 2 f_equal; field; lra. }
  unfold re_propagate_energy. change (position after_loss) with (px 500).
  unfold secondaries_get_current_sector, ball2. cbn [filter toy_sector s_geometry]. rewrite ball_inside by lra.
  cbn. rewrite px_add. do 2 f_equal; [f_equal; ring|ring|ring|ring].
Qed.
Lemma apart2 : forall i a b, neighbours track2 i a b -> energy b < energy a ->
     nth_error (tr_types track2) (S i) = Some ContinuousEnergyLoss -> 0 < apart a b.
Proof.
  intros i a b (H1 & H2) _ Ht. cbn [track2 tr_states tr_types] in *.
  destruct i as [|[|[|[|i]]]]; cbn in H1, H2, Ht; try (injection H1 as <-); try (injection H2 as <-); try discriminate.
  - rewrite (apart_px 0 500); cbn; auto; lra.
  - rewrite (apart_px 500 550); cbn; auto; lra.
Qed.

(** The type filter accepts the continuous type although no such loss is
    stochastic. *)
Lemma c09_type_refuted :
  exists sectors st md me cond t l l',
    (forall rs, exists fuel ms, propagate rs sectors fuel ms st md me cond = Some (Ok t)) /\
    get_stochastic_losses t = Ok l /\ get_stochastic_losses_of t ContinuousEnergyLoss = Ok l' /\
    (exists x, In x l' /\ ~ In x l).
Proof.
  exists [ball2], start, 100000, 200, 0%N, track2. do 2 eexists.
  split. { intros rs. exists 2%nat, 10%nat. apply run2. }
  split; [reflexivity|]. split; [reflexivity|].
  eexists; split; [left; reflexivity|]. intros [H|[]]. injection H. discriminate.
Qed.

(** A sphere met by the second step of the toy track only. *)
Lemma clear2 : clear_of_border (px 525) 10 (tr_states track2).
Proof.
  pose proof eps_tiny.
  assert (D : forall a b, dist (px a) (px b) = Rabs (a - b)).
  { intros. unfold dist, sqdist, dot, vsub, px; cbn.
    replace ((a - b) * (a - b) + (0 - 0) * (0 - 0) + (0 - 0) * (0 - 0)) with (Rsqr (a - b)) by (unfold Rsqr; ring).
    apply sqrt_Rsqr_abs. }
  intros s Hs. right. cbn in Hs.
  destruct Hs as [<-|[<-|[<-|[<-|[]]]]]; cbn [position start after_loss]; rewrite D; unfold Rabs; destruct (Rcase_abs _); lra.
Qed.
Lemma clear_hole2 : clear_of_hole (px 525) 5 (tr_states track2).
Proof.
  pose proof eps_tiny.
  assert (D : forall a b, dist (px a) (px b) = Rabs (a - b)).
  { intros. unfold dist, sqdist, dot, vsub, px; cbn.
    replace ((a - b) * (a - b) + (0 - 0) * (0 - 0) + (0 - 0) * (0 - 0)) with (Rsqr (a - b)) by (unfold Rsqr; ring).
    apply sqrt_Rsqr_abs. }
  intros s Hs. cbn in Hs.
  destruct Hs as [<-|[<-|[<-|[<-|[]]]]]; cbn [position start after_loss]; rewrite D; unfold Rabs; destruct (Rcase_abs _); lra.
Qed.
Lemma straight2 : straight ex (tr_states track2).
Proof.
  split; [apply unit_ex|]. intros l1 a b l2 H. cbn [track2 tr_states] in H.
  destruct l1 as [|x1 [|x2 [|x3 [|x4 l1]]]]; cbn in H; try (injection H as; subst).
  - exists 500. split; [lra|]. cbn. unfold at_. rewrite px_add. f_equal; ring.
  - exists 0. split; [lra|]. cbn. unfold at_. rewrite px_add. f_equal; ring.
  - exists 50. split; [lra|]. cbn. unfold at_. rewrite px_add. f_equal; ring.
  - discriminate.
  - destruct l1; discriminate.
Qed.

(** ** The border found by entry and exit points of the three shapes *)
Lemma sphere_dist h c r ri : 0 <= ri < r -> g_distance_to_border (sphere h c r ri) = sphere_distance c r ri.
Proof. intros H. unfold sphere. destruct (Rltb_spec r ri); [lra|]. reflexivity. Qed.
Lemma cylinder_dist h c r ri z : 0 <= ri < r -> g_distance_to_border (cylinder h c r ri z) = cylinder_distance c r ri z.
Proof. intros H. unfold cylinder. destruct (Rltb_spec r ri); [lra|]. reflexivity. Qed.

Lemma c45_sphere sectors t r h c rad ri : 0 <= ri < rad ->
  enters_on sectors t r (sphere h c rad ri) (sphere_surface c rad ri) /\
  leaves_on sectors t r (sphere h c rad ri) (sphere_surface c rad ri).
Proof.
  intros Hr.
  assert (H : forall p d, unit d -> fst (g_distance_to_border (sphere h c rad ri) p d) = -1 \/
            sphere_surface c rad ri (at_ p d (fst (g_distance_to_border (sphere h c rad ri) p d)))).
  { intros p d Hd. rewrite sphere_dist by auto.
    destruct (c17_on_surface c rad ri p d Hd) as [[E|(_ & E & _)] _]; auto. }
  split; intros E; [eapply c45_entry_border|eapply c45_exit_border]; eauto.
Qed.
Lemma c45_box sectors t r h c x y z : 0 <= x -> 0 <= y -> 0 <= z ->
  enters_on sectors t r (box h c x y z) (fun q => exists f, on_face c x y z q f) /\
  leaves_on sectors t r (box h c x y z) (fun q => exists f, on_face c x y z q f).
Proof.
  intros Hx Hy Hz.
  assert (H : forall p d, unit d -> fst (g_distance_to_border (box h c x y z) p d) = -1 \/
            exists f, on_face c x y z (at_ p d (fst (g_distance_to_border (box h c x y z) p d))) f).
  { intros p d Hd. change (g_distance_to_border (box h c x y z)) with (box_distance c x y z).
    destruct (c18_on_surface c x y z p d Hx Hy Hz) as [[E|(_ & E)] _]; auto. }
  split; intros E; [eapply c45_entry_border with (surface := fun q => exists f, on_face c x y z q f)
                   |eapply c45_exit_border with (surface := fun q => exists f, on_face c x y z q f)]; eauto.
Qed.
Lemma c45_cylinder sectors t r h c rad ri z : 0 <= ri < rad ->
  enters_on sectors t r (cylinder h c rad ri z) (cylinder_surface c rad ri z) /\
  leaves_on sectors t r (cylinder h c rad ri z) (cylinder_surface c rad ri z).
Proof.
  intros Hr.
  assert (H : forall p d, unit d -> fst (g_distance_to_border (cylinder h c rad ri z) p d) = -1 \/
            cylinder_surface c rad ri z (at_ p d (fst (g_distance_to_border (cylinder h c rad ri z) p d)))).
  { intros p d Hd. rewrite cylinder_dist by auto.
    destruct (c19_on_surface c rad ri z p d ltac:(lra) Hr) as [[E|(_ & [(E & _)|(E & _)])] _]; auto.
    - right; left; auto.
    - right; right; auto. }
  split; intros E; [eapply c45_entry_border|eapply c45_exit_border]; eauto.
Qed.

(** Entry into and exit from a ball lying ahead of the toy track's start. *)
Lemma probe_ahead c r a : 1 < r -> a + r + 1 <= c ->
  sphere_distance (px c) r 0 (px a) ex = (c - r - a, c + r - a).
Proof.
  intros Hr Ha. pose proof eps_tiny. pose proof eps_pos.
  rewrite c17_crossings with (L := [c - r - a; c + r - a]); [reflexivity|apply unit_ex|lra|lra| |].
  - split; [repeat constructor; lra|]. intros t.
    unfold sphere_crosses, sphere_surface, sqdist, dot, vsub, at_, vadd, scale, ex, px; cbn.
    split.
    + intros [<-|[<-|[]]]; (split; [lra|]; split; [left; ring|lra]).
    + intros (Ht & [Hs|[Hs _]] & _); [|lra].
      assert (E : (t - (c - r - a)) * (t - (c + r - a)) = 0) by lra.
      apply Rmult_integral in E. destruct E; [left|right; left]; lra.
  - intros t [<-|[<-|[]]]; lra.
Qed.
Lemma probe_back c r a : 1 < r -> c + r + 1 <= a ->
  sphere_distance (px c) r 0 (px a) (vneg ex) = (a - c - r, a - c + r).
Proof.
  intros Hr Ha. pose proof eps_tiny. pose proof eps_pos.
  rewrite c17_crossings with (L := [a - c - r; a - c + r]); [reflexivity| |lra|lra| |].
  - unfold unit, dot, vneg, ex; cbn; lra.
  - split; [repeat constructor; lra|]. intros t.
    unfold sphere_crosses, sphere_surface, sqdist, dot, vsub, at_, vadd, scale, vneg, ex, px; cbn.
    split.
    + intros [<-|[<-|[]]]; (split; [lra|]; split; [left; ring|lra]).
    + intros (Ht & [Hs|[Hs _]] & _); [|lra].
      assert (E : (t - (a - c - r)) * (t - (a - c + r)) = 0) by lra.
      apply Rmult_integral in E. destruct E; [left|right; left]; lra.
  - intros t [<-|[<-|[]]]; lra.
Qed.
Lemma probe_behind c r a : 0 < r -> c + r <= a ->
  sphere_distance (px c) r 0 (px a) ex = (-1, -1).
Proof.
  intros Hr Ha. pose proof eps_pos.
  rewrite c17_crossings with (L := []); [reflexivity|apply unit_ex|lra|lra| |].
  - split; [constructor|]. intros t.
    unfold sphere_crosses, sphere_surface, sqdist, dot, vsub, at_, vadd, scale, ex, px; cbn.
    split; [intros []|]. intros (Ht & [Hs|[Hs _]] & _); [|lra].
    assert (E : (a + t - c - r) * (a + t - c + r) = 0) by lra.
    apply Rmult_integral in E. destruct E; lra.
  - intros t [].
Qed.

Definition probe : geometry := sphere 0 (px 250) 10 0.
Lemma resolution_small : PARTICLE_POSITION_RESOLUTION < 1.
Proof. unfold PARTICLE_POSITION_RESOLUTION. lra. Qed.
Lemma normalize_px a b : a < b -> normalize (vsub (px b) (px a)) = Some ex /\ magnitude (vsub (px b) (px a)) = b - a.
Proof.
  intros HL.
  assert (E : magnitude (vsub (px b) (px a)) = b - a).
  { unfold magnitude, vsub, px; cbn [vx vy vz].
    replace ((b - a) * (b - a) + (0 - 0) * (0 - 0) + (0 - 0) * (0 - 0)) with ((b - a) * (b - a)) by ring.
    apply sqrt_square; lra. }
  split; [|exact E]. unfold normalize. rewrite E. destruct (Reqb_spec (b - a) 0); [lra|].
  unfold ex, vsub, px; cbn [vx vy vz]. do 2 f_equal; field; lra.
Qed.
Lemma normalize_zero a : normalize (vsub (px a) (px a)) = None.
Proof.
  unfold normalize.
  assert (magnitude (vsub (px a) (px a)) = 0) as ->.
  { unfold magnitude, vsub, px; cbn [vx vy vz].
    replace ((a - a) * (a - a) + (0 - 0) * (0 - 0) + (0 - 0) * (0 - 0)) with 0 by ring. apply sqrt_0. }
  destruct (Reqb_spec 0 0); [auto|lra].
Qed.
Lemma repropagate2 a e x : 0 <= a -> a <= 9000 ->
  re_propagate_distance [ball2] (mkpstate (px a) ex e a a) ex x = Ok (mkpstate (px (a + x)) ex (e - x) (a + x) (a + x)).
Proof.
  intros. unfold re_propagate_distance, secondaries_get_current_sector, ball2.
  cbn [filter toy_sector s_geometry position]. rewrite ball_inside by lra. cbn. rewrite px_add. reflexivity.
Qed.

Lemma entry2 : get_entry_point [ball2] track2 probe = Ok (Some (mkpstate (px 240) ex 760 240 240)).
Proof.
  pose proof resolution_small.
  assert (E : g_distance_to_border probe (px 0) ex = (250 - 10 - 0, 250 + 10 - 0)).
  { unfold probe. rewrite sphere_dist by lra. apply probe_ahead; lra. }
  destruct (normalize_px 0 500) as [N1 N2]; [lra|].
  unfold get_entry_point, at_index. cbn [track2 tr_states nth_error obind].
  unfold is_entering, is_inside. change (position start) with (px 0). change (direction start) with ex.
  rewrite E. cbn [fst snd]. deccmp. rewrite ?andb_false_r, ?andb_false_l. cbn [andb].
  cbn [entry_loop position]. change (position start) with (px 0). rewrite N1, N2, E. cbn [fst snd].
  deccmp. cbn [andb]. rewrite Rabs_right by lra. deccmp.
  change start with (mkpstate (px 0) ex 1000 0 0). rewrite repropagate2 by lra.
  cbn [obind]. do 3 f_equal; [f_equal|..]; ring.
Qed.
Lemma exit2 : get_exit_point [ball2] track2 probe = Ok (Some (mkpstate (px 260) ex 740 260 260)).
Proof.
  pose proof resolution_small.
  assert (E : g_distance_to_border probe (px 550) (vneg ex) = (550 - 250 - 10, 550 - 250 + 10)).
  { unfold probe. rewrite sphere_dist by lra. apply probe_back; lra. }
  assert (E2 : g_distance_to_border probe (px 500) (vneg ex) = (500 - 250 - 10, 500 - 250 + 10)).
  { unfold probe. rewrite sphere_dist by lra. apply probe_back; lra. }
  assert (E3 : g_distance_to_border probe (px 550) ex = (-1, -1)).
  { unfold probe. rewrite sphere_dist by lra. apply probe_behind; lra. }
  destruct (normalize_px 0 500) as [N1 N2]; [lra|].
  destruct (normalize_px 500 550) as [N3 N4]; [lra|].
  unfold get_exit_point, at_index. cbn [track2 tr_states length Nat.sub nth_error obind].
  unfold is_leaving, is_inside. cbn [position direction].
  rewrite E, E3. cbn [fst snd]. deccmp. rewrite ?andb_false_r, ?andb_false_l. cbn [andb].
  cbn [rev app exit_loop position]. change (position start) with (px 0).
  change (position after_loss) with (px 500). rewrite N3, N4, E, normalize_zero, N1, N2, E2. cbn [fst snd].
  deccmp. cbn [andb]. deccmp. cbn [andb]. rewrite Rabs_right by lra. deccmp.
  change start with (mkpstate (px 0) ex 1000 0 0). rewrite repropagate2 by lra.
  cbn [obind]. do 3 f_equal; [f_equal|..]; ring.
Qed.

(** A box and a cylinder met by the second step of the toy track only. *)
Lemma rays2 (ok : vec -> vec -> Prop) : (forall a, 0 <= a <= 550 -> ok (px a) ex) -> all_rays ok (tr_states track2).
Proof.
  intros H. split.
  - intros l1 a b l2 d E Hh P. cbn [track2 tr_states] in E.
    assert (K : forall u v, position a = px u -> position b = px v -> 0 <= u <= 550 -> u <= v -> ok (position a) d).
    { intros u v Ea Eb U V. assert (d = ex) as ->; [|rewrite Ea; auto].
      destruct Hh as [_ Hh]. rewrite Eb, Ea in Hh. rewrite (apart_px u v a b Ea Eb V) in *. unfold at_, vadd, scale, px, ex in *; cbn in Hh.
      injection Hh; intros. destruct d as [d1 d2 d3]; cbn in *. f_equal; nra. }
    destruct l1 as [|x1 [|x2 [|x3 [|x4 l1]]]]; cbn in E; try (injection E as; subst).
    + apply (K 0 500); try reflexivity; lra.
    + apply (K 500 500); try reflexivity; lra.
    + apply (K 500 550); try reflexivity; lra.
    + discriminate.
    + destruct l1; discriminate.
  - intros l1 s E. assert (s = last (tr_states track2) s) as -> by (rewrite E; symmetry; apply last_last).
    cbn [track2 tr_states last direction position]. split; [apply unit_ex|]. apply H; lra.
Qed.
Lemma clear_box2 : clear_of_box (px 525) 20 20 20 (tr_states track2) /\ all_rays (no_edges (px 525) 20 20 20) (tr_states track2).
Proof.
  pose proof eps_tiny. split.
  - intros s Hs. right. left. cbn in Hs. destruct Hs as [<-|[<-|[<-|[<-|[]]]]]; cbn; unfold Rabs; destruct (Rcase_abs _); lra.
  - apply rays2. intros a A t f k T [B1 B2] [_ B3]. clear B1. unfold px, at_, vadd, scale, ex in *.
    destruct f, k; cbn in B2, B3; try reflexivity; exfalso; lra.
Qed.
Lemma clear_cylinder2 : clear_of_cylinder (px 525) 10 20 (tr_states track2) /\ all_rays (no_rim (px 525) 10 20) (tr_states track2).
Proof.
  pose proof eps_tiny. split.
  - assert (D : forall a, rho (px 525) (px a) = Rabs (a - 525)).
    { intros. unfold rho, rho2, px; cbn. rewrite <- sqrt_Rsqr_abs. f_equal. unfold Rsqr. ring. }
    intros s Hs. right. left. cbn in Hs. destruct Hs as [<-|[<-|[<-|[<-|[]]]]]; cbn [position start after_loss]; rewrite D; unfold Rabs; destruct (Rcase_abs _); lra.
  - apply rays2. intros a A t T _. cbn. split; lra.
Qed.
