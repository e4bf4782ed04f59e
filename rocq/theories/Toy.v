(** Concrete environments used by the examples and by the refutations.  Not a
    model of code: a user-supplied configuration (two nested spheres, unit
    density, constant energy loss of one unit per unit of grammage). *)
From Verif Require Import Prelude PreludeFacts Vec_Model Geometry_Model Propagator_Model Propagator_Spec
  Propagator_Proofs Shapes_Model Shapes_Spec Shapes_Proofs Box_Proofs.
From Coq Require Import Sorted.

Definition ex : vec := mkvec 1 0 0.
Definition px (a : R) : vec := mkvec a 0 0.

Lemma unit_ex : unit ex.
Proof. unfold unit, dot; cbn; lra. Qed.

Lemma sphere_ahead r a : 0 < r -> - r < a -> GEOMETRY_PRECISION <= r - a ->
  sphere_distance (px 0) r 0 (px a) ex = (r - a, -1).
Proof.
  intros Hr Ha He. pose proof eps_pos.
  rewrite c17_crossings with (L := [r - a]); [reflexivity|apply unit_ex|lra|lra| |].
  - split; [repeat constructor|]. intros t.
    unfold sphere_crosses, sphere_surface, sqdist, dot, vsub, at_, vadd, scale; cbn.
    split.
    + intros [<-|[]]. split; [lra|]. split; [left; ring|lra].
    + intros (Ht & [Hs|[Hs _]] & _); [|lra]. left.
      assert ((a + t - r) * (a + t + r) = 0) by lra.
      apply Rmult_integral in H0. destruct H0; lra.
  - intros t [<-|[]]; auto.
Qed.

Lemma sphere_left r a : 0 < r -> r <= a -> sphere_distance (px 0) r 0 (px a) ex = (-1, -1).
Proof.
  intros Hr Ha. pose proof eps_pos.
  rewrite c17_crossings with (L := []); [reflexivity|apply unit_ex|lra|lra| |].
  - split; [constructor|]. intros t.
    unfold sphere_crosses, sphere_surface, sqdist, dot, vsub, at_, vadd, scale; cbn.
    split; [intros []|]. intros (Ht & [Hs|[Hs _]] & _); [|lra].
    assert ((a + t - r) * (a + t + r) = 0) by lra.
    apply Rmult_integral in H0. destruct H0; lra.
  - intros t [].
Qed.

Definition ball (h : N) (r : R) : geometry := sphere h (px 0) r 0.

Lemma ball_distance h r : 0 < r -> g_distance_to_border (ball h r) = sphere_distance (px 0) r 0.
Proof.
  intros Hr. unfold ball, sphere.
  destruct (Rltb_spec r 0); [lra|]. reflexivity.
Qed.
Lemma ball_hierarchy h r : g_hierarchy (ball h r) = h.
Proof. unfold ball, sphere. destruct (_ <? _); reflexivity. Qed.

Definition toy_utility (stoch : R -> R) : utility :=
  mkutility 0 None (fun e _ => Ok (stoch e)) (fun _ _ => Ok (mkloss Brems 1 (1/2))) None
    (fun e g => Ok (e - g)) (fun e e' => Ok (e - e')) (fun _ _ g _ => Ok g) None.
Definition toy_density : density := mkdensity (fun _ => 1) (fun _ _ g _ => Ok g) (fun _ _ x => Ok x).
Definition toy_sector (h : N) (r : R) (stoch : R -> R) : sector :=
  mksector (ball h r) (toy_utility stoch) toy_density.

Lemma toy_proper h r f : proper_losses (toy_sector h r f).
Proof.
  intros e n l H. cbn in H. injection H as <-. cbn. repeat split; try discriminate.
Qed.
Lemma toy_quiet h r f : quiet_sector (toy_sector h r f).
Proof. repeat split; cbn; try discriminate; intros; discriminate. Qed.

(** The first loop iteration of AdvanceParticle in a sector without scattering
    and continuous randomisation. *)
Lemma first_try rs sectors fuel max_steps st e_next final s mes me n g x dt border :
  (1 <= max_steps)%nat -> e_next <> -1 ->
  u_scattering (s_utility s) = None -> u_cont_rand (s_utility s) = None ->
  u_track_integral (s_utility s) (energy st) e_next = Ok g ->
  d_correct (s_density s) (position st) (direction st) g (final - propagated_distance st) = Ok x ->
  u_time (s_utility s) (energy st) e_next g (d_evaluate (s_density s) (position st)) = Ok dt ->
  calculate_distance_to_border sectors (position st) (direction st) (s_geometry s) = border ->
  is_inside (s_geometry s) (position st) (direction st) = true ->
  let res d t := Some (Ok (mkpstate (vadd (position st) (scale d (direction st))) (direction st) e_next
                             (time st + dt) (propagated_distance st + d), t, s, n)) in
  (x <= border -> x <= final - propagated_distance st ->
   advance_particle rs sectors (S fuel) max_steps st e_next final s mes me n = res x ReachedInteraction) /\
  (final - propagated_distance st < x -> Rabs (x - border) <= PARTICLE_POSITION_RESOLUTION ->
   advance_particle rs sectors (S fuel) max_steps st e_next final s mes me n = res border ReachedBorder).
Proof.
  intros Hm He Hs Hc Hg Hx Ht Hb Hi res.
  unfold advance_particle, advance_init. rewrite Hg. cbn [obind advance_loop].
  unfold advance_iteration, propose. cbn [a_energy a_distance a_sector a_grammage_next ext_is].
  replace (e_next =? -1) with false by (symmetry; apply Reqb_false; auto).
  replace (-1 =? -1) with true by (symmetry; apply Reqb_true; auto).
  cbn [negb andb]. rewrite Hg. cbn [obind]. unfold correct_or_inf. rewrite Hx. cbn [obind].
  unfold directions_scatter. rewrite Hs. cbn [obind]. rewrite Hb, Hi. cbn [negb].
  replace (Nat.ltb max_steps 1) with false by (symmetry; apply Nat.ltb_ge; auto).
  replace (e_next =? e_next) with true by (symmetry; apply Reqb_true; auto).
  unfold advance_finish, energy_randomize.
  split; intros H1 H2.
  - replace (x <=? border) with true by (symmetry; apply Rleb_true; auto).
    replace (x <=? final - propagated_distance st) with true by (symmetry; apply Rleb_true; auto).
    cbn [andb f_sector f_energy f_grammage f_type f_mean f_new f_distance f_cache f_draws obind].
    rewrite Ht. cbn [obind]. destruct mes; cbn [andb]; [reflexivity|]. rewrite Hc. reflexivity.
  - replace (x <=? final - propagated_distance st) with false by (symmetry; apply Rleb_false; lra).
    replace (x =? final - propagated_distance st) with false by (symmetry; apply Reqb_false; lra).
    replace (Rabs (x - border) <=? PARTICLE_POSITION_RESOLUTION) with true by (symmetry; apply Rleb_true; auto).
    rewrite !andb_false_r.
    cbn [andb f_sector f_energy f_grammage f_type f_mean f_new f_distance f_cache f_draws obind].
    rewrite Ht. cbn [obind]. rewrite andb_false_r. rewrite Hc. reflexivity.
Qed.
