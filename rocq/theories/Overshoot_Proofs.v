(** How far beyond the maximal distance a step can end (C05). *)
From Verif Require Import Prelude PreludeFacts Vec_Model Geometry_Model Propagator_Model Propagator_Spec
  Propagator_Proofs.

Section Over.
Variable rs : nat -> R.
Variable sectors : list sector.

Definition reach_inv (st : pstate) (e_next md : R) (a : adv) : Prop :=
  step_inv st e_next a /\
  ((a_energy a = e_next /\ a_distance a = Fin (-1)) \/ exists y, a_distance a = Fin y /\ y <= md).

Lemma correct_interaction s st e_next md g x :
  u_track_integral (s_utility s) (energy st) e_next = Ok g ->
  correct_or_inf (s_density s) (position st) (direction st) g md = Ok (Fin x) ->
  interaction_at s st e_next x.
Proof.
  intros Hg. unfold correct_or_inf.
  destruct (d_correct _ _ _ _ _) as [y|[]|] eqn:E; try discriminate; intros H; injection H as <-.
  exists g, md; auto.
Qed.

Lemma propose_reach st e_next md a g e x c n :
  reach_inv st e_next md a ->
  propose rs st e_next md a = Ok (g, e, Fin x, c, n) ->
  x <= md \/ interaction_at (a_sector a) st e_next x.
Proof.
  intros [[I1 I2] I3] H. unfold propose in H.
  destruct (negb (a_energy a =? -1) && ext_is (a_distance a) (-1)) eqn:E.
  - apply obind_Ok in H. destruct H as (g0 & Hg & H).
    apply obind_Ok in H. destruct H as (d0 & Hd & H). injection H as _ _ -> _ _.
    apply andb_true_iff in E. destruct E as [E _]. apply negb_true_iff, Reqb_false in E.
    destruct I2 as [I2|I2]; [contradiction|]. rewrite I2 in Hg.
    right. eapply correct_interaction; eauto.
  - destruct ((a_energy a =? -1) && negb (ext_is (a_distance a) (-1))) eqn:E2; [|discriminate].
    apply andb_true_iff in E2. destruct E2 as [E2 E3]. rewrite Reqb_true in E2.
    destruct (a_distance a) as [y|] eqn:Ey; [|discriminate].
    assert (Hy : y <= md).
    { destruct I3 as [[_ X]|(y' & X & Hy)].
      - injection X as ->. cbn in E3. apply negb_true_iff, Reqb_false in E3. congruence.
      - injection X as ->. exact Hy. }
    apply obind_Ok in H. destruct H as (g0 & Hg & H).
    destruct (g0 <? a_grammage_next a).
    + apply obind_Ok in H. destruct H as (e0 & He & H). injection H as _ _ <- _ _. left; auto.
    + destruct (resample rs (a_cache a) (a_draws a)) as [c0 n0].
      apply obind_Ok in H. destruct H as (d0 & Hd & H). injection H as _ _ -> _ _.
      right. eapply correct_interaction; eauto.
Qed.

Definition reach_done (st : pstate) (e_next md : R) (f : adv_done) : Prop :=
  f_distance f <= md + / 1000 \/
  exists x, interaction_at (f_sector f) st e_next x /\ Rabs (x - f_distance f) <= / 1000.

Lemma iteration_reach max_steps st e_next md k a r :
  (k <= max_steps)%nat -> reach_inv st e_next md a ->
  advance_iteration rs sectors max_steps st e_next md k a = Ok r ->
  match r with inl a' => reach_inv st e_next md a' | inr f => reach_done st e_next md f end.
Proof.
  intros Hk HI H. pose proof H as H'. unfold advance_iteration in H.
  apply obind_Ok in H. destruct H as ([[[[gr e] dist] c0] n0] & HP & H).
  destruct (directions_scatter _ _ _ _ _ _ _ _) as [[dirs c] n] eqn:ED.
  apply obind_Ok in H. destruct H as ([mean new] & -> & H).
  replace (Nat.ltb max_steps k) with false in H by (symmetry; apply Nat.ltb_ge; auto).
  assert (T : forall a', r = inl a' -> (exists y, a_distance a' = Fin y /\ y <= md) \/
      (a_energy a' = e_next /\ a_distance a' = Fin (-1)) -> reach_inv st e_next md a').
  { intros a' -> Ha. split; [|tauto]. eapply advance_iteration_inv; [|exact H']. apply HI. }
  pose proof Rinv_0_lt_compat 1000 ltac:(lra) as P.
  destruct (is_inside _ _ _); cbn [negb] in H.
  - destruct dist as [x|].
    + apply propose_reach in HP; auto.
      destruct (_ && _ && _) eqn:E1.
      { injection H as <-. left. cbn. apply andb_true_iff in E1. destruct E1 as [E1 _].
        apply andb_true_iff in E1. destruct E1 as [_ E1]. rewrite Rleb_true in E1. lra. }
      clear E1. destruct (_ && _) eqn:E2.
      { injection H as <-. left. cbn. apply andb_true_iff in E2. destruct E2 as [_ E2].
        rewrite Reqb_true in E2. lra. }
      clear E2. destruct (_ <=? _) eqn:E3 in H.
      { rewrite Rleb_true, resolution_value in E3. injection H as <-. cbn.
        destruct HP as [Hx|Hx].
        - left. cbn. unfold Rabs in E3. destruct (Rcase_abs _) in E3; lra.
        - right. exists x. cbn. auto. }
      injection H as <-. apply T; auto. left. eexists. cbn. split; [reflexivity|apply Rmin_r].
    + injection H as <-. apply T; auto. left. eexists. cbn. split; [reflexivity|apply Rmin_r].
  - apply obind_Ok in H; destruct H as (s' & _ & H).
    apply obind_Ok in H; destruct H as (gn & Hgn & H).
    destruct (if a_backscatter a then _ else _) as [c1 n1]. injection H as <-. apply T; auto.
Qed.

Lemma loop_reach max_steps st e_next md : forall fuel k a f,
  (k + fuel <= max_steps)%nat -> reach_inv st e_next md a ->
  advance_loop rs sectors fuel max_steps st e_next md k a = Some (Ok f) -> reach_done st e_next md f.
Proof.
  induction fuel as [|fuel IH]; intros k a f Hk HI H; cbn in H; [discriminate|].
  destruct (advance_iteration _ _ _ _ _ _ _ _) as [[a'|f']| |] eqn:E; try discriminate.
  - apply iteration_reach in E; auto; [|lia]. eapply (IH (S k)); [lia|exact E|exact H].
  - injection H as <-. apply iteration_reach in E; auto. lia.
Qed.

Lemma c05_overshoot fuel max_steps st e_next final s mes me n st' at' s' n' :
  (fuel <= max_steps)%nat ->
  advance_particle rs sectors fuel max_steps st e_next final s mes me n = Some (Ok (st', at', s', n')) ->
  propagated_distance st' <= final + / 1000 \/
  exists x, interaction_at s' st e_next x /\
    Rabs (propagated_distance st + x - propagated_distance st') <= / 1000.
Proof.
  intros Hf H. unfold advance_particle in H.
  destruct (advance_init st e_next s n) as [a| |] eqn:EI; try discriminate.
  assert (HI : reach_inv st e_next (final - propagated_distance st) a).
  { unfold advance_init in EI. apply obind_Ok in EI. destruct EI as (gn & Hgn & EI).
    injection EI as <-. split; [split; cbn; auto|]. left; auto. }
  destruct (advance_loop _ _ _ _ _ _ _ _ _) as [r|] eqn:E; [|discriminate].
  injection H as H. apply obind_Ok in H. destruct H as (f & -> & H).
  apply loop_reach in E; auto.
  assert (D : propagated_distance st' = propagated_distance st + f_distance f /\ s' = f_sector f).
  { unfold advance_finish in H. apply obind_Ok in H. destruct H as (dt & Hdt & H).
    destruct (mes && _).
    - injection H as <- _ <- _. split; reflexivity.
    - destruct (energy_randomize _ _ _ _ _ _ _) as [[re c'] n1].
      apply obind_Ok in H. destruct H as (e' & _ & H). injection H as <- _ <- _. split; reflexivity. }
  destruct D as [D ->]. destruct E as [E|(x & E1 & E2)].
  - left. lra.
  - right. exists x. split; auto.
    replace (propagated_distance st + x - propagated_distance st') with (x - f_distance f) by lra. exact E2.
Qed.
End Over.
