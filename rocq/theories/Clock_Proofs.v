(** The approximate clock along a track, and the lifetime of the assembled utility. *)
From Verif Require Import Prelude PreludeFacts Vec_Model Geometry_Model Density_Model Propagator_Model Propagator_Spec Propagator_Proofs
  Propagate_Proofs Integral_Model Trapezoid_Proofs Integral_Proofs Utility_Model Course_Model Course_Spec.

Section Clock.
Variable nan : forall A, outcome A.
Variable qags : (R -> outcome R) -> R -> R -> outcome R.
Variable find : (R -> R) -> R -> R -> R -> R -> option R.
Variables (erf : R -> R) (ppf : R -> outcome R).
Variable rs : nat -> R.
Variable sectors : list sector.
Hypothesis plain : forall s, In s sectors -> approximate_clock nan qags find erf ppf s.

Definition ticks (a b : pstate) : Prop := in_step a b.

Lemma step_clock fuel max_steps st e_next final s mes me n st' at' s' n' :
  In s sectors ->
  advance_particle rs sectors fuel max_steps st e_next final s mes me n = Some (Ok (st', at', s', n')) ->
  In s' sectors /\ ticks st st'.
Proof.
  intros HS H. pose proof (advance_particle_sector rs sectors _ _ _ _ _ _ _ _ _ _ _ _ _ HS H) as HS'.
  split; [exact HS'|]. apply c04_legal in H.
  destruct H as (mean & distance & border & e & g & x & (_ & M) & _ & _ & C & (dt & T & Tm) & K).
  destruct (plain _ HS') as (geo & col & inf & rho & -> & Tc & Hr). unfold consistent_step in C. cbn [s_density s_utility homogeneous d_evaluate d_correct d_calculate assemble u_time] in *.
  rewrite Tc in T. unfold approximate_time_elapsed, quotient in T.
  assert (P : 0 < Utility_Model.SPEED) by (unfold Utility_Model.SPEED; lra).
  assert (Q : 0 < rho * Utility_Model.SPEED) by (apply Rmult_lt_0_compat; assumption).
  rewrite eqb_no in T by lra. injection T as <-.
  assert (G : g = rho * x).
  { destruct C as [(_ & m & C)|(C & _)].
    - rewrite eqb_no in C by lra. injection C as <-. field; lra.
    - injection C as <-. unfold homogeneous_integrate. ring. }
  unfold ticks, in_step. rewrite M, Tm, G.
  replace (29979245800 * (time st + rho * x / (rho * Utility_Model.SPEED) - time st) - (propagated_distance st + distance - propagated_distance st))
    with (x - distance) by (unfold Utility_Model.SPEED; field; lra).
  destruct at'.
  - destruct K as (-> & _). rewrite Rminus_diag_eq, Rabs_R0 by reflexivity. lra.
  - destruct K as (-> & _). rewrite Rminus_diag_eq, Rabs_R0 by reflexivity. lra.
  - destruct K as (-> & K & _). lra.
Qed.

Lemma ticks_same a b : time a = time b -> propagated_distance a = propagated_distance b -> ticks a b.
Proof. intros T P. unfold ticks, in_step. rewrite T, P. replace (_ - _) with 0 by ring. rewrite Rabs_R0. lra. Qed.

Inductive ticking : list pstate -> Prop :=
| ticking_one a : ticking [a]
| ticking_more l a b : ticking (l ++ [a]) -> ticks a b -> ticking (l ++ [a] ++ [b]).
Lemma ticking_followed l : ticking l -> forall i a b, nth_error l i = Some a -> nth_error l (S i) = Some b -> ticks a b.
Proof.
  induction 1 as [a|l a b C IH F]; intros i x y X Y.
  - cbn in Y. destruct i; discriminate.
  - rewrite app_assoc in X, Y.
    destruct (lt_dec (S i) (length (l ++ [a]))) as [Z|Z].
    + rewrite nth_error_app1 in X, Y by lia. apply (IH i); assumption.
    + rewrite nth_error_app2 in Y by lia. rewrite app_length in *. cbn [length] in *.
      assert (W : (S i - (length l + 1) = 0)%nat).
      { destruct (S i - (length l + 1))%nat as [|j] eqn:J; [reflexivity|]. cbn in Y. destruct j; discriminate. }
      rewrite W in Y. cbn in Y. injection Y as <-. assert (i = length l) by lia. subst i.
      rewrite nth_error_app1 in X by (rewrite app_length; cbn; lia). rewrite nth_error_app2 in X by lia. rewrite Nat.sub_diag in X. cbn in X. injection X as <-. exact F.
Qed.

(** The last state of the track has the time and the distance of the present one. *)
Definition kept (p : prop) : Prop :=
  In (p_sector p) sectors /\ exists l a, tr_states (p_track p) = l ++ [a] /\ ticking (l ++ [a]) /\
    time a = time (p_state p) /\ propagated_distance a = propagated_distance (p_state p).

Variables (fuel max_steps : nat) (max_distance min_energy : R) (cond : N).
Lemma iteration_clock p p' ev b : kept p ->
  propagate_iteration rs sectors fuel max_steps max_distance min_energy cond p = Some (Ok (p', ev, b)) -> kept p'.
Proof.
  intros (HS & l & a & T & C & Ti & Di) H. unfold propagate_iteration in H. cbv zeta in H.
  destruct (Propagator_Model.energy_decay rs _ _ _ _) as [rd n1]. destruct rd as [e_decay| |]; try discriminate.
  destruct (Propagator_Model.energy_interaction rs _ _ _) as [ri n2]. destruct ri as [e_stoch| |]; try discriminate.
  set (k := maximize _ _ _) in *. clearbody k.
  destruct (advance_particle _ _ _ _ _ _ _ _ _ _ _) as [[[[[st1 at1] s1] n3]| |]|] eqn:Ea; try discriminate.
  apply step_clock in Ea; [|exact HS]. destruct Ea as (HS1 & F).
  injection H as H.
  set (t1 := push_back (p_track p) st1 ContinuousEnergyLoss 0) in *.
  assert (F1 : ticks a st1) by (revert F; unfold ticks, in_step; rewrite Ti, Di; auto).
  assert (T1 : tr_states t1 = (l ++ [a]) ++ [st1]) by (cbn; rewrite T; reflexivity).
  assert (C1 : ticking ((l ++ [a]) ++ [st1])) by (rewrite <- app_assoc; apply ticking_more; assumption).
  assert (G1 : forall st s n, In s sectors -> time st = time st1 -> propagated_distance st = propagated_distance st1 -> kept (mkprop t1 st s n)).
  { intros st s n Hs Q1 Q2. split; [exact Hs|]. exists (l ++ [a]), st1. cbn [p_state p_track]. auto. }
  assert (G2 : forall st s n ty h, In s sectors -> time st = time st1 -> propagated_distance st = propagated_distance st1 ->
    kept (mkprop (push_back t1 st ty h) st s n)).
  { intros st s n ty h Hs Q1 Q2. split; [exact Hs|]. exists ((l ++ [a]) ++ [st1]), st. cbn [p_state p_track push_back tr_states]. rewrite T1.
    split; [reflexivity|]. split; [|auto]. rewrite <- app_assoc. apply ticking_more; [exact C1|]. apply ticks_same; symmetry; assumption. }
  destruct at1.
  - destruct k.
    + injection H as <- _ _. apply G2; auto.
    + injection H as <- _ _. apply G1; auto.
    + apply obind_Ok in H. destruct H as ([[st2 lo] n4] & Hst & H).
      injection H as <- _ _.
      unfold do_stochastic_interaction in Hst. apply obind_Ok in Hst. destruct Hst as (lo' & Hl & Hst).
      destruct (direction_deflect _ _ _ _ _ _ _ _) as [rd' n'].
      apply obind_Ok in Hst. destruct Hst as (d' & _ & Hst). injection Hst as <- -> <-.
      destruct (itype_eqb (loss_type lo) Undefined); [apply G1|apply G2]; auto.
  - injection H as <- _ _. apply G1; auto.
  - apply obind_Ok in H. destruct H as (s2 & Hs2 & H). injection H as <- _ _. apply G1; auto. eapply get_current_sector_In; eauto.
Qed.
Lemma loop_clock outer : forall p p' evs, kept p ->
  propagate_loop rs sectors outer fuel max_steps max_distance min_energy cond p = Some (Ok (p', evs)) -> kept p'.
Proof.
  induction outer as [|outer IH]; intros p p' evs G H; cbn in H; [discriminate|].
  destruct (propagate_iteration _ _ _ _ _ _ _ _) as [[[[q ev] b]| |]|] eqn:E; try discriminate.
  apply iteration_clock in E; [|assumption]. destruct b.
  - destruct (propagate_loop _ _ _ _ _ _ _ _ _) as [[[p'' evs']| |]|] eqn:E2; try discriminate.
    injection H as <- _. apply (IH q p'' evs' E E2).
  - injection H as <- _. exact E.
Qed.
End Clock.

Lemma light_speed nan qags find erf ppf rs sectors outer max_steps st md me cond t :
  (forall s, In s sectors -> approximate_clock nan qags find erf ppf s) ->
  propagate rs sectors outer max_steps st md me cond = Some (Ok t) ->
  forall a b, followed_by t a b -> in_step a b.
Proof.
  intros K H a b (i & A & B). unfold propagate in H.
  destruct (propagate_events _ _ _ _ _ _ _ _) as [[[t' evs]| |]|] eqn:E; try discriminate. injection H as ->.
  unfold propagate_events in E. destruct (propagate_init sectors st) as [p| |] eqn:EI; try discriminate.
  destruct (propagate_loop _ _ _ _ _ _ _ _ _) as [[[p' evs']| |]|] eqn:EL; try discriminate. injection E as <- _.
  unfold propagate_init in EI. apply obind_Ok in EI. destruct EI as (s & Es & EI). injection EI as <-.
  apply (loop_clock nan qags find erf ppf rs sectors K) in EL.
  - destruct EL as (_ & l & c & T & C & _). rewrite T in A, B. exact (ticking_followed _ C i a b A B).
  - split; [eapply get_current_sector_In; eauto|]. exists [], st. split; [reflexivity|]. split; [apply ticking_one|]. split; reflexivity.
Qed.

Lemma decay_lifetime nan qags find erf ppf col f L table reverse lifetime E rnd density most :
  c_decay col = Some (Tabulated f L table reverse, lifetime) -> 0 < lifetime -> 0 < rnd ->
  value_of (calculate nan qags (Tabulated f L table reverse) E L) = Ok most ->
  exists g, u_decay (assemble nan qags find erf ppf col) = Some g /\
    (most <= lifetime * density * - ln rnd -> g E rnd density = Ok L) /\
    (lifetime * density * - ln rnd < most ->
     g E rnd density = value_of (get_upper nan qags find (Tabulated f L table reverse) E (lifetime * density * - ln rnd))).
Proof.
  intros D PL PR M. eexists. unfold assemble. cbn [u_decay]. rewrite D. split; [reflexivity|].
  unfold Utility_Model.energy_decay. unfold minus_log. rewrite ltb_no, eqb_no by lra. cbn [done fbind lower_of].
  destruct (calculate nan qags (Tabulated f L table reverse) E L) as [[[m c']| |]|] eqn:Q; cbn [value_of] in M; try discriminate.
  injection M as ->.
  assert (c' = Tabulated f L table reverse) as ->.
  { revert Q. cbn [calculate]. unfold done. destruct (_ <? _).
    - destruct (f _) as [y| |]; cbn; intro Q; try discriminate. injection Q as _ <-. reflexivity.
    - intro Q. injection Q as _ <-. reflexivity. }
  cbn [fbind done]. unfold quotient. rewrite eqb_no by lra. cbn [fbind done lower_of].
  assert (W : forall x, most / lifetime <= x <-> most <= x * lifetime).
  { intro x. split; intro H.
    - apply (Rmult_le_compat_r lifetime) in H; [|lra]. unfold Rdiv in H. rewrite Rmult_assoc, Rinv_l in H by lra. lra.
    - apply (Rmult_le_reg_r lifetime); [lra|]. unfold Rdiv. rewrite Rmult_assoc, Rinv_l by lra. lra. }
  replace (lifetime * density * - ln rnd) with (- ln rnd * density * lifetime) by ring.
  split; intro H; destruct (Rleb_spec (most / lifetime) (- ln rnd * density)) as [X|X].
  - reflexivity.
  - exfalso. apply W in H. lra.
  - exfalso. apply W in X. lra.
  - reflexivity.
Qed.
