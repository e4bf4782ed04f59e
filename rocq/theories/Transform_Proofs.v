(** The spacing of the tables of losses (C13) and the losses sampled from them. *)
From Verif Require Import Prelude PreludeFacts Propagator_Model Limits_Model Math_Model Cross_Model Cross_Spec Cross_Proofs.

Lemma rpow_pos x y : 0 < x -> 0 < rpow x y.
Proof. intros. unfold rpow. rewrite (proj2 (Reqb_false _ _)) by lra. apply exp_pos. Qed.
Lemma rpow_0 y : rpow 0 y = 0.
Proof. unfold rpow. now rewrite (proj2 (Reqb_true _ _)). Qed.
Lemma rpow_nonneg x y : 0 <= x -> 0 <= rpow x y.
Proof. intros [H| <-]; [pose proof (rpow_pos x y H); lra | rewrite rpow_0; lra]. Qed.
Lemma rpow_rpow x c : 0 <= x -> 0 < c -> rpow (rpow x c) (1 / c) = x.
Proof.
  intros [H| <-] C; [|now rewrite !rpow_0].
  unfold rpow at 1. rewrite (proj2 (Reqb_false _ _)) by (pose proof (rpow_pos x c H); lra).
  unfold rpow. rewrite (proj2 (Reqb_false _ _)) by lra.
  rewrite Rpower_mult. replace (c * (1 / c)) with 1 by (field; lra). now apply Rpower_1.
Qed.
Lemma rpow_rpow' x c : 0 <= x -> 0 < c -> rpow (rpow x (1 / c)) c = x.
Proof.
  intros H C. replace c with (1 / (1 / c)) at 2 by (field; lra). apply rpow_rpow; auto.
  apply Rdiv_lt_0_compat; lra.
Qed.
Lemma rpow_lt x y c : 0 <= x < y -> 0 < c -> rpow x c < rpow y c.
Proof.
  intros [[H| <-] L] C; [|rewrite rpow_0; apply rpow_pos; lra].
  unfold rpow. rewrite !(proj2 (Reqb_false _ _)) by lra. now apply Rlt_Rpower_l.
Qed.
Lemma rpow_1 c : rpow 1 c = 1.
Proof. unfold rpow. rewrite (proj2 (Reqb_false _ _)) by lra. unfold Rpower. rewrite ln_1, Rmult_0_r. apply exp_0. Qed.

Section Nan.
Variable nan : forall A, outcome A.

Lemma quo_ok a b : b <> 0 -> quo nan a b = Ok (a / b).
Proof. intros. unfold quo. now rewrite (proj2 (Reqb_false _ _)). Qed.
Lemma log_ok x : 0 < x -> log nan x = Ok (ln x).
Proof. intros. unfold log. now rewrite (proj2 (Rleb_false _ _)). Qed.

Section Relative.
Variables (c vc vm : R).
Hypotheses (C : 0 < c) (V : 0 < vc < vm).

Lemma log_ratio_pos : 0 < ln (vm / vc).
Proof using V.
  rewrite <- ln_1. apply ln_increasing; [lra|]. apply (Rmult_lt_reg_r vc); [lra|]. unfold Rdiv. rewrite Rmult_assoc, Rinv_l; lra.
Qed.
Lemma relative_transform v : 0 <= v <= 1 ->
  transform_relative_loss nan c vc vm v = Ok (vc * exp (rpow v c * ln (vm / vc))).
Proof using C V.
  intros H. unfold transform_relative_loss.
  rewrite (proj2 (Rltb_false _ _)), (proj2 (Reqb_false _ _)) by lra. cbn [orb].
  destruct (Rleb_spec 1 v) as [L|L].
  - replace v with 1 by lra. rewrite rpow_1, Rmult_1_l, exp_ln by (apply Rdiv_lt_0_compat; lra). f_equal. field; lra.
  - rewrite quo_ok by lra. cbn [obind]. rewrite log_ok by (apply Rdiv_lt_0_compat; lra). reflexivity.
Qed.
Lemma relative_retransform x : vc <= x <= vm ->
  retransform_relative_loss nan c vc vm x = Ok (rpow (ln (x / vc) / ln (vm / vc)) (1 / c)).
Proof using C V.
  intros H. pose proof log_ratio_pos as P. unfold retransform_relative_loss.
  destruct (Rleb_spec x vc) as [L|L].
  - replace x with vc by lra. replace (vc / vc) with 1 by (field; lra). rewrite ln_1. unfold Rdiv at 1. now rewrite Rmult_0_l, rpow_0.
  - destruct (Rleb_spec vm x) as [M|M].
    + replace x with vm by lra. replace (ln (vm / vc) / ln (vm / vc)) with 1 by (field; lra). now rewrite rpow_1.
    + rewrite quo_ok by lra. cbn [obind]. rewrite log_ok by (apply Rdiv_lt_0_compat; lra). cbn [obind].
      rewrite quo_ok by lra. cbn [obind]. rewrite log_ok by (apply Rdiv_lt_0_compat; lra). cbn [obind].
      rewrite quo_ok by lra. cbn [obind]. rewrite (proj2 (Rltb_false _ _)); [reflexivity|].
      assert (0 < ln (x / vc)).
      { rewrite <- ln_1. apply ln_increasing; [lra|]. apply (Rmult_lt_reg_r vc); [lra|].
        unfold Rdiv. rewrite Rmult_assoc, Rinv_l; lra. }
      apply Rlt_le, Rdiv_lt_0_compat; auto.
Qed.
Lemma relative_increasing u v : 0 <= u < v -> v <= 1 ->
  vc * exp (rpow u c * ln (vm / vc)) < vc * exp (rpow v c * ln (vm / vc)).
Proof using C V.
  intros H K. apply Rmult_lt_compat_l; [lra|]. apply exp_increasing. apply Rmult_lt_compat_r; [apply log_ratio_pos|].
  now apply rpow_lt.
Qed.
Lemma relative_0 : vc * exp (rpow 0 c * ln (vm / vc)) = vc.
Proof using Type. rewrite rpow_0, Rmult_0_l, exp_0. lra. Qed.
Lemma relative_1 : vc * exp (rpow 1 c * ln (vm / vc)) = vm.
Proof using V. rewrite rpow_1, Rmult_1_l, exp_ln by (apply Rdiv_lt_0_compat; lra). field; lra. Qed.
Lemma relative_range v : 0 <= v <= 1 -> vc <= vc * exp (rpow v c * ln (vm / vc)) <= vm.
Proof using C V.
  intros H. split.
  - destruct (Req_dec v 0) as [->|]; [rewrite relative_0; lra|].
    rewrite <- relative_0 at 1. apply Rlt_le, relative_increasing; lra.
  - destruct (Req_dec v 1) as [->|]; [rewrite relative_1; lra|].
    rewrite <- relative_1 at 2. apply Rlt_le, relative_increasing; lra.
Qed.
Lemma relative_there v : 0 <= v <= 1 ->
  rpow (ln (vc * exp (rpow v c * ln (vm / vc)) / vc) / ln (vm / vc)) (1 / c) = v.
Proof using C V.
  intros H. replace (vc * exp (rpow v c * ln (vm / vc)) / vc) with (exp (rpow v c * ln (vm / vc))) by (field; lra).
  rewrite ln_exp. replace (rpow v c * ln (vm / vc) / ln (vm / vc)) with (rpow v c) by (field; pose proof log_ratio_pos; lra).
  apply rpow_rpow; lra.
Qed.
Lemma log_share x : vc <= x <= vm -> 0 <= ln (x / vc) / ln (vm / vc) <= 1.
Proof using V.
  intros H. pose proof log_ratio_pos as P.
  assert (A : 0 <= ln (x / vc)).
  { rewrite <- ln_1. destruct (Req_dec x vc) as [->|]; [right; f_equal; field; lra|].
    left. apply ln_increasing; [lra|]. apply (Rmult_lt_reg_r vc); [lra|]. unfold Rdiv. rewrite Rmult_assoc, Rinv_l; lra. }
  assert (B : ln (x / vc) <= ln (vm / vc)).
  { destruct (Req_dec x vm) as [->|]; [lra|]. left. apply ln_increasing; [apply Rdiv_lt_0_compat; lra|].
    apply (Rmult_lt_reg_r vc); [lra|]. unfold Rdiv. rewrite !Rmult_assoc, Rinv_l; lra. }
  split; [apply Rmult_le_pos; auto; left; now apply Rinv_0_lt_compat|].
  apply (Rmult_le_reg_r (ln (vm / vc))); auto. unfold Rdiv at 1. rewrite Rmult_assoc, Rinv_l; lra.
Qed.
Lemma relative_back x : vc <= x <= vm ->
  0 <= rpow (ln (x / vc) / ln (vm / vc)) (1 / c) <= 1 /\
  vc * exp (rpow (rpow (ln (x / vc) / ln (vm / vc)) (1 / c)) c * ln (vm / vc)) = x.
Proof using C V.
  intros H. pose proof (log_share x H) as S. pose proof log_ratio_pos as P.
  assert (0 < 1 / c) by (apply Rdiv_lt_0_compat; lra).
  split.
  - split; [apply rpow_nonneg; lra|].
    destruct (Req_dec (ln (x / vc) / ln (vm / vc)) 1) as [->|]; [rewrite rpow_1; lra|].
    pose proof (rpow_lt (ln (x / vc) / ln (vm / vc)) 1 (1 / c) ltac:(lra) ltac:(auto)) as Q. rewrite rpow_1 in Q. lra.
  - rewrite rpow_rpow' by lra.
    replace (ln (x / vc) / ln (vm / vc) * ln (vm / vc)) with (ln (x / vc)) by (field; lra).
    rewrite exp_ln by (apply Rdiv_lt_0_compat; lra). field; lra.
Qed.
End Relative.

Section Log.
Variables (vc vm : R).
Hypothesis V : vc < vm < 1.
Lemma xi_pos : 0 < ln ((1 - vc) / (1 - vm)).
Proof using V.
  rewrite <- ln_1. apply ln_increasing; [lra|]. apply (Rmult_lt_reg_r (1 - vm)); [lra|]. unfold Rdiv. rewrite Rmult_assoc, Rinv_l; lra.
Qed.
Lemma log_transform v : transform_loss_log nan vc vm v = Ok (1 - (1 - vm) * exp ((1 - v) * ln ((1 - vc) / (1 - vm)))).
Proof using V.
  unfold transform_loss_log. rewrite quo_ok by lra. cbn [obind]. rewrite log_ok by (apply Rdiv_lt_0_compat; lra). reflexivity.
Qed.
Lemma log_retransform x : x < 1 -> retransform_loss_log nan vc vm x =
  Ok (1 - ln ((1 - x) / (1 - vm)) / ln ((1 - vc) / (1 - vm))).
Proof using V.
  intros H. pose proof xi_pos. unfold retransform_loss_log.
  rewrite quo_ok by lra. cbn [obind]. rewrite log_ok by (apply Rdiv_lt_0_compat; lra). cbn [obind].
  rewrite quo_ok by lra. cbn [obind]. rewrite log_ok by (apply Rdiv_lt_0_compat; lra). cbn [obind].
  rewrite quo_ok by lra. reflexivity.
Qed.
Lemma log_increasing u v : u < v ->
  1 - (1 - vm) * exp ((1 - u) * ln ((1 - vc) / (1 - vm))) < 1 - (1 - vm) * exp ((1 - v) * ln ((1 - vc) / (1 - vm))).
Proof using V.
  intros H. pose proof xi_pos as P.
  assert (exp ((1 - v) * ln ((1 - vc) / (1 - vm))) < exp ((1 - u) * ln ((1 - vc) / (1 - vm)))).
  { apply exp_increasing. apply Rmult_lt_compat_r; lra. }
  assert (0 < 1 - vm) by lra. nra.
Qed.
Lemma log_0 : 1 - (1 - vm) * exp ((1 - 0) * ln ((1 - vc) / (1 - vm))) = vc.
Proof using V. rewrite Rminus_0_r, Rmult_1_l, exp_ln by (apply Rdiv_lt_0_compat; lra). field; lra. Qed.
Lemma log_1 : 1 - (1 - vm) * exp ((1 - 1) * ln ((1 - vc) / (1 - vm))) = vm.
Proof using V. replace (1 - 1) with 0 by lra. rewrite Rmult_0_l, exp_0. lra. Qed.
Lemma log_there v : 1 - ln ((1 - (1 - (1 - vm) * exp ((1 - v) * ln ((1 - vc) / (1 - vm))))) / (1 - vm)) / ln ((1 - vc) / (1 - vm)) = v.
Proof using V.
  pose proof xi_pos. set (xi := ln _) in *.
  replace ((1 - (1 - (1 - vm) * exp ((1 - v) * xi))) / (1 - vm)) with (exp ((1 - v) * xi)) by (field; lra).
  rewrite ln_exp. field; lra.
Qed.
Lemma log_back x : x < 1 ->
  1 - (1 - vm) * exp ((1 - (1 - ln ((1 - x) / (1 - vm)) / ln ((1 - vc) / (1 - vm)))) * ln ((1 - vc) / (1 - vm))) = x.
Proof using V.
  intros H. pose proof xi_pos. set (xi := ln ((1 - vc) / (1 - vm))) in *.
  replace ((1 - (1 - ln ((1 - x) / (1 - vm)) / xi)) * xi) with (ln ((1 - x) / (1 - vm))) by (field; lra).
  rewrite exp_ln by (apply Rdiv_lt_0_compat; lra). field; lra.
Qed.
End Log.

(** * C13 *)
Definition spaced (s : spacing) (vc vm v : R) : R :=
  match s with
  | LogCompton => 1 - (1 - vm) * exp ((1 - v) * ln ((1 - vc) / (1 - vm)))
  | Relative => vc * exp (rpow v 1 * ln (vm / vc))
  | RelativeIonization => vc * exp (rpow v (15 / 10) * ln (vm / vc))
  end.
Lemma transform_spaced s vc vm v : usable s vc vm -> 0 <= v <= 1 -> transform_loss nan s vc vm v = Ok (spaced s vc vm v).
Proof.
  destruct s; cbn [usable transform_loss spaced]; intros U H.
  - apply relative_transform; auto; lra.
  - apply relative_transform; auto; lra.
  - apply log_transform; auto.
Qed.
Lemma spaced_increasing s vc vm u v : usable s vc vm -> 0 <= u < v -> v <= 1 -> spaced s vc vm u < spaced s vc vm v.
Proof.
  destruct s; cbn [usable spaced]; intros U H K; [apply relative_increasing| apply relative_increasing | apply log_increasing]; auto; lra.
Qed.
Lemma spaced_0 s vc vm : usable s vc vm -> spaced s vc vm 0 = vc.
Proof. destruct s; cbn [usable spaced]; intros U; [apply relative_0 | apply relative_0 | now apply log_0]. Qed.
Lemma spaced_1 s vc vm : usable s vc vm -> spaced s vc vm 1 = vm.
Proof. destruct s; cbn [usable spaced]; intros U; [apply relative_1 | apply relative_1 | apply log_1]; auto. Qed.
Lemma spaced_range s vc vm v : usable s vc vm -> 0 <= v <= 1 -> vc <= spaced s vc vm v <= vm.
Proof.
  intros U H. split.
  - destruct (Req_dec v 0) as [->|]; [rewrite spaced_0; auto; lra|].
    rewrite <- (spaced_0 s vc vm) at 1 by auto. apply Rlt_le, spaced_increasing; auto; lra.
  - destruct (Req_dec v 1) as [->|]; [rewrite spaced_1; auto; lra|].
    rewrite <- (spaced_1 s vc vm) at 2 by auto. apply Rlt_le, spaced_increasing; auto; lra.
Qed.
Lemma retransform_spaced s vc vm v : usable s vc vm -> 0 <= v <= 1 ->
  retransform_loss nan s vc vm (spaced s vc vm v) = Ok v.
Proof.
  intros U H. pose proof (spaced_range s vc vm v U H) as R.
  destruct s; cbn [usable spaced retransform_loss] in *.
  - rewrite relative_retransform by (auto; lra). f_equal. apply relative_there; auto; lra.
  - rewrite relative_retransform by (auto; lra). f_equal. apply relative_there; auto; lra.
  - rewrite log_retransform by (auto; lra). f_equal. apply log_there; auto.
Qed.
Lemma spaced_onto s vc vm x : usable s vc vm -> vc <= x <= vm -> exists v, 0 <= v <= 1 /\ spaced s vc vm v = x.
Proof.
  intros U H. destruct s; cbn [usable spaced] in *.
  - destruct (relative_back 1 vc vm ltac:(lra) U x H). eexists; split; eauto.
  - destruct (relative_back (15 / 10) vc vm ltac:(lra) U x H). eexists; split; eauto.
  - exists (1 - ln ((1 - x) / (1 - vm)) / ln ((1 - vc) / (1 - vm))). split; [|apply log_back; auto; lra].
    pose proof (log_back vc vm U x ltac:(lra)) as B. set (v := 1 - _ / _) in *.
    split.
    + destruct (Rle_lt_dec 0 v); auto. pose proof (log_increasing vc vm U v 0 r). rewrite (log_0 vc vm U) in H0. lra.
    + destruct (Rle_lt_dec v 1); auto. pose proof (log_increasing vc vm U 1 v r). rewrite (log_1 vc vm U) in H0. lra.
Qed.

Theorem c13_inverse s vc vm : usable s vc vm ->
  (forall v, 0 <= v <= 1 -> exists x, transform_loss nan s vc vm v = Ok x /\ vc <= x <= vm /\
     retransform_loss nan s vc vm x = Ok v) /\
  (forall x, vc <= x <= vm -> exists v, retransform_loss nan s vc vm x = Ok v /\ 0 <= v <= 1 /\
     transform_loss nan s vc vm v = Ok x).
Proof.
  intros U. split.
  - intros v H. exists (spaced s vc vm v). auto using transform_spaced, spaced_range, retransform_spaced.
  - intros x H. destruct (spaced_onto s vc vm x U H) as (v & Hv & <-). exists v.
    auto using transform_spaced, retransform_spaced.
Qed.
Theorem c13_ends s vc vm : usable s vc vm ->
  transform_loss nan s vc vm 0 = Ok vc /\ transform_loss nan s vc vm 1 = Ok vm /\
  retransform_loss nan s vc vm vc = Ok 0 /\ retransform_loss nan s vc vm vm = Ok 1.
Proof.
  intros U. rewrite !transform_spaced by (auto; lra). rewrite spaced_0, spaced_1 by auto. repeat split.
  - rewrite <- (spaced_0 s vc vm U) at 2. apply retransform_spaced; auto; lra.
  - rewrite <- (spaced_1 s vc vm U) at 2. apply retransform_spaced; auto; lra.
Qed.
Theorem c13_increasing s vc vm u v x y : usable s vc vm -> 0 <= u < v -> v <= 1 ->
  transform_loss nan s vc vm u = Ok x -> transform_loss nan s vc vm v = Ok y -> x < y.
Proof.
  intros U H K. rewrite !transform_spaced by (auto; lra). intros [= <-] [= <-]. now apply spaced_increasing.
Qed.

(** The tables with nodes at the same place: a range that is empty *)
Theorem c13_empty_relative v c : 0 < v -> 0 < c -> forall u, transform_relative_loss nan c v v u = Ok v.
Proof.
  intros V C u. unfold transform_relative_loss. rewrite (proj2 (Reqb_false v 0)) by lra.
  destruct (Rltb_spec u 0); [reflexivity|]. cbn [orb]. destruct (Rleb_spec 1 u); [reflexivity|].
  rewrite quo_ok by lra. cbn [obind]. replace (v / v) with 1 by (field; lra). rewrite log_ok by lra. cbn [obind].
  rewrite ln_1, Rmult_0_r, exp_0, Rmult_1_r. reflexivity.
Qed.
Theorem c13_empty_log v : (forall A a, nan A <> Ok a) -> v < 1 -> forall r, retransform_loss_log nan v v v <> Ok r.
Proof.
  intros N V r. unfold retransform_loss_log.
  rewrite quo_ok by lra. cbn [obind]. replace ((1 - v) / (1 - v)) with 1 by (field; lra).
  rewrite !log_ok by lra. cbn [obind]. rewrite ln_1. unfold quo. rewrite (proj2 (Reqb_true 0 0)) by lra.
  intros H. destruct (nan R) eqn:Q; try discriminate. now apply (N R a).
Qed.
(** Without a cut bremsstrahlung has no smallest loss. *)
Theorem c13_no_cut vm u c : (forall A a, nan A <> Ok a) -> 0 < vm -> 0 <= u < 1 ->
  forall r, transform_relative_loss nan c 0 vm u <> Ok r.
Proof.
  intros N V H r. unfold transform_relative_loss.
  rewrite (proj2 (Rltb_false _ _)), (proj2 (Reqb_false _ _)), (proj2 (Rleb_false _ _)) by lra. cbn [orb].
  unfold quo. rewrite (proj2 (Reqb_true 0 0)) by lra. intros K. destruct (nan R) eqn:Q; try discriminate. now apply (N R a).
Qed.

(** * Sampling from a table inverts the table *)
Theorem interpolant_inverts s kin cut table low find E :
  let lim := integration_limits kin cut E in
  let c := dndx_interpolant nan s kin cut table low find in
  usable s (v_min lim) (v_max lim) -> low <= E ->
  (forall u, 0 <= u <= 1 -> 0 <= table E u) ->
  (forall u v, 0 <= u < v -> v <= 1 -> table E u < table E v) ->
  (forall y, 0 < y <= table E 1 -> exists u, find E y = Ok u /\ 0 <= u <= 1 /\ table E u = y) ->
  dn_rate c E = Ok (table E 1) /\
  inverts (dn_upper c E) (dn_cumulative c E) (v_min lim) (v_max lim) (table E 1).
Proof.
  intros lim c U L P M F. subst c. cbn [dndx_interpolant dn_rate dn_upper dn_cumulative].
  assert (EV : forall u, 0 <= u <= 1 -> evaluate_interpolant table low E u = table E u).
  { intros u Hu. unfold evaluate_interpolant. rewrite (proj2 (Rltb_false _ _)) by lra.
    rewrite (proj2 (Rltb_false _ _)); auto. }
  split; [rewrite EV by lra; reflexivity|].
  split; [|split].
  - intros y Hy. rewrite (proj2 (Rltb_false _ _)) by lra. fold lim.
    destruct (F y Hy) as (u & -> & Hu & T). cbn [obind].
    exists (spaced s (v_min lim) (v_max lim) u). rewrite transform_spaced by auto.
    split; [reflexivity|]. split; [apply spaced_range; auto|].
    rewrite retransform_spaced by auto. cbn [obind]. now rewrite EV, T.
  - intros v Hv. destruct (spaced_onto _ _ _ v U Hv) as (u & Hu & <-). fold lim. rewrite retransform_spaced by auto.
    cbn [obind]. eauto.
  - intros v w y z Hv Hvw Hw. fold lim.
    destruct (spaced_onto _ _ _ v U ltac:(lra)) as (u1 & H1 & <-).
    destruct (spaced_onto _ _ _ w U ltac:(lra)) as (u2 & H2 & <-).
    rewrite !retransform_spaced by auto. cbn [obind]. rewrite !EV by auto. intros [= <-] [= <-].
    apply M; [|lra]. split; [lra|].
    destruct (Rlt_le_dec u1 u2); auto. exfalso.
    destruct (Req_dec u1 u2) as [->|]; [lra|]. pose proof (spaced_increasing s _ _ u2 u1 U ltac:(lra) ltac:(lra)). lra.
Qed.
End Nan.
