(** Proofs about the functions the propagation utilities integrate, and other
    functions that consist of a formula. *)
From Verif Require Import Prelude PreludeFacts Propagator_Model Particle_Model Limits_Model Vec_Model Cross_Model Photo_Model Integral_Model Utility_Model
  Multiple_Model Cross_Spec Integrands_Spec Transform_Proofs.
(** ** Equality of cuts; rates below the cut *)
Lemma cut_equality a b : energy_cut_eqb a b = true <-> a = b.
Proof.
  destruct a as [e v r], b as [e' v' r']. unfold energy_cut_eqb. cbn [ecut vcut cut_cont_rand]. split.
  - intros H. apply andb_prop in H. destruct H as [H H3]. apply andb_prop in H. destruct H as [H1 H2].
    apply Reqb_true in H2. apply Bool.eqb_prop in H3. subst.
    destruct e, e'; try discriminate H1; [|reflexivity]. apply Reqb_true in H1. subst. reflexivity.
  - intros E. injection E. intros -> -> ->. rewrite (proj2 (Reqb_true v' v')) by reflexivity. rewrite Bool.eqb_reflx.
    destruct e' as [x|]; [rewrite (proj2 (Reqb_true x x)) by reflexivity|]; reflexivity.
Qed.
Lemma rate_below kin cut integral upper E v : v <= v_min (integration_limits kin cut E) ->
  dn_cumulative (dndx_integral kin cut integral upper) E v = Ok 0.
Proof.
  intros H. cbn [dn_cumulative dndx_integral]. unfold dndx_integral_cumulative. rewrite (proj2 (Rltb_false _ _)) by lra. reflexivity.
Qed.
Lemma rate_above kin cut integral upper E v : v_min (integration_limits kin cut E) < v ->
  dn_cumulative (dndx_integral kin cut integral upper) E v = integral E (v_min (integration_limits kin cut E)) v.
Proof.
  intros H. cbn [dn_cumulative dndx_integral]. unfold dndx_integral_cumulative. rewrite (proj2 (Rltb_true _ _)) by lra. reflexivity.
Qed.
(** ** The integrands *)
Lemma loop_sum {f : cross_base -> R -> outcome R} {loop : list cross_base -> R -> R -> outcome R} :
  (forall E acc, loop [] E acc = Ok acc) -> (forall x l E acc, loop (x :: l) E acc = obind (f x E) (fun r => loop l E (acc + r))) ->
  forall E cross l acc, each f cross E l -> loop cross E acc = Ok (acc + rsum l).
Proof.
  intros H0 H1 E cross l acc F. revert acc. induction F as [|x r cross l X F IH]; intros acc.
  - rewrite H0. cbn [rsum fold_right]. f_equal. ring.
  - rewrite H1, X. cbn [obind]. rewrite IH. f_equal. unfold rsum. cbn [fold_right]. ring.
Qed.
Section Integrands.
Variable nan : forall A, outcome A.
Lemma displacement_value cross E l : each x_dEdx cross E l ->
  displacement_function nan cross E = Ok (if Rlt_dec 0 (rsum l) then - / rsum l else 0).
Proof.
  intros F. unfold displacement_function. rewrite (loop_sum (fun _ _ => eq_refl) (fun _ _ _ _ => eq_refl) E cross l 0 F).
  cbn [obind]. rewrite Rplus_0_l. destruct (Rlt_dec 0 (rsum l)) as [H|H].
  - rewrite (proj2 (Rltb_true _ _)) by lra. rewrite quo_ok by lra. f_equal. field. lra.
  - rewrite (proj2 (Rltb_false _ _)) by lra. reflexivity.
Qed.
Lemma displacement_formula cross E l : each x_dEdx cross E l -> 0 < rsum l -> displacement_function nan cross E = Ok (- / rsum l).
Proof. intros F H. rewrite (displacement_value _ _ _ F). destruct (Rlt_dec 0 (rsum l)); [reflexivity|lra]. Qed.
Lemma displacement_none cross E l : each x_dEdx cross E l -> rsum l <= 0 -> displacement_function nan cross E = Ok 0.
Proof. intros F H. rewrite (displacement_value _ _ _ F). destruct (Rlt_dec 0 (rsum l)); [lra|reflexivity]. Qed.
Lemma interaction_formula disp cross E l n : each x_dEdx disp E l -> each x_dNdx cross E n -> 0 < rsum l -> 0 <= rsum n ->
  interaction_function nan disp cross E = Ok (- (rsum n / rsum l)).
Proof.
  intros F G H N. unfold interaction_function, total_rate.
  rewrite (loop_sum (fun _ _ => eq_refl) (fun _ _ _ _ => eq_refl) E cross n 0 G). cbn [obind]. rewrite Rplus_0_l.
  destruct (Req_dec (rsum n) 0) as [Z|Z].
  - rewrite (proj2 (Rltb_false _ _)) by lra. rewrite Z. f_equal. field. lra.
  - rewrite (proj2 (Rltb_true _ _)) by lra. rewrite (displacement_formula _ _ _ F H). cbn [obind]. f_equal. field. lra.
Qed.
Lemma cont_rand_formula disp cross E l s : disp E = Ok (- / l) -> each x_dE2dx cross E s -> 0 < l ->
  cont_rand_function disp cross E = Ok (- (rsum s / l)).
Proof.
  intros D G L. unfold cont_rand_function. rewrite (loop_sum (fun _ _ => eq_refl) (fun _ _ _ _ => eq_refl) E cross s 0 G). cbn [obind].
  rewrite D. cbn [obind]. f_equal. field. lra.
Qed.
Lemma momentum_pos mass E : 0 <= mass < E -> 0 < momentum mass E.
Proof. intros H. apply sqrt_lt_R0. nra. Qed.
Lemma decay_formula disp mass E l : disp E = Ok (- / l) -> 0 < l -> 0 < mass < E ->
  decay_function nan disp mass E = Ok (- (mass / (light_speed * momentum mass E) / l)).
Proof.
  intros D L M. pose proof (momentum_pos mass E ltac:(lra)) as P. unfold decay_function, root. rewrite (proj2 (Rltb_false _ _)) by nra. cbn [obind].
  replace ((E - mass) * (E + mass)) with (E * E - mass * mass) by ring. fold (momentum mass E). unfold quotient.
  assert (0 < light_speed) as S by (unfold light_speed; lra). change SPEED with light_speed.
  assert (0 < light_speed * momentum mass E) by nra.
  assert (0 < light_speed * momentum mass E / mass) by (apply Rdiv_lt_0_compat; lra).
  rewrite (proj2 (Reqb_false _ _)) by lra. cbn [obind]. rewrite D. cbn [obind]. rewrite (proj2 (Reqb_false _ _)) by lra. f_equal. field. repeat split; lra.
Qed.
Lemma time_formula disp mass E l : disp E = Ok (- / l) -> 0 < l -> 0 <= mass < E ->
  time_function nan disp mass E = Ok (- (E / (light_speed * momentum mass E) / l)).
Proof.
  intros D L M. pose proof (momentum_pos mass E ltac:(lra)) as P. unfold time_function.
  replace ((E - mass) * (E + mass)) with (E * E - mass * mass) by ring. rewrite Rmax_left by nra. fold (momentum mass E). rewrite D. cbn [obind].
  assert (0 < / l) by (apply Rinv_0_lt_compat; lra). rewrite (proj2 (Reqb_false _ _)) by lra. unfold quotient.
  assert (0 < light_speed) as S by (unfold light_speed; lra). change SPEED with light_speed.
  assert (0 < light_speed * momentum mass E) by nra. rewrite (proj2 (Reqb_false _ _)) by lra. f_equal. field. repeat split; lra.
Qed.
Lemma time_none disp mass E : disp E = Ok 0 -> time_function nan disp mass E = Ok 0.
Proof. intros D. unfold time_function. rewrite D. cbn [obind]. rewrite (proj2 (Reqb_true 0 0)) by reflexivity. reflexivity. Qed.
(** ** Angles and displacements *)
Lemma highland_planes h g E r0 r1 r2 r3 o : highland_offset nan h g E r0 r1 r2 r3 = Ok o -> exists a0 a1 a2 a3,
  highland_angle nan h g E r0 = Ok a0 /\ highland_angle nan h g E r1 = Ok a1 /\ highland_angle nan h g E r2 = Ok a2 /\ highland_angle nan h g E r3 = Ok a3 /\
  o_tx o = a1 /\ o_ty o = a3 /\ o_sx o = (a0 / SQRT3 + a1) / 2 /\ o_sy o = (a2 / SQRT3 + a3) / 2 /\
  highland_angle_2d nan h g E r1 r3 = Ok (sqrt (a1 * a1 + a3 * a3)).
Proof.
  unfold highland_offset, highland_angle, highland_angle_2d, gaussian_offset. destruct (theta0 nan h g E) as [t| |]; cbn [obind]; try discriminate.
  destruct (normalppf nan r0) as [z0| |]; cbn [obind]; try discriminate. destruct (normalppf nan r1) as [z1| |]; cbn [obind]; try discriminate.
  destruct (normalppf nan r2) as [z2| |]; cbn [obind]; try discriminate. destruct (normalppf nan r3) as [z3| |]; cbn [obind]; try discriminate.
  intros E1. injection E1 as <-. exists (t * z0), (t * z1), (t * z2), (t * z3). cbn [o_tx o_ty o_sx o_sy]. repeat (split; [reflexivity|]).
  split; [lra|]. split; [lra|]. reflexivity.
Qed.
Lemma moliere_planes t s g E r0 r1 r2 r3 o s' : moliere_offset nan t s g E r0 r1 r2 r3 = Ok (o, s') -> exists a0 a1 a2 a3,
  moliere_angle nan t s g E r0 = Ok (a0, s') /\ moliere_angle nan t s g E r1 = Ok (a1, s') /\
  moliere_angle nan t s g E r2 = Ok (a2, s') /\ moliere_angle nan t s g E r3 = Ok (a3, s') /\
  o_tx o = a1 /\ o_ty o = a3 /\ o_sx o = (a0 / SQRT3 + a1) / 2 /\ o_sy o = (a2 / SQRT3 + a3) / 2 /\
  moliere_angle_2d nan t s g E r1 r3 = Ok (sqrt (a1 * a1 + a3 * a3), s').
Proof.
  unfold moliere_offset, moliere_angle, moliere_angle_2d. destruct (prefactor nan s E g) as [[p s1]| |]; cbn [obind]; try discriminate.
  destruct (p =? 0).
  - intros E1. injection E1 as <- <-. exists 0, 0, 0, 0. cbn [o_tx o_ty o_sx o_sy]. repeat (split; [reflexivity|]). unfold Rdiv.
    split; [ring|]. split; [ring|]. rewrite Rmult_0_l, Rplus_0_l, sqrt_0. reflexivity.
  - destruct (get_random nan t s1 p r0) as [z0| |]; cbn [obind]; try discriminate. destruct (get_random nan t s1 p r1) as [z1| |]; cbn [obind]; try discriminate.
    destruct (get_random nan t s1 p r2) as [z2| |]; cbn [obind]; try discriminate. destruct (get_random nan t s1 p r3) as [z3| |]; cbn [obind]; try discriminate.
    intros E1. injection E1 as <- <-. exists z0, z1, z2, z3. cbn [o_tx o_ty o_sx o_sy]. repeat (split; [reflexivity|]). split; [lra|]. split; [lra|]. reflexivity.
Qed.
End Integrands.
