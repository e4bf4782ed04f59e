(** Theorems about the functions the propagation utilities integrate (C42), about
    comparisons of cuts (C12) and rates below the cut (C14), and about the two planes
    of multiple scattering (C61). *)
From Verif Require Import Prelude PreludeFacts Propagator_Model Particle_Model Limits_Model Vec_Model Cross_Model Photo_Model Integral_Model Utility_Model
  Multiple_Model Cross_Spec Integrands_Spec Integrands_Proofs Decay_Spec Multiple_Spec Multiple_Proofs Gauss_Proofs Cross_Examples Keys_Proofs Multiple_Examples.

(** ** C12 *)
(** Cuts are equal iff their limits and the flag of the randomization are. *)
Theorem C12_equality : forall a b, energy_cut_eqb a b = true <-> a = b.
Proof. exact cut_equality. Qed.
Print Assumptions C12_equality.

(** ** C14 *)
(** The rate of losses up to [v] counts from the cut on. *)
Theorem C14_below : forall kin cut integral upper E v, v <= v_min (integration_limits kin cut E) ->
  dn_cumulative (dndx_integral kin cut integral upper) E v = Ok 0.
Proof. exact rate_below. Qed.
Print Assumptions C14_below.
Theorem C14_above : forall kin cut integral upper E v, v_min (integration_limits kin cut E) < v ->
  dn_cumulative (dndx_integral kin cut integral upper) E v = integral E (v_min (integration_limits kin cut E)) v.
Proof. exact rate_above. Qed.
Print Assumptions C14_above.
Example C14_below_example : 1 / 100 <= v_min (integration_limits kin0 (Some cut0) 20000) /\ v_min (integration_limits kin0 (Some cut0) 20000) < 1 / 10.
Proof. rewrite limits0. cbn. lra. Qed.

(** ** C42: the integrands *)
(** The grammage: the inverse of the sum of the mean losses; energies decrease, hence
    the sign *)
Theorem C42_displacement : forall nan cross E l, each x_dEdx cross E l -> 0 < rsum l -> displacement_function nan cross E = Ok (- / rsum l).
Proof. exact displacement_formula. Qed.
Print Assumptions C42_displacement.
Theorem C42_displacement_none : forall nan cross E l, each x_dEdx cross E l -> rsum l <= 0 -> displacement_function nan cross E = Ok 0.
Proof. exact displacement_none. Qed.
Print Assumptions C42_displacement_none.
(** The number of interactions: the rate over the loss *)
Theorem C42_interaction : forall nan disp cross E l n, each x_dEdx disp E l -> each x_dNdx cross E n -> 0 < rsum l -> 0 <= rsum n ->
  interaction_function nan disp cross E = Ok (- (rsum n / rsum l)).
Proof. exact interaction_formula. Qed.
Print Assumptions C42_interaction.
(** The variance of the loss *)
Theorem C42_cont_rand : forall disp cross E l s, disp E = Ok (- / l) -> each x_dE2dx cross E s -> 0 < l ->
  cont_rand_function disp cross E = Ok (- (rsum s / l)).
Proof. exact cont_rand_formula. Qed.
Print Assumptions C42_cont_rand.
(** The proper time and the time, times the density: mass over momentum and energy over
    momentum are the inverse of the Lorentz factors. *)
Theorem C42_decay : forall nan disp mass E l, disp E = Ok (- / l) -> 0 < l -> 0 < mass < E ->
  decay_function nan disp mass E = Ok (- (mass / (light_speed * momentum mass E) / l)).
Proof. exact decay_formula. Qed.
Print Assumptions C42_decay.
Theorem C42_time : forall nan disp mass E l, disp E = Ok (- / l) -> 0 < l -> 0 <= mass < E ->
  time_function nan disp mass E = Ok (- (E / (light_speed * momentum mass E) / l)).
Proof. exact time_formula. Qed.
Print Assumptions C42_time.
Theorem C42_time_none : forall nan disp mass E, disp E = Ok 0 -> time_function nan disp mass E = Ok 0.
Proof. exact time_none. Qed.
Print Assumptions C42_time_none.
Example C42_integrands_example : forall nan, let cross := [constant 2 3 5; constant 1 1 2] in
  each x_dEdx cross 1000 [2; 1] /\ each x_dNdx cross 1000 [5; 2] /\ each x_dE2dx cross 1000 [3; 1] /\ 0 < rsum [2; 1] /\ 0 <= rsum [5; 2] /\
  displacement_function nan cross 1000 = Ok (- / 3) /\ interaction_function nan cross cross 1000 = Ok (- (7 / 3)) /\ 0 < MMU < 1000.
Proof.
  intros nan cross. assert (each x_dEdx cross 1000 [2; 1]) as A by (repeat constructor). assert (each x_dNdx cross 1000 [5; 2]) as B by (repeat constructor).
  assert (0 < rsum [2; 1]) as C by (cbn; lra). assert (0 <= rsum [5; 2]) as D by (cbn; lra).
  split; [exact A|]. split; [exact B|]. split; [repeat constructor|]. split; [exact C|]. split; [exact D|].
  rewrite (displacement_formula nan _ _ _ A C), (interaction_formula nan _ _ _ _ _ A B C D). cbn [rsum fold_right]. unfold MMU.
  repeat split; try lra; do 2 f_equal; lra.
Qed.

(** ** C61: two planes *)
(** The directions in the two planes are the angles that CalculateScatteringAngle
    returns for the second and the fourth random number; the first and the third enter
    the displacements. *)
Theorem C61_highland_planes : forall nan h g E r0 r1 r2 r3 o, highland_offset nan h g E r0 r1 r2 r3 = Ok o -> exists a0 a1 a2 a3,
  highland_angle nan h g E r0 = Ok a0 /\ highland_angle nan h g E r1 = Ok a1 /\ highland_angle nan h g E r2 = Ok a2 /\ highland_angle nan h g E r3 = Ok a3 /\
  o_tx o = a1 /\ o_ty o = a3 /\ o_sx o = (a0 / SQRT3 + a1) / 2 /\ o_sy o = (a2 / SQRT3 + a3) / 2 /\
  highland_angle_2d nan h g E r1 r3 = Ok (sqrt (a1 * a1 + a3 * a3)).
Proof. exact highland_planes. Qed.
Print Assumptions C61_highland_planes.
Theorem C61_moliere_planes : forall nan t s g E r0 r1 r2 r3 o s', moliere_offset nan t s g E r0 r1 r2 r3 = Ok (o, s') -> exists a0 a1 a2 a3,
  moliere_angle nan t s g E r0 = Ok (a0, s') /\ moliere_angle nan t s g E r1 = Ok (a1, s') /\
  moliere_angle nan t s g E r2 = Ok (a2, s') /\ moliere_angle nan t s g E r3 = Ok (a3, s') /\
  o_tx o = a1 /\ o_ty o = a3 /\ o_sx o = (a0 / SQRT3 + a1) / 2 /\ o_sy o = (a2 / SQRT3 + a3) / 2 /\
  moliere_angle_2d nan t s g E r1 r3 = Ok (sqrt (a1 * a1 + a3 * a3), s').
Proof. exact moliere_planes. Qed.
Print Assumptions C61_moliere_planes.
Example C61_planes_example : forall nan, not_a_value nan ->
  (exists o, highland_offset nan water 100 1000 (1 / 4) (1 / 3) (1 / 2) (3 / 4) = Ok o) /\
  exists s o s', moliere_offset nan plain s 100 1000 (1 / 4) (1 / 3) (1 / 2) (3 / 4) = Ok (o, s').
Proof.
  intros nan N. split.
  - destruct ex_highland as (L & M & _). destruct (c61_highland_both nan water 100 1000 (1 / 4) (1 / 3) (1 / 2) (3 / 4) N L M) as (o & H & _); try lra.
    exists o. exact H.
  - destruct (ex_offset nan (1 / 4) (1 / 3) (1 / 2) (3 / 4) N) as (s & o & s' & _ & H & _); try lra. exists s, o, s'. exact H.
Qed.
