(** Concrete losses for the examples beside C38 and C54. *)
From Verif Require Import Prelude PreludeFacts Vec_Model Propagator_Model Secondaries_Model Particle_Model Shapes_Spec
  Limits_Model Limits_Spec Limits_Proofs Products_Model Products_Spec Products_Proofs ProductsLimits_Proofs.
From Coq Require Import Lra.

(** A loss of a hundredth of 1 GeV along the z axis. *)
Definition loss0 (ty : itype) : sloss := mksloss ty 10 (mkvec 1 2 3) (mkvec 0 0 1) 4 5 1000 0.
Definition hydrogen : target := mktarget 1 1.
Lemma loss0_unit ty : unit (sl_direction (loss0 ty)). Proof. unfold unit, dot. cbn. ring. Qed.
Lemma hundredth ty : sl_energy (loss0 ty) = sl_parent_energy (loss0 ty) * (1 / 100). Proof. cbn. lra. Qed.
Lemma loss0_ionization : let l := ionization_limits MMU 75 1000 in v_min l < v_max l /\ in_limits l (1 / 100).
Proof.
  cbv zeta. unfold in_limits, ionization_limits. cbn [v_min v_max].
  match goal with |- context [Rmin ?a ?b] => assert (A : 1 / 100 < a) end.
  { set (D := (1 + 2 * (1000 / MMU) * (ME / MMU) + ME / MMU * (ME / MMU)) * 1000).
    assert (0 < D) by (unfold D; consts; lra). apply Rmult_lt_reg_r with D; auto. rewrite div_mul by lra. unfold D. consts. lra. }
  assert (B : 1 / 100 < 1 - MMU / 1000) by (consts; lra). pose proof (Rmin_glb_lt _ _ _ A B) as M.
  match goal with |- context [if ?a <? ?b then _ else _] => destruct (Rltb_spec a b) end; lra.
Qed.
Lemma loss0_compton : in_limits (compton_limits 1000) (1 / 100).
Proof.
  unfold in_limits, compton_limits. cbn [v_min v_max]. split; [lra|].
  assert (0 < 2 * 1000 / ME) by (apply Rdiv_lt_0_compat; consts; lra).
  replace (1 - 1 / (1 + 2 * 1000 / ME)) with (2000 / (2000 + ME)) by (field; split; consts; lra).
  apply Rmult_le_reg_r with (2000 + ME); [consts; lra|]. rewrite div_mul; consts; lra.
Qed.
Lemma loss0_electrons : in_limits (moller_limits ME 1000) (1 / 100).
Proof. unfold in_limits, moller_limits. cbn [v_min v_max]. destruct (Rltb_spec (1 / 2 * (1 - ME / 1000)) 0); consts; lra. Qed.
Lemma loss0_epair : let l := epair_limits MMU 1 1000 in v_min l < v_max l /\ in_limits l (1 / 100).
Proof.
  cbv zeta. unfold in_limits, epair_limits. cbn [v_min v_max]. assert (C : cube_root 1 = 1). { unfold cube_root, Rpower. rewrite ln_1, Rmult_0_r, exp_0. auto. }
  rewrite C. assert (A : 1 / 100 < 1 - 75 / 100 * SQRTE * (MMU / 1000) * 1) by (consts; lra).
  assert (B : 1 / 100 < 1 - 6 * (MMU / 1000) * (MMU / 1000)) by (consts; lra). pose proof (Rmin_glb_lt _ _ _ A B).
  match goal with |- context [if ?a <? ?b then _ else _] => destruct (Rltb_spec a b) end; consts; lra.
Qed.
(** A table that always returns a share of one third. *)
Definition third : table := Some [(1%N, fun _ _ => Ok (1 / 3))].
Lemma third_limits : 2 * ME < 1000 /\ in_limits (photo_pair_limits 1000) (1 / 3).
Proof. unfold in_limits, photo_pair_limits. destruct (Rleb_spec 1000 (2 * ME)); cbn [v_min v_max]; consts; lra. Qed.
(** Drawing the middle of the range. *)
Definition middle (rho_max r : R) : R * R := (1, 1 / 2 * rho_max).
Lemma middle_draws : draws middle.
Proof. intros rho_max r H. cbn. lra. Qed.
Lemma c38_naive_epair : exists l, 0 < sl_energy l < sl_parent_energy l /\ forall c rnd, naive_epair l c rnd = Ok [] /\ Decay_Spec.total_energy [] = 0.
Proof. exists (loss0 Epair). split; [cbn; lra|]. intros. split; reflexivity. Qed.
