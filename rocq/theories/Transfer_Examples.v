(** Concrete cases for the properties of nuclear interactions with a momentum transfer. *)
From Verif Require Import Prelude PreludeFacts Particle_Model Limits_Model Cross_Model Differential_Spec
  Nuclear_Model Nuclear_Spec Nuclear_Proofs Integral_Model Transfer_Model Transfer_Spec Transfer_Proofs Log_Proofs.

Definition oxygen : component := mkcomponent 1 8 (15999 / 1000) 1.
Definition hydrogen : component := mkcomponent 2 1 (1008 / 1000) 2.
Lemma oxygen_element : element oxygen /\ real_nucleus oxygen.
Proof. unfold element, real_nucleus, oxygen. cbn. lra. Qed.
Lemma hydrogen_element : element hydrogen /\ real_nucleus hydrogen.
Proof. unfold element, real_nucleus, hydrogen. cbn. lra. Qed.
(** A muon with 1 TeV loses a tenth of it and transfers 0.1 GeV^2. *)
Lemma muon_transfer : 0 < MMU <= 10 ^ 6 /\ possible MMU (10 ^ 6) (1 / 10) (10 ^ 5) /\ inelastic oxygen (10 ^ 6) (1 / 10) (10 ^ 5).
Proof.
  split; [unfold MMU; lra|]. split.
  - apply bound_possible; unfold MMU; lra.
  - unfold inelastic, mean_nucleon, oxygen, MPI, MP, MN. cbn [c_charge c_atomic]. lra.
Qed.
Lemma muon_range nan : exists lo, v_min (photonuclear_limits MMU (nucleon_weight oxygen) (10 ^ 6)) <= 1 / 10 < 1 /\
  transfer_min nan MMU (10 ^ 6) (1 / 10) = Ok lo /\ lo < transfer_max MMU oxygen (10 ^ 6) (1 / 10) /\
  negligible (ln lo) (ln (transfer_max MMU oxygen (10 ^ 6) (1 / 10))) = false.
Proof.
  exists (low MMU (10 ^ 6) (1 / 10)).
  assert (L : 100 < low MMU (10 ^ 6) (1 / 10) < 200).
  { unfold low. rewrite (proj2 (Rltb_true MMU MPI)) by (unfold MMU, MPI; lra). unfold MMU. lra. }
  assert (W : 938 < nucleon_weight oxygen < 940) by (unfold nucleon_weight, oxygen, MP, MN; cbn [c_charge c_atomic]; lra).
  assert (V : v_min (photonuclear_limits MMU (nucleon_weight oxygen) (10 ^ 6)) <= 1 / 100).
  { unfold photonuclear_limits. cbn [v_min]. set (w := nucleon_weight oxygen) in *. clearbody w.
    assert (MPI * MPI / (2 * w) <= 100).
    { apply (Rmult_le_reg_r (2 * w)); [lra|]. unfold Rdiv. rewrite Rmult_assoc, Rinv_l by lra. unfold MPI. lra. }
    unfold MPI in *. lra. }
  assert (U : 10 ^ 6 < transfer_max MMU oxygen (10 ^ 6) (1 / 10)).
  { unfold transfer_max. set (a := v_min _) in *. clearbody a. set (w := nucleon_weight oxygen) in *. clearbody w. nra. }
  split; [lra|]. split; [apply transfer_min_value; lra|]. split; [lra|].
  set (lo := low MMU (10 ^ 6) (1 / 10)) in *. set (hi := transfer_max _ _ _ _) in *. clearbody lo hi.
  unfold negligible, COMPUTER_PRECISION. apply (proj2 (Rleb_false _ _)).
  assert (A : 0 <= ln lo <= 199).
  { split; [rewrite <- ln_1; apply ln_mono; lra|]. pose proof (ln_at_most (lo - 1) ltac:(lra)) as H. replace (1 + (lo - 1)) with lo in H by ring. lra. }
  assert (B : ln lo + ln 2 <= ln hi) by (rewrite <- ln_mult by lra; apply ln_mono; lra).
  pose proof ln_2. rewrite (Rabs_pos_eq (ln lo)) by lra. rewrite Rabs_pos_eq by lra. lra.
Qed.
