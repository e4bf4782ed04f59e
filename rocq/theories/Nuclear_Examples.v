(** Concrete cases for the properties of nuclear interactions. *)
From Coq Require Import Lra.
From Verif Require Import Prelude PreludeFacts Propagator_Model Particle_Model Limits_Model Cross_Model Photo_Model Products_Model Nuclear_Model.
From Verif Require Import Cross_Spec Differential_Spec Nuclear_Spec Differential_Proofs Nuclear_Proofs Cross_Examples Differential_Examples.

Lemma hydrogen_element : element hydrogen_c.
Proof. unfold element. cbn. lra. Qed.
Lemma water_elements : forall c, In c (m_components water) -> element c.
Proof. intros c [<-|[<-|[]]]; [exact hydrogen_element|exact oxygen_element]. Qed.
(** A photon of 1 GeV produces pions in oxygen, one of 100 MeV does not. *)
Lemma pions_example : element oxygen_c /\ makes_pion oxygen_c 1000 /\ ~ makes_pion oxygen_c 100.
Proof. split; [exact oxygen_element|]. unfold makes_pion, mean_nucleon. cbn [c_charge c_atomic oxygen_c]. unfold MP, MN, MPI. lra. Qed.
Lemma production_example : sound_medium water /\ (forall c, In c (m_components water) -> element c) /\ 0 < 1000 < 10 ^ 20 /\
  (forall nan c, In c (m_components water) -> has_threshold c 1000 (atom_cross_section nan zeus c 1000)).
Proof.
  split; [exact water_sound|]. split; [exact water_elements|]. split; [lra|]. intros nan c I. apply atom_threshold; [now apply water_elements|lra|].
  apply zeus_threshold. now apply water_elements.
Qed.
(** A muon and a tau of 1 TeV *)
Lemma real_photon_example : 0 < MMU < MPI /\ -1 <> 0 /\ v_min (photonuclear_limits MMU (mean_nucleon oxygen_c) (10 ^ 6)) < 1 / 2 <= v_max (photonuclear_limits MMU (mean_nucleon oxygen_c) (10 ^ 6)) /\
  (forall e, 0 < e -> has_threshold oxygen_c e (zeus oxygen_c e)).
Proof.
  split; [unfold MMU, MPI; lra|]. split; [lra|]. split; [|intros e _; exact (zeus_threshold oxygen_c e oxygen_element)].
  unfold photonuclear_limits. rewrite (proj2 (Rltb_true MMU MPI)) by (unfold MMU, MPI; lra). cbv zeta. cbn [v_min v_max].
  unfold mean_nucleon. cbn [c_charge c_atomic oxygen_c].
  match goal with |- context [?a / (2 * ?m)] => assert (938 <= m <= 940) as W by (unfold MP, MN; lra); set (w := m) in *; clearbody w end.
  assert (0 <= MPI * MPI / (2 * w) <= 20) as K by (split; [apply Rcomplements.Rdiv_le_0_compat; unfold MPI; lra|apply Rcomplements.Rle_div_l; [lra|unfold MPI; lra]]).
  assert (0 <= MMU / w <= 1) as M by (split; [apply Rcomplements.Rdiv_le_0_compat; unfold MMU; lra|apply Rcomplements.Rle_div_l; [lra|unfold MMU; lra]]).
  assert (w * (1 + MMU / w * (MMU / w)) <= 2000) by (set (r := MMU / w) in *; clearbody r; assert (r * r <= 1) by (rewrite <- (Rmult_1_r 1); apply Rmult_le_compat; lra); apply Rle_trans with (940 * 2); [apply Rmult_le_compat; try lra; assert (0 <= r * r) by apply Rle_0_sqr; lra|lra]).
  set (a := w * (1 + MMU / w * (MMU / w))) in *. clearbody a. set (b := MPI * MPI / (2 * w)) in *. clearbody b.
  rewrite (proj2 (Rltb_false _ _)) by (unfold MPI; lra). unfold MPI. lra.
Qed.
Lemma tau_example : element hydrogen_c /\ c_charge hydrogen_c = 1 /\ MTAU <= 10 ^ 6 /\ MPI <= MTAU /\ production_cutoff hydrogen_c <= 10 ^ 6 /\
  (exists x, zeus hydrogen_c (9 / 10 * 10 ^ 6) = Ok x /\ 0 < x) /\ exists x, zeus hydrogen_c (10 ^ 6) = Ok x /\ 0 < x.
Proof.
  split; [exact hydrogen_element|]. split; [reflexivity|]. split; [unfold MTAU; lra|]. split; [unfold MPI, MTAU; lra|].
  pose proof (cutoff_below hydrogen_c hydrogen_element) as C. split; [lra|].
  assert (forall e, 200 <= e -> exists x, zeus hydrogen_c e = Ok x /\ 0 < x) as Z.
  { intros e L. destruct (zeus_threshold hydrogen_c e hydrogen_element) as (x & X & P & _). exists x. split; [exact X|]. apply P.
    apply (threshold_iff hydrogen_c e hydrogen_element). lra. }
  split; apply Z; lra.
Qed.
