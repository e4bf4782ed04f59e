(** Concrete cases for the electron pairs of Sandrock, Soedingrekso and Rhode. *)
From Coq Require Import Lra.
From Verif Require Import Prelude PreludeFacts Particle_Model Limits_Model Cross_Model Photo_Model Products_Model Differential_Model Integral_Model Pairs_Model.
From Verif Require Import Differential_Spec Pairs_Spec Differential_Proofs Pairs_Proofs Rho_Proofs Cross_Examples Differential_Examples Dilog_Spec Dilog_Examples.

(** A muon of 1 TeV that loses half of its energy in oxygen, to a symmetric pair *)
Lemma symmetric_case : dilogarithm spence /\ element oxygen_c /\ 0 < MMU /\ 0 < 10 ^ 6 /\ 0 < 1 / 2 < 1 /\ 0 <= 0 < 1 /\ kelner_xi MMU (1 / 2) 0 <= 10 ^ 12.
Proof.
  pose proof mmu_val as Mm. pose proof me_val as Me. split; [exact spence_dilogarithm|]. split; [exact oxygen_element|]. repeat split; try lra.
  unfold kelner_xi. assert (0 <= MMU * (1 / 2) / (2 * ME) <= 106) as Q.
  { split; [apply Rlt_le, Rdiv_lt_0_compat; lra|]. apply Rmult_le_reg_r with (2 * ME); [lra|]. replace (MMU * (1 / 2) / (2 * ME) * (2 * ME)) with (MMU / 2) by (field; lra). nra. }
  set (q := MMU * (1 / 2) / (2 * ME)) in *. clearbody q. replace (q ^ 2 * (1 - 0 ^ 2) / (1 - 1 / 2)) with (2 * (q * q)) by field. nra.
Qed.
