(** Concrete cases for the properties of pair production by photons and of the
    suppression of Landau, Pomeranchuk and Migdal. *)
From Coq Require Import Lra Psatz.
From Coquelicot Require Import Coquelicot.
From Verif Require Import Prelude PreludeFacts Particle_Model Limits_Model Cross_Model Photo_Model Products_Model Differential_Model Photopair_Model.
From Verif Require Import Differential_Spec Photopair_Spec Ionization_Proofs Brems_Proofs Lpm_Proofs Cross_Examples Differential_Examples.

(** Lead and water, with a scale of the energy of the order that the constructor
    computes *)
Definition lead_lpm : lpm_medium := mklpm (33 * 10 ^ 21) 82 (10 ^ 7).
Definition water_lpm : lpm_medium := mklpm (334 * 10 ^ 20) 10 (10 ^ 9).
Lemma lpm_example : ME <= ME /\ element lead_c /\ 80 <= c_charge lead_c /\ 0 < l_energy lead_lpm /\
  0 < l_sum_charge lead_lpm * l_mol_density lead_lpm /\ l_sum_charge lead_lpm * l_mol_density lead_lpm * 1 <= 10 ^ 26 /\
  1000 * 1 <= l_energy lead_lpm.
Proof. split; [lra|]. split; [exact lead_element|]. cbn. lra. Qed.
Lemma weak_example : element oxygen_c /\ 0 < l_energy water_lpm /\ 0 <= l_sum_charge water_lpm * l_mol_density water_lpm /\
  64 * (1 * 10 ^ 6 * (1 - 1 / 10)) <= l_energy water_lpm * (1 / 10) /\ 64 * (1 * 10 ^ 6 * (1 / 10) * (1 - 1 / 10)) <= l_energy water_lpm.
Proof. split; [exact oxygen_element|]. cbn. lra. Qed.
Lemma strong_example : MMU <= MMU /\ element lead_c /\ 0 < l_energy lead_lpm /\ 0 <= l_sum_charge lead_lpm * l_mol_density lead_lpm /\
  l_energy lead_lpm * (1 / 10) < 64 * (1 * (100 * l_energy lead_lpm) * (1 - 1 / 10)).
Proof. destruct lpm_example as (_ & el & _ & P & Q & _ & L). split; [lra|]. split; [exact el|]. split; [exact P|]. split; [lra|]. lra. Qed.
Lemma muon_pair_example : element oxygen_c /\ v_min (photo_muon_pair_limits 1000) < 1 / 4 < v_max (photo_muon_pair_limits 1000).
Proof.
  split; [exact oxygen_element|]. unfold photo_muon_pair_limits. rewrite (proj2 (Rleb_false _ _)) by (unfold MMU, SQRTE; lra). cbn [v_min v_max].
  assert (1 / 2 < sqrt (1 - 2 * SQRTE * MMU / 1000)); [|lra]. rewrite <- (sqrt_square (1 / 2)) at 1 by lra. apply sqrt_lt_1_alt. unfold SQRTE, MMU. lra.
Qed.
Lemma tsai_example : element oxygen_c /\ 5 <= c_charge oxygen_c /\ 2 * ME < 10 ^ 6 /\ ME / 10 ^ 6 < 1 / 4 < 1 / 2 /\ 1000 * ME <= 10 ^ 6 * (1 / 4) * (1 - 1 / 4) /\
  v_min (photo_pair_limits (10 ^ 6)) < v_max (photo_pair_limits (10 ^ 6)).
Proof.
  split; [exact oxygen_element|]. split; [cbn; lra|]. unfold photo_pair_limits. rewrite (proj2 (Rleb_false _ _)) by (unfold ME; lra). cbn [v_min v_max]. unfold ME. lra.
Qed.
Lemma koch_motz_example : element iron_c /\ c_charge iron_c <= 26 /\ 20 * ME <= 100 /\ 50 < 100 /\
  v_min (photo_pair_limits 100) < v_max (photo_pair_limits 100).
Proof.
  split; [exact iron_element|]. split; [cbn; lra|]. unfold photo_pair_limits. rewrite (proj2 (Rleb_false _ _)) by (unfold ME; lra). cbn [v_min v_max]. unfold ME. lra.
Qed.
