(** Muons and electrons in oxygen, iron and lead. *)
From Coq Require Import Lra Psatz.
From Coquelicot Require Import Coquelicot.
From Verif Require Import Prelude PreludeFacts Particle_Model Limits_Model Cross_Model Photo_Model Products_Model Differential_Model Ionization_Model.
From Verif Require Import Continuous_Spec Differential_Spec Transform_Proofs Ionization_Proofs Differential_Proofs Brems_Proofs Screening_Proofs
  Cross_Examples Continuous_Examples.

(** Components.cxx:299, 301 *)
Definition iron_c : component := mkcomponent 26 26 (55845 / 1000) 1.
Definition lead_c : component := mkcomponent 82 82 (2072 / 10) 1.
Lemma oxygen_element : element oxygen_c.
Proof. unfold element, oxygen_c. cbn. lra. Qed.
Lemma iron_element : element iron_c.
Proof. unfold element. cbn. lra. Qed.
Lemma lead_element : element lead_c.
Proof. unfold element. cbn. lra. Qed.
Lemma muon_lepton : lepton MMU /\ ME <= MMU.
Proof. unfold lepton, MMU, ME. lra. Qed.
Lemma electron_lepton : lepton ME /\ ME <= ME.
Proof. unfold lepton. lra. Qed.
Lemma cube_root_le Z y : 0 < Z -> 0 <= y -> Z <= y ^ 3 -> cube_root Z <= y.
Proof. intros P Y H. apply cube_mono; [apply Rlt_le, exp_pos|exact Y|]. now rewrite cube_root_cubed. Qed.
(** There are losses within the limits. *)
Lemma brems_room mass c E : element c -> 0 < mass -> 12 * mass <= E -> 0 < v_max (brems_limits None mass (c_charge c) E).
Proof.
  intros el M H. cbn [brems_limits v_max]. assert (cube_root (c_charge c) <= 5) as R by (apply cube_root_le; destruct el; lra).
  assert (0 < cube_root (c_charge c)) as P by apply exp_pos. pose proof SQRTE_val as U. set (y := cube_root (c_charge c)) in *. clearbody y.
  assert (0 < mass / E) by (apply Rdiv_lt_0_compat; lra). assert (mass / E <= 1 / 12) by (apply Rle_div_l; lra). set (q := mass / E) in *. clearbody q.
  assert (75 / 100 * SQRTE * q * y <= 75 / 100 * (16488 / 10000) * (1 / 12) * 5).
  { apply Rmult_le_compat; try lra; [apply Rmult_le_pos; lra|]. apply Rmult_le_compat; lra. }
  rewrite (proj2 (Rltb_false _ _)) by lra. lra.
Qed.
Lemma brems_example : element oxygen_c /\ c_charge oxygen_c <= 10 /\ element lead_c /\ lepton MMU /\ ME <= MMU /\ lepton ME /\
  0 < v_max (brems_limits None MMU (c_charge oxygen_c) (10 ^ 5)) /\ 0 < v_max (brems_limits None MMU (c_charge lead_c) (10 ^ 5)) /\
  0 < v_max (brems_limits None ME (c_charge lead_c) 10).
Proof.
  split; [exact oxygen_element|]. split; [cbn; lra|]. split; [exact lead_element|]. destruct muon_lepton as [A B]. split; [exact A|].
  split; [exact B|]. split; [exact (proj1 electron_lepton)|].
  repeat split; apply brems_room; try exact oxygen_element; try exact lead_element; unfold MMU, ME; lra.
Qed.
Lemma petrukhin_example : element iron_c /\ 10 < c_charge iron_c /\ 73 * MMU ^ 2 / ME <= 2 * 10 ^ 6.
Proof.
  split; [exact iron_element|]. split; [cbn; lra|]. pose proof ME_pos. apply Rle_div_l; [lra|]. unfold MMU, ME. lra.
Qed.
Lemma screening_example : element lead_c /\ 80 <= c_charge lead_c.
Proof. split; [exact lead_element|cbn; lra]. Qed.
Lemma compton_example : 0 < 10 * ME /\ v_min (compton_limits (10 * ME)) <= 1 / 2 <= v_max (compton_limits (10 * ME)) /\ compton_angle (10 * ME) (1 / 2) = 9 / 10.
Proof.
  pose proof ME_pos as P. split; [lra|]. split.
  - cbn. replace (1 + 2 * (10 * ME) / ME) with 21 by (field; lra). lra.
  - unfold compton_angle. field. lra.
Qed.
Lemma muon_mass : 105 <= MMU <= 106.
Proof. unfold MMU. lra. Qed.
Lemma rossi_example : sound_material water_ionization /\ 0 < MMU < 10 ^ 5 /\
  v_min (ionization_limits MMU (mat_I water_ionization) (10 ^ 5)) < v_max (ionization_limits MMU (mat_I water_ionization) (10 ^ 5)).
Proof.
  split; [exact water_ionization_sound|]. split; [unfold MMU; lra|]. cbn [ionization_limits v_min v_max mat_I water_ionization].
  set (g := 10 ^ 5 / MMU). set (r := ME / MMU).
  assert (900 <= g <= 1000) as G by (unfold g; pose proof muon_mass; split; [apply (proj1 (Rle_div_r 900 (10 ^ 5) MMU ltac:(lra)))|apply Rle_div_l]; lra).
  assert (4 / 1000 <= r <= 5 / 1000) as Rr by (unfold r; pose proof muon_mass; assert (51 / 100 <= ME <= 52 / 100) by (unfold ME; lra); split; [apply (proj1 (Rle_div_r (4 / 1000) ME MMU ltac:(lra)))|apply Rle_div_l]; lra).
  assert (1 / 1000 <= Rmin (2 * ME * (g * g - 1) / ((1 + 2 * g * r + r * r) * 10 ^ 5)) (1 - MMU / 10 ^ 5)) as L.
  { apply Rmin_glb; [|unfold MMU; lra].
    apply (proj1 (Rle_div_r (1 / 1000) (2 * ME * (g * g - 1)) ((1 + 2 * g * r + r * r) * 10 ^ 5) ltac:(nra))).
    assert (2 * g * r <= 10) by nra. assert (r * r <= 1) by nra. assert (810000 <= g * g) by nra.
    assert (1 / 2 <= ME) by (unfold ME; lra). apply Rle_trans with 1200; [lra|]. apply Rle_trans with (1 * (g * g - 1)); [lra|]. apply Rmult_le_compat_r; lra. }
  rewrite (proj2 (Rltb_false _ _)) by lra. lra.
Qed.
