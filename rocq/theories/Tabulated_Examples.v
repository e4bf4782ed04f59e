(** Concrete cases for C63, C71 and C88. *)
From Verif Require Import Prelude PreludeFacts Particle_Model Cross_Model Photo_Model Limits_Model Photopair_Model Differential_Spec
  Interpolant_Model Interpolant_Spec Weak_Tables Tabulated_Tables Weak_Model Tabulated_Model Tabulated_Spec Crossing_Proofs Tabulated_Proofs.
From Verif Require Import Cross_Examples Photopair_Examples Differential_Examples.

(** Oxygen: 0.145 barn at 10 MeV *)
Lemma oxygen_table : nth 8 pair_energies (D 1 0) = D 1000004907 45 /\ nth 8 (nth 7 pair_cross_sections []) (D 1 0) = D 145000223 44.
Proof. vm_compute. split; reflexivity. Qed.
(** There is a total cross section without the correction, and it is not zero. *)
Lemma oxygen_total : forall nan, element oxygen_c /\ 2 * ME < 20 * ME < 50 /\
  exists n, 0 < n /\ total_in_barn oxygen_c (photo_pair_limits (20 * ME)) (koch_motz_raw nan None oxygen_c (20 * ME)) n.
Proof.
  intro nan. pose proof oxygen_element as el. assert (U : 51 / 100 < ME < 52 / 100) by (unfold ME; lra). split; [exact el|]. split; [lra|].
  destruct (total_exists nan oxygen_c el (20 * ME) ltac:(lra)) as (n & T). exists n. split; [|exact T]. apply (total_far nan oxygen_c el (20 * ME) n ltac:(lra) T).
Qed.
Lemma unused : forall nan g, used nan g g.
Proof. intros nan g. exists [], []. reflexivity. Qed.
Lemma electron_example : element lead_c /\ ME < 10 < 50 /\ exists g, screening_table = Ok g.
Proof. split; [exact lead_element|]. split; [unfold ME; lra|]. destruct (screening_made (fun A => UB out_of_bounds)) as (g & _ & E & _). now exists g. Qed.
