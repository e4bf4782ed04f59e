(** Concrete cases for C71 and C87. *)
From Verif Require Import Prelude PreludeFacts Cross_Model Photo_Model Limits_Model Differential_Spec
  Interpolant_Model Interpolant_Spec Interpolant_Proofs Weak_Tables Weak_Model Weak_Spec Sheet_Proofs Weak_Proofs.

(** Two rows with different nodes *)
Lemma sheet_example : forall nan, tabular_sheet [0; 1] [[0; 1]; [1; 3]] [[0; 1]; [2; 6]] /\
  exists g f, make_sheet [0; 1] [[0; 1]; [1; 3]] [[0; 1]; [2; 6]] 2 false 2 false = Ok g /\ reads_grid nan g f /\ f 1 3 = 6 /\ f 0 1 = 1.
Proof.
  intro nan.
  assert (T : tabular_sheet [0; 1] [[0; 1]; [1; 3]] [[0; 1]; [2; 6]]).
  { split; [reflexivity|]. split; [reflexivity|]. split; [cbn; lia|]. split.
    - left. intros i j (I & J). cbn in J. assert (i = 0%nat /\ j = 1%nat) as (-> & ->) by lia. cbn. lra.
    - intros [|[|j]] J; [| |cbn in J; lia]; (split; [reflexivity|]; split; [cbn; lia|]; left; intros a b (A & B); cbn in B;
        assert (a = 0%nat /\ b = 1%nat) as (-> & ->) by lia; cbn; lra). }
  split; [exact T|]. destruct (sheet_reads_made nan _ _ _ 2 2 false T ltac:(lia) ltac:(lia)) as (g & f & E & F). exists g, f.
  split; [exact E|]. split; [exact F|]. split.
  - exact (sheet_nodes nan _ _ _ 2 2 false g T ltac:(lia) ltac:(lia) E f F 1 1 ltac:(cbn; lia) ltac:(cbn; lia)).
  - exact (sheet_nodes nan _ _ _ 2 2 false g T ltac:(lia) ltac:(lia) E f F 0 1 ltac:(cbn; lia) ltac:(cbn; lia)).
Qed.

(** Oxygen *)
Definition weak_oxygen : component := mkcomponent 0 8 (159994 / 10000) 1.
Lemma weak_oxygen_element : element weak_oxygen.
Proof. unfold element, weak_oxygen. cbn. lra. Qed.
(** A muon of 10 GeV that loses all of its energy in oxygen: 0.0120469 and 0.0094856
    picobarn for the two kinds of nucleons *)
Lemma muon_example : forall nan, exists w f, cooper_sarkar_mertsch = Ok w /\ answers_weak nan w f /\ element weak_oxygen /\
  nth 99 (nth 0 (proton_sigma (-1)) []) 0 = 120469 / 10 ^ 7 /\ nth 99 (nth 0 (neutron_sigma (-1)) []) 0 = 94856 / 10 ^ 7 /\
  f (-1) weak_oxygen (Rpower 10 4) 1 = mean_cross weak_oxygen (120469 / 10 ^ 7) (94856 / 10 ^ 7).
Proof.
  intro nan. destruct (c87_answers nan) as (w & f & E & A). exists w, f. split; [exact E|]. split; [exact A|].
  split; [exact weak_oxygen_element|]. destruct checks as (_ & _ & _ & _ & _ & S2 & _ & S4).
  destruct (c87_complete nan w f E A (-1) weak_oxygen 0 weak_oxygen_element ltac:(lia)) as (V & _).
  assert (P : nth 99 (nth 0 (proton_sigma (-1)) []) 0 = 120469 / 10 ^ 7).
  { unfold proton_sigma. destruct (Rlt_dec (-1) 0); [|lra]. rewrite (numbers_entry _ 0 99 S2) by lia.
    assert (entry sigma_nubar_proton 0 99 = 12046900000000000%Z) as -> by (vm_compute; reflexivity). unfold unscaled. field. }
  assert (N : nth 99 (nth 0 (neutron_sigma (-1)) []) 0 = 94856 / 10 ^ 7).
  { unfold neutron_sigma. destruct (Rlt_dec (-1) 0); [|lra]. rewrite (numbers_entry _ 0 99 S4) by lia.
    assert (entry sigma_nubar_neutron 0 99 = 9485600000000000%Z) as -> by (vm_compute; reflexivity). unfold unscaled. field. }
  split; [exact P|]. split; [exact N|]. rewrite P, N in V. rewrite <- V. f_equal. f_equal. rewrite energies_nth by lia.
  change (40 + Z.of_nat 0)%Z with 40%Z. field.
Qed.
