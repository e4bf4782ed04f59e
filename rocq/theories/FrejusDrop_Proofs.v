(** How far the density correction of the rock of Frejus decreases. *)
From Coq Require Import String Ascii.
From Coquelicot Require Import Coquelicot.
From Verif Require Import Prelude PreludeFacts Cross_Model Transform_Proofs Limits_Model Photo_Model Ionization_Model Ionization_Proofs
  Differential_Spec Medium_Spec Continuous_Spec Config_Model Catalogue_Model Catalogue_Spec.
Local Open Scope string_scope.
Local Open Scope list_scope.
Local Open Scope R_scope.
From Verif Require Import Catalogue_Proofs CatalogueDrop_Proofs.

Section Frejus.
Variable hash : R -> R -> R -> N.
Notation m := (md_material (m_frejus_rock hash)).
(** The same parameters with a fit that begins where it grows *)
Definition later : material := mkmaterial (mat_components m) (mat_I m) (mat_C m) (mat_a m) (mat_m m) (335 / 1000) (mat_X1 m) 0.
Lemma later_fit X : fit later X = fit m X.
Proof. reflexivity. Qed.
Lemma later_fitted : fitted later.
Proof.
  unfold fitted. rewrite later_fit. cbn [mat_d0 mat_X0 later].
  change (mat_a later) with (78 / 1000). change (mat_m later) with (3645 / 1000). change (mat_X1 later) with (3196 / 1000).
  assert (P : 455 / 10 <= Rpower (3196 / 1000 - 335 / 1000) (3645 / 1000)).
  { eapply Rle_trans; [|apply (Rle_Rpower _ (INR (Pos.to_nat 40) / INR (Pos.to_nat 11))); [lra|]].
    - replace (3196 / 1000 - 335 / 1000) with (2861 / 1000) by lra. apply (power_le_rounded 2861 1000 40 455 10 11 (10 ^ 30)); try lia. vm_compute. reflexivity.
    - rewrite !INR_IZR_INZ, !positive_nat_Z. lra. }
  assert (Q : Rpower (3196 / 1000 - 335 / 1000) (3645 / 1000 - 1) <= 1619 / 100).
  { eapply Rle_trans; [apply (Rle_Rpower _ _ (INR (Pos.to_nat 45) / INR (Pos.to_nat 17))); [lra|]|].
    - rewrite !INR_IZR_INZ, !positive_nat_Z. lra.
    - replace (3196 / 1000 - 335 / 1000) with (2861 / 1000) by lra. apply (power_ge_rounded 2861 1000 45 1619 100 17 (10 ^ 30)); try lia. vm_compute. reflexivity. }
  split; [|split; [lra|split; [lra|split; [lra|]]]].
  - split; [lra|]. unfold fit, asymptote. change (mat_a m) with (78 / 1000). change (mat_m m) with (3645 / 1000). change (mat_X1 m) with (3196 / 1000).
    change (mat_C m) with (-5053 / 1000). unfold LOG10. lra.
  - unfold LOG10. lra.
Qed.
Lemma begins : 79 / 1000 <= fit m (288 / 1000).
Proof.
  assert (P : 488 / 10 <= Rpower (3196 / 1000 - 288 / 1000) (3645 / 1000)).
  { eapply Rle_trans; [|apply (Rle_Rpower _ (INR (Pos.to_nat 51) / INR (Pos.to_nat 14))); [lra|]].
    - replace (3196 / 1000 - 288 / 1000) with (2908 / 1000) by lra. apply (power_le_rounded 2908 1000 51 488 10 14 (10 ^ 30)); try lia. vm_compute. reflexivity.
    - rewrite !INR_IZR_INZ, !positive_nat_Z. lra. }
  unfold fit, asymptote. change (mat_a m) with (78 / 1000). change (mat_m m) with (3645 / 1000). change (mat_X1 m) with (3196 / 1000).
  change (mat_C m) with (-5053 / 1000). unfold LOG10. lra.
Qed.
Lemma first_part X Y : 288 / 1000 <= X <= Y -> Y <= 335 / 1000 -> fit m X <= fit m Y + 1 / 100.
Proof.
  intros H K. destruct (Req_dec X Y) as [->|N]; [lra|].
  destruct (fit_change m X Y) as [Z [HZ E]]. { change (mat_X1 m) with (3196 / 1000). lra. }
  change (mat_a m) with (78 / 1000) in E. change (mat_m m) with (3645 / 1000) in E. change (mat_X1 m) with (3196 / 1000) in E.
  assert (Q : Rpower (3196 / 1000 - Z) (3645 / 1000 - 1) <= 169 / 10).
  { eapply Rle_trans; [apply (Rle_Rpower_l _ (2908 / 1000)); lra|].
    eapply Rle_trans; [apply (Rle_Rpower _ _ (INR (Pos.to_nat 45) / INR (Pos.to_nat 17))); [lra|]|].
    - rewrite !INR_IZR_INZ, !positive_nat_Z. lra.
    - apply (power_ge_rounded 2908 1000 45 169 10 17 (10 ^ 30)); try lia. vm_compute. reflexivity. }
  unfold LOG10 in E. set (w := Rpower _ _) in *. clearbody w. nra.
Qed.
Lemma later_effect X : 335 / 1000 <= X -> effect_at later X = effect_at m X.
Proof.
  intro H. unfold effect_at. rewrite later_fit. change (mat_X0 later) with (335 / 1000). change (mat_X0 m) with (288 / 1000). change (mat_X1 later) with (3196 / 1000). change (mat_X1 m) with (3196 / 1000).
  destruct (Rltb_spec X (335 / 1000)); [lra|]. destruct (Rltb_spec X (288 / 1000)); [lra|]. reflexivity.
Qed.
Lemma early_effect X : 288 / 1000 <= X <= 335 / 1000 -> effect_at m X = fit m X.
Proof.
  intro H. unfold effect_at. change (mat_X0 m) with (288 / 1000). change (mat_X1 m) with (3196 / 1000).
  destruct (Rltb_spec X (288 / 1000)); [lra|]. destruct (Rltb_spec X (3196 / 1000)); [reflexivity|lra].
Qed.
Lemma slow_effect X : X < 288 / 1000 -> effect_at m X = 0.
Proof.
  intro H. unfold effect_at. change (mat_X0 m) with (288 / 1000). destruct (Rltb_spec X (288 / 1000)); [|lra]. change (mat_d0 m) with 0. ring.
Qed.
Lemma frejus_effect X Y : X <= Y -> 0 <= effect_at m X <= effect_at m Y + 1 / 100 /\ (335 / 1000 <= X -> effect_at m X <= effect_at m Y).
Proof.
  assert (P : forall X, 0 <= effect_at m X).
  { intro T. destruct (Rlt_le_dec T (288 / 1000)) as [A|A]; [rewrite slow_effect by assumption; lra|].
    destruct (Rle_lt_dec T (335 / 1000)) as [B|B].
    - rewrite early_effect by lra. pose proof begins. pose proof (first_part (288 / 1000) T ltac:(lra) B). lra.
    - rewrite <- later_effect by lra. apply effect_nonneg, later_fitted. }
  assert (G : forall X Y, 335 / 1000 <= X <= Y -> effect_at m X <= effect_at m Y).
  { intros S T H. rewrite <- !later_effect by lra. apply effect_grows; [apply later_fitted|lra]. }
  intro H. split; [split; [apply P|]|intro K; apply G; lra].
  destruct (Rlt_le_dec X (288 / 1000)) as [A|A]. { rewrite (slow_effect X) by assumption. pose proof (P Y). lra. }
  destruct (Rle_lt_dec (335 / 1000) X) as [B|B]. { pose proof (G X Y ltac:(lra)). lra. }
  destruct (Rle_lt_dec Y (335 / 1000)) as [C|C]. { rewrite !early_effect by lra. apply first_part; lra. }
  pose proof (G (335 / 1000) Y ltac:(lra)). pose proof (first_part X (335 / 1000) ltac:(lra) ltac:(lra)). rewrite <- !early_effect in H1 by lra. lra.
Qed.
End Frejus.
Lemma frejus_drop hash nan b g b' g' : 0 < b * g <= b' * g' ->
  exists d d', density_effect nan (md_material (m_frejus_rock hash)) b g = Ok d /\ density_effect nan (md_material (m_frejus_rock hash)) b' g' = Ok d' /\
    0 <= d <= d' + 1 / 100 /\ (335 / 1000 <= decade b g -> d <= d').
Proof.
  intro H. eexists _, _. rewrite !effect_value by lra. split; [reflexivity|]. split; [reflexivity|]. apply frejus_effect, decade_grows, H.
Qed.
(** * All predefined media *)
Lemma all_media hash nan md b g b' g' : In md (media hash) -> 0 < b * g <= b' * g' ->
  exists d d', density_effect nan (md_material md) b g = Ok d /\ density_effect nan (md_material md) b' g' = Ok d' /\ - (6 / 10000) <= d <= d' + 1 / 100.
Proof.
  intros I H.
  assert (W : fitted (md_material md) \/ nearly_fitted (6 / 10000) (md_material md) \/ md = m_frejus_rock hash).
  { pose proof (proj1 (Forall_forall _ _) (media_fitted hash)) as A. pose proof (proj1 (Forall_forall _ _) (media_nearly hash)) as B.
    specialize (A md). specialize (B md). unfold media in I. cbn [In] in I, A, B. clear - I A B.
    repeat (destruct I as [I|I]; [first [left; apply A; tauto | right; left; apply B; tauto | right; right; now symmetry]|]). destruct I. }
  destruct W as [W|[W|W]].
  - destruct (monotone nan _ _ _ _ _ W H) as (d & d' & E & E' & L). exists d, d'. split; [exact E|]. split; [exact E'|lra].
  - destruct (nearly nan (6 / 10000) _ _ _ _ _ ltac:(lra) W H) as (d & d' & E & E' & L & L' & _). exists d, d'. split; [exact E|]. split; [exact E'|lra].
  - subst md. destruct (frejus_drop hash nan _ _ _ _ H) as (d & d' & E & E' & L & _). exists d, d'. split; [exact E|]. split; [exact E'|lra].
Qed.
