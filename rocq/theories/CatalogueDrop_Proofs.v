(** The small drop of the density correction where the published fits begin. *)
From Coq Require Import String Ascii.
From Coquelicot Require Import Coquelicot.
From Verif Require Import Prelude PreludeFacts Cross_Model Transform_Proofs Limits_Model Photo_Model Ionization_Model Ionization_Proofs
  Differential_Spec Medium_Spec Continuous_Spec Config_Model Catalogue_Model Catalogue_Spec.
Local Open Scope string_scope.
Local Open Scope list_scope.
Local Open Scope R_scope.
From Verif Require Import Catalogue_Proofs.

Section Nearly.
Variable nan : forall A, outcome A.
Variables (eps : R) (m : material).
Hypotheses (EP : 0 <= eps) (F : nearly_fitted eps m).
(** The same parameters with a fit that is higher by [eps] *)
Definition raised : material := mkmaterial (mat_components m) (mat_I m) (mat_C m + eps) (mat_a m) (mat_m m) (mat_X0 m) (mat_X1 m) (mat_d0 m).
Lemma raised_fit X : fit raised X = fit m X + eps.
Proof. unfold fit, asymptote, raised. cbn [mat_C mat_a mat_X1 mat_m]. ring. Qed.
Lemma raised_fitted : fitted raised.
Proof.
  destruct F as (D & A & M & L & S). unfold fitted. change (mat_X0 raised) with (mat_X0 m). rewrite raised_fit. unfold raised. cbn [mat_d0 mat_a mat_m mat_X0 mat_X1].
  split; [exact D|]. split; [exact A|]. split; [exact M|]. split; [exact L|exact S].
Qed.
Lemma raised_effect X : effect_at raised X = if X <? mat_X0 m then effect_at m X else effect_at m X + eps.
Proof.
  unfold effect_at. rewrite raised_fit. unfold asymptote, raised. cbn [mat_d0 mat_a mat_m mat_X0 mat_X1 mat_C].
  destruct (X <? mat_X0 m); [reflexivity|]. destruct (X <? mat_X1 m); ring.
Qed.
Lemma nearly_grows b g b' g' : 0 < b * g <= b' * g' ->
  exists d d', density_effect nan m b g = Ok d /\ density_effect nan m b' g' = Ok d' /\ - eps <= d /\ d <= d' + eps /\
    (decade b' g' < mat_X0 m \/ mat_X0 m <= decade b g -> d <= d').
Proof.
  intro H. exists (effect_at m (decade b g)), (effect_at m (decade b' g')). rewrite !effect_value by lra. split; [reflexivity|]. split; [reflexivity|].
  pose proof (decade_grows _ _ _ _ H) as D. pose proof (effect_grows raised raised_fitted _ _ D) as G. pose proof (effect_nonneg raised raised_fitted (decade b g)) as N.
  rewrite !raised_effect in *. destruct (Rltb_spec (decade b g) (mat_X0 m)); destruct (Rltb_spec (decade b' g') (mat_X0 m)); (split; [lra|]; split; [lra|]; intros; lra).
Qed.
End Nearly.
Lemma nearly nan eps m b g b' g' : 0 <= eps -> nearly_fitted eps m -> 0 < b * g <= b' * g' ->
  exists d d', density_effect nan m b g = Ok d /\ density_effect nan m b' g' = Ok d' /\ - eps <= d /\ d <= d' + eps /\
    (decade b' g' < mat_X0 m \/ mat_X0 m <= decade b g -> d <= d').
Proof.
  intros EP F. now apply nearly_grows.
Qed.

(** * The drop *)
Definition drops (m : material) : Prop := 0 <= mat_d0 m /\ mat_X0 m < mat_X1 m /\ fit m (mat_X0 m) < mat_d0 m * (1 - 5 / 100000).
Lemma drop nan m : drops m -> exists b g d b' g' d', moving b g /\ moving b' g' /\ g < g' /\
  density_effect nan m b g = Ok d /\ density_effect nan m b' g' = Ok d' /\ d' < d.
Proof.
  intros (D0 & L & H). destruct (momentum_of (mat_X0 m - 1 / 100000)) as [b [g [[Hb [Hg E]] D]]].
  destruct (momentum_of (mat_X0 m)) as [b' [g' [[Hb' [Hg' E']] D']]].
  exists b, g, (effect_at m (decade b g)), b', g', (effect_at m (decade b' g')).
  split; [exact (conj Hb (conj Hg E))|]. split; [exact (conj Hb' (conj Hg' E'))|].
  assert (PL : b * g < b' * g').
  { destruct (Rlt_le_dec (b * g) (b' * g')) as [K|K]; [exact K|exfalso]. pose proof (decade_grows b' g' b g ltac:(nra)). lra. }
  split. { assert (b * g * (b * g) < b' * g' * (b' * g')) by (apply Rmult_le_0_lt_compat; nra). nra. }
  rewrite !effect_value by nra. split; [reflexivity|]. split; [reflexivity|]. rewrite D, D'. unfold effect_at.
  destruct (Rltb_spec (mat_X0 m) (mat_X0 m)); [lra|]. destruct (Rltb_spec (mat_X0 m) (mat_X1 m)); [|lra].
  destruct (Rltb_spec (mat_X0 m - 1 / 100000) (mat_X0 m)); [|lra].
  assert (1 - 5 / 100000 <= Rpower 10 (2 * (mat_X0 m - 1 / 100000 - mat_X0 m))); [|nra].
  unfold Rpower. assert (LT : ln 10 <= 25 / 10).
  { rewrite <- (ln_exp (25 / 10)). apply ln_le; [lra|]. replace (exp (25 / 10)) with (exp (25 / 10 / 64) ^ 64).
    - apply Rle_trans with ((1 + 25 / 10 / 64) ^ 64); [lra|]. apply pow_incr. split; [lra|]. apply exp_ineq1_le.
    - rewrite <- Rpower_pow by apply exp_pos. unfold Rpower. rewrite ln_exp. f_equal. rewrite INR_IZR_INZ. cbn [Z.of_nat Pos.of_succ_nat Pos.succ]. field. }
  apply Rle_trans with (1 + 2 * (mat_X0 m - 1 / 100000 - mat_X0 m) * ln 10); [|apply exp_ineq1_le]. lra.
Qed.
Lemma power_ge_rounded a b n c d k w : (0 < a)%Z -> (0 < b)%Z -> (0 < c)%Z -> (0 < d)%Z -> (0 < w)%Z ->
  (high_power w (a * w / b + 1) n <=? low_power w (c * w / d) k)%Z = true ->
  Rpower (IZR a / IZR b) (INR (Pos.to_nat n) / INR (Pos.to_nat k)) <= IZR c / IZR d.
Proof.
  intros Ha Hb Hc Hd Hw H. apply Z.leb_le, IZR_le in H.
  pose proof (IZR_lt _ _ Ha) as Ha'. pose proof (IZR_lt _ _ Hb) as Hb'. pose proof (IZR_lt _ _ Hc) as Hc'. pose proof (IZR_lt _ _ Hd) as Hd'. pose proof (IZR_lt _ _ Hw) as Hw'.
  apply power_ge; [apply Rdiv_lt_0_compat; assumption|apply Rdiv_lt_0_compat; assumption|lia|].
  destruct (div_high (a * w) b Hb ltac:(nia)) as [P Q]. destruct (div_low (c * w) d Hd ltac:(nia)) as [P2 Q2].
  destruct (high_power_spec w _ n Hw P) as [_ H1]. destruct (low_power_spec w _ k Hw P2) as [_ H2].
  rewrite mult_IZR in Q, Q2.
  eapply Rle_trans; [|eapply Rle_trans; [exact H1|eapply Rle_trans; [apply div_mono; [assumption|exact H]|eapply Rle_trans; [exact H2|]]]].
  - apply pow_incr. split; [apply Rdiv_le_0_compat; lra|].
    replace (IZR a / IZR b) with (IZR a * IZR w / IZR b / IZR w) by (field; lra). apply div_mono; assumption.
  - apply pow_incr. split; [apply Rdiv_le_0_compat; [apply (IZR_le 0)|]; assumption|].
    replace (IZR c / IZR d) with (IZR c * IZR w / IZR d / IZR w) by (field; lra). apply div_mono; assumption.
Qed.
Section Media.
Variable hash : R -> R -> R -> N.
Ltac nearing := unfold nearly_fitted, fit, asymptote; cbn [md_material mat_d0 mat_X0 mat_X1 mat_a mat_m mat_C].
Ltac dropping := unfold drops, fit, asymptote; cbn [md_material mat_d0 mat_X0 mat_X1 mat_a mat_m mat_C].

Lemma rock_nearly : nearly_fitted (6 / 10000) (md_material (m_standard_rock hash)).
Proof.
  nearing. cbn [m_standard_rock md_material mat_d0 mat_X0 mat_X1 mat_a mat_m mat_C]. replace (30549 / 10000 - 492 / 10000) with (30057 / 10000) by lra.
  assert (4273000 / 100000 <= Rpower (30057 / 10000) (3412 / 1000)).
  { eapply Rle_trans; [apply (power_le_rounded 30057 10000 853 4273000 100000 250 (2 ^ 64)); try lia; vm_compute; reflexivity|].
    apply Rle_Rpower; [lra|]. rewrite !INR_IZR_INZ, !positive_nat_Z. lra. }
  assert (Rpower (30057 / 10000) (3412 / 1000 - 1) <= 16).
  { eapply Rle_trans; [|apply (power_ge (30057 / 10000) 5 (16) 2); try lra; lia]. apply Rle_Rpower; [lra|]. rewrite !INR_IZR_INZ. cbn [Z.of_nat Pos.of_succ_nat Pos.succ]. lra. }
  unfold LOG10. lra.
Qed.
Lemma rock_drops : drops (md_material (m_standard_rock hash)).
Proof.
  dropping. cbn [m_standard_rock md_material mat_d0 mat_X0 mat_X1 mat_a mat_m mat_C]. replace (30549 / 10000 - 492 / 10000) with (30057 / 10000) by lra.
  assert (Rpower (30057 / 10000) (3412 / 1000) <= 42732000 / 1000000).
  { eapply Rle_trans; [|apply (power_ge_rounded 30057 10000 853 42732000 1000000 250 (2 ^ 64)); try lia; vm_compute; reflexivity].
    apply Rle_Rpower; [lra|]. rewrite !INR_IZR_INZ, !positive_nat_Z. lra. }
  unfold LOG10. lra.
Qed.

Lemma iron_nearly : nearly_fitted (6 / 10000) (md_material (m_iron hash)).
Proof.
  nearing. cbn [m_iron md_material mat_d0 mat_X0 mat_X1 mat_a mat_m mat_C]. replace (31531 / 10000 - -12 / 10000) with (31543 / 10000) by lra.
  assert (3008400 / 100000 <= Rpower (31543 / 10000) (29632 / 10000)).
  { eapply Rle_trans; [apply (power_le_rounded 31543 10000 483 3008400 100000 163 (2 ^ 64)); try lia; vm_compute; reflexivity|].
    apply Rle_Rpower; [lra|]. rewrite !INR_IZR_INZ, !positive_nat_Z. lra. }
  assert (Rpower (31543 / 10000) (29632 / 10000 - 1) <= 1005 / 100).
  { eapply Rle_trans; [|apply (power_ge (31543 / 10000) 2 (1005 / 100) 1); try lra; lia]. apply Rle_Rpower; [lra|]. rewrite !INR_IZR_INZ. cbn [Z.of_nat Pos.of_succ_nat Pos.succ]. lra. }
  unfold LOG10. lra.
Qed.
Lemma iron_drops : drops (md_material (m_iron hash)).
Proof.
  dropping. cbn [m_iron md_material mat_d0 mat_X0 mat_X1 mat_a mat_m mat_C]. replace (31531 / 10000 - -12 / 10000) with (31543 / 10000) by lra.
  assert (Rpower (31543 / 10000) (29632 / 10000) <= 30085700 / 1000000).
  { eapply Rle_trans; [|apply (power_ge_rounded 31543 10000 886 30085700 1000000 299 (2 ^ 64)); try lia; vm_compute; reflexivity].
    apply Rle_Rpower; [lra|]. rewrite !INR_IZR_INZ, !positive_nat_Z. lra. }
  unfold LOG10. lra.
Qed.

Lemma copper_nearly : nearly_fitted (6 / 10000) (md_material (m_copper hash)).
Proof.
  nearing. cbn [m_copper md_material mat_d0 mat_X0 mat_X1 mat_a mat_m mat_C]. replace (32792 / 10000 - -254 / 10000) with (33046 / 10000) by lra.
  assert (3218800 / 100000 <= Rpower (33046 / 10000) (29044 / 10000)).
  { eapply Rle_trans; [apply (power_le_rounded 33046 10000 334 3218800 100000 115 (2 ^ 64)); try lia; vm_compute; reflexivity|].
    apply Rle_Rpower; [lra|]. rewrite !INR_IZR_INZ, !positive_nat_Z. lra. }
  assert (Rpower (33046 / 10000) (29044 / 10000 - 1) <= 11).
  { eapply Rle_trans; [|apply (power_ge (33046 / 10000) 2 (11) 1); try lra; lia]. apply Rle_Rpower; [lra|]. rewrite !INR_IZR_INZ. cbn [Z.of_nat Pos.of_succ_nat Pos.succ]. lra. }
  unfold LOG10. lra.
Qed.
Lemma copper_drops : drops (md_material (m_copper hash)).
Proof.
  dropping. cbn [m_copper md_material mat_d0 mat_X0 mat_X1 mat_a mat_m mat_C]. replace (32792 / 10000 - -254 / 10000) with (33046 / 10000) by lra.
  assert (Rpower (33046 / 10000) (29044 / 10000) <= 32191400 / 1000000).
  { eapply Rle_trans; [|apply (power_ge_rounded 33046 10000 395 32191400 1000000 136 (2 ^ 64)); try lia; vm_compute; reflexivity].
    apply Rle_Rpower; [lra|]. rewrite !INR_IZR_INZ, !positive_nat_Z. lra. }
  unfold LOG10. lra.
Qed.

Lemma uranium_nearly : nearly_fitted (6 / 10000) (md_material (m_uranium hash)).
Proof.
  nearing. cbn [m_uranium md_material mat_d0 mat_X0 mat_X1 mat_a mat_m mat_C]. replace (33721 / 10000 - 226 / 1000) with (31461 / 10000) by lra.
  assert (2524900 / 100000 <= Rpower (31461 / 10000) (28171 / 10000)).
  { eapply Rle_trans; [apply (power_le_rounded 31461 10000 231 2524900 100000 82 (2 ^ 64)); try lia; vm_compute; reflexivity|].
    apply Rle_Rpower; [lra|]. rewrite !INR_IZR_INZ, !positive_nat_Z. lra. }
  assert (Rpower (31461 / 10000) (28171 / 10000 - 1) <= 825 / 100).
  { eapply Rle_trans; [|apply (power_ge (31461 / 10000) 11 (825 / 100) 6); try lra; lia]. apply Rle_Rpower; [lra|]. rewrite !INR_IZR_INZ. cbn [Z.of_nat Pos.of_succ_nat Pos.succ]. lra. }
  unfold LOG10. lra.
Qed.
Lemma uranium_drops : drops (md_material (m_uranium hash)).
Proof.
  dropping. cbn [m_uranium md_material mat_d0 mat_X0 mat_X1 mat_a mat_m mat_C]. replace (33721 / 10000 - 226 / 1000) with (31461 / 10000) by lra.
  assert (Rpower (31461 / 10000) (28171 / 10000) <= 25250890 / 1000000).
  { eapply Rle_trans; [|apply (power_ge_rounded 31461 10000 1186 25250890 1000000 421 (2 ^ 64)); try lia; vm_compute; reflexivity].
    apply Rle_Rpower; [lra|]. rewrite !INR_IZR_INZ, !positive_nat_Z. lra. }
  unfold LOG10. lra.
Qed.

Lemma air_nearly : nearly_fitted (6 / 10000) (md_material (m_air hash)).
Proof.
  nearing. cbn [m_air md_material mat_d0 mat_X0 mat_X1 mat_a mat_m mat_C]. replace (42759 / 10000 - 17418 / 10000) with (25341 / 10000) by lra.
  assert (2358700 / 100000 <= Rpower (25341 / 10000) (33994 / 10000)).
  { eapply Rle_trans; [apply (power_le_rounded 25341 10000 860 2358700 100000 253 (2 ^ 64)); try lia; vm_compute; reflexivity|].
    apply Rle_Rpower; [lra|]. rewrite !INR_IZR_INZ, !positive_nat_Z. lra. }
  assert (Rpower (25341 / 10000) (33994 / 10000 - 1) <= 11).
  { eapply Rle_trans; [|apply (power_ge (25341 / 10000) 5 (11) 2); try lra; lia]. apply Rle_Rpower; [lra|]. rewrite !INR_IZR_INZ. cbn [Z.of_nat Pos.of_succ_nat Pos.succ]. lra. }
  unfold LOG10. lra.
Qed.
Lemma air_drops : drops (md_material (m_air hash)).
Proof.
  dropping. cbn [m_air md_material mat_d0 mat_X0 mat_X1 mat_a mat_m mat_C]. replace (42759 / 10000 - 17418 / 10000) with (25341 / 10000) by lra.
  assert (Rpower (25341 / 10000) (33994 / 10000) <= 23591800 / 1000000).
  { eapply Rle_trans; [|apply (power_ge_rounded 25341 10000 2281 23591800 1000000 671 (2 ^ 64)); try lia; vm_compute; reflexivity].
    apply Rle_Rpower; [lra|]. rewrite !INR_IZR_INZ, !positive_nat_Z. lra. }
  unfold LOG10. lra.
Qed.

Lemma salt_nearly : nearly_fitted (6 / 10000) (md_material (m_salt hash)).
Proof.
  nearing. cbn [m_salt md_material mat_d0 mat_X0 mat_X1 mat_a mat_m mat_C].
  assert (P : forall n, Rpower (3 - 2 / 10) (INR n) = (28 / 10) ^ n) by (intro n; rewrite Rpower_pow by lra; f_equal; lra).
  pose proof (P 3%nat) as P3. pose proof (P 2%nat) as P2.
  replace (INR 3) with 3 in P3 by (cbn; lra). replace (INR 2) with (3 - 1) in P2 by (cbn; lra). rewrite P2, P3. unfold LOG10. cbn [pow]. lra.
Qed.
Lemma salt_drops : drops (md_material (m_salt hash)).
Proof.
  dropping. cbn [m_salt md_material mat_d0 mat_X0 mat_X1 mat_a mat_m mat_C].
  assert (P : Rpower (3 - 2 / 10) (INR 3) = (28 / 10) ^ 3) by (rewrite Rpower_pow by lra; f_equal; lra).
  replace (INR 3) with 3 in P by (cbn; lra). rewrite P. unfold LOG10. cbn [pow]. lra.
Qed.
Lemma media_nearly : Forall (fun m => nearly_fitted (6 / 10000) (md_material m))
  [m_standard_rock hash; m_calcium_carbonate hash; m_iron hash; m_copper hash; m_uranium hash; m_air hash; m_salt hash].
Proof.
  repeat apply Forall_cons; try apply Forall_nil;
    first [exact rock_nearly | exact iron_nearly | exact copper_nearly | exact uranium_nearly | exact air_nearly | exact salt_nearly].
Qed.
Lemma media_drop nan m : In m [m_standard_rock hash; m_calcium_carbonate hash; m_iron hash; m_copper hash; m_uranium hash; m_air hash; m_salt hash] ->
  exists b g d b' g' d', moving b g /\ moving b' g' /\ g < g' /\
  density_effect nan (md_material m) b g = Ok d /\ density_effect nan (md_material m) b' g' = Ok d' /\ d' < d.
Proof.
  intro H. apply drop. cbn [In] in H.
  destruct H as [<-|[<-|[<-|[<-|[<-|[<-|[<-|[]]]]]]]];
    first [exact rock_drops | exact iron_drops | exact copper_drops | exact uranium_drops | exact air_drops | exact salt_drops].
Qed.
End Media.
