(** The formulas of Berger and Seltzer are primitives of the cross sections of
    Bhabha and Moller, the one of Bethe, Bloch and Rossi of its cross section. *)
From Coq Require Import Lra Psatz.
From Coquelicot Require Import Coquelicot.
From Verif Require Import Prelude PreludeFacts Particle_Model Limits_Model Cross_Model Photo_Model Ionization_Model.
From Verif Require Import Continuous_Spec Transform_Proofs.

Lemma ME_pos : 0 < ME.
Proof. unfold ME. lra. Qed.
Lemma fold_positive (f : component -> R) cs a : Forall (fun c => 0 < f c) cs -> 0 <= a -> (cs <> [] \/ 0 < a) ->
  0 < fold_left (fun a c => a + f c) cs a.
Proof.
  intros F. revert a. induction F as [|c cs H F IH]; cbn; intros a A B.
  - destruct B as [B|B]; [now contradiction B|exact B].
  - apply IH; [lra|right; lra].
Qed.
Lemma fraction_positive nan m : sound_material m -> exists f, 0 < f /\ proton_fraction nan (mat_components m) = Ok f.
Proof.
  intros [N P _]. unfold proton_fraction.
  assert (0 < fold_left (fun a c => a + c_atoms c * c_charge c) (mat_components m) 0) as A.
  { apply (fold_positive (fun c => c_atoms c * c_charge c)); [|lra|now left].
    eapply Forall_impl; [|exact P]. cbn. intros c (X & Y & Z). nra. }
  assert (0 < fold_left (fun a c => a + c_atoms c * c_atomic c) (mat_components m) 0) as B.
  { apply (fold_positive (fun c => c_atoms c * c_atomic c)); [|lra|now left].
    eapply Forall_impl; [|exact P]. cbn. intros c (X & Y & Z). nra. }
  eexists. split; [|apply quo_ok; lra]. now apply Rdiv_lt_0_compat.
Qed.
Lemma get_cut_positive c E : accepted c -> 0 < E -> 0 < get_cut c E.
Proof.
  intros (e & v & r & H) P. unfold new_energy_cut in H. destruct e as [x|].
  - destruct (x <=? 0) eqn:X; [discriminate|]. apply Rleb_false in X.
    destruct ((v <=? 0) || (1 <? v))%bool eqn:V; [discriminate|]. apply Bool.orb_false_iff in V. destruct V as [V _].
    apply Rleb_false in V. injection H as <-. unfold get_cut. cbn.
    apply Rmin_glb_lt; [now apply Rdiv_lt_0_compat|exact V].
  - destruct ((v <=? 0) || (1 <? v))%bool eqn:V; [discriminate|]. apply Bool.orb_false_iff in V. destruct V as [V _].
    apply Rleb_false in V. injection H as <-. unfold get_cut. cbn. exact V.
Qed.

(** ** Bhabha *)
(** The formula of Bhabha, in terms of gamma and the transferred share *)
Definition bhabha_bracket (g e : R) : R :=
  let y := 1 / (g + 1) in
  1 / ((1 - 1 / (g * g)) * e * e) - (2 - y * y) / e + (1 - 2 * y) * (3 + y * y)
  - ((1 - 2 * y) ^ 2 + (1 - 2 * y) ^ 3) * e + (1 - 2 * y) ^ 3 * e * e.
Definition fplus (g d : R) : R :=
  let tau := g - 1 in
  let y := 1 / (g + 1) in
  ln (tau * d) - (tau + 2 * d - 3 * d * d * y / 2 - (d - d ^ 3 / 3) * y * y
                  - (d * d / 2 - tau * d ^ 3 / 3 + d ^ 4 / 4) * y ^ 3) * ((1 - 1 / (g * g)) / tau).
Lemma bhabha_core z w : 0 <= z <= w -> w <= 1 ->
  0 < (1 + w) ^ 2 - 8 * z + (1 - w) ^ 2 * z + 12 * z ^ 2 + (1 - w) ^ 2 * z ^ 2 - 4 * (1 + w) * z ^ 3 + 4 * z ^ 4.
Proof.
  intros [Z W] O.
  replace ((1 + w) ^ 2 - 8 * z + (1 - w) ^ 2 * z + 12 * z ^ 2 + (1 - w) ^ 2 * z ^ 2 - 4 * (1 + w) * z ^ 3 + 4 * z ^ 4)
    with ((1 - 5 / 2 * z + z * z) ^ 2 + 15 / 4 * (z * z) + (w - z) * (2 * (1 + z) - 2 * (1 - z) * (z + z * z) - 4 * z ^ 3)
          + (w - z) ^ 2 * (1 + z + z * z)) by field.
  assert (0 <= (w - z) * (2 * (1 + z) - 2 * (1 - z) * (z + z * z) - 4 * z ^ 3)) as A.
  { apply Rmult_le_pos; [lra|].
    replace (2 * (1 + z) - 2 * (1 - z) * (z + z * z) - 4 * z ^ 3) with (2 * (1 - z * (z * z))) by ring.
    assert (z * z <= 1) by nra. assert (z * (z * z) <= 1) by nra. lra. }
  assert (0 <= (w - z) ^ 2 * (1 + z + z * z)) as B by (apply Rmult_le_pos; [apply pow2_ge_0|nra]).
  assert (0 < (1 - 5 / 2 * z + z * z) ^ 2 + 15 / 4 * (z * z)) as C.
  { destruct (Req_dec z 0) as [->|N]; [lra|].
    assert (0 < z * z) by nra. assert (0 <= (1 - 5 / 2 * z + z * z) ^ 2) by apply pow2_ge_0. lra. }
  lra.
Qed.
Lemma bhabha_bracket_positive g e : 1 < g -> 0 < e <= 1 -> 0 < bhabha_bracket g e.
Proof.
  intros G [E O].
  set (w := (g - 1) / (g + 1)).
  assert (0 < w < 1) as W.
  { unfold w. split; [apply Rdiv_lt_0_compat; lra|]. apply (Rmult_lt_reg_r (g + 1)); [lra|]. unfold Rdiv. rewrite Rmult_assoc, Rinv_l by lra. lra. }
  assert (g = (1 + w) / (1 - w)) as GW.
  { unfold w. field. repeat split; lra. }
  clearbody w.
  pose proof (bhabha_core (w * e) w ltac:(nra) ltac:(lra)) as P.
  replace (bhabha_bracket g e) with
    (((1 + w) ^ 2 - 8 * (w * e) + (1 - w) ^ 2 * (w * e) + 12 * (w * e) ^ 2 + (1 - w) ^ 2 * (w * e) ^ 2
      - 4 * (1 + w) * (w * e) ^ 3 + 4 * (w * e) ^ 4) / (4 * w * e * e)).
  - apply Rdiv_lt_0_compat; [exact P|]. apply Rmult_lt_0_compat; [|lra]. apply Rmult_lt_0_compat; lra.
  - unfold bhabha_bracket. rewrite GW. field. repeat split; try lra.
Qed.
Lemma fplus_derive g d : 1 < g -> 0 < d ->
  is_derive (fplus g) d ((1 - 1 / (g * g)) * bhabha_bracket g (d / (g - 1)) * (d / (g - 1)) / (g - 1)).
Proof.
  intros G D. unfold fplus, bhabha_bracket.
  auto_derive; [apply Rmult_lt_0_compat; lra|].
  assert (g * g - 1 <> 0) by nra.
  field. repeat split; lra.
Qed.

(** ** Moller *)
Definition moller_bracket (g e : R) : R :=
  (g - 1) ^ 2 / (g * g) + 1 / e * (1 / e - (2 * g - 1) / (g * g)) + 1 / (1 - e) * (1 / (1 - e) - (2 * g - 1) / (g * g)).
Definition fminus (g d : R) : R :=
  let tau := g - 1 in
  (d * d / 2 + (2 * tau + 1) * ln (1 - d / tau)) / (g * g) - 1 - (1 - 1 / (g * g)) + ln ((tau - d) * d) + tau / (tau - d).
Lemma moller_bracket_positive g e : 1 < g -> 0 < e < 1 -> 0 < moller_bracket g e.
Proof.
  intros G [E O]. unfold moller_bracket.
  assert (1 < 1 / e) as A.
  { apply (Rmult_lt_reg_r e); [lra|]. unfold Rdiv. rewrite Rmult_assoc, Rinv_l by lra. lra. }
  assert (1 < 1 / (1 - e)) as B.
  { apply (Rmult_lt_reg_r (1 - e)); [lra|]. unfold Rdiv. rewrite Rmult_assoc, Rinv_l by lra. lra. }
  assert ((2 * g - 1) / (g * g) < 1) as C.
  { apply (Rmult_lt_reg_r (g * g)); [nra|]. unfold Rdiv. rewrite Rmult_assoc, Rinv_l by nra. nra. }
  assert (0 <= (g - 1) ^ 2 / (g * g)) as D.
  { apply Rdiv_le_0_compat; [apply pow2_ge_0|nra]. }
  assert (0 < 1 / e * (1 / e - (2 * g - 1) / (g * g))) by (apply Rmult_lt_0_compat; lra).
  assert (0 < 1 / (1 - e) * (1 / (1 - e) - (2 * g - 1) / (g * g))) by (apply Rmult_lt_0_compat; lra).
  lra.
Qed.
Lemma fminus_derive g d : 1 < g -> 0 < d < g - 1 ->
  is_derive (fminus g) d (moller_bracket g (d / (g - 1)) * (d / (g - 1)) / (g - 1)).
Proof.
  intros G D. unfold fminus, moller_bracket.
  assert (d / (g - 1) < 1) as L.
  { apply (Rmult_lt_reg_r (g - 1)); [lra|]. unfold Rdiv. rewrite Rmult_assoc, Rinv_l by lra. lra. }
  auto_derive.
  - repeat split; try lra. apply Rmult_lt_0_compat; lra.
  - field. repeat split; lra.
Qed.

(** ** Values *)
Section Values.
Variable nan : forall A, outcome A.
Lemma density_effect_total m b g : 0 < b * g -> exists d, density_effect nan m b g = Ok d.
Proof.
  intros H. unfold density_effect. rewrite (log_ok nan _ H). cbn [obind].
  destruct (_ <? _); [now eexists|]. destruct (_ <? _); now eexists.
Qed.
Section Electron.
Variables (m : material) (E f : R).
Hypotheses (I_pos : 0 < mat_I m) (E_big : ME < E) (f_pos : 0 < f) (f_eq : proton_fraction nan (mat_components m) = Ok f).
Let g := E / ME.
Lemma g_big : 1 < g.
Proof. unfold g. pose proof ME_pos. apply (Rmult_lt_reg_r ME); [lra|]. unfold Rdiv. rewrite Rmult_assoc, Rinv_l by lra. lra. Qed.
Lemma E_g : E = g * ME.
Proof. unfold g. pose proof ME_pos. field. lra. Qed.
Lemma beta_pos : 0 < 1 - 1 / (g * g) < 1.
Proof.
  pose proof g_big. assert (0 < 1 / (g * g)) by (apply Rdiv_lt_0_compat; nra).
  assert (1 / (g * g) < 1); [|lra]. apply (Rmult_lt_reg_r (g * g)); [nra|]. unfold Rdiv. rewrite Rmult_assoc, Rinv_l by nra. nra.
Qed.
Definition share_of (v : R) : R := v * g / (g - 1).
Definition front : R := 1 / (g - 1) * (1 / (1 - 1 / g)) * (2 * PI * RE ^ 2 * NA * f).
Lemma front_pos : 0 < front.
Proof.
  pose proof g_big. unfold front. assert (1 / g < 1) as A.
  { apply (Rmult_lt_reg_r g); [lra|]. unfold Rdiv. rewrite Rmult_assoc, Rinv_l by lra. lra. }
  apply Rmult_lt_0_compat; [apply Rmult_lt_0_compat; apply Rdiv_lt_0_compat; lra|].
  pose proof PI_RGT_0. apply Rmult_lt_0_compat; [|exact f_pos].
  apply Rmult_lt_0_compat; [apply Rmult_lt_0_compat; [lra|apply pow_lt; unfold RE; lra]|unfold NA; lra].
Qed.
Lemma share_transferred v : v * E / (E - ME) = share_of v.
Proof. unfold share_of. rewrite E_g. pose proof g_big. pose proof ME_pos. field. split; [lra|]. replace (g * ME - ME) with ((g - 1) * ME) by ring. nra. Qed.
Lemma share_range v b : 0 < v <= b * (1 - ME / E) -> 0 < share_of v <= b.
Proof.
  intros [V W]. pose proof g_big. pose proof ME_pos. unfold share_of. split; [apply Rdiv_lt_0_compat; nra|].
  apply (Rmult_le_reg_r (g - 1)); [lra|]. unfold Rdiv. rewrite Rmult_assoc, Rinv_l, Rmult_1_r by lra.
  replace (b * (1 - ME / E)) with (b * ((g - 1) * / g)) in W by (rewrite E_g; field; split; lra).
  assert (v * g <= b * ((g - 1) * / g) * g) as X by (apply Rmult_le_compat_r; lra).
  replace (b * ((g - 1) * / g) * g) with (b * (g - 1)) in X by (field; lra). exact X.
Qed.
Lemma bhabha_value v : 0 < v <= 1 - ME / E -> bhabha nan ME m E v = Ok (bhabha_bracket g (share_of v) * front).
Proof.
  intros V. pose proof g_big as G. pose proof ME_pos as M. pose proof beta_pos as B.
  destruct (share_range v 1 ltac:(lra)) as [S1 S2].
  unfold bhabha. rewrite (quo_ok nan E ME) by lra. cbn [obind]. fold g.
  rewrite (quo_ok nan (v * E)) by lra. cbn [obind]. rewrite share_transferred.
  rewrite quo_ok by nra. cbn [obind]. rewrite quo_ok by lra. cbn [obind].
  rewrite quo_ok by (apply Rgt_not_eq, Rmult_lt_0_compat; [apply Rmult_lt_0_compat|]; lra). cbn [obind].
  rewrite quo_ok by lra. cbn [obind]. rewrite quo_ok by lra. cbn [obind]. rewrite quo_ok by lra. cbn [obind].
  rewrite quo_ok. 2:{ apply Rgt_not_eq. assert (1 / g < 1); [|lra]. apply (Rmult_lt_reg_r g); [lra|]. unfold Rdiv. rewrite Rmult_assoc, Rinv_l by lra. lra. }
  cbn [obind]. rewrite f_eq. cbn [obind]. f_equal.
  pose proof (bhabha_bracket_positive g (share_of v) G (conj S1 S2)) as P. pose proof front_pos as F.
  etransitivity; [apply Rmax_left|].
  2:{ unfold front, bhabha_bracket. ring. }
  apply Rle_trans with (bhabha_bracket g (share_of v) * front); [apply Rlt_le, Rmult_lt_0_compat; lra|].
  right. unfold front, bhabha_bracket. ring.
Qed.
Lemma moller_value v : 0 < v <= 1 / 2 * (1 - ME / E) -> moller nan ME m E v = Ok (moller_bracket g (share_of v) / (1 - 1 / (g * g)) * front).
Proof.
  intros V. pose proof g_big as G. pose proof ME_pos as M. pose proof beta_pos as B.
  destruct (share_range v (1 / 2) ltac:(lra)) as [S1 S2].
  unfold moller. rewrite (quo_ok nan E ME) by lra. cbn [obind]. fold g.
  rewrite (quo_ok nan (v * E)) by lra. cbn [obind]. rewrite share_transferred.
  rewrite quo_ok by nra. cbn [obind]. rewrite quo_ok by nra. cbn [obind]. rewrite quo_ok by lra. cbn [obind].
  rewrite quo_ok by nra. cbn [obind]. rewrite quo_ok by lra. cbn [obind]. rewrite quo_ok by lra. cbn [obind].
  rewrite quo_ok by lra. cbn [obind]. rewrite quo_ok by lra. cbn [obind].
  rewrite quo_ok. 2:{ apply Rgt_not_eq. assert (1 / g < 1); [|lra]. apply (Rmult_lt_reg_r g); [lra|]. unfold Rdiv. rewrite Rmult_assoc, Rinv_l by lra. lra. }
  cbn [obind]. rewrite f_eq. cbn [obind]. f_equal.
  assert (0 < moller_bracket g (share_of v)) as P by (apply moller_bracket_positive; lra). pose proof front_pos as F.
  assert (0 < moller_bracket g (share_of v) / (1 - 1 / (g * g))) as Q by (apply Rdiv_lt_0_compat; lra).
  etransitivity; [apply Rmax_left|].
  2:{ unfold front, moller_bracket. ring. }
  apply Rle_trans with (moller_bracket g (share_of v) / (1 - 1 / (g * g)) * front); [apply Rlt_le, Rmult_lt_0_compat; lra|].
  right. unfold front, moller_bracket. ring.
Qed.

Definition scale : R := 2 * PI * RE * RE * ME / (1 - 1 / (g * g)) * (NA * f).
Lemma scale_pos : 0 < scale.
Proof.
  pose proof beta_pos. pose proof PI_RGT_0. unfold scale. apply Rmult_lt_0_compat.
  - apply Rdiv_lt_0_compat; [|lra]. apply Rmult_lt_0_compat; [|apply ME_pos]. assert (0 < RE) as R0 by (unfold RE; lra). apply Rmult_lt_0_compat; [|exact R0]. apply Rmult_lt_0_compat; [lra|exact R0].
  - apply Rmult_lt_0_compat; [unfold NA; lra|exact f_pos].
Qed.
Definition excitation (d : R) : R := ln (2 * (g - 1 + 2) / ((/ 10 ^ 6 * mat_I m) ^ 2 / ME)) - d.
Lemma effect_exists : exists d, density_effect nan m (sqrt (1 - 1 / (g * g))) g = Ok d.
Proof.
  pose proof g_big. pose proof beta_pos. apply density_effect_total.
  assert (0 < sqrt (1 - 1 / (g * g))) by (apply sqrt_lt_R0; lra). nra.
Qed.
Variable d : R.
Hypothesis d_eq : density_effect nan m (sqrt (1 - 1 / (g * g))) g = Ok d.
Lemma berger_seltzer_value F : berger_seltzer nan m (1 - 1 / (g * g)) g (g - 1) F = Ok (Rmax ((excitation d + F) * scale) 0).
Proof.
  pose proof g_big as G. pose proof ME_pos as M. pose proof beta_pos as B.
  assert (0 < (/ 10 ^ 6 * mat_I m) ^ 2) as P.
  { apply pow_lt, Rmult_lt_0_compat; [apply Rinv_0_lt_compat, pow_lt; lra|exact I_pos]. }
  assert (0 < (/ 10 ^ 6 * mat_I m) ^ 2 / ME) as Q by (apply Rdiv_lt_0_compat; lra).
  unfold berger_seltzer. rewrite quo_ok by lra. cbn [obind]. rewrite quo_ok by lra. cbn [obind].
  rewrite log_ok by (apply Rdiv_lt_0_compat; lra). cbn [obind]. rewrite d_eq. cbn [obind]. rewrite quo_ok by lra. cbn [obind].
  rewrite f_eq. cbn [obind]. unfold scale, excitation. f_equal. f_equal. ring.
Qed.
(** The part of the range below the cut *)
Lemma bhabha_dedx_value c : accepted c ->
  bhabha_dedx nan c ME m E = Ok (Rmax ((excitation d + fplus g (Rmin (get_cut c E) (1 - ME / E) * g)) * scale) 0).
Proof.
  pose proof g_big as G. pose proof ME_pos as M. pose proof beta_pos as B.
  intros C.
  assert (0 < 1 - ME / E) as V.
  { assert (ME / E < 1); [|lra]. apply (Rmult_lt_reg_r E); [lra|]. unfold Rdiv. rewrite Rmult_assoc, Rinv_l by lra. lra. }
  pose proof (get_cut_positive c E C ltac:(lra)) as P.
  unfold bhabha_dedx, bhabha_limits. rewrite (proj2 (Rltb_false _ 0)) by lra. cbn [v_min v_max].
  rewrite (proj2 (Reqb_false 0 _)) by lra.
  set (u := Rmin (get_cut c E) (1 - ME / E)).
  assert (0 < u <= 1 - ME / E) as U by (unfold u; split; [apply Rmin_glb_lt; lra|apply Rmin_r]).
  replace (Rmin ((1 - ME / E) * E / ME) (u * E / ME)) with (u * g).
  2:{ rewrite Rmin_right; [unfold g; field; lra|]. unfold Rdiv. rewrite !Rmult_assoc.
      apply Rmult_le_compat_r; [|lra]. apply Rlt_le, Rmult_lt_0_compat; [lra|now apply Rinv_0_lt_compat]. }
  fold g. rewrite quo_ok by nra. cbn [obind]. rewrite quo_ok by lra. cbn [obind]. rewrite quo_ok by lra. cbn [obind].
  rewrite log_ok by (apply Rmult_lt_0_compat; [lra|apply Rmult_lt_0_compat; lra]). cbn [obind].
  rewrite berger_seltzer_value. reflexivity.
Qed.
Lemma moller_dedx_value c : accepted c ->
  moller_dedx nan c ME m E = Ok (Rmax ((excitation d + fminus g (Rmin (get_cut c E) (1 / 2 * (1 - ME / E)) * g)) * scale) 0).
Proof.
  pose proof g_big as G. pose proof ME_pos as M. pose proof beta_pos as B.
  intros C.
  assert (0 < 1 - ME / E) as V.
  { assert (ME / E < 1); [|lra]. apply (Rmult_lt_reg_r E); [lra|]. unfold Rdiv. rewrite Rmult_assoc, Rinv_l by lra. lra. }
  pose proof (get_cut_positive c E C ltac:(lra)) as P.
  unfold moller_dedx, moller_limits. rewrite (proj2 (Rltb_false _ 0)) by lra. cbn [v_min v_max].
  rewrite (proj2 (Reqb_false _ 0)) by lra.
  set (u := Rmin (get_cut c E) (1 / 2 * (1 - ME / E))).
  assert (0 < u <= 1 / 2 * (1 - ME / E)) as U by (unfold u; split; [apply Rmin_glb_lt; lra|apply Rmin_r]).
  replace (Rmin (1 / 2 * (1 - ME / E) * E / ME) (u * E / ME)) with (u * g).
  2:{ rewrite Rmin_right; [unfold g; field; lra|]. unfold Rdiv. rewrite !(Rmult_assoc _ E), !(Rmult_assoc (1 * / 2)).
      rewrite <- (Rmult_assoc (1 * / 2)). apply Rmult_le_compat_r; [|unfold Rdiv in U; lra]. apply Rlt_le, Rmult_lt_0_compat; [lra|now apply Rinv_0_lt_compat]. }
  destruct (share_range u (1 / 2) U) as [S1 S2].
  assert (u * g <= 1 / 2 * (g - 1)) as T.
  { unfold share_of in S2. apply (Rmult_le_compat_r (g - 1)) in S2; [|lra]. unfold Rdiv in S2 at 1. rewrite Rmult_assoc, Rinv_l in S2 by lra. lra. }
  fold g. rewrite quo_ok by nra. cbn [obind]. rewrite quo_ok by lra. cbn [obind].
  fold (share_of u). rewrite log_ok by lra. cbn [obind]. rewrite quo_ok by nra. cbn [obind].
  rewrite log_ok by (apply Rmult_lt_0_compat; nra). cbn [obind]. rewrite quo_ok by lra. cbn [obind].
  rewrite berger_seltzer_value. reflexivity.
Qed.
End Electron.
End Values.
