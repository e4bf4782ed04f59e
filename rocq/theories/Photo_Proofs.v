(** The rate of the photoelectric effect. *)
From Coquelicot Require Import Coquelicot.
From Verif Require Import Prelude PreludeFacts Propagator_Model Limits_Model Particle_Model Cross_Model Photo_Model Cross_Spec
  Cross_Proofs Transform_Proofs Components_Proofs.

Lemma ME_pos : 0 < ME. Proof. unfold ME; lra. Qed.
Lemma ALPHA_pos : 0 < ALPHA. Proof. unfold ALPHA; lra. Qed.
Lemma ln_le_18 Z : 1 <= Z <= 300 -> 0 <= ln Z <= 18.
Proof.
  intros H. split.
  - rewrite <- ln_1. destruct (Req_dec Z 1) as [->|]; [lra|]. left. apply ln_increasing; lra.
  - rewrite <- (ln_exp 18). assert (300 < exp 18).
    { replace 18 with (6 + (6 + 6)) by lra. rewrite !exp_plus. pose proof (exp_ineq1 6). nra. }
    left. apply ln_increasing; lra.
Qed.
Lemma ln_sum_le g : 1 < g -> 0 <= ln (g + sqrt (g * g - 1)) <= sqrt (g * g - 1).
Proof.
  intros H. set (b := sqrt (g * g - 1)).
  assert (B : 0 < b) by (apply sqrt_lt_R0; nra).
  assert (B2 : b * b = g * g - 1) by (apply sqrt_sqrt; nra).
  split.
  - rewrite <- ln_1. left. apply ln_increasing; lra.
  - (* g + b <= exp b: by g = sqrt (1 + b^2) <= 1 + b^2/2 *)
    assert (g + b <= exp b).
    { (* exp b >= 1 + b + b^2/2 *)
      assert (Q : 1 + b + b * b / 2 <= exp b).
      { assert (T : forall x, 0 <= x -> 0 <= exp x - (1 + x + x * x / 2)).
        { intros x Hx. 
          destruct (Req_dec x 0) as [->|Nx]; [rewrite exp_0; lra|].
          destruct (MVT_cor2 (fun x => exp x - (1 + x + x * x / 2)) (fun x => exp x - (1 + x)) 0 x) as (c & E & Hc).
          - lra.
          - intros c Hc. auto_derive; [trivial|]. field.
          - cbn beta in E. rewrite exp_0 in E. pose proof (exp_ineq1 c). assert (1 + c < exp c) by (apply H0; lra). nra. }
        specialize (T b). lra. }
      assert (g <= 1 + b * b / 2) by nra. lra. }
    assert (L : ln (g + b) <= ln (exp b)).
    { destruct H0 as [L|L]; [left; apply ln_increasing; lra|rewrite L; lra]. }
    now rewrite ln_exp in L.
Qed.

Section Nan.
Variable nan : forall A, outcome A.

Lemma kshell_pos c : 1 <= c_charge c <= 300 -> exists r, kshell_total_ratio nan c = Ok r /\ 0 < r.
Proof.
  intros H. unfold kshell_total_ratio. rewrite log_ok by lra. cbn [obind]. eexists; split; [reflexivity|].
  pose proof (ln_le_18 _ H) as L. set (l := ln (c_charge c)) in *.
  assert (0 <= l * l) by nra. assert (l * l * l <= 18 * (l * l)) by nra. lra.
Qed.

Lemma sinh_pos x : 0 < x -> 0 < sinh x.
Proof. intros H. unfold sinh. assert (exp (- x) < exp x) by (apply exp_increasing; lra). lra. Qed.

Lemma sauter_above E c : 0 < c_charge c -> photoeffect_cutoff c < E -> exists r, sauter nan E c = Ok r /\ 0 < r.
Proof.
  intros Z H. unfold photoeffect_cutoff in H. unfold sauter. cbv zeta. pose proof ME_pos as M. pose proof ALPHA_pos as Al.
  set (I := (c_charge c * ALPHA) ^ 2 * ME / 2) in *.
  assert (I0 : 0 < I). { unfold I. apply Rdiv_lt_0_compat; [|lra]. apply Rmult_lt_0_compat; auto. apply pow_lt. now apply Rmult_lt_0_compat. }
  set (g := 1 + (E - I) / ME).
  assert (G : 1 < g). { unfold g. assert (0 < (E - I) / ME) by (apply Rdiv_lt_0_compat; lra). lra. }
  clearbody g.
  pose proof (ln_sum_le g G) as LN.
  assert (B : 0 < sqrt (g * g - 1)) by (apply sqrt_lt_R0; nra).
  unfold root. rewrite (proj2 (Rltb_false _ _)) by nra. cbn [obind].
  set (b := sqrt (g * g - 1)) in *.
  assert (GB : 0 < g * b) by nra.
  repeat (rewrite quo_ok by lra; cbn [obind]).
  rewrite log_ok by lra. cbn [obind].
  assert (P : 0 < c_charge c * ALPHA * g / b).
  { apply Rdiv_lt_0_compat; auto. apply Rmult_lt_0_compat; [now apply Rmult_lt_0_compat|lra]. }
  set (z := c_charge c * ALPHA * g / b) in *. clearbody z.
  rewrite quo_ok by lra. cbn [obind]. pose proof PI_RGT_0 as PP.
  assert (PZ : 0 < PI * z) by now apply Rmult_lt_0_compat.
  assert (F : 0 < 4 / 3 + g * (g - 2) / (g + 1) * (1 - 1 / (g * b) * ln (g + b))).
  { set (u := 1 - 1 / (g * b) * ln (g + b)).
    assert (U : 0 <= u <= 1).
    { unfold u. assert (0 <= 1 / (g * b) * ln (g + b) <= 1); [|lra].
      replace (1 / (g * b) * ln (g + b)) with (ln (g + b) / (g * b)) by (field; split; lra).
      split; [apply Rmult_le_pos; [lra|left; now apply Rinv_0_lt_compat]|].
      apply (Rmult_le_reg_r (g * b)); auto. unfold Rdiv. rewrite Rmult_assoc, Rinv_l by lra. nra. }
    assert (- (1 / 2) <= g * (g - 2) / (g + 1)).
    { apply (Rmult_le_reg_r (g + 1)); [lra|]. unfold Rdiv at 2. rewrite Rmult_assoc, Rinv_l by lra. nra. }
    set (w := g * (g - 2) / (g + 1)) in *. clearbody w u. nra. }
  set (f := 4 / 3 + _) in *. clearbody f.
  assert (S0 : 0 < 15 / 10 * (8 * PI * RE * RE / 3) * c_charge c ^ 5 * ALPHA ^ 4 * (ME / E) ^ 5 * b ^ 3 * f).
  { assert (0 < RE) by (unfold RE; lra). assert (0 < ME / E) by (apply Rdiv_lt_0_compat; lra).
    assert (0 < 15 / 10 * (8 * PI * RE * RE / 3)).
    { apply Rmult_lt_0_compat; [lra|]. apply Rdiv_lt_0_compat; [|lra].
      apply Rmult_lt_0_compat; [|lra]. apply Rmult_lt_0_compat; lra. }
    set (q := ME / E) in *. clearbody q. set (k := 15 / 10 * _) in *. clearbody k.
    do 5 (apply Rmult_lt_0_compat; [|first [lra|apply pow_lt; lra]]). lra. }
  destruct (Rltb_spec (PI * z) 10).
  - pose proof (sinh_pos _ PZ) as SH. rewrite quo_ok by lra. cbn [obind]. eexists; split; [reflexivity|].
    apply Rmult_lt_0_compat; auto. apply Rmult_lt_0_compat; [|apply exp_pos].
    apply Rdiv_lt_0_compat; auto. apply Rmult_lt_0_compat; auto. nra.
  - cbn [obind]. eexists; split; [reflexivity|]. apply Rmult_lt_0_compat; auto.
    apply Rmult_lt_0_compat; [|apply exp_pos]. apply Rmult_lt_0_compat; auto. nra.
Qed.
Theorem photoeffect_above E c : 1 <= c_charge c <= 300 -> 0 < c_atomic c -> photoeffect_cutoff c < E ->
  exists r, photoeffect_rate nan E c = Ok r /\ 0 < r.
Proof.
  intros Z A H. unfold photoeffect_rate. destruct (sauter_above E c) as (k & -> & K); auto; [lra|]. cbn [obind].
  rewrite (proj2 (Reqb_false _ _)) by lra. destruct (kshell_pos c Z) as (r & -> & Hr). cbn [obind].
  rewrite quo_ok by lra. cbn [obind]. eexists; split; [reflexivity|].
  assert (0 < NA / c_atomic c) by (apply Rdiv_lt_0_compat; [unfold NA; lra|auto]).
  apply Rmult_lt_0_compat; auto. now apply Rmult_lt_0_compat.
Qed.
Theorem photoeffect_below E c : (forall A a, nan A <> Ok a) -> 0 < c_charge c <= 137 -> 0 < E <= photoeffect_cutoff c ->
  forall r, photoeffect_rate nan E c <> Ok r.
Proof.
  intros N Z H r K. unfold photoeffect_rate in K. apply obind_Ok in K. destruct K as (k & K & _).
  unfold sauter in K. cbv zeta in K. apply obind_Ok in K. destruct K as (gb & Kg & K).
  unfold photoeffect_cutoff in H. set (I := (c_charge c * ALPHA) ^ 2 * ME / 2) in *. pose proof ME_pos as M.
  assert (I2 : I < ME).
  { unfold I. assert (Q : 0 < c_charge c * ALPHA < 1) by (unfold ALPHA; lra).
    set (q := c_charge c * ALPHA) in *. clearbody q. assert (0 < q ^ 2 < 1) by nra. nra. }
  set (g := 1 + (E - I) / ME) in *.
  assert (G : 0 < g <= 1).
  { unfold g. replace (1 + (E - I) / ME) with ((ME + E - I) / ME) by (field; lra). split.
    - apply Rdiv_lt_0_compat; lra.
    - apply (Rmult_le_reg_r ME); auto. unfold Rdiv. rewrite Rmult_assoc, Rinv_l by lra. lra. }
  clearbody g. unfold root in Kg. destruct (Rltb_spec (g * g - 1) 0) as [L|L]; [now apply (N R gb)|].
  assert (g = 1) by nra. subst g. replace (1 * 1 - 1) with 0 in Kg by lra. rewrite sqrt_0 in Kg. injection Kg as <-.
  apply obind_Ok in K. destruct K as (q & _ & K). apply obind_Ok in K. destruct K as (q' & _ & K).
  apply obind_Ok in K. destruct K as (q'' & K & _). unfold quo in K.
  rewrite (proj2 (Reqb_true _ _)) in K by lra. now apply (N R q'').
Qed.

(** Rates per target of the cross section *)
Theorem photoeffect_targets registry m lower cut E : sound_medium m ->
  (forall c, In c (m_components m) -> 1 <= c_charge c <= 300) ->
  exists f, (forall c, In c (m_components m) -> (photoeffect_cutoff c < E -> 0 < f c /\ exists r, photoeffect_rate nan E c = Ok r /\ f c = r * mass_share m c) /\
                                               (E <= photoeffect_cutoff c -> f c = 0)) /\
    x_per_target (photoeffect nan registry m lower cut) E = Ok (map (fun c => (c_hash c, f c)) (m_components m)).
Proof.
  intros S Z. unfold photoeffect. cbn [direct x_per_target].
  exists (fun c => if photoeffect_cutoff c <? E
                   then match photoeffect_rate nan E c with Ok r => r * mass_share m c | _ => 0 end else 0).
  assert (V : forall c, In c (m_components m) -> photoeffect_cutoff c < E -> exists r,
     photoeffect_rate nan E c = Ok r /\ 0 < r /\ 0 < mass_share m c /\ direct_rate nan (photoeffect_rate nan) m E c = Ok (r * mass_share m c)).
  { intros c Hc L. destruct (photoeffect_above E c) as (r & Hr & R0); auto; [apply S; auto|].
    exists r. split; auto. split; auto. unfold direct_rate.
    destruct (weight_ok nan m c S Hc) as (w & -> & _ & Q). cbn [obind]. rewrite Hr. cbn [obind]. split; [|apply Q].
    unfold mass_share, component_mass. destruct (proj2 S c Hc). apply Rdiv_lt_0_compat; [nra|now apply mass_pos]. }
  split.
  - intros c Hc. split; intros L.
    + rewrite (proj2 (Rltb_true _ _)) by auto. destruct (V c Hc L) as (r & Hr & R0 & M0 & _). rewrite Hr. split; [nra|eauto].
    + now rewrite (proj2 (Rltb_false _ _)).
  - assert (forall cs, (forall c, In c cs -> In c (m_components m)) ->
      direct_targets nan (photoeffect_rate nan) photoeffect_cutoff true m E cs = Ok (map (fun c => (c_hash c,
        if photoeffect_cutoff c <? E then match photoeffect_rate nan E c with Ok r => r * mass_share m c | _ => 0 end else 0)) cs)).
    { induction cs as [|c cs IH]; intros Hi; [reflexivity|]. cbn [direct_targets negb orb map].
      rewrite IH by (intros; apply Hi; now right).
      destruct (Rltb_spec (photoeffect_cutoff c) E) as [L|L]; [|reflexivity].
      destruct (V c (Hi c (or_introl eq_refl)) L) as (r & Hr & _ & _ & ->). rewrite Hr. reflexivity. }
    now apply H.
Qed.
Theorem photoeffect_asked registry m lower cut E c : sound_medium m -> In c (m_components m) ->
  1 <= c_charge c <= 137 -> registry (c_hash c) = Ok c -> 0 < E ->
  (photoeffect_cutoff c < E -> exists r, photoeffect_rate nan E c = Ok r /\
     x_dNdx_target (photoeffect nan registry m lower cut) E (c_hash c) = Ok (r * mass_share m c)) /\
  (E <= photoeffect_cutoff c -> (forall A a, nan A <> Ok a) ->
     forall r, x_dNdx_target (photoeffect nan registry m lower cut) E (c_hash c) <> Ok r).
Proof.
  intros S Hc Z Rg E0. unfold photoeffect. cbn [direct x_dNdx_target]. unfold direct_target. rewrite Rg. cbn [obind].
  unfold direct_rate. destruct (weight_ok nan m c S Hc) as (w & -> & _ & Q). cbn [obind].
  split; [intros L|intros L N r K].
  - destruct (photoeffect_above E c) as (r & Hr & R0); auto; [lra|apply S; auto|]. exists r. rewrite Hr. cbn [obind]. auto.
  - apply obind_Ok in K. destruct K as (k & K & _). now apply (photoeffect_below E c N ltac:(lra) ltac:(lra) k).
Qed.
End Nan.
