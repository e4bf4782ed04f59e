(** The suppression of electron pairs by the medium: its factor as a quotient of
    integrals. *)
From Coq Require Import Lra Psatz.
From Coquelicot Require Import Coquelicot.
From Verif Require Import Prelude PreludeFacts Particle_Model Limits_Model Cross_Model Pairs_Model Sandrock_Model Differential_Spec Pairs_Spec Transform_Proofs Pairs_Proofs Rho_Proofs Sandrock_Proofs.

(** [V] is the integral of [i] from 0 to 1. *)
Definition weighs (i : R -> R) (V : R) : Prop :=
  exists P : R -> R, (forall t, 0 <= t <= 1 -> is_derive P t (i t)) /\ V = P 1 - P 0.
Lemma weighs_plus i j V W : weighs i V -> weighs j W -> weighs (fun t => i t + j t) (V + W).
Proof.
  intros (P & DP & ->) (Q & DQ & ->). exists (fun t => P t + Q t). split; [|ring]. intros t T.
  apply (is_derive_plus P Q t (i t) (j t)); auto.
Qed.
Lemma weighs_scal k i V : weighs i V -> weighs (fun t => k * i t) (k * V).
Proof.
  intros (P & DP & ->). exists (fun t => k * P t). split; [|ring]. intros t T. apply (is_derive_scal P t k (i t)); auto.
Qed.
Lemma weighs_positive i V : weighs i V -> (forall t, 0 < t < 1 -> 0 < i t) -> 0 < V.
Proof.
  intros (P & DP & ->) H. destruct (MVT_cor2 P i 0 1 ltac:(lra)) as (c & E & C).
  - intros t T. apply is_derive_Reals. apply DP. lra.
  - specialize (H c C). lra.
Qed.
Lemma weighs_lt i j V W : weighs i V -> weighs j W -> (forall t, 0 < t < 1 -> i t < j t) -> V < W.
Proof.
  intros HI HJ H. apply (weighs_scal (-1)) in HI. pose proof (weighs_plus _ _ _ _ HJ HI) as K.
  apply weighs_positive in K; [lra|]. intros t T. specialize (H t T). lra.
Qed.

Section Factor.
Variables x u : R.
Hypothesis X : 0 < x.
Hypothesis U : 0 < u.
Let d1 := 1 / (1 + u).
Let d2 := 1 / (1 + u ^ 2).
Let g := atan (u / (1 + x)) / u.
Let Lam := ln (((1 + x) ^ 2 + u ^ 2) / x ^ 2) / 2.
Let lam := ln ((1 + x + u) / x).
Let q t := (x + t) ^ 2 + u ^ 2 * t ^ 2.
Lemma q_pos t : 0 <= t -> 0 < q t.
Proof using X. intro T. unfold q. nra. Qed.
Lemma lam_value : ln (x + (1 + u) * 1) - ln (x + (1 + u) * 0) = lam.
Proof using X U. unfold lam. rewrite ln_div by lra. f_equal; f_equal; ring. Qed.
Lemma B_weighs : weighs (fun t => (1 - t) / (x + (1 + u) * t)) (d1 * (1 + d1 * x) * lam - d1).
Proof using X U.
  exists (fun t => - t / (1 + u) + (1 + x / (1 + u)) * ln (x + (1 + u) * t) / (1 + u)). split.
  - intros t T. assert (0 < x + (1 + u) * t) by nra. auto_derive; [lra|]. field. lra.
  - rewrite <- lam_value. unfold d1. field. lra.
Qed.
Lemma D_weighs : weighs (fun t => t / (x + (1 + u) * t)) (d1 - d1 ^ 2 * x * lam).
Proof using X U.
  exists (fun t => t / (1 + u) - x / (1 + u) ^ 2 * ln (x + (1 + u) * t)). split.
  - intros t T. assert (0 < x + (1 + u) * t) by nra. auto_derive; [lra|]. field. lra.
  - rewrite <- lam_value. unfold d1. field. lra.
Qed.
Lemma E_weighs : weighs (fun t => (1 + x) / ((1 + x) ^ 2 + u ^ 2 * t ^ 2)) g.
Proof using X U.
  exists (fun t => atan (u * t / (1 + x)) / u). split.
  - intros t T. assert (0 < (1 + x) ^ 2 + u ^ 2 * t ^ 2) by nra. auto_derive; [exact I|]. field. repeat split; nra.
  - unfold g. replace (u * 1 / (1 + x)) with (u / (1 + x)) by (field; lra). replace (u * 0 / (1 + x)) with 0 by (field; lra). rewrite atan_0. field. lra.
Qed.
Let theta t := atan (u * t / (x + t)).
Lemma theta_derive t : 0 <= t <= 1 -> is_derive theta t (u * x / q t).
Proof using X U.
  intros T. pose proof (q_pos t ltac:(lra)) as Q. unfold theta, q in *. auto_derive; [lra|]. field. repeat split; nra.
Qed.
Lemma theta_ends : theta 1 = u * g /\ theta 0 = 0.
Proof using X U.
  unfold theta, g. split.
  - replace (u * 1 / (x + 1)) with (u / (1 + x)) by (field; lra). field. lra.
  - replace (u * 0 / (x + 0)) with 0 by (field; lra). apply atan_0.
Qed.
Let half t := ln (q t) / 2.
Lemma half_derive t : 0 <= t <= 1 -> is_derive half t ((x + (1 + u ^ 2) * t) / q t).
Proof using X U.
  intros T. pose proof (q_pos t ltac:(lra)) as Q. unfold half, q in *. auto_derive; [lra|]. field. lra.
Qed.
Lemma half_ends : half 1 - half 0 = Lam.
Proof using X U.
  unfold half, Lam, q. rewrite ln_div by nra. replace ((x + 1) ^ 2 + u ^ 2 * 1 ^ 2) with ((1 + x) ^ 2 + u ^ 2) by ring.
  replace ((x + 0) ^ 2 + u ^ 2 * 0 ^ 2) with (x ^ 2) by ring. field.
Qed.
Lemma one_weighs : weighs (fun t => t / q t) (d2 * (Lam - g)).
Proof using X U.
  exists (fun t => d2 * (half t - / u * theta t)). destruct theta_ends as [T1 T0]. split.
  - intros t T. pose proof (q_pos t ltac:(lra)) as Q. pose proof (half_derive t T) as H. pose proof (theta_derive t T) as G.
    replace (t / q t) with (d2 * ((x + (1 + u ^ 2) * t) / q t - / u * (u * x / q t))) by (unfold d2; field; repeat split; nra).
    apply (is_derive_scal (fun t => half t - / u * theta t) t d2). apply (is_derive_minus half (fun t => / u * theta t) t); [exact H|].
    apply (is_derive_scal theta t (/ u)). exact G.
  - rewrite T1, T0, <- half_ends. field. lra.
Qed.
Lemma C_weighs : weighs (fun t => t ^ 2 / q t) (d2 - 2 * d2 ^ 2 * x * Lam + d2 ^ 2 * (1 - u ^ 2) * x * g).
Proof using X U.
  destruct one_weighs as (P & DP & EP). destruct theta_ends as [T1 T0].
  exists (fun t => d2 * (t - 2 * x * P t - x / u * theta t)). split.
  - intros t T. pose proof (q_pos t ltac:(lra)) as Q. pose proof (theta_derive t T) as G. specialize (DP t T).
    replace (t ^ 2 / q t) with (d2 * (1 - 2 * x * (t / q t) - x / u * (u * x / q t))).
    2:{ unfold d2. apply (Rmult_eq_reg_r (q t * (1 + u ^ 2))); [|nra]. transitivity (q t - 2 * x * t - x * x); [field; split; nra|]. transitivity (t ^ 2 * (1 + u ^ 2)); [unfold q; ring|field; lra]. }
    apply (is_derive_scal (fun t => t - 2 * x * P t - x / u * theta t) t d2).
    apply (is_derive_minus (fun t => t - 2 * x * P t) (fun t => x / u * theta t) t); [|apply (is_derive_scal theta t (x / u)); exact G].
    apply (is_derive_minus (fun t => t) (fun t => 2 * x * P t) t); [apply (is_derive_id t)|]. apply (is_derive_scal P t (2 * x)). exact DP.
  - rewrite T1, T0. replace (d2 * (1 - 2 * x * P 1 - x / u * (u * g)) - d2 * (0 - 2 * x * P 0 - x / u * 0)) with (d2 * (1 - 2 * x * (P 1 - P 0) - x * g)) by (field; lra).
    rewrite <- EP. unfold d2. field. nra.
Qed.
Lemma A_weighs : weighs (fun t => t * (1 - t) / q t) (d2 * (1 + 2 * d2 * x) * Lam - d2 - d2 * (1 + (1 - u ^ 2) * d2 * x) * g).
Proof using X U.
  pose proof (weighs_plus _ _ _ _ one_weighs (weighs_scal (-1) _ _ C_weighs)) as (P & DP & EP). exists P. split.
  - intros t T. pose proof (q_pos t ltac:(lra)) as Q. replace (t * (1 - t) / q t) with (t / q t + -1 * (t ^ 2 / q t)) by (field; lra). apply DP. exact T.
  - rewrite <- EP. ring.
Qed.
End Factor.

Section Total.
Variables r2 b x : R.
Hypothesis R2 : 0 <= r2 < 1.
Hypothesis B : 0 < b.
Hypothesis X : 0 < x.
Let K1 t := (1 + b) * (t * (1 - t)) + b * t ^ 2.
Let K2 t := (1 + r2) * ((1 + b) * (1 - t) + b * t).
Let q u t := (x + t) ^ 2 + u ^ 2 * t ^ 2.
Let e u t := (1 + x) / ((1 + x) ^ 2 + u ^ 2 * t ^ 2).
Definition share (u t : R) : R := K1 t / q u t + K2 t / (x + (1 + u) * t) + (1 - r2) * e u t.
(** The numerator of the factor with u = 1 / (6 s) *)
Definition numerator (u : R) : R :=
  let d1 := 1 / (1 + u) in
  let d2 := 1 / (1 + u ^ 2) in
  let g := atan (u / (1 + x)) / u in
  let Lam := ln (((1 + x) ^ 2 + u ^ 2) / x ^ 2) / 2 in
  let lam := ln ((1 + x + u) / x) in
  (1 + b) * (d2 * (1 + 2 * d2 * x) * Lam - d2 - d2 * (1 + (1 - u ^ 2) * d2 * x) * g + (1 + r2) * (d1 * (1 + d1 * x) * lam - d1))
  + b * (d2 - 2 * d2 ^ 2 * x * Lam + d2 ^ 2 * (1 - u ^ 2) * x * g + (1 + r2) * (d1 - d1 ^ 2 * x * lam)) + (1 - r2) * g.
Lemma numerator_weighs u : 0 < u -> weighs (share u) (numerator u).
Proof using X.
  intro U.
  pose proof (weighs_plus _ _ _ _ (weighs_plus _ _ _ _
    (weighs_scal (1 + b) _ _ (weighs_plus _ _ _ _ (A_weighs x u X U) (weighs_scal (1 + r2) _ _ (B_weighs x u X U))))
    (weighs_scal b _ _ (weighs_plus _ _ _ _ (C_weighs x u X U) (weighs_scal (1 + r2) _ _ (D_weighs x u X U)))))
    (weighs_scal (1 - r2) _ _ (E_weighs x u X U))) as (P & DP & EP).
  exists P. split; [|exact EP]. intros t T. specialize (DP t T). cbv beta in DP.
  match type of DP with is_derive _ _ ?k => replace (share u t) with k; [exact DP|] end.
  assert (0 < (x + t) ^ 2 + u ^ 2 * t ^ 2) by nra. assert (0 < x + (1 + u) * t) by nra. assert (0 < (1 + x) ^ 2 + u ^ 2 * t ^ 2) by nra.
  unfold share, K1, K2, q, e. field. lra.
Qed.
Definition phi : R := ((2 + r2) * (1 + b) + x * (3 + r2)) * ln (1 + 1 / x) + (1 - r2 - b) / (1 + x) - (3 + r2).
Lemma phi_weighs : weighs (share 0) phi.
Proof using X.
  exists (fun t => ((2 + r2) * (1 + b) + x * (3 + r2)) * ln (x + t) + (1 + b) * x / (x + t) + x ^ 2 / (x + t) - (2 + r2) * t + (1 - r2) * (t / (1 + x))).
  split.
  - intros t T. assert (0 < x + t) by lra. unfold share, K1, K2, q, e. auto_derive; [lra|]. field. repeat split; nra.
  - unfold phi. replace (1 + 1 / x) with ((x + 1) / x) by (field; lra). rewrite ln_div by lra. rewrite Rplus_0_r. field. lra.
Qed.
Section At.
Variable t : R.
Hypothesis T : 0 < t < 1.
Lemma K1_pos : 0 < K1 t.
Proof using B T. unfold K1. assert (0 < t * (1 - t)) by nra. assert (0 < t ^ 2) by nra. assert (0 < b * t ^ 2) by (apply Rmult_lt_0_compat; lra). assert (0 < b * (t * (1 - t))) by (apply Rmult_lt_0_compat; lra). lra. Qed.
Lemma K2_pos : 0 < K2 t.
Proof using R2 B T. unfold K2. apply Rmult_lt_0_compat; [lra|]. assert (0 < b * t) by nra. assert (0 < b * (1 - t)) by (apply Rmult_lt_0_compat; lra). lra. Qed.
Lemma share_pos u : 0 <= u -> 0 < share u t.
Proof using R2 B X T.
  intro U. unfold share, e, q. pose proof K1_pos. pose proof K2_pos.
  assert (0 < K1 t / ((x + t) ^ 2 + u ^ 2 * t ^ 2)) by (apply Rdiv_lt_0_compat; nra).
  assert (0 < K2 t / (x + (1 + u) * t)) by (apply Rdiv_lt_0_compat; nra).
  assert (0 < (1 + x) / ((1 + x) ^ 2 + u ^ 2 * t ^ 2)) by (apply Rdiv_lt_0_compat; nra). nra.
Qed.
Lemma share_decreasing u w : 0 <= u < w -> share w t < share u t.
Proof using R2 B X T.
  intro U. unfold share, e, q. pose proof K1_pos. pose proof K2_pos.
  assert (SQ : 0 <= u ^ 2 < w ^ 2) by nra. assert (T2 : 0 < t ^ 2) by nra.
  assert (M : u ^ 2 * t ^ 2 < w ^ 2 * t ^ 2) by (apply Rmult_lt_compat_r; lra). assert (M0 : 0 <= u ^ 2 * t ^ 2) by (apply Rmult_le_pos; lra).
  assert (UT : 0 <= u * t < w * t) by nra.
  assert (I : forall k y z, 0 < k -> 0 < y -> y < z -> k / z < k / y).
  { intros k y z Hk Hy Hz. unfold Rdiv. apply Rmult_lt_compat_l; [exact Hk|]. apply Rinv_lt_contravar; [|exact Hz]. apply Rmult_lt_0_compat; lra. }
  assert (XT : 0 < (x + t) ^ 2) by nra. assert (X1 : 0 < (1 + x) ^ 2) by nra.
  pose proof (I (K1 t) ((x + t) ^ 2 + u ^ 2 * t ^ 2) ((x + t) ^ 2 + w ^ 2 * t ^ 2) ltac:(assumption) ltac:(lra) ltac:(lra)).
  pose proof (I (K2 t) (x + (1 + u) * t) (x + (1 + w) * t) ltac:(assumption) ltac:(lra) ltac:(lra)).
  pose proof (I (1 + x) ((1 + x) ^ 2 + u ^ 2 * t ^ 2) ((1 + x) ^ 2 + w ^ 2 * t ^ 2) ltac:(lra) ltac:(lra) ltac:(lra)) as H3.
  apply (Rmult_lt_compat_l (1 - r2)) in H3; lra.
Qed.
(** [k / z] keeps the share 1 - y of [k / z0] if z - z0 is at most the share y of z. *)
Lemma keeps k z0 z y : 0 < k -> 0 < z0 -> 0 < z -> z - z0 < y * z -> (1 - y) * (k / z0) < k / z.
Proof.
  intros Hk H0 Hz H. apply (Rmult_lt_reg_r (z0 * z)); [apply Rmult_lt_0_compat; assumption|].
  replace ((1 - y) * (k / z0) * (z0 * z)) with (k * (z - y * z)) by (field; lra). replace (k / z * (z0 * z)) with (k * z0) by (field; lra).
  apply Rmult_lt_compat_l; lra.
Qed.
Lemma share_near u : 0 < u < 1 + x -> (1 - u / (1 + x)) * share 0 t < share u t.
Proof using R2 B X T.
  intro U. unfold share, e, q. pose proof K1_pos. pose proof K2_pos. set (y := u / (1 + x)).
  assert (Y : u = y * (1 + x)) by (unfold y; field; lra).
  assert (Y0 : 0 < y) by (unfold y; apply Rdiv_lt_0_compat; lra). assert (Y1 : y < 1) by nra.
  assert (TX : t * (1 + x) < x + t) by nra. assert (T0 : 0 < t * (1 + x)) by nra.
  assert (S : (t * (1 + x)) ^ 2 < (x + t) ^ 2) by nra. assert (S0 : 0 < (t * (1 + x)) ^ 2) by nra.
  assert (Q : y ^ 2 < y) by nra. assert (Q0 : 0 < y ^ 2) by nra. assert (P : 0 < t ^ 2 < 1) by nra. assert (X1 : 0 < (1 + x) ^ 2) by nra.
  assert (E1 : u ^ 2 * t ^ 2 = y ^ 2 * (t * (1 + x)) ^ 2) by (rewrite Y; ring).
  assert (E2 : u ^ 2 * t ^ 2 = y ^ 2 * (t ^ 2 * (1 + x) ^ 2)) by (rewrite Y; ring).
  assert (A1 : y ^ 2 * (t * (1 + x)) ^ 2 < y * (x + t) ^ 2) by (apply Rmult_gt_0_lt_compat; lra).
  assert (A2 : y ^ 2 * (t ^ 2 * (1 + x) ^ 2) < y * (1 + x) ^ 2) by (apply Rmult_gt_0_lt_compat; nra).
  assert (A0 : 0 < u ^ 2 * t ^ 2) by nra. assert (UT : 0 < u * t) by nra.
  assert (H1 : (1 - y) * (K1 t / ((x + t) ^ 2 + 0 ^ 2 * t ^ 2)) < K1 t / ((x + t) ^ 2 + u ^ 2 * t ^ 2)).
  { apply keeps; nra. }
  assert (H2 : (1 - y) * (K2 t / (x + (1 + 0) * t)) < K2 t / (x + (1 + u) * t)).
  { assert (u * t < y * (x + t)) by (rewrite Y; nra). apply keeps; try assumption; nra. }
  assert (H3 : (1 - y) * ((1 + x) / ((1 + x) ^ 2 + 0 ^ 2 * t ^ 2)) < (1 + x) / ((1 + x) ^ 2 + u ^ 2 * t ^ 2)).
  { apply keeps; nra. }
  apply (Rmult_lt_compat_l (1 - r2)) in H3; lra.
Qed.
End At.
Lemma phi_pos : 0 < phi.
Proof using R2 B X. apply (weighs_positive _ _ phi_weighs). intros t T. apply share_pos; [exact T|lra]. Qed.
Lemma numerator_pos u : 0 < u -> 0 < numerator u.
Proof using R2 B X. intro U. apply (weighs_positive _ _ (numerator_weighs u U)). intros t T. apply share_pos; [exact T|lra]. Qed.
Lemma numerator_small u : 0 < u -> numerator u < phi.
Proof using R2 B X. intro U. apply (weighs_lt _ _ _ _ (numerator_weighs u U) phi_weighs). intros t T. apply share_decreasing; [exact T|lra]. Qed.
Lemma numerator_decreasing u w : 0 < u < w -> numerator w < numerator u.
Proof using R2 B X.
  intro U. apply (weighs_lt _ _ _ _ (numerator_weighs w ltac:(lra)) (numerator_weighs u ltac:(lra))). intros t T. apply share_decreasing; [exact T|lra].
Qed.
Lemma numerator_near u : 0 < u -> (1 - u / (1 + x)) * phi < numerator u.
Proof using R2 B X.
  intro U. destruct (Rlt_dec u (1 + x)) as [S|S].
  - apply (weighs_lt _ _ _ _ (weighs_scal _ _ _ phi_weighs) (numerator_weighs u U)). intros t T. apply share_near; [exact T|lra].
  - pose proof phi_pos. pose proof (numerator_pos u U). assert (1 <= u / (1 + x)).
    { apply (Rmult_le_reg_r (1 + x)); [lra|]. replace (u / (1 + x) * (1 + x)) with u by (field; lra). lra. }
    assert (0 <= (u / (1 + x) - 1) * phi) by (apply Rmult_le_pos; lra). lra.
Qed.
End Total.

Section Meaning.
Variables mass v rho : R.
Hypothesis M : 0 < mass.
Hypothesis V : 0 < v < 1.
Hypothesis RHO : 0 <= rho < 1.
Let r2 := rho ^ 2.
Let b := kelner_beta v.
Let x := kelner_xi mass v rho.
Lemma r2_range : 0 <= r2 < 1.
Proof using RHO. unfold r2. nra. Qed.
Lemma b_pos : 0 < b.
Proof using V. unfold b, kelner_beta. apply Rdiv_lt_0_compat; nra. Qed.
Lemma x_pos : 0 < x.
Proof using M V RHO.
  unfold x, kelner_xi. fold r2. pose proof r2_range. assert (0 < ME) by (unfold ME; lra). apply Rdiv_lt_0_compat; [|lra]. apply Rmult_lt_0_compat; [|lra].
  assert (0 < mass * v / (2 * ME)) by (apply Rdiv_lt_0_compat; nra). nra.
Qed.
Lemma factor_numerator s : 0 < s -> pair_suppression_factor s mass v rho = numerator r2 b x (1 / (6 * s)) / phi r2 b x.
Proof using M V RHO.
  intro S. pose proof x_pos as X. unfold pair_suppression_factor. fold b x r2. change (phi_electron mass v rho) with (phi r2 b x). f_equal.
  unfold numerator. cbv zeta. assert (Q : 0 < s ^ 2) by nra.
  assert (ET : PI / 2 - atan (6 * s * (x + 1)) = atan (1 / (6 * s) / (1 + x))).
  { rewrite <- atan_inv by nra. f_equal. field. lra. }
  assert (E1 : (36 * s ^ 2 * (1 + x) ^ 2 + 1) / (36 * s ^ 2 * x ^ 2) = ((1 + x) ^ 2 + (1 / (6 * s)) ^ 2) / x ^ 2) by (field; lra).
  assert (E2 : (6 * s * (1 + x) + 1) / (6 * s * x) = (1 + x + 1 / (6 * s)) / x) by (field; lra).
  rewrite ET, E1, E2. set (th := atan _). set (L1 := ln _). set (L2 := ln _). field. repeat split; nra.
Qed.
Lemma factor_range s : 0 < s -> 0 < pair_suppression_factor s mass v rho < 1 /\
  1 - 1 / (6 * s * (x + 1)) < pair_suppression_factor s mass v rho.
Proof using M V RHO.
  intro S. pose proof x_pos as X. pose proof b_pos as B. pose proof r2_range as R2. rewrite factor_numerator by exact S. set (u := 1 / (6 * s)).
  assert (U : 0 < u) by (apply Rdiv_lt_0_compat; lra). pose proof (phi_pos r2 b x R2 B X) as P.
  pose proof (numerator_pos r2 b x R2 B X u U) as N0. pose proof (numerator_small r2 b x R2 B X u U) as N1. pose proof (numerator_near r2 b x R2 B X u U) as N2.
  replace (1 / (6 * s * (x + 1))) with (u / (1 + x)) by (unfold u; field; lra).
  assert (F : forall y, y * phi r2 b x < numerator r2 b x u -> y < numerator r2 b x u / phi r2 b x).
  { intros y Y. apply (Rmult_lt_reg_r (phi r2 b x)); [exact P|]. replace (numerator r2 b x u / phi r2 b x * phi r2 b x) with (numerator r2 b x u) by (field; lra). exact Y. }
  repeat split.
  - apply Rdiv_lt_0_compat; assumption.
  - apply (Rmult_lt_reg_r (phi r2 b x)); [exact P|]. replace (numerator r2 b x u / phi r2 b x * phi r2 b x) with (numerator r2 b x u) by (field; lra). lra.
  - apply F. exact N2.
Qed.
Lemma factor_increasing s s' : 0 < s < s' -> pair_suppression_factor s mass v rho < pair_suppression_factor s' mass v rho.
Proof using M V RHO.
  intro S. pose proof x_pos as X. pose proof b_pos as B. pose proof r2_range as R2. rewrite !factor_numerator by lra.
  pose proof (phi_pos r2 b x R2 B X) as P. apply Rmult_lt_compat_r; [apply Rinv_0_lt_compat; exact P|].
  apply (numerator_decreasing r2 b x R2 B X). split; [apply Rdiv_lt_0_compat; lra|].
  unfold Rdiv. rewrite !Rmult_1_l. apply Rinv_lt_contravar; nra.
Qed.
End Meaning.

Lemma parameter_pos e density E v rho : 0 < e -> 0 < density -> 0 < E -> 0 < v < 1 -> 0 <= rho < 1 -> 0 < suppression_parameter e density E v rho.
Proof.
  intros HE HD H V RHO. unfold suppression_parameter. assert (0 < 1 - rho ^ 2) by nra.
  apply Rmult_lt_0_compat; [lra|]. apply sqrt_lt_R0. apply Rdiv_lt_0_compat; [exact HE|]. repeat apply Rmult_lt_0_compat; lra.
Qed.
Lemma parameter_falls e density density' E v rho : 0 < e -> 0 < density < density' -> 0 < E -> 0 < v < 1 -> 0 <= rho < 1 ->
  suppression_parameter e density' E v rho < suppression_parameter e density E v rho.
Proof.
  intros HE HD H V RHO. unfold suppression_parameter. assert (Q : 0 < 1 - rho ^ 2) by nra.
  assert (K : 0 < E * v * (1 - rho ^ 2)) by (repeat apply Rmult_lt_0_compat; lra).
  assert (P : 0 < density * (E * v * (1 - rho ^ 2))) by (apply Rmult_lt_0_compat; lra).
  assert (L : density * (E * v * (1 - rho ^ 2)) < density' * (E * v * (1 - rho ^ 2))) by (apply Rmult_lt_compat_r; lra).
  apply Rmult_lt_compat_l; [lra|]. rewrite !Rmult_assoc in *. apply sqrt_lt_1.
  - apply Rlt_le, Rdiv_lt_0_compat; lra.
  - apply Rlt_le, Rdiv_lt_0_compat; lra.
  - unfold Rdiv. apply Rmult_lt_compat_l; [exact HE|]. apply Rinv_lt_contravar; [|exact L]. apply Rmult_lt_0_compat; lra.
Qed.
Section Suppressed.
Variables mass v rho y : R.
Hypothesis M : 0 < mass.
Hypothesis V : 0 < v < 1.
Hypothesis RHO : 0 <= rho < 1.
Hypothesis Y : 0 <= y.
Let x := kelner_xi mass v rho.
Lemma suppressed_range s : 0 < s -> let z := pair_suppressed s mass v rho y in
  0 <= z <= y /\ (0 < y -> 0 < z) /\ (1 - 1 / (6 * s * (x + 1))) * y <= z.
Proof using M V RHO Y.
  intros S z. pose proof (x_pos mass v rho M V RHO) as X. fold x in X. destruct (factor_range mass v rho M V RHO s S) as [F N]. fold x in N.
  unfold z, pair_suppressed. fold x. destruct (Rlt_dec _ _) as [L|L].
  - assert (0 < 1 / (6 * s * (x + 1))) by (apply Rdiv_lt_0_compat; [lra|nra]). repeat split; try lra. nra.
  - set (f := pair_suppression_factor s mass v rho) in *. assert (0 <= y * f) by nra. rewrite Rmax_right by assumption. repeat split; nra.
Qed.
Lemma suppressed_grows s s' : 0 < s < s' -> pair_suppressed s mass v rho y <= pair_suppressed s' mass v rho y.
Proof using M V RHO Y.
  intro S. pose proof (x_pos mass v rho M V RHO) as X. pose proof (suppressed_range s ltac:(lra)) as H. cbv zeta in H.
  pose proof (factor_increasing mass v rho M V RHO s s' S) as G. destruct (factor_range mass v rho M V RHO s ltac:(lra)) as [F _].
  unfold pair_suppressed in *. destruct (Rlt_dec _ (6 * s' * _)) as [L'|L']; [lra|]. destruct (Rlt_dec _ _) as [L|L]; [nra|].
  apply Rle_max_compat_l. apply Rmult_le_compat_l; lra.
Qed.
Lemma suppressed_skip s : 10 ^ 10 < 6 * s * (x + 1) -> Rabs (pair_suppressed s mass v rho y - y * pair_suppression_factor s mass v rho) <= y / 10 ^ 10.
Proof using M V RHO Y.
  intro L. pose proof (x_pos mass v rho M V RHO) as X. fold x in X. assert (S : 0 < s) by nra. destruct (factor_range mass v rho M V RHO s S) as [F N]. fold x in N.
  assert (I : 1 / (6 * s * (x + 1)) < 1 / 10 ^ 10).
  { unfold Rdiv. rewrite !Rmult_1_l. apply Rinv_lt_contravar; [|exact L]. apply Rmult_lt_0_compat; [apply pow_lt; lra|]. eapply Rlt_trans; [|exact L]. apply pow_lt; lra. }
  unfold pair_suppressed. fold x. destruct (Rlt_dec _ _) as [_|K]; [|contradiction]. set (f := pair_suppression_factor s mass v rho) in *.
  replace (y - y * f) with (y * (1 - f)) by ring. rewrite Rabs_pos_eq by nra. unfold Rdiv in *. apply Rmult_le_compat_l; lra.
Qed.
End Suppressed.
Lemma pair_value pair nan mass charge c E v rho : pair = kelner_pair \/ pair = sandrock_pair -> element c -> 0 < mass -> 0 < E -> 0 < v < 1 -> 0 <= rho < 1 ->
  exists y, 0 <= y /\ pair nan None mass charge c E v (1 - rho) = Ok y /\ forall e density, 0 < e -> 0 < density ->
  pair nan (Some (e, density)) mass charge c E v (1 - rho) = Ok (pair_suppressed (suppression_parameter e density E v rho) mass v rho y).
Proof. intros [-> | ->]; [apply c68_suppressed|apply c68_sandrock_number]. Qed.
Lemma c91_suppresses pair nan mass charge c E v rho : pair = kelner_pair \/ pair = sandrock_pair -> element c -> 0 < mass -> 0 < E -> 0 < v < 1 -> 0 <= rho < 1 ->
  exists y, 0 <= y /\ pair nan None mass charge c E v (1 - rho) = Ok y /\ forall e density, 0 < e -> 0 < density ->
  exists z, pair nan (Some (e, density)) mass charge c E v (1 - rho) = Ok z /\ 0 <= z <= y /\ (0 < y -> 0 < z) /\
  (1 - 1 / (6 * suppression_parameter e density E v rho * (kelner_xi mass v rho + 1))) * y <= z.
Proof.
  intros HP C M HE V RHO. destruct (pair_value pair nan mass charge c E v rho HP C M HE V RHO) as (y & Y & E0 & E1).
  exists y. split; [exact Y|]. split; [exact E0|]. intros e density P D. eexists. split; [exact (E1 e density P D)|].
  apply suppressed_range; try assumption. apply parameter_pos; assumption.
Qed.
Lemma c91_denser pair nan mass charge c E v rho e density density' : pair = kelner_pair \/ pair = sandrock_pair -> element c -> 0 < mass -> 0 < E -> 0 < v < 1 -> 0 <= rho < 1 ->
  0 < e -> 0 < density < density' -> exists y z, pair nan (Some (e, density)) mass charge c E v (1 - rho) = Ok y /\
  pair nan (Some (e, density')) mass charge c E v (1 - rho) = Ok z /\ z <= y.
Proof.
  intros HP C M HE V RHO P D. destruct (pair_value pair nan mass charge c E v rho HP C M HE V RHO) as (y & Y & _ & E1).
  do 2 eexists. split; [apply E1; lra|]. split; [apply E1; lra|]. apply suppressed_grows; try assumption. split.
  - apply parameter_pos; try assumption; lra.
  - apply parameter_falls; assumption.
Qed.
Lemma c91_factor mass v rho s : 0 < mass -> 0 < v < 1 -> 0 <= rho < 1 -> 0 < s ->
  0 < pair_suppression_factor s mass v rho < 1 /\
  forall s', s < s' -> pair_suppression_factor s mass v rho < pair_suppression_factor s' mass v rho.
Proof.
  intros M V RHO S. split; [apply factor_range; assumption|]. intros s' L. apply factor_increasing; try assumption. lra.
Qed.
Lemma c91_skipped mass v rho y s : 0 < mass -> 0 < v < 1 -> 0 <= rho < 1 -> 0 <= y ->
  10 ^ 10 < 6 * s * (kelner_xi mass v rho + 1) ->
  Rabs (pair_suppressed s mass v rho y - y * pair_suppression_factor s mass v rho) <= y / 10 ^ 10.
Proof. intros. apply suppressed_skip; assumption. Qed.

(** The parametrization for electrons *)
Lemma integrand_terms nan k m B ratio radius charge Z E v r y r2 beta xi : v < 1 ->
  pair_integrand nan k m B ratio radius charge Z E v r = Ok (y, (r2, beta, xi)) ->
  r2 = r * r /\ beta = v * v / (2 * (1 - v)) /\ xi = ratio * v / 2 * (ratio * v / 2) * (1 - r * r) / (1 - v).
Proof.
  intros V H. unfold pair_integrand in H. destruct (quo nan (2 * m) (v * E)); cbn [obind] in H; try discriminate.
  rewrite quo_ok in H by lra. cbn [obind] in H. rewrite quo_ok in H by lra. cbn [obind] in H.
  repeat match type of H with obind ?a _ = _ => destruct a; cbn [obind] in H; try discriminate end.
  injection H. intros <- <- <- _. repeat split.
Qed.
Lemma electron_value nan charge c E v rho : element c -> charge <> 0 -> 0 < E -> 0 < v < 1 -> 2 * ME < v * E -> 0 <= rho < 1 ->
  exists y, 0 <= y /\ electron_pair nan None charge c E v rho = Ok y /\ forall e density, 0 < e -> 0 < density ->
  electron_pair nan (Some (e, density)) charge c E v rho = Ok (pair_suppressed (suppression_parameter e density E v rho) ME v rho y).
Proof.
  intros C Q HE V TH RHO. destruct (electron_integrand nan charge c E v rho C Q HE V TH RHO) as (y & Ey & P0 & P1).
  assert (M : 0 < ME) by (unfold ME; lra).
  assert (Y : 0 <= y) by (destruct (Rlt_le_dec rho (largest_pair_asymmetry ME E v)) as [L|L]; [apply Rlt_le, P0, L|rewrite (P1 L); lra]).
  exists y. split; [exact Y|]. split; [exact Ey|]. intros e density He Hd. unfold electron_pair in *.
  destruct (pair_integrand nan _ _ _ _ _ _ _ _ _ _) as [(a & (r2 & beta) & xi)|x|x] eqn:H; cbn [obind suppressed] in Ey; try discriminate.
  injection Ey. intros ->. cbn [obind suppressed]. destruct (integrand_terms _ _ _ _ _ _ _ _ _ _ _ _ _ _ _ (proj2 V) H) as (-> & -> & ->).
  pose proof (suppression_value nan ME charge c E v rho C M HE V RHO e density He Hd) as S. cbv zeta in S.
  replace (rho * rho) with (rho ^ 2) by ring. replace (v * v / (2 * (1 - v))) with (kelner_beta v) by (unfold kelner_beta; field; lra).
  replace (1 * v / 2 * (1 * v / 2) * (1 - rho ^ 2) / (1 - v)) with (kelner_xi ME v rho) by (unfold kelner_xi; field; lra).
  rewrite S. cbn [obind]. unfold pair_suppressed. f_equal. destruct (Rlt_dec _ _); [ring|].
  rewrite Rmax_right; [reflexivity|]. apply Rmult_le_pos; [exact Y|]. apply Rlt_le, factor_range; try assumption. apply parameter_pos; assumption.
Qed.
Lemma c91_electron nan charge c E v rho : element c -> charge <> 0 -> 0 < E -> 0 < v < 1 -> 2 * ME < v * E -> 0 <= rho < 1 ->
  exists y, 0 <= y /\ electron_pair nan None charge c E v rho = Ok y /\ forall e density, 0 < e -> 0 < density ->
  exists z, electron_pair nan (Some (e, density)) charge c E v rho = Ok z /\ 0 <= z <= y /\ (0 < y -> 0 < z) /\
  (1 - 1 / (6 * suppression_parameter e density E v rho * (kelner_xi ME v rho + 1))) * y <= z /\
  forall density', density < density' -> exists w, electron_pair nan (Some (e, density')) charge c E v rho = Ok w /\ w <= z.
Proof.
  intros C Q HE V TH RHO. destruct (electron_value nan charge c E v rho C Q HE V TH RHO) as (y & Y & E0 & E1). assert (M : 0 < ME) by (unfold ME; lra).
  exists y. split; [exact Y|]. split; [exact E0|]. intros e density P D. eexists. split; [exact (E1 e density P D)|].
  pose proof (parameter_pos e density E v rho P D HE V RHO) as S.
  destruct (suppressed_range ME v rho y M V RHO Y _ S) as (A1 & A2 & A3). repeat (split; [assumption|]).
  intros density' L. eexists. split; [apply E1; lra|]. apply suppressed_grows; try assumption. split; [apply parameter_pos; try assumption; lra|].
  apply parameter_falls; try assumption. lra.
Qed.
