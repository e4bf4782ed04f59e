(** Production of pairs by charged particles. *)
From Coq Require Import Lra Psatz.
From Coquelicot Require Import Coquelicot.
From Verif Require Import Prelude PreludeFacts Particle_Model Limits_Model Cross_Model Photo_Model Products_Model
  Differential_Model Integral_Model Continuous_Model Pairs_Model.
From Verif Require Import Cross_Spec Differential_Spec Pairs_Spec Transform_Proofs Differential_Proofs Brems_Proofs Nuclear_Proofs.

Lemma me_val : 51 / 100 <= ME <= 52 / 100. Proof. unfold ME; lra. Qed.
Lemma re_pos : 0 < RE. Proof. unfold RE; lra. Qed.
Lemma mmu_val : 105 <= MMU <= 106. Proof. unfold MMU; lra. Qed.
Lemma root_ok nan x : 0 <= x -> Photo_Model.root nan x = Ok (sqrt x).
Proof. intros H. unfold Photo_Model.root. destruct (Rltb_spec x 0); [lra|reflexivity]. Qed.

(** * Bounds of logarithms *)
Lemma ln_middle y : 0 < y -> 2 * y / (2 + y) < ln (1 + y).
Proof.
  intros Y. pose (f := fun x => ln (1 + x) - 2 * x / (2 + x)).
  assert (f 0 = 0) as Z by (unfold f; rewrite Rplus_0_r, ln_1; field). cut (f 0 < f y); [rewrite Z; unfold f; lra|].
  apply (growing f (fun x => x * x / ((1 + x) * ((2 + x) * (2 + x))))); [| |exact Y].
  - intros x X. unfold f. auto_derive; [split; [lra|split; [lra|exact I]]|]. field. lra.
  - intros x X. apply Rdiv_lt_0_compat; nra.
Qed.
Lemma ln_second y : 0 < y -> y - y * y / 2 < ln (1 + y).
Proof.
  intros Y. pose (f := fun x => ln (1 + x) - (x - x * x / 2)).
  assert (f 0 = 0) as Z by (unfold f; rewrite Rplus_0_r, ln_1; field). cut (f 0 < f y); [rewrite Z; unfold f; lra|].
  apply (growing f (fun x => x * x / (1 + x))); [| |exact Y].
  - intros x X. unfold f. auto_derive; [lra|]. field. lra.
  - intros x X. apply Rdiv_lt_0_compat; nra.
Qed.
Lemma ln_third y : 0 < y -> ln (1 + y) < y - y * y / 2 + y * y * y / 3.
Proof.
  intros Y. pose (f := fun x => x - x * x / 2 + x * x * x / 3 - ln (1 + x)).
  assert (f 0 = 0) as Z by (unfold f; rewrite Rplus_0_r, ln_1; field). cut (f 0 < f y); [rewrite Z; unfold f; lra|].
  apply (growing f (fun x => x * x * x / (1 + x))); [| |exact Y].
  - intros x X. unfold f. auto_derive; [lra|]. field. lra.
  - intros x X. assert (0 < x * x) by nra. apply Rdiv_lt_0_compat; [apply Rmult_lt_0_compat; lra|lra].
Qed.
Lemma inverse_middle xi : 0 < xi -> 2 / (2 * xi + 1) < ln (1 + 1 / xi).
Proof.
  intros X. assert (0 < 1 / xi) as Y by (apply Rdiv_lt_0_compat; lra). pose proof (ln_middle (1 / xi) Y) as H.
  replace (2 / (2 * xi + 1)) with (2 * (1 / xi) / (2 + 1 / xi)); [exact H|]. field. repeat split; lra.
Qed.

(** * The kinetic factors *)
Definition phi_exact (r2 beta xi : R) : R :=
  ((2 + r2) * (1 + beta) + xi * (3 + r2)) * ln (1 + 1 / xi) + (1 - r2 - beta) / (1 + xi) - (3 + r2).
Definition phi_leading (r2 beta xi : R) : R := (3 / 2 - r2 / 2 + beta * (1 + r2)) / xi.
Section Factors.
Variables r2 beta xi : R.
Hypotheses (Hr : 0 <= r2 < 1) (Hb : 0 <= beta) (Hx : 0 < xi).
Lemma pair_phi_positive nan : exists p, 0 < p /\ pair_phi nan r2 beta xi = Ok p.
Proof using All.
  assert (0 < 1 / xi) as Y by (apply Rdiv_lt_0_compat; lra).
  pose proof (inverse_middle xi Hx) as L1. pose proof (ln_above xi Hx) as L2. pose proof (ln_at_most xi Hx) as L3.
  unfold pair_phi. rewrite quo_ok by lra. cbn [obind]. rewrite !log_ok by lra. cbn [obind].
  eexists. split; [|reflexivity].
  set (l1 := ln (1 + 1 / xi)) in *. set (l2 := ln (1 + xi)) in *. clearbody l1 l2.
  set (P := (2 + r2) * (1 + beta) + xi * (3 + r2)). assert (0 < P) as HP by (unfold P; nra).
  assert (P * (2 / (2 * xi + 1)) < P * l1) as A by (apply Rmult_lt_compat_l; auto).
  set (Q := (1 + r2) * (1 + 3 / 2 * beta)). assert (0 < Q) as HQ by (unfold Q; nra).
  assert (Q * (xi / (1 + xi)) <= Q * l2) as B by (apply Rmult_le_compat_l; lra).
  assert (0 <= (1 + 2 * beta) * (1 - r2)) as HR by nra. set (R0 := (1 + 2 * beta) * (1 - r2)) in *.
  assert (1 / xi * l2 <= 1) as C by (replace 1 with (1 / xi * xi) at 2 by (field; lra); apply Rmult_le_compat_l; lra).
  assert (R0 * (1 / xi * l2) <= R0) as D by (replace R0 with (R0 * 1) at 2 by ring; apply Rmult_le_compat_l; lra).
  assert (0 < P * (2 / (2 * xi + 1)) + Q * (xi / (1 + xi)) - R0 + (- (1) - 3 * r2 + beta * (1 - 2 * r2))) as F.
  { replace (P * (2 / (2 * xi + 1)) + Q * (xi / (1 + xi)) - R0 + (- (1) - 3 * r2 + beta * (1 - 2 * r2))) with
      ((2 + 3 * beta + 2 * beta * r2 + xi * (5 - r2 + 5 / 2 * beta + 7 / 2 * beta * r2) + xi * xi * (4 + beta + 3 * beta * r2)) / ((2 * xi + 1) * (1 + xi)))
      by (unfold P, Q, R0; field; lra).
    assert (0 <= beta * r2) by nra. apply Rdiv_lt_0_compat; [|nra]. assert (0 <= xi * xi) by nra.
    assert (0 <= xi * (5 - r2 + 5 / 2 * beta + 7 / 2 * beta * r2)) by (apply Rmult_le_pos; lra).
    assert (0 <= xi * xi * (4 + beta + 3 * beta * r2)) by (apply Rmult_le_pos; lra). lra. }
  replace ((Q - 1 / xi * (1 + 2 * beta) * (1 - r2)) * l2) with (Q * l2 - R0 * (1 / xi * l2)) by (unfold R0; ring). lra.
Qed.
Lemma phi_exact_positive : 0 < phi_exact r2 beta xi.
Proof using All.
  pose proof (inverse_middle xi Hx) as L1. unfold phi_exact. set (l1 := ln (1 + 1 / xi)) in *. clearbody l1.
  set (P := (2 + r2) * (1 + beta) + xi * (3 + r2)). assert (0 < P) as HP by (unfold P; nra).
  assert (P * (2 / (2 * xi + 1)) < P * l1) as A by (apply Rmult_lt_compat_l; auto).
  assert (0 < P * (2 / (2 * xi + 1)) + (1 - r2 - beta) / (1 + xi) - (3 + r2)); [|lra].
  replace (P * (2 / (2 * xi + 1)) + (1 - r2 - beta) / (1 + xi) - (3 + r2)) with
    ((2 + 3 * beta + 2 * beta * r2 + xi * (3 - r2 + 2 * beta + 2 * beta * r2)) / ((2 * xi + 1) * (1 + xi))) by (unfold P; field; lra).
  assert (0 <= beta * r2) by nra. apply Rdiv_lt_0_compat; [|nra].
  assert (0 <= xi * (3 - r2 + 2 * beta + 2 * beta * r2)) by (apply Rmult_le_pos; lra). lra.
Qed.
Lemma phi_full_value nan : phi_e_full nan r2 beta xi = Ok (phi_exact r2 beta xi).
Proof using Hx.
  assert (0 < 1 / xi) as Y by (apply Rdiv_lt_0_compat; lra).
  unfold phi_e_full. rewrite quo_ok by lra. cbn [obind]. rewrite log_ok by lra. cbn [obind]. rewrite quo_ok by lra. reflexivity.
Qed.
Lemma phi_short_value nan : phi_e_short nan r2 beta xi = Ok (phi_leading r2 beta xi).
Proof using Hx. unfold phi_e_short. now rewrite quo_ok by lra. Qed.
Lemma phi_e_positive nan : exists p, 0 < p /\ phi_e nan r2 beta xi = Ok p.
Proof using All.
  unfold phi_e. rewrite quo_ok by lra. cbn [obind]. destruct (_ <? _).
  - exists (phi_leading r2 beta xi). split; [|apply phi_short_value]. unfold phi_leading. apply Rdiv_lt_0_compat; nra.
  - exists (phi_exact r2 beta xi). split; [apply phi_exact_positive|apply phi_full_value].
Qed.
Lemma phi_mu_positive nan : exists p, 0 < p /\ phi_mu nan r2 beta xi = Ok p.
Proof using All.
  pose proof (ln_above xi Hx) as L2. pose proof (ln_at_most xi Hx) as L3.
  unfold phi_mu. rewrite !quo_ok by lra. cbn [obind]. rewrite log_ok by lra. cbn [obind]. eexists. split; [|reflexivity].
  set (l2 := ln (1 + xi)) in *. clearbody l2.
  set (Q := (1 + r2) * (1 + 3 / 2 * beta)). assert (0 < Q) as HQ by (unfold Q; nra).
  assert (0 <= (1 + 2 * beta) * (1 - r2)) as HR by nra. set (R0 := (1 + 2 * beta) * (1 - r2)) in *.
  assert (Q * (xi / (1 + xi)) <= Q * l2) as B by (apply Rmult_le_compat_l; lra).
  assert (0 < 1 / xi) as Y by (apply Rdiv_lt_0_compat; lra).
  assert (1 / xi * l2 <= 1) as C by (replace 1 with (1 / xi * xi) at 2 by (field; lra); apply Rmult_le_compat_l; lra).
  assert (R0 * (1 / xi * l2) <= R0) as D by (replace R0 with (R0 * 1) at 2 by ring; apply Rmult_le_compat_l; lra).
  replace ((Q - R0 / xi) * l2) with (Q * l2 - R0 * (1 / xi * l2)) by (field; lra).
  assert (0 < Q * (xi / (1 + xi)) + xi * (1 - r2 - beta) / (1 + xi)); [|lra].
  replace (Q * (xi / (1 + xi)) + xi * (1 - r2 - beta) / (1 + xi)) with (xi * (2 + beta / 2 + 3 / 2 * beta * r2) / (1 + xi)) by (unfold Q; field; lra).
  assert (0 <= beta * r2) by nra. apply Rdiv_lt_0_compat; [apply Rmult_lt_0_compat; lra|lra].
Qed.
(** The seam between the two expressions *)
Lemma c68_seam : 1 / xi <= HALF_PRECISION -> Rabs (phi_exact r2 beta xi - phi_leading r2 beta xi) <= 5 * (1 / xi) * phi_leading r2 beta xi.
Proof using All.
  intros S. set (y := 1 / xi) in *. assert (0 < y) as Y by (apply Rdiv_lt_0_compat; lra). assert (HALF_PRECISION < 1 / 1000) as HP by (unfold HALF_PRECISION; lra).
  assert (xi = 1 / y) as E by (unfold y; field; lra). pose proof (ln_second y Y) as L1. pose proof (ln_third y Y) as L2.
  unfold phi_exact, phi_leading. fold y. set (l := ln (1 + y)) in *. clearbody l y. subst xi.
  replace ((1 - r2 - beta) / (1 + 1 / y)) with ((1 - r2 - beta) * (y / (1 + y))) by (field; lra).
  replace ((3 / 2 - r2 / 2 + beta * (1 + r2)) / (1 / y)) with ((3 / 2 - r2 / 2 + beta * (1 + r2)) * y) by (field; lra).
  assert (0 < y * y) as YY by nra.
  assert (exists th, 0 <= th <= y / 3 /\ l = y - y * y / 2 + th * (y * y)) as (th & T & El).
  { exists ((l - (y - y * y / 2)) / (y * y)). split; [|field; lra]. split; [apply Rlt_le, Rdiv_lt_0_compat; lra|].
    apply (Rle_div_l (l - (y - y * y / 2)) (y / 3) (y * y) YY). lra. }
  rewrite El. clear L1 L2 El l.
  set (w := y / (1 + y)). assert (0 < w <= y) as W.
  { unfold w. split; [apply Rdiv_lt_0_compat; lra|]. apply (Rle_div_l y y (1 + y)); [lra|nra]. }
  assert (w = y - y * w) as W2 by (unfold w; field; lra). clearbody w.
  rewrite W2.
  replace (((2 + r2) * (1 + beta) + 1 / y * (3 + r2)) * (y - y * y / 2 + th * (y * y)) + (1 - r2 - beta) * (y - y * w) - (3 + r2) - (3 / 2 - r2 / 2 + beta * (1 + r2)) * y) with
    (y * ((2 + r2) * (1 + beta) * (- y / 2 + th * y) + (3 + r2) * th - (1 - r2 - beta) * w)) by (field; lra).
  rewrite Rabs_mult, (Rabs_right y) by lra.
  replace (5 * y * ((3 / 2 - r2 / 2 + beta * (1 + r2)) * y)) with (y * (5 * y * (3 / 2 - r2 / 2 + beta * (1 + r2)))) by ring.
  apply Rmult_le_compat_l; [lra|].
  assert (0 <= beta * r2 <= beta) as BR by nra.
  assert (0 <= (2 + r2) * (1 + beta) <= 3 + 3 * beta) as A1 by nra.
  set (a := (2 + r2) * (1 + beta)) in *. clearbody a.
  assert (- y / 2 <= - y / 2 + th * y <= 0) as A2 by nra.
  assert (0 <= (3 + r2) * th <= 4 / 3 * y) as A3 by nra.
  assert (- (1 + beta) * y <= (1 - r2 - beta) * w <= (1 + beta) * y) as A4 by nra.
  assert (- (3 + 3 * beta) * y / 2 <= a * (- y / 2 + th * y) <= 0) as A5 by nra.
  set (t1 := a * (- y / 2 + th * y)) in *. set (t2 := (3 + r2) * th) in *. set (t3 := (1 - r2 - beta) * w) in *. clearbody t1 t2 t3.
  assert (y * (5 + 5 * beta) <= 5 * y * (3 / 2 - r2 / 2 + beta * (1 + r2))) as F by nra.
  apply Rabs_le. split; nra.
Qed.
End Factors.

(** * Muon pairs, and the same formula for electron pairs *)
Section Integrand.
Variable nan : forall A, outcome A.
Variables (m B ratio radius charge Z E v : R).
Hypotheses (Hm : 0 < m) (HB : 0 < B) (Hq : 0 < ratio) (Hrad : 0 < radius) (Hc : charge <> 0) (HZ : 1 <= Z)
  (HE : 0 < E) (Hv : 0 < v < 1) (Hth : 2 * m < v * E).
Let rMax := 1 - 2 * m / (v * E).
Let kappa := v * v / (4 * (1 - v)).
Let g := 2 * SQRTE * (m * m) * B * inverse_cube_root Z * (1 + 12 * sqrt (m / E)) / (ME * E * v).
Let share (s r : R) : R := / (1 + g * (/ (1 - r * r) + s * kappa)).
Lemma rMax_range : 0 < rMax < 1.
Proof using HE Hm Hth Hv.
  assert (0 < v * E) as P by nra. unfold rMax. assert (0 < 2 * m / (v * E)) by (apply Rdiv_lt_0_compat; lra).
  assert (2 * m / (v * E) < 1) by (apply (Rlt_div_l (2 * m) 1 (v * E) P); lra). lra.
Qed.
Lemma kappa_pos : 0 < kappa.
Proof using Hv. unfold kappa. apply Rdiv_lt_0_compat; nra. Qed.
Lemma g_pos : 0 < g.
Proof using HB HE Hm Hv HZ.
  pose proof me_val. pose proof SQRTE_val. pose proof (icr_pos Z) as P. pose proof (sqrt_pos (m / E)).
  unfold g. apply Rdiv_lt_0_compat; [|apply Rmult_lt_0_compat; [apply Rmult_lt_0_compat; lra|lra]].
  assert (0 < m * m) by nra. assert (0 < 1 + 12 * sqrt (m / E)) by lra.
  repeat (apply Rmult_lt_0_compat; [|assumption]). lra.
Qed.
Lemma share_pos s r : 0 <= s -> 0 <= r < 1 -> 0 < share s r.
Proof using HB HE Hm Hv HZ.
  intros S R. pose proof kappa_pos. pose proof g_pos. unfold share. assert (0 < / (1 - r * r)) by (apply Rinv_0_lt_compat; nra).
  apply Rinv_0_lt_compat. assert (0 <= s * kappa) by nra. nra.
Qed.
Lemma share_less s r s' r' : 0 <= s -> 0 <= r < 1 -> 0 <= r' < 1 -> / (1 - r * r) + s * kappa < / (1 - r' * r') + s' * kappa -> share s' r' < share s r.
Proof using HB HE Hm Hv HZ.
  intros S R R' H. pose proof kappa_pos. pose proof g_pos. unfold share. assert (0 < / (1 - r * r)) by (apply Rinv_0_lt_compat; nra). assert (0 <= s * kappa) by nra.
  set (u := / (1 - r * r) + s * kappa) in *. set (w := / (1 - r' * r') + s' * kappa) in *. assert (0 < u) by (unfold u; lra). clearbody u w.
  assert (0 < g * u < g * w) by (split; [apply Rmult_lt_0_compat; auto|apply Rmult_lt_compat_l; auto]).
  apply Rinv_lt_contravar; [apply Rmult_lt_0_compat; lra|lra].
Qed.
Lemma U_value k s xi r : 0 <= r < 1 -> 0 <= s -> xi = s * kappa * (1 - r * r) ->
  pair_U nan k m B (inverse_cube_root Z) E v (12 * sqrt (m / E)) xi (r * r) = Ok (k * share s r).
Proof using HB HE Hm Hv HZ.
  intros R S X. pose proof me_val. pose proof (share_pos s r S R) as P. pose proof g_pos as G. pose proof kappa_pos as K.
  assert (0 < 1 - r * r) as D by nra. assert (0 < ME * E * v) as M by (apply Rmult_lt_0_compat; [apply Rmult_lt_0_compat; lra|lra]).
  assert (0 < 1 + g * (/ (1 - r * r) + s * kappa)).
  { assert (0 < / (1 - r * r)) by (apply Rinv_0_lt_compat; lra). assert (0 <= s * kappa) by nra. nra. }
  assert (2 * SQRTE * (m * m) * B * inverse_cube_root Z * (1 + xi) * (1 + 12 * sqrt (m / E)) / (ME * E * v * (1 - r * r)) = g * (/ (1 - r * r) + s * kappa)) as Q.
  { subst xi. unfold g. field. repeat split; lra. }
  unfold pair_U. rewrite quo_ok by nra. cbn [obind]. rewrite Q, quo_ok by lra. unfold share. reflexivity.
Qed.
Definition prefactor : R := ALPHA * radius * charge * Z * (2 * (ALPHA * radius * charge * Z) * (1 - v) / (3 / 2 * PI * v)).
Lemma prefactor_pos : 0 < prefactor.
Proof using Hc HZ Hrad Hv.
  pose proof ALPHA_pos as A. pose proof PI_RGT_0. unfold prefactor. set (a := ALPHA * radius * charge * Z).
  assert (a <> 0) by (unfold a; repeat apply Rmult_integral_contrapositive_currified; lra). clearbody a.
  assert (0 < a * a) by (destruct (Rdichotomy _ _ H0); nra).
  replace (a * (2 * a * (1 - v) / (3 / 2 * PI * v))) with (a * a * (2 * (1 - v) / (3 / 2 * PI * v))) by (field; repeat split; lra).
  apply Rmult_lt_0_compat; auto. apply Rdiv_lt_0_compat; [lra|]. apply Rmult_lt_0_compat; lra.
Qed.
Lemma integrand_value r : 0 <= r < 1 -> exists p beta xi, 0 < p /\ 0 <= beta /\ 0 < xi /\ forall k, 0 < k ->
  pair_integrand nan k m B ratio radius charge Z E v r =
    Ok (let X := 1 + k * (share (ratio * ratio) r - share 1 rMax) in
        if Rlt_dec 1 X then prefactor * p * ln X else 0, (r * r, beta, xi)).
Proof using HB HE Hm Hv HZ Hth Hq Hrad Hc.
  intros R. pose proof rMax_range as RM. pose proof kappa_pos as K. pose proof PI_RGT_0. pose proof prefactor_pos as PP.
  assert (0 < v * E) as VE by nra. assert (0 < 1 - v) as V1 by lra. assert (0 <= r * r < 1) as R2 by nra.
  set (xi := ratio * v / 2 * (ratio * v / 2) * (1 - r * r) / (1 - v)).
  assert (0 < xi) as Hx.
  { unfold xi. apply Rdiv_lt_0_compat; auto. assert (0 < ratio * v / 2) by nra. apply Rmult_lt_0_compat; nra. }
  assert (xi = ratio * ratio * kappa * (1 - r * r)) as Ex by (unfold xi, kappa; field; lra).
  set (beta := v * v / (2 * (1 - v))). assert (0 <= beta) as Hb by (apply Rlt_le, Rdiv_lt_0_compat; nra).
  destruct (pair_phi_positive (r * r) beta xi R2 Hb Hx nan) as (p & Pp & Ep). exists p, beta, xi. split; [auto|]. split; [auto|]. split; [auto|]. intros k Hk.
  assert (0 < m / E) as ME0 by (apply Rdiv_lt_0_compat; lra).
  unfold pair_integrand. rewrite quo_ok by lra. cbn [obind]. fold rMax.
  rewrite quo_ok by lra. cbn [obind]. fold xi. rewrite quo_ok by lra. cbn [obind]. fold beta. rewrite Ep. cbn [obind].
  rewrite quo_ok by lra. cbn [obind]. rewrite root_ok by lra. cbn [obind].
  rewrite (U_value k (ratio * ratio) xi r R ltac:(nra) Ex). cbn [obind]. rewrite quo_ok by lra. cbn [obind].
  rewrite (U_value k 1 _ rMax); [|lra|lra|unfold kappa; field; lra]. cbn [obind].
  rewrite quo_ok by (apply Rgt_not_eq; apply Rmult_lt_0_compat; lra). cbn [obind].
  set (X := 1 + k * (share (ratio * ratio) r - share 1 rMax)).
  replace (1 + k * share (ratio * ratio) r - k * share 1 rMax) with X by (unfold X; ring).
  replace (ALPHA * radius * charge * Z * (2 * (ALPHA * radius * charge * Z) * p * (1 - v) / (3 / 2 * PI * v))) with (prefactor * p)
    by (unfold prefactor; field; repeat split; lra).
  clearbody X. assert (0 < prefactor * p) as PP2 by (apply Rmult_lt_0_compat; auto). cbv zeta.
  destruct (Rltb_spec 0 X) as [X0|X0].
  - rewrite log_ok by lra. cbn [obind]. do 2 f_equal. destruct (Rlt_dec 1 X) as [L|L].
    + assert (0 < ln X) by (rewrite <- ln_1; apply ln_increasing; lra). destruct (Rltb_spec (prefactor * p * ln X) 0); [nra|reflexivity].
    + destruct (Req_dec X 1) as [->|N]; [rewrite ln_1, Rmult_0_r; destruct (Rltb_spec 0 0); reflexivity|].
      assert (ln X < 0) by (rewrite <- ln_1; apply ln_increasing; lra). destruct (Rltb_spec (prefactor * p * ln X) 0); [reflexivity|nra].
  - cbn [obind]. do 2 f_equal. destruct (Rlt_dec 1 X); [lra|]. destruct (Rltb_spec 0 0); reflexivity.
Qed.
Lemma inverse_mono r r' : 0 <= r -> r < r' -> r' < 1 -> / (1 - r * r) < / (1 - r' * r').
Proof. clear. intros A B0 C. assert (0 < 1 - r * r) by nra. assert (0 < 1 - r' * r') by nra. apply Rinv_lt_contravar; [apply Rmult_lt_0_compat; auto|nra]. Qed.
(** The particle has the mass of the pair particles *)
Lemma same_mass k r : 0 < k -> ratio = 1 -> 0 <= r < 1 -> exists y p, fst p = r * r /\ pair_integrand nan k m B ratio radius charge Z E v r = Ok (y, (fst p, fst (snd p), snd (snd p))) /\
  0 <= fst (snd p) /\ 0 < snd (snd p) /\ (r < rMax -> 0 < y) /\ (rMax <= r -> y = 0).
Proof using HB HE Hm Hv HZ Hth Hq Hrad Hc.
  intros Hk Q R. destruct (integrand_value r R) as (p & beta & xi & Pp & Hb & Hx & Hval). specialize (Hval k Hk). pose proof rMax_range as RM. pose proof prefactor_pos as PP.
  eexists _, (r * r, (beta, xi)). cbn [fst snd]. split; [reflexivity|]. split; [exact Hval|]. split; [auto|]. split; [auto|]. cbv zeta. rewrite Q, Rmult_1_l. split; intros L.
  - assert (share 1 rMax < share 1 r) as S by (apply share_less; try lra; pose proof (inverse_mono r rMax ltac:(lra) L ltac:(lra)); lra).
    assert (0 < k * (share 1 r - share 1 rMax)) by nra. destruct (Rlt_dec 1 _) as [X|X]; [|lra].
    apply Rmult_lt_0_compat; [apply Rmult_lt_0_compat; auto|]. rewrite <- ln_1. apply ln_increasing; lra.
  - destruct (Rlt_dec 1 _) as [X|X]; [|reflexivity]. exfalso. destruct (Rle_lt_or_eq_dec _ _ L) as [L'|L'].
    + assert (share 1 r < share 1 rMax) as S by (apply share_less; try lra; pose proof (inverse_mono rMax r ltac:(lra) L' ltac:(lra)); lra). nra.
    + rewrite L' in X. lra.
Qed.
(** A lighter particle *)
Lemma lighter k : 0 < k -> ratio < 1 -> exists y p, pair_integrand nan k m B ratio radius charge Z E v rMax = Ok (y, p) /\ 0 < y.
Proof using HB HE Hm Hv HZ Hth Hq Hrad Hc.
  intros Hk Q. pose proof rMax_range as RM. destruct (integrand_value rMax ltac:(lra)) as (p & beta & xi & Pp & Hb & Hx & Hval). specialize (Hval k Hk). pose proof prefactor_pos as PP. pose proof kappa_pos.
  eexists _, _. split; [exact Hval|]. cbv zeta.
  assert (0 <= ratio * ratio < 1) by nra. assert (ratio * ratio * kappa < 1 * kappa) by (apply Rmult_lt_compat_r; lra).
  assert (share 1 rMax < share (ratio * ratio) rMax) as S by (apply share_less; lra).
  assert (0 < k * (share (ratio * ratio) rMax - share 1 rMax)) by nra. destruct (Rlt_dec 1 _) as [X|X]; [|lra].
  apply Rmult_lt_0_compat; [apply Rmult_lt_0_compat; auto|]. rewrite <- ln_1. apply ln_increasing; lra.
Qed.
(** A heavier particle *)
Lemma heavier k r : 0 < k -> 1 < ratio -> / (1 - rMax * rMax) <= 1 + (ratio * ratio - 1) * kappa -> 0 <= r < 1 ->
  exists p, pair_integrand nan k m B ratio radius charge Z E v r = Ok (0, p).
Proof using HB HE Hm Hv HZ Hth Hq Hrad Hc.
  intros Hk Q H R. pose proof rMax_range as RM. destruct (integrand_value r R) as (p & beta & xi & Pp & Hb & Hx & Hval). specialize (Hval k Hk). pose proof kappa_pos.
  eexists. rewrite Hval. do 2 f_equal. cbv zeta. destruct (Rlt_dec 1 _) as [X|X]; [|reflexivity]. exfalso.
  assert (1 <= / (1 - r * r)) as A by (rewrite <- Rinv_1 at 1; apply Rinv_le_contravar; nra).
  assert (share (ratio * ratio) r <= share 1 rMax) as S.
  { destruct (Req_dec (/ (1 - rMax * rMax) + 1 * kappa) (/ (1 - r * r) + ratio * ratio * kappa)) as [Eq|N]; [unfold share; rewrite Eq; lra|].
    apply Rlt_le, share_less; lra. }
  nra.
Qed.
(** More of [k] *)
Lemma grows_with_k k k' : ratio = 1 -> 0 < k -> k < k' -> forall r, 0 <= r -> r < rMax -> exists y y' p p',
  pair_integrand nan k m B ratio radius charge Z E v r = Ok (y, p) /\ pair_integrand nan k' m B ratio radius charge Z E v r = Ok (y', p') /\ 0 < y < y'.
Proof using HB HE Hm Hv HZ Hth Hq Hrad Hc.
  intros Q Hk Hk' r R0 R1. pose proof rMax_range as RM. pose proof prefactor_pos as PP.
  destruct (integrand_value r ltac:(lra)) as (p & beta & xi & Pp & _ & _ & Hval).
  eexists _, _, _, _. split; [exact (Hval k Hk)|]. split; [exact (Hval k' ltac:(lra))|]. cbv zeta. rewrite Q, Rmult_1_l.
  assert (share 1 rMax < share 1 r) as S by (apply share_less; try lra; pose proof (inverse_mono r rMax ltac:(lra) R1 ltac:(lra)); lra).
  set (w := share 1 r - share 1 rMax). assert (0 < w) as W by (unfold w; lra).
  clearbody w. assert (0 < k * w < k' * w) as K by nra. destruct (Rlt_dec 1 (1 + k * w)); [|lra]. destruct (Rlt_dec 1 (1 + k' * w)); [|lra].
  assert (0 < prefactor * p) as P2 by (apply Rmult_lt_0_compat; auto).
  split; [apply Rmult_lt_0_compat; auto; rewrite <- ln_1; apply ln_increasing; lra|]. apply Rmult_lt_compat_l; auto. apply ln_increasing; lra.
Qed.
Lemma integrand_nonneg k r : 0 < k -> 0 <= r < 1 -> exists y p, pair_integrand nan k m B ratio radius charge Z E v r = Ok (y, p) /\ 0 <= y.
Proof using HB HE Hm Hv HZ Hth Hq Hrad Hc.
  intros Hk R. destruct (integrand_value r R) as (p & beta & xi & Pp & Hb & Hx & Hval). specialize (Hval k Hk). pose proof prefactor_pos as PP.
  eexists _, _. split; [exact Hval|]. cbv zeta. destruct (Rlt_dec 1 _) as [X|X]; [|lra]. apply Rlt_le.
  apply Rmult_lt_0_compat; [apply Rmult_lt_0_compat; auto|]. rewrite <- ln_1. apply ln_increasing; lra.
Qed.
End Integrand.

(** * The cross section of Kelner, Kokoulin and Petrukhin *)
Lemma ln3_above : 1 <= ln 3.
Proof. rewrite <- (ln_exp 1). apply ln_le; [apply exp_pos|apply exp_le_3]. Qed.
Lemma ln3_more x : 0 <= x -> 1 <= ln (3 + x).
Proof. intros H. apply Rle_trans with (ln 3); [exact ln3_above|]. apply ln_le; lra. Qed.
(** The parametrization up to the suppression *)
Section With.
Variable nan : forall A, outcome A.
Notation quo := (quo nan).
Notation log := (log nan).
Notation root := (Photo_Model.root nan).
Notation phi_e := (phi_e nan).
Notation phi_mu := (phi_mu nan).
Notation atomic_electrons := (atomic_electrons nan).
Definition kelner_with (k : R -> R -> R -> R -> outcome R) (mass charge : R) (c : component) (E v r : R) : outcome R :=
  let r := 1 - r in
  let r2 := r * r in
  let Z3 := inverse_cube_root (c_charge c) in
  let aux := mass * v / (2 * ME) in
  olet xi := quo (aux * aux * (1 - r2)) (1 - v) in
  olet beta := quo (v * v) (2 * (1 - v)) in
  olet i := quo 1 xi in
  olet l := log (3 + i) in
  olet Ye := quo (5 - r2 + 4 * beta * (1 + r2)) (2 * (1 + 3 * beta) * l - r2 - 2 * beta * (2 - r2)) in
  olet l := log (3 + xi) in
  olet Ymu := quo (4 + r2 + 3 * beta * (1 + r2)) ((1 + r2) * (3 / 2 + 2 * beta) * l + 1 - 3 / 2 * r2) in
  olet aux := quo (3 / 2 * ME) (mass * Z3) in
  let aux1 := (1 + xi) * (1 + Ye) in
  olet aux2 := quo (2 * ME * SQRTE * log_constant c * Z3) (E * v * (1 - r2)) in
  olet s := root aux1 in
  olet q := quo (log_constant c * Z3 * s) (1 + aux2 * aux1) in
  olet l1 := log q in
  olet l2 := log (1 + aux * aux * aux1) in
  let Le := l1 - 1 / 2 * l2 in
  olet q := quo (log_constant c) aux in
  olet q := quo (q * Z3) (1 + aux2 * (1 + xi) * (1 + Ymu)) in
  olet Lmu := log q in
  olet diagram_e := (if 0 <? Le then olet p := phi_e r2 beta xi in Ok (p * Le) else Ok 0) in
  olet diagram_mu := (if 0 <? Lmu then olet p := phi_mu r2 beta xi in Ok (p * Lmu) else Ok 0) in
  olet atomic := atomic_electrons mass c E in
  let aux := ALPHA * RE * charge in
  let aux := aux * (aux / (3 / 2 * PI) * 2 * c_charge c * (c_charge c + atomic)) in
  olet q := quo ME mass in
  let aux1 := q * charge in
  olet w := quo (1 - v) v in
  let aux := aux * (w * (diagram_e + aux1 * aux1 * diagram_mu)) in
  k r2 beta xi aux.
Lemma kelner_with_pair lpm mass charge c E v r : kelner_pair nan lpm mass charge c E v r =
  kelner_with (fun r2 beta xi aux => olet aux := suppressed nan lpm E v r2 beta xi aux in if aux <? 0 then Ok 0 else Ok aux) mass charge c E v r.
Proof. reflexivity. Qed.
End With.
Lemma clamped x : (if x <? 0 then Ok 0 else Ok x) = Ok (Rmax 0 x).
Proof. destruct (Rltb_spec x 0); [rewrite Rmax_left by lra|rewrite Rmax_right by lra]; reflexivity. Qed.
Section Kelner.
Variable nan : forall A, outcome A.
Variables (mass charge : R) (c : component) (E v rho : R).
Hypotheses (Hc : element c) (Hm : 0 < mass) (HE : 0 < E) (Hv : 0 < v < 1) (Hr : 0 <= rho < 1).
Let beta := kelner_beta v.
Let xi := kelner_xi mass v rho.
Let r2 := rho ^ 2.
Lemma k_r2 : 0 <= r2 < 1. Proof using All. unfold r2. cbn. nra. Qed.
Lemma k_beta : 0 < beta. Proof using All. unfold beta, kelner_beta. apply Rdiv_lt_0_compat; nra. Qed.
Lemma k_xi : 0 < xi.
Proof using All.
  pose proof k_r2 as R. pose proof me_val. unfold xi, kelner_xi. apply Rdiv_lt_0_compat; [|lra]. apply Rmult_lt_0_compat; [|fold r2; lra].
  apply pow_lt, Rdiv_lt_0_compat; nra.
Qed.
Lemma atomic_value : atomic_electrons nan mass c E = Ok (electrons_zeta mass (c_charge c) E) /\ 0 <= electrons_zeta mass (c_charge c) E.
Proof using All.
  assert (0 < E / mass) as Q by (apply Rdiv_lt_0_compat; lra). pose proof (icr_pos (c_charge c)) as Z. unfold inverse_cube_root in Z.
  unfold atomic_electrons, electrons_zeta. cbv zeta. unfold inverse_cube_root. rewrite quo_ok by lra. cbn [obind].
  set (Z3 := Rpower (c_charge c) (- (1 / 3))) in *. clearbody Z3. set (q := E / mass) in *. clearbody q.
  set (g1 := if c_charge c =? 1 then 44 / 10 ^ 6 else 195 / 10 ^ 7). set (g2 := if c_charge c =? 1 then 48 / 10 ^ 6 else 53 / 10 ^ 6).
  assert ((if Req_EM_T (c_charge c) 1 then 44 / 10 ^ 6 else 195 / 10 ^ 7) = g1) as ->
    by (unfold g1; destruct (Reqb_spec (c_charge c) 1), (Req_EM_T (c_charge c) 1); tauto || reflexivity).
  assert ((if Req_EM_T (c_charge c) 1 then 48 / 10 ^ 6 else 53 / 10 ^ 6) = g2) as ->
    by (unfold g2; destruct (Reqb_spec (c_charge c) 1), (Req_EM_T (c_charge c) 1); tauto || reflexivity).
  assert (0 < g1) as G1 by (unfold g1; destruct (_ =? _); lra). assert (0 < g2) as G2 by (unfold g2; destruct (_ =? _); lra). clearbody g1 g2.
  assert (0 < g1 / Z3 ^ 2 * q) as P1 by (apply Rmult_lt_0_compat; [apply Rdiv_lt_0_compat; [auto|apply pow_lt; auto]|auto]).
  assert (0 < g2 / Z3 * q) as P2 by (apply Rmult_lt_0_compat; [apply Rdiv_lt_0_compat; auto|auto]).
  rewrite quo_ok by (apply Rgt_not_eq, Rmult_lt_0_compat; auto). cbn [obind]. replace (g1 * q / (Z3 * Z3)) with (g1 / Z3 ^ 2 * q) by (field; lra).
  rewrite quo_ok by lra. cbn [obind]. rewrite log_ok by (apply Rdiv_lt_0_compat; lra). cbn [obind].
  rewrite quo_ok by lra. cbn [obind]. replace (g2 * q / Z3) with (g2 / Z3 * q) by (field; lra).
  rewrite quo_ok by lra. cbn [obind]. rewrite log_ok by (apply Rdiv_lt_0_compat; lra). cbn [obind].
  set (a := 73 / 1000 * _ - _). set (b := 58 / 1000 * _ - _). clearbody a b.
  destruct (Rltb_spec 0 a), (Rlt_dec 0 a); try tauto; cbn [andb]; [|split; [reflexivity|lra]].
  destruct (Rltb_spec 0 b), (Rlt_dec 0 b); try tauto; [|split; [reflexivity|lra]].
  rewrite quo_ok by lra. split; [reflexivity|]. apply Rlt_le, Rdiv_lt_0_compat; auto.
Qed.
Lemma suppression_value e density : 0 < e -> 0 < density -> let s := suppression_parameter e density E v rho in
  epair_suppression nan e density E v r2 beta xi = Ok (if Rlt_dec (10 ^ 10) (6 * s * (xi + 1)) then 1 else pair_suppression_factor s mass v rho).
Proof using All.
  intros He Hd. pose proof k_r2 as R2. pose proof k_beta as Hb. pose proof k_xi as Hx. pose proof (phi_exact_positive r2 beta xi R2 ltac:(lra) Hx) as P.
  cbv zeta. unfold pair_suppression_factor. change (phi_electron mass v rho) with (phi_exact r2 beta xi). fold beta xi r2. unfold suppression_parameter. fold r2.
  unfold phi_exact in *. unfold epair_suppression. clearbody r2 beta xi.
  assert (0 < density * E * v * (1 - r2)) as D by (repeat apply Rmult_lt_0_compat; lra).
  rewrite quo_ok by lra. cbn [obind]. assert (0 < e / (density * E * v * (1 - r2))) as Q by (apply Rdiv_lt_0_compat; auto).
  rewrite root_ok by lra. cbn [obind]. apply sqrt_lt_R0 in Q. set (q := sqrt _) in *. clearbody q. clear D. cbv zeta.
  set (s := 1 / 4 * q). assert (0 < s) as S by (unfold s; lra). clearbody s.
  replace (1 / COMPUTER_PRECISION) with (10 ^ 10) by (unfold COMPUTER_PRECISION; field).
  destruct (Rltb_spec (10 ^ 10) (6 * s * (xi + 1))) as [U|U], (Rlt_dec (10 ^ 10) (6 * s * (xi + 1))) as [U'|U']; try reflexivity; try (exfalso; lra).
  assert (0 < s * s) as SS by nra. assert (0 < xi * xi) as XX by nra. assert (0 < 36 * s * s) by lra. assert (0 < 36 * s * s * xi * xi) by nra.
  assert (0 < 6 * s * xi) by nra. rewrite !quo_ok by lra. cbn [obind].
  rewrite log_ok by (apply Rdiv_lt_0_compat; nra). cbn [obind]. repeat (rewrite quo_ok by lra; cbn [obind]).
  rewrite log_ok by (apply Rdiv_lt_0_compat; nra). cbn [obind]. repeat (rewrite quo_ok by lra; cbn [obind]). assert (0 < 1 / xi) by (apply Rdiv_lt_0_compat; lra). rewrite log_ok by lra. cbn [obind].
  repeat (rewrite quo_ok by lra; cbn [obind]). f_equal.
  replace ((36 * s * s * (1 + xi) * (1 + xi) + 1) / (36 * s * s * xi * xi)) with ((36 * s ^ 2 * (1 + xi) ^ 2 + 1) / (36 * s ^ 2 * xi ^ 2)) by (field; lra).
  replace (36 * s * s) with (36 * s ^ 2) by ring. f_equal. field. lra.
Qed.
Lemma suppression_defined e density : 0 < e -> 0 < density -> exists f, epair_suppression nan e density E v r2 beta xi = Ok f.
Proof using All. intros He Hd. rewrite (suppression_value e density He Hd). eexists. reflexivity. Qed.
Lemma phi_used : exists p, phi_e nan r2 beta xi = Ok p /\ 0 < phi_electron mass v rho /\ Rabs (p - phi_electron mass v rho) <= phi_electron mass v rho / 10000.
Proof using All.
  pose proof k_r2 as R2. pose proof k_beta as Hb. pose proof k_xi as Hx. pose proof (phi_exact_positive r2 beta xi R2 ltac:(lra) Hx) as P.
  change (phi_electron mass v rho) with (phi_exact r2 beta xi). unfold phi_e. rewrite quo_ok by lra. cbn [obind].
  destruct (Rltb_spec (1 / xi) HALF_PRECISION) as [H|H].
  - exists (phi_leading r2 beta xi). split; [now apply phi_short_value|]. split; [auto|].
    pose proof (c68_seam r2 beta xi R2 ltac:(lra) Hx ltac:(lra)) as C. rewrite Rabs_minus_sym in C.
    assert (0 < 1 / xi) as Y by (apply Rdiv_lt_0_compat; lra). assert (1 / xi < / 10 ^ 5) as Y2 by (unfold HALF_PRECISION in H; lra).
    set (a := phi_exact r2 beta xi) in *. set (b := phi_leading r2 beta xi) in *. set (y := 1 / xi) in *. clearbody a b y.
    assert (0 < b) as B. { destruct (Rlt_le_dec 0 b); auto. pose proof (Rabs_pos (b - a)). assert (b = 0) by nra. subst b. rewrite Rabs_left in C; lra. }
    apply Rabs_le_between in C. apply Rabs_le. assert (y * b <= / 10 ^ 5 * b) by (apply Rmult_le_compat_r; lra). lra.
  - exists (phi_exact r2 beta xi). split; [now apply phi_full_value|]. split; [auto|]. rewrite Rminus_eq_0, Rabs_R0. lra.
Qed.
Lemma kelner_core : exists y, (forall k, kelner_with nan k mass charge c E v (1 - rho) = k r2 beta xi y) /\
  let K := kelner_formula mass charge (c_charge c) (log_constant c) E v rho in 0 <= y /\ Rabs (y - K) <= K / 10000.
Proof using All.
  pose proof k_r2 as R2. pose proof k_beta as Hb. pose proof k_xi as Hx. pose proof me_val as Me. pose proof (log_constant_bounds c) as LB.
  pose proof (icr_pos (c_charge c)) as Z0. pose proof SQRTE_val as SQ. pose proof PI_RGT_0 as Pi. pose proof Hc as [[Z1 Z2] _].
  unfold kelner_with. cbv zeta. replace (1 - (1 - rho)) with rho by ring. replace (rho * rho) with r2 by (unfold r2; ring).
  rewrite quo_ok by lra. cbn [obind]. replace (mass * v / (2 * ME) * (mass * v / (2 * ME)) * (1 - r2) / (1 - v)) with xi by (unfold xi, kelner_xi, r2; field; lra).
  rewrite quo_ok by lra. cbn [obind]. replace (v * v / (2 * (1 - v))) with beta by (unfold beta, kelner_beta; field; lra).
  rewrite quo_ok by lra. cbn [obind]. assert (0 < 1 / xi) as Y by (apply Rdiv_lt_0_compat; lra).
  pose proof (ln3_more (1 / xi) ltac:(lra)) as L1. pose proof (ln3_more xi ltac:(lra)) as L2.
  rewrite log_ok by lra. cbn [obind].
  assert (0 < 2 * (1 + 3 * beta) * ln (3 + 1 / xi) - r2 - 2 * beta * (2 - r2)) as D1.
  { set (l := ln (3 + 1 / xi)) in *. clearbody l. assert (2 * (1 + 3 * beta) <= 2 * (1 + 3 * beta) * l) by nra. nra. }
  rewrite quo_ok by lra. cbn [obind]. rewrite log_ok by lra. cbn [obind].
  assert (0 < (1 + r2) * (3 / 2 + 2 * beta) * ln (3 + xi) + 1 - 3 / 2 * r2) as D2.
  { set (l := ln (3 + xi)) in *. clearbody l. assert (0 < (1 + r2) * (3 / 2 + 2 * beta)) by nra. assert ((1 + r2) * (3 / 2 + 2 * beta) <= (1 + r2) * (3 / 2 + 2 * beta) * l) by nra. nra. }
  rewrite quo_ok by lra. cbn [obind].
  assert (0 < (5 - r2 + 4 * beta * (1 + r2)) / (2 * (1 + 3 * beta) * ln (3 + 1 / xi) - r2 - 2 * beta * (2 - r2))) as Y1 by (apply Rdiv_lt_0_compat; nra).
  assert (0 < (4 + r2 + 3 * beta * (1 + r2)) / ((1 + r2) * (3 / 2 + 2 * beta) * ln (3 + xi) + 1 - 3 / 2 * r2)) as Y2 by (apply Rdiv_lt_0_compat; nra).
  destruct atomic_value as [Az Ap]. destruct phi_used as (p & Pe & Pp & Pc). destruct (phi_mu_positive r2 beta xi R2 ltac:(lra) Hx nan) as (pm & Pm & Em).
  assert (pm = phi_heavy mass v rho) as Epm.
  { unfold phi_mu in Em. rewrite quo_ok in Em by lra. cbn [obind] in Em. rewrite log_ok in Em by lra. cbn [obind] in Em. rewrite quo_ok in Em by lra. now injection Em as <-. }
  unfold kelner_formula. rewrite <- Epm. clear Epm.
  assert (exists le, log_electron mass (c_charge c) (log_constant c) E v rho = le) as [le Ele] by (eexists; reflexivity).
  assert (exists lm, log_heavy mass (c_charge c) (log_constant c) E v rho = lm) as [lm Elm] by (eexists; reflexivity).
  rewrite Ele, Elm. unfold log_electron in Ele. unfold log_heavy in Elm. fold beta xi r2 in Ele, Elm. change (Rpower (c_charge c) (- (1 / 3))) with (inverse_cube_root (c_charge c)) in Ele, Elm.
  set (Z3 := inverse_cube_root (c_charge c)) in *. set (B := log_constant c) in *.
  set (Ye := (5 - r2 + 4 * beta * (1 + r2)) / (2 * (1 + 3 * beta) * ln (3 + 1 / xi) - r2 - 2 * beta * (2 - r2))) in *.
  set (Ym := (4 + r2 + 3 * beta * (1 + r2)) / ((1 + r2) * (3 / 2 + 2 * beta) * ln (3 + xi) + 1 - 3 / 2 * r2)) in *.
  set (phe := phi_electron mass v rho) in *. set (zeta := electrons_zeta mass (c_charge c) E) in *.
  clearbody Ye Ym B Z3 phe zeta. clear D1 D2 L1 L2.
  assert (0 < mass * Z3) as MZ by (apply Rmult_lt_0_compat; lra). rewrite quo_ok by lra. cbn [obind].
  replace (3 / 2 * ME / (mass * Z3)) with (3 / 2 * (ME / mass) / Z3) by (field; lra).
  assert (0 < E * v * (1 - r2)) as DD by (apply Rmult_lt_0_compat; [nra|lra]). rewrite quo_ok by lra. cbn [obind].
  set (T := 2 * ME * SQRTE * B * Z3 / (E * v * (1 - r2))) in *.
  assert (0 < T) as HT. { unfold T. apply Rdiv_lt_0_compat; auto. repeat apply Rmult_lt_0_compat; lra. }
  assert (0 < (1 + xi) * (1 + Ye)) as A1 by nra. assert (0 < (1 + xi) * (1 + Ym)) as A2 by nra.
  rewrite root_ok by lra. cbn [obind]. pose proof (sqrt_lt_R0 _ A1) as S1.
  assert (0 < T * ((1 + xi) * (1 + Ye))) as T1 by (apply Rmult_lt_0_compat; auto).
  assert (0 < T * ((1 + xi) * (1 + Ym))) as T2 by (apply Rmult_lt_0_compat; auto).
  rewrite quo_ok by lra. cbn [obind]. rewrite log_ok by (apply Rdiv_lt_0_compat; [repeat apply Rmult_lt_0_compat; lra|lra]). cbn [obind].
  assert (0 < 3 / 2 * (ME / mass) / Z3) as K. { apply Rdiv_lt_0_compat; auto. apply Rmult_lt_0_compat; [lra|]. apply Rdiv_lt_0_compat; lra. }
  set (k := 3 / 2 * (ME / mass) / Z3) in *. assert (B / k = 2 / 3 * (mass / ME) * B * Z3) as Kd by (unfold k; field; repeat split; lra). clearbody k.
  assert (0 < k * k) as KK by nra. rewrite log_ok by nra. cbn [obind].
  replace (k * k) with (k ^ 2) by ring. rewrite Ele. rewrite quo_ok by lra. cbn [obind]. rewrite Kd. rewrite Rmult_assoc with (r1 := T).
  rewrite quo_ok by lra. cbn [obind]. assert (0 < mass / ME) as MM by (apply Rdiv_lt_0_compat; lra).
  rewrite log_ok by (apply Rdiv_lt_0_compat; [repeat (apply Rmult_lt_0_compat; [|lra]); lra|lra]). cbn [obind].
  replace (2 / 3 * (mass / ME) * B * Z3 * Z3) with (2 / 3 * (mass / ME) * B * Z3 ^ 2) by ring. rewrite Elm.
  assert ((if 0 <? le then olet q := phi_e nan r2 beta xi in Ok (q * le) else Ok 0) = Ok (p * Rmax 0 le)) as ->.
  { destruct (Rltb_spec 0 le); [rewrite Pe; cbn [obind]; rewrite Rmax_right by lra; reflexivity|rewrite Rmax_left by lra; f_equal; ring]. }
  cbn [obind].
  assert ((if 0 <? lm then olet q := phi_mu nan r2 beta xi in Ok (q * lm) else Ok 0) = Ok (pm * Rmax 0 lm)) as ->.
  { destruct (Rltb_spec 0 lm); [rewrite Em; cbn [obind]; rewrite Rmax_right by lra; reflexivity|rewrite Rmax_left by lra; f_equal; ring]. }
  cbn [obind]. rewrite Az. cbn [obind]. rewrite !quo_ok by lra. cbn [obind].
  set (PR := 4 / (3 * PI) * c_charge c * (c_charge c + zeta) * (ALPHA * RE * charge) ^ 2 * ((1 - v) / v)).
  assert (0 <= PR) as HPR.
  { unfold PR. assert (0 <= (ALPHA * RE * charge) ^ 2) by (apply pow2_ge_0). assert (0 < (1 - v) / v) by (apply Rdiv_lt_0_compat; lra).
    assert (0 < 4 / (3 * PI)) by (apply Rdiv_lt_0_compat; lra). repeat (apply Rmult_le_pos; [|lra]); lra. }
  assert (0 <= Rmax 0 le) as M1 by apply Rmax_l. assert (0 <= Rmax 0 lm) as M2 by apply Rmax_l.
  set (H2 := (charge * ME / mass) ^ 2 * pm * Rmax 0 lm). assert (0 <= H2) as HH.
  { unfold H2. apply Rmult_le_pos; auto. apply Rmult_le_pos; [apply pow2_ge_0|lra]. }
  exists (PR * (p * Rmax 0 le + H2)). split; [|split].
  - intro k0. replace (ALPHA * RE * charge * (ALPHA * RE * charge / (3 / 2 * PI) * 2 * c_charge c * (c_charge c + zeta)) *
      ((1 - v) / v * (p * Rmax 0 le + ME / mass * charge * (ME / mass * charge) * (pm * Rmax 0 lm)))) with (PR * (p * Rmax 0 le + H2)) by (unfold PR, H2; field; repeat split; lra).
    reflexivity.
  - apply Rabs_le_between in Pc. apply Rmult_le_pos; auto. apply Rplus_le_le_0_compat; auto. apply Rmult_le_pos; lra.
  - replace (PR * (p * Rmax 0 le + H2) - PR * (phe * Rmax 0 le + H2)) with (PR * Rmax 0 le * (p - phe)) by ring. rewrite Rabs_mult.
    assert (0 <= PR * Rmax 0 le) as Q by (apply Rmult_le_pos; auto). rewrite (Rabs_right (PR * Rmax 0 le)) by lra.
    apply Rle_trans with (PR * Rmax 0 le * (phe / 10000)); [apply Rmult_le_compat_l; auto|]. assert (0 <= PR * H2) by (apply Rmult_le_pos; auto). lra.
Qed.
Lemma kelner_value : exists y, 0 <= y /\ kelner_pair nan None mass charge c E v (1 - rho) = Ok y /\
  (let K := kelner_formula mass charge (c_charge c) (log_constant c) E v rho in Rabs (y - K) <= K / 10000) /\
  forall e density, 0 < e -> 0 < density ->
  kelner_pair nan (Some (e, density)) mass charge c E v (1 - rho) = Ok (pair_suppressed (suppression_parameter e density E v rho) mass v rho y).
Proof using All.
  destruct kelner_core as (y & Hy & Py & Ky). exists y. split; [exact Py|]. split; [|split; [exact Ky|]].
  - rewrite kelner_with_pair, Hy. cbn [suppressed obind]. destruct (Rltb_spec y 0); [lra|reflexivity].
  - intros e density He Hd. rewrite kelner_with_pair, Hy. cbn [suppressed]. rewrite (suppression_value e density He Hd). cbn [obind]. rewrite clamped.
    unfold pair_suppressed. fold xi. destruct (Rlt_dec _ _); [rewrite Rmult_1_r, Rmax_right by exact Py|]; reflexivity.
Qed.
End Kelner.
