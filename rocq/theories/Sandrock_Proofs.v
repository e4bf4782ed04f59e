(** Electron pairs after Sandrock, Soedingrekso and Rhode. *)
From Coq Require Import Lra Psatz.
From Coquelicot Require Import Coquelicot.
From Verif Require Import Prelude PreludeFacts Particle_Model Limits_Model Cross_Model Photo_Model Products_Model
  Differential_Model Integral_Model Utility_Model Continuous_Model Pairs_Model Dilog_Model Sandrock_Model.
From Verif Require Import Function_Spec Integral_Spec Cross_Spec Differential_Spec Pairs_Spec Dilog_Spec Sandrock_Spec Transform_Proofs Differential_Proofs Brems_Proofs Nuclear_Proofs
  Pairs_Proofs Rho_Proofs DilogEquations_Proofs DilogSeries_Proofs Dilog_Proofs Dilog_Examples.

Lemma ln_trapezoid y : 0 < y -> ln (1 + y) < y * (2 + y) / (2 * (1 + y)).
Proof.
  intros Y. pose (f := fun x => x * (2 + x) / (2 * (1 + x)) - ln (1 + x)).
  assert (f 0 = 0) as Z by (unfold f; replace (1 + 0) with 1 by ring; rewrite ln_1; field). cut (f 0 < f y); [rewrite Z; unfold f; lra|].
  apply (growing f (fun x => x * x / (2 * ((1 + x) * (1 + x))))); [| |exact Y].
  - intros x X. unfold f. auto_derive; [split; [lra|split; [lra|exact I]]|]. field. lra.
  - intros x X. apply Rdiv_lt_0_compat; nra.
Qed.

(** ** The dilogarithm is not smaller than its argument *)
Lemma dilogarithm_above f y : dilogarithm f -> 0 <= y < 1 -> y <= f y.
Proof.
  intros F Y. cut (0 <= f y - y); [lra|]. apply (rises (fun t => f t - t) (fun t => - ln (1 - t) / t - 1) y); [lra|rewrite (dl_zero f F); ring| | |].
  - intros t T. apply (is_derive_minus f (fun t => t) t (- ln (1 - t) / t) 1); [apply derivative_below; [exact F|lra|lra]|apply (is_derive_id t)].
  - intros t T. apply (continuous_minus f (fun t => t)); [apply (dl_continuous f F)|apply continuous_id].
  - intros t T. pose proof (sub_ln_le (1 - t) ltac:(lra)) as L. assert (1 <= - ln (1 - t) / t); [|lra]. apply (Rle_div_r 1 (- ln (1 - t)) t); lra.
Qed.
Definition rest : list Z := add (tl P_digits) (times (-1) (tl Q_digits)).
Lemma rest_large : large_on rest 0 = true.
Proof. vm_compute. reflexivity. Qed.
Lemma rest_value y : num y - den y = - (498 / 10 ^ 19) + y * (ev rest y / 10 ^ 23).
Proof. unfold num, den, P, Q, literal, P_digits, Q_digits, rest. cbn [nth tl add times map Z.mul ev]. cbn -[IZR]. lra. Qed.
Lemma rational_above y : 0 <= y <= 1 / 2 -> y * (1 - 4 / 10 ^ 16) <= y * num y / den y.
Proof.
  intro H. pose proof (den_large y H) as D. pose proof (large_spec rest 0 y rest_large H) as L. pose proof (rest_value y) as V.
  assert (0 < 16 ^ length rest) as W by (apply pow_lt; lra). assert (0 <= ev rest y) as N by nra.
  assert (0 <= y * (ev rest y / 10 ^ 23)) as M by (apply Rmult_le_pos; [lra|apply Rdiv_le_0_compat; [exact N|lra]]).
  replace (y * num y / den y) with (y * (1 + (num y - den y) / den y)) by (field; lra). apply Rmult_le_compat_l; [lra|].
  assert (- (4 / 10 ^ 16) <= (num y - den y) / den y); [|lra]. apply (Rle_div_r _ _ (den y)); lra.
Qed.
Section Values.
Variable nan : forall A, outcome A.
Definition computed_dilog (x : R) : R := match dilog nan x with Ok v => v | _ => 0 end.
Lemma computed_ok x : dilog nan x = Ok (computed_dilog x).
Proof. unfold computed_dilog. destruct (dilog_close nan spence spence_dilogarithm x) as (v & -> & _). reflexivity. Qed.
Lemma computed_close f x : dilogarithm f -> Rabs (computed_dilog x - f x) <= 1 / 10 ^ 14.
Proof. intro F. unfold computed_dilog. destruct (dilog_close nan f F x) as (v & -> & B). exact B. Qed.
Lemma computed_above y : 0 < y < 1 -> y * (1 - 4 / 10 ^ 14) <= computed_dilog y.
Proof.
  intro H. destruct (Rlt_le_dec y (1 / 2)) as [Y|Y].
  - pose proof (computed_ok y) as E. unfold dilog in E. rewrite (proj2 (Rltb_false y (-1))), (proj2 (Reqb_false y (-1))), (proj2 (Rltb_false y 0)), (proj2 (Reqb_false y 0)), (proj2 (Rltb_true y (1 / 2))) in E by lra.
    unfold dilog_rational in E. fold (num y) in E. fold (den y) in E. pose proof (den_large y ltac:(lra)) as D. rewrite quo_ok in E by lra. cbn [obind] in E. injection E as <-.
    pose proof (rational_above y ltac:(lra)) as A. replace (0 + 1 * y * num y / den y) with (y * num y / den y) by (field; lra). lra.
  - pose proof (computed_close spence y spence_dilogarithm) as C. apply Rabs_le_between in C. pose proof (dilogarithm_above spence y spence_dilogarithm ltac:(lra)). lra.
Qed.
End Values.

(** ** The correction of the electron is positive *)
Lemma delta_positive r2 b xi l d : 0 <= r2 < 1 -> 0 <= b -> 0 < xi <= 10 ^ 12 -> l = ln (1 + 1 / xi) -> 1 / (1 + xi) * (1 - 4 / 10 ^ 14) <= d ->
  0 < ((2 + r2) * (1 + b) + xi * (3 + r2)) * d - (2 + r2) * xi * l - (xi + r2 + b) / (1 + xi).
Proof.
  intros R2 B X L D. assert (0 < 1 / xi) as Y by (apply Rdiv_lt_0_compat; lra). pose proof (ln_trapezoid (1 / xi) Y) as T. rewrite <- L in T.
  replace (1 / xi * (2 + 1 / xi) / (2 * (1 + 1 / xi))) with ((1 + 2 * xi) / (2 * (1 + xi)) / xi) in T by (field; lra).
  assert (xi * l < (1 + 2 * xi) / (2 * (1 + xi))) as U.
  { apply (Rmult_lt_compat_l xi) in T; [|lra]. replace (xi * ((1 + 2 * xi) / (2 * (1 + xi)) / xi)) with ((1 + 2 * xi) / (2 * (1 + xi))) in T by (field; lra). exact T. }
  set (K := (2 + r2) * (1 + b) + xi * (3 + r2)). assert (0 < K) as HK by (unfold K; nra).
  assert (K * (1 / (1 + xi) * (1 - 4 / 10 ^ 14)) <= K * d) as A by (apply Rmult_le_compat_l; lra).
  assert ((2 + r2) * (xi * l) <= (2 + r2) * ((1 + 2 * xi) / (2 * (1 + xi)))) as V by (apply Rmult_le_compat_l; lra).
  assert (0 < K * (1 / (1 + xi) * (1 - 4 / 10 ^ 14)) - (2 + r2) * ((1 + 2 * xi) / (2 * (1 + xi))) - (xi + r2 + b) / (1 + xi)); [|nra].
  replace (K * (1 / (1 + xi) * (1 - 4 / 10 ^ 14)) - (2 + r2) * ((1 + 2 * xi) / (2 * (1 + xi))) - (xi + r2 + b) / (1 + xi))
    with ((1 - r2 / 2 + b * (1 + r2) - K * (4 / 10 ^ 14)) / (1 + xi)) by (unfold K; field; lra).
  apply Rdiv_lt_0_compat; [|lra]. unfold K. assert (0 <= b * r2) by nra. assert (xi * r2 <= 10 ^ 12) by nra. nra.
Qed.

(** The parametrization up to the suppression *)
Section With.
Variable nan : forall A, outcome A.
Notation quo := (quo nan).
Notation sandrock_zeta := (sandrock_zeta nan).
Notation electron_terms := (electron_terms nan).
Notation electron_log := (electron_log nan).
Notation heavy_terms := (heavy_terms nan).
Notation heavy_log := (heavy_log nan).
Definition sandrock_with (k : R -> R -> R -> R -> outcome R) (mass charge : R) (c : component) (E v r : R) : outcome R :=
  let a := ALPHA * RE * charge in
  let prefactor := 4 / (3 * PI) * c_charge c * (a * a) in
  let r := 1 - r in
  let r2 := r * r in
  olet zeta := sandrock_zeta mass c E in
  olet beta := quo (v * v) (2 * (1 - v)) in
  let aux := mass * v / (2 * ME) in
  olet xi := quo (aux * aux * (1 - r2)) (1 - v) in
  olet (Be, Ce2, De) := electron_terms r2 beta xi in
  olet D := quo De Be in
  olet Le1 := electron_log 1 1 (1 / 2) mass c E v r2 xi D in
  olet Le2 := electron_log (exp (- (1 / 6))) (exp (- (1 / 3))) (1 / 3) mass c E v r2 xi D in
  olet w := quo (prefactor * (c_charge c + zeta) * (1 - v)) v in
  let diagram_e := Rmax 0 (w * ((Be - Ce2) * Le1 + Ce2 * Le2)) in
  olet (Bm, Cm2, Dm) := heavy_terms r2 beta xi in
  olet D := quo Dm Bm in
  olet Lm1 := heavy_log (1 / 2) mass c E v r2 xi D in
  olet Lm2 := heavy_log (1 / 3) mass c E v r2 xi D in
  olet m := quo ME mass in
  let m := m * charge in
  let diagram_mu := Rmax 0 (w * (m * m) * ((Bm - Cm2) * Lm1 + Cm2 * Lm2)) in
  let aux := diagram_e + diagram_mu in
  k r2 beta xi aux.
Lemma sandrock_with_pair lpm mass charge c E v r : sandrock_pair nan lpm mass charge c E v r =
  sandrock_with (fun r2 beta xi aux => olet aux := suppressed nan lpm E v r2 beta xi aux in if aux <? 0 then Ok 0 else Ok aux) mass charge c E v r.
Proof. reflexivity. Qed.
End With.
Section Pair.
Variable nan : forall A, outcome A.
Variables (mass charge : R) (c : component) (E v rho : R).
Hypotheses (Hc : element c) (Hm : 0 < mass) (HE : 0 < E) (Hv : 0 < v < 1) (Hr : 0 <= rho < 1).
Let beta := kelner_beta v.
Let xi := kelner_xi mass v rho.
Let r2 := rho ^ 2.
Let d := computed_dilog nan.
Let Z := c_charge c.
Let B := log_constant c.
Let Dn := nuclear_radius (c_atomic c).
Let Hr2 : 0 <= r2 < 1 := k_r2 nan mass charge c E v rho Hc Hm HE Hv Hr.
Let Hb : 0 < beta := k_beta nan mass charge c E v rho Hc Hm HE Hv Hr.
Let Hx : 0 < xi := k_xi nan mass charge c E v rho Hc Hm HE Hv Hr.

Lemma zeta_value : sandrock_zeta nan mass c E = Ok (electrons_zeta mass Z E) /\ 0 <= electrons_zeta mass Z E.
Proof using All.
  assert (0 < E / mass) as Q by (apply Rdiv_lt_0_compat; lra). pose proof (icr_pos (c_charge c)) as Z0. unfold inverse_cube_root in Z0.
  unfold sandrock_zeta, electrons_zeta. fold Z. cbv zeta. unfold inverse_cube_root. rewrite quo_ok by lra. cbn [obind].
  assert (Rpower Z (2 / 3) = / Rpower Z (- (1 / 3)) ^ 2) as ->.
  { rewrite <- Rpower_pow by (exact Z0). rewrite Rpower_mult, <- Rpower_Ropp. f_equal. cbn [INR]. lra. }
  fold Z in Z0. set (Z3 := Rpower Z (- (1 / 3))) in *. clearbody Z3.
  set (g1 := if Z =? 1 then 44 / 10 ^ 6 else 195 / 10 ^ 7). set (g2 := if Z =? 1 then 48 / 10 ^ 6 else 53 / 10 ^ 6).
  assert ((if Req_EM_T Z 1 then 44 / 10 ^ 6 else 195 / 10 ^ 7) = g1) as ->
    by (unfold g1; destruct (Reqb_spec Z 1), (Req_EM_T Z 1); tauto || reflexivity).
  assert ((if Req_EM_T Z 1 then 48 / 10 ^ 6 else 53 / 10 ^ 6) = g2) as ->
    by (unfold g2; destruct (Reqb_spec Z 1), (Req_EM_T Z 1); tauto || reflexivity).
  assert (0 < g1) as G1 by (unfold g1; destruct (_ =? _); lra). assert (0 < g2) as G2 by (unfold g2; destruct (_ =? _); lra). clearbody g1 g2.
  rewrite quo_ok by lra. cbn [obind]. replace (g1 * / Z3 ^ 2 * E / mass) with (g1 / Z3 ^ 2 * (E / mass)) by (field; lra).
  set (q := E / mass) in *.
  assert (0 < g1 / Z3 ^ 2 * q) as P1 by (apply Rmult_lt_0_compat; [apply Rdiv_lt_0_compat; [auto|apply pow_lt; auto]|auto]).
  assert (0 < g2 / Z3 * q) as P2 by (apply Rmult_lt_0_compat; [apply Rdiv_lt_0_compat; auto|auto]).
  rewrite quo_ok by lra. cbn [obind]. rewrite log_ok by (apply Rdiv_lt_0_compat; lra). cbn [obind].
  rewrite quo_ok by lra. cbn [obind]. rewrite quo_ok by lra. cbn [obind]. replace (g2 / Z3 * E / mass) with (g2 / Z3 * q) by (unfold q; field; lra).
  rewrite quo_ok by lra. cbn [obind]. rewrite log_ok by (apply Rdiv_lt_0_compat; lra). cbn [obind].
  set (a := 73 / 1000 * _ - _). set (b := 58 / 1000 * _ - _). clearbody a b.
  destruct (Rltb_spec 0 a), (Rlt_dec 0 a); try tauto; cbn [andb]; [|split; [reflexivity|lra]].
  destruct (Rltb_spec 0 b), (Rlt_dec 0 b); try tauto; [|split; [reflexivity|lra]].
  rewrite quo_ok by lra. split; [reflexivity|]. apply Rlt_le, Rdiv_lt_0_compat; auto.
Qed.
Lemma electron_terms_value : electron_terms nan r2 beta xi = Ok (phi_electron mass v rho, electron_second mass v rho, electron_delta d mass v rho) /\ 0 < phi_electron mass v rho.
Proof using All.
  split; [|exact (phi_exact_positive r2 beta xi Hr2 ltac:(lra) Hx)].
  assert (0 < 1 / xi) as Y by (apply Rdiv_lt_0_compat; lra). unfold electron_terms. rewrite quo_ok by lra. cbn [obind]. rewrite log_ok by lra. cbn [obind].
  repeat (rewrite quo_ok by lra; cbn [obind]). rewrite computed_ok. cbn [obind]. reflexivity.
Qed.
Lemma heavy_terms_value : heavy_terms nan r2 beta xi = Ok (phi_heavy mass v rho, heavy_second mass v rho, heavy_delta d mass v rho) /\ 0 < phi_heavy mass v rho.
Proof using All.
  destruct (phi_mu_positive r2 beta xi Hr2 ltac:(lra) Hx nan) as (pm & Pm & Em).
  assert (pm = phi_heavy mass v rho) as Epm.
  { unfold phi_mu in Em. rewrite quo_ok in Em by lra. cbn [obind] in Em. rewrite log_ok in Em by lra. cbn [obind] in Em. rewrite quo_ok in Em by lra. now injection Em as <-. }
  split; [|now rewrite <- Epm]. unfold heavy_terms. rewrite quo_ok by lra. cbn [obind]. rewrite log_ok by lra. cbn [obind]. repeat (rewrite quo_ok by lra; cbn [obind]).
  rewrite computed_ok. cbn [obind]. repeat (rewrite quo_ok by lra; cbn [obind]). unfold phi_heavy, heavy_second, heavy_delta. fold r2 beta xi d.
  do 2 f_equal; [f_equal|]; field; lra.
Qed.
Lemma radius_pos : 0 < Dn.
Proof using. unfold Dn, nuclear_radius, Rpower. pose proof (exp_pos (27 / 100 * ln (c_atomic c))). lra. Qed.
Let K (h : R) : R := 2 * ME * exp h * B * Rpower Z (- (1 / 3)) * (1 + xi) / (E * v * (1 - r2)).
Lemma K_pos h : 0 < K h.
Proof using All.
  pose proof me_val. pose proof (log_constant_bounds c) as LB. fold B in LB. pose proof (icr_pos (c_charge c)) as Z0. unfold inverse_cube_root in Z0. fold Z in Z0. pose proof (exp_pos h).
  unfold K. apply Rdiv_lt_0_compat; [repeat apply Rmult_lt_0_compat; lra|]. apply Rmult_lt_0_compat; [nra|lra].
Qed.
(** The logarithm of the electron *)
Definition paper_log (f g h D : R) : R :=
  ln (f * B * Rpower Z (- (1 / 3)) * sqrt (1 + xi) / (exp (- D) + K h)) - D - 1 / 2 * ln (exp (- D) + g * (ME / mass * Dn) ^ 2 * (1 + xi)).
Lemma electron_log_value f g h D : 0 < f -> 0 < g -> exists y, electron_log nan f g h mass c E v r2 xi D = Ok y /\ (0 < D -> y = paper_log f g h D).
Proof using All.
  intros Hf Hg. pose proof me_val. pose proof (log_constant_bounds c) as LB. fold B in LB. pose proof (icr_pos (c_charge c)) as Z0. unfold electron_log, paper_log. cbv zeta.
  change (Rpower Z (- (1 / 3))) with (inverse_cube_root (c_charge c)). pose proof (K_pos h) as Kp. assert (0 < E * v * (1 - r2)) as DD by (apply Rmult_lt_0_compat; [nra|lra]).
  rewrite quo_ok by lra. cbn [obind]. fold B Dn. change (2 * ME * exp h * B * inverse_cube_root (c_charge c) * (1 + xi) / (E * v * (1 - r2))) with (K h).
  rewrite quo_ok by lra. cbn [obind]. rewrite root_ok by lra. cbn [obind]. pose proof (sqrt_lt_R0 (1 + xi) ltac:(lra)) as S. set (s := sqrt (1 + xi)) in *. clearbody s.
  pose proof radius_pos as Rp. assert (0 < ME / mass) as M1 by (apply Rdiv_lt_0_compat; lra). set (m := ME / mass * Dn) in *. assert (0 < m) as Mp by (apply Rmult_lt_0_compat; lra). clearbody m.
  set (k := K h) in *. clearbody k. set (Z3 := inverse_cube_root (c_charge c)) in *. clearbody Z3. pose proof (exp_pos (- D)) as X1. pose proof (exp_pos D) as X2.
  assert (0 < B * Z3 * f * s) as N by (repeat apply Rmult_lt_0_compat; lra). assert (0 < m * m * g * (1 + xi)) as Np by (repeat apply Rmult_lt_0_compat; lra).
  destruct (Rltb_spec 0 D) as [P|P].
  - rewrite quo_ok by lra. cbn [obind]. rewrite log_ok by (apply Rdiv_lt_0_compat; lra). cbn [obind]. rewrite log_ok by lra. cbn [obind]. eexists. split; [reflexivity|]. intros _.
    replace (f * B * Z3 * s) with (B * Z3 * f * s) by ring. replace (g * m ^ 2 * (1 + xi)) with (m * m * g * (1 + xi)) by ring. reflexivity.
  - assert (0 < exp D * k) by (apply Rmult_lt_0_compat; auto). assert (0 < exp D * (m * m * g * (1 + xi))) by (apply Rmult_lt_0_compat; auto).
    rewrite quo_ok by lra. cbn [obind]. rewrite log_ok by (apply Rdiv_lt_0_compat; lra). cbn [obind]. rewrite log_ok by lra. cbn [obind]. eexists. split; [reflexivity|]. lra.
Qed.
Lemma heavy_log_value h D : heavy_log nan h mass c E v r2 xi D = Ok (ln (exp (- D) * (mass / ME) * B * Rpower Z (- (1 / 3)) / Dn / (exp (- D) + K h))).
Proof using All.
  pose proof me_val. pose proof (log_constant_bounds c) as LB. fold B in LB. pose proof (icr_pos (c_charge c)) as Z0. unfold heavy_log. cbv zeta.
  change (Rpower Z (- (1 / 3))) with (inverse_cube_root (c_charge c)). pose proof (K_pos h) as Kp. assert (0 < E * v * (1 - r2)) as DD by (apply Rmult_lt_0_compat; [nra|lra]).
  rewrite quo_ok by lra. cbn [obind]. fold B Dn. change (2 * ME * exp h * B * inverse_cube_root (c_charge c) * (1 + xi) / (E * v * (1 - r2))) with (K h).
  pose proof radius_pos as Rp. set (k := K h) in *. clearbody k. set (Z3 := inverse_cube_root (c_charge c)) in *. clearbody Z3. pose proof (exp_pos (- D)) as X1. pose proof (exp_pos D) as X2.
  assert (0 < mass / ME) as M1 by (apply Rdiv_lt_0_compat; lra). set (mm := mass / ME) in *. assert (0 < mm * B * Z3) as M2 by (apply Rmult_lt_0_compat; [apply Rmult_lt_0_compat; lra|lra]).
  assert (exp (- D) * exp D = 1) as XX by (rewrite <- exp_plus; replace (- D + D) with 0 by ring; apply exp_0).
  assert (exp D = / exp (- D)) as XI by (field_simplify_eq; [lra|lra]).
  destruct (Rltb_spec 0 D) as [P|P].
  - repeat (rewrite quo_ok by lra; cbn [obind]). replace (exp (- D) * mass / ME) with (exp (- D) * mm) by (unfold mm; field; lra). apply log_ok.
    apply Rdiv_lt_0_compat; [|lra]. apply Rdiv_lt_0_compat; [|lra]. apply Rmult_lt_0_compat; [|lra]. apply Rmult_lt_0_compat; [|lra]. apply Rmult_lt_0_compat; lra.
  - assert (0 < k * exp D) by (apply Rmult_lt_0_compat; lra). repeat (rewrite quo_ok by lra; cbn [obind]). fold mm. rewrite log_ok.
    + do 2 f_equal. rewrite XI. field. repeat split; lra.
    + apply Rdiv_lt_0_compat; [|lra]. apply Rdiv_lt_0_compat; lra.
Qed.
Lemma delta_sign : xi <= 10 ^ 12 -> 0 < electron_delta d mass v rho / phi_electron mass v rho.
Proof using All.
  intro X. apply Rdiv_lt_0_compat; [|exact (phi_exact_positive r2 beta xi Hr2 ltac:(lra) Hx)].
  assert (0 < 1 / (1 + xi) < 1) as Y. { split; [apply Rdiv_lt_0_compat; lra|]. apply (Rlt_div_l 1 1 (1 + xi)); lra. }
  unfold electron_delta. fold beta xi r2. apply delta_positive with (l := ln (1 + 1 / xi)); [exact Hr2|lra|lra|reflexivity|]. apply computed_above. exact Y.
Qed.
Lemma max_scaled k x : 0 <= k -> Rmax 0 (k * x) = k * Rmax 0 x.
Proof using. intro H. destruct (Rle_dec 0 x); [rewrite !Rmax_right by (try apply Rmult_le_pos; lra); reflexivity|rewrite !Rmax_left by nra; ring]. Qed.
Lemma sandrock_core : exists y, (forall k, sandrock_with nan k mass charge c E v (1 - rho) = k r2 beta xi y) /\ 0 <= y /\
  (xi <= 10 ^ 12 -> y = sandrock_formula d mass charge Z (c_atomic c) B E v rho).
Proof using All.
  pose proof me_val as Me. pose proof PI_RGT_0 as Pi. pose proof Hc as [[Z1 Z2] _]. fold Z in Z1, Z2. destruct zeta_value as [Ez Pz].
  destruct electron_terms_value as [Ee Pe]. destruct heavy_terms_value as [Eh Ph].
  unfold sandrock_with. cbv zeta. replace (1 - (1 - rho)) with rho by ring. replace (rho * rho) with r2 by (unfold r2; ring). rewrite Ez. cbn [obind].
  rewrite quo_ok by lra. cbn [obind]. replace (v * v / (2 * (1 - v))) with beta by (unfold beta, kelner_beta; field; lra).
  rewrite quo_ok by lra. cbn [obind]. replace (mass * v / (2 * ME) * (mass * v / (2 * ME)) * (1 - r2) / (1 - v)) with xi by (unfold xi, kelner_xi, r2; field; lra).
  rewrite Ee. cbn [obind]. rewrite quo_ok by lra. cbn [obind].
  destruct (electron_log_value 1 1 (1 / 2) (electron_delta d mass v rho / phi_electron mass v rho) ltac:(lra) ltac:(lra)) as (l1 & -> & F1). cbn [obind].
  destruct (electron_log_value (exp (- (1 / 6))) (exp (- (1 / 3))) (1 / 3) (electron_delta d mass v rho / phi_electron mass v rho) (exp_pos _) (exp_pos _)) as (l2 & -> & F2). cbn [obind].
  rewrite quo_ok by lra. cbn [obind]. rewrite Eh. cbn [obind]. rewrite quo_ok by lra. cbn [obind]. rewrite !heavy_log_value. cbn [obind]. rewrite quo_ok by lra. cbn [obind].
  change (ln (exp (- (heavy_delta d mass v rho / phi_heavy mass v rho)) * (mass / ME) * B * Rpower Z (- (1 / 3)) / Dn / (exp (- (heavy_delta d mass v rho / phi_heavy mass v rho)) + K (1 / 2))))
    with (heavy_logarithm d mass Z (c_atomic c) B E v rho (1 / 2)).
  change (ln (exp (- (heavy_delta d mass v rho / phi_heavy mass v rho)) * (mass / ME) * B * Rpower Z (- (1 / 3)) / Dn / (exp (- (heavy_delta d mass v rho / phi_heavy mass v rho)) + K (1 / 3))))
    with (heavy_logarithm d mass Z (c_atomic c) B E v rho (1 / 3)).
  eexists. split; [intro k; reflexivity|split].
  - apply Rplus_le_le_0_compat; apply Rmax_l.
  - intro X. pose proof (delta_sign X) as Ds. rewrite (F1 Ds), (F2 Ds). clear F1 F2.
    change (paper_log 1 1 (1 / 2) (electron_delta d mass v rho / phi_electron mass v rho)) with (electron_logarithm d mass Z (c_atomic c) B E v rho 1 1 (1 / 2)).
    change (paper_log (exp (- (1 / 6))) (exp (- (1 / 3))) (1 / 3) (electron_delta d mass v rho / phi_electron mass v rho))
      with (electron_logarithm d mass Z (c_atomic c) B E v rho (exp (- (1 / 6))) (exp (- (1 / 3))) (1 / 3)).
    unfold sandrock_formula. fold (electron_part d mass Z (c_atomic c) B E v rho). fold (heavy_part d mass Z (c_atomic c) B E v rho). fold Z.
    set (zeta := electrons_zeta mass Z E) in *. clearbody zeta. set (ep := electron_part d mass Z (c_atomic c) B E v rho). set (hp := heavy_part d mass Z (c_atomic c) B E v rho). clearbody ep hp.
    set (PR := 4 / (3 * PI) * Z * (Z + zeta) * (ALPHA * RE * charge) ^ 2 * ((1 - v) / v)).
    assert (0 <= PR) as HPR.
    { unfold PR. assert (0 <= (ALPHA * RE * charge) ^ 2) by (apply pow2_ge_0). assert (0 < (1 - v) / v) by (apply Rdiv_lt_0_compat; lra).
      assert (0 < 4 / (3 * PI)) by (apply Rdiv_lt_0_compat; lra). repeat (apply Rmult_le_pos; [|lra]); lra. }
    replace (4 / (3 * PI) * Z * (ALPHA * RE * charge * (ALPHA * RE * charge)) * (Z + zeta) * (1 - v) / v) with PR by (unfold PR; field; lra).
    replace (PR * (ME / mass * charge * (ME / mass * charge)) * hp) with (PR * (charge * ME / mass) ^ 2 * hp) by (field; lra).
    rewrite !max_scaled; [ring| |exact HPR]. apply Rmult_le_pos; [exact HPR|apply pow2_ge_0].
Qed.
Lemma sandrock_value : exists y, 0 <= y /\ sandrock_pair nan None mass charge c E v (1 - rho) = Ok y /\
  (xi <= 10 ^ 12 -> y = sandrock_formula d mass charge Z (c_atomic c) B E v rho) /\
  forall e density, 0 < e -> 0 < density ->
  sandrock_pair nan (Some (e, density)) mass charge c E v (1 - rho) = Ok (pair_suppressed (suppression_parameter e density E v rho) mass v rho y).
Proof using All.
  destruct sandrock_core as (y & Hy & Py & Ky). exists y. split; [exact Py|]. split; [|split; [exact Ky|]].
  - rewrite sandrock_with_pair, Hy. cbn [suppressed obind]. destruct (Rltb_spec y 0); [lra|reflexivity].
  - intros e density He Hd. rewrite sandrock_with_pair, Hy. cbn [suppressed].
    pose proof (suppression_value nan mass charge c E v rho Hc Hm HE Hv Hr e density He Hd) as Sv. cbv zeta in Sv. fold r2 beta xi in Sv. rewrite Sv. cbn [obind]. rewrite clamped.
    unfold pair_suppressed. fold xi. destruct (Rlt_dec _ _); [rewrite Rmult_1_r, Rmax_right by exact Py|]; reflexivity.
Qed.
End Pair.

(** ** The theorems *)
Lemma electron_delta_positive f mass v rho : dilogarithm f -> 0 < mass -> 0 < v < 1 -> 0 <= rho < 1 -> 0 < electron_delta f mass v rho.
Proof.
  intros F Hm Hv Hr. pose proof me_val as Me. unfold electron_delta. set (r2 := rho ^ 2). set (b := kelner_beta v). set (xi := kelner_xi mass v rho).
  assert (0 <= r2 < 1) as R2 by (unfold r2; cbn; nra). assert (0 < b) as Hb by (unfold b, kelner_beta; apply Rdiv_lt_0_compat; nra).
  assert (0 < xi) as X. { unfold xi, kelner_xi. apply Rdiv_lt_0_compat; [|lra]. apply Rmult_lt_0_compat; [|fold r2; lra]. apply pow_lt, Rdiv_lt_0_compat; nra. }
  clearbody r2 b xi.
  assert (0 < 1 / (1 + xi) < 1) as Y. { split; [apply Rdiv_lt_0_compat; lra|]. apply (Rlt_div_l 1 1 (1 + xi)); lra. }
  pose proof (dilogarithm_above f (1 / (1 + xi)) F ltac:(lra)) as D. set (d := f (1 / (1 + xi))) in *. clearbody d.
  assert (0 < 1 / xi) as Yi by (apply Rdiv_lt_0_compat; lra). pose proof (ln_trapezoid (1 / xi) Yi) as T. set (l := ln (1 + 1 / xi)) in *. clearbody l.
  replace (1 / xi * (2 + 1 / xi) / (2 * (1 + 1 / xi))) with ((1 + 2 * xi) / (2 * (1 + xi)) / xi) in T by (field; lra).
  assert (xi * l < (1 + 2 * xi) / (2 * (1 + xi))) as U.
  { apply (Rmult_lt_compat_l xi) in T; [|lra]. replace (xi * ((1 + 2 * xi) / (2 * (1 + xi)) / xi)) with ((1 + 2 * xi) / (2 * (1 + xi))) in T by (field; lra). exact T. }
  set (K := (2 + r2) * (1 + b) + xi * (3 + r2)). assert (0 < K) as HK by (unfold K; nra).
  assert (K * (1 / (1 + xi)) <= K * d) as A by (apply Rmult_le_compat_l; lra).
  assert ((2 + r2) * (xi * l) <= (2 + r2) * ((1 + 2 * xi) / (2 * (1 + xi)))) as V by (apply Rmult_le_compat_l; lra).
  assert (0 < K * (1 / (1 + xi)) - (2 + r2) * ((1 + 2 * xi) / (2 * (1 + xi))) - (xi + r2 + b) / (1 + xi)); [|nra].
  replace (K * (1 / (1 + xi)) - (2 + r2) * ((1 + 2 * xi) / (2 * (1 + xi))) - (xi + r2 + b) / (1 + xi))
    with ((1 - r2 / 2 + b * (1 + r2)) / (1 + xi)) by (unfold K; field; lra).
  apply Rdiv_lt_0_compat; [|lra]. assert (0 <= b * r2) by nra. lra.
Qed.
Lemma c68_sandrock nan f : dilogarithm f -> exists d, (forall x, Rabs (d x - f x) <= 1 / 10 ^ 14) /\
  forall mass charge c E v rho, element c -> 0 < mass -> 0 < E -> 0 < v < 1 -> 0 <= rho < 1 -> kelner_xi mass v rho <= 10 ^ 12 ->
  sandrock_pair nan None mass charge c E v (1 - rho) = Ok (sandrock_formula d mass charge (c_charge c) (c_atomic c) (log_constant c) E v rho).
Proof.
  intro F. exists (computed_dilog nan). split; [intro x; apply computed_close; exact F|]. intros mass charge c E v rho Hc Hm HE Hv Hr X.
  destruct (sandrock_value nan mass charge c E v rho Hc Hm HE Hv Hr) as (y & Py & E1 & Ey & _). rewrite E1, <- (Ey X). reflexivity.
Qed.
Lemma c68_sandrock_number nan mass charge c E v rho : element c -> 0 < mass -> 0 < E -> 0 < v < 1 -> 0 <= rho < 1 ->
  exists y, 0 <= y /\ sandrock_pair nan None mass charge c E v (1 - rho) = Ok y /\ forall e density, 0 < e -> 0 < density ->
  sandrock_pair nan (Some (e, density)) mass charge c E v (1 - rho) = Ok (pair_suppressed (suppression_parameter e density E v rho) mass v rho y).
Proof.
  intros Hc Hm HE Hv Hr. destruct (sandrock_value nan mass charge c E v rho Hc Hm HE Hv Hr) as (y & Py & E1 & _ & S).
  exists y. split; [exact Py|]. split; [exact E1|exact S].
Qed.
Lemma c68_sandrock_integral : forall nan qags mass charge c E v, element c -> 0 < mass -> 0 < E ->
  v_min (epair_limits mass (c_charge c) E) < v < v_max (epair_limits mass (c_charge c) E) ->
  let top := largest_asymmetry mass E v in top <= 1 - COMPUTER_PRECISION ->
  exists F r, (forall rho, 0 <= rho < 1 -> sandrock_pair nan None mass charge c E v (1 - rho) = Ok (F rho)) /\
  computed qags (fun t => exp t * F (1 - exp t)) (ln (1 - top)) (ln 1) 3 (midpoint_sum (fun t => exp t * F (1 - exp t)) (ln (1 - top)) (ln 1)) 12 5 IPREC r /\
  epair_differential nan qags (sandrock_pair nan None mass charge c E v) mass c E v = (flet (x, _) := (r : run (R * engine)) in done (Ok (NA / c_atomic c * x))).
Proof.
  intros nan qags mass charge c E v Hc Hm HE. apply pair_integral; auto. intros Hv rho Hr.
  destruct (c68_sandrock_number nan mass charge c E v rho Hc Hm HE Hv Hr) as (y & _ & Ey & _). now exists y.
Qed.
Lemma c68_sandrock_integral_top : forall nan qags mass charge c E v, element c -> 0 < mass -> 0 < E ->
  v_min (epair_limits mass (c_charge c) E) < v < v_max (epair_limits mass (c_charge c) E) ->
  let top := largest_asymmetry mass E v in let cut := COMPUTER_PRECISION in 1 - cut < top ->
  exists F r1 r2, (forall rho, 0 <= rho < 1 -> sandrock_pair nan None mass charge c E v (1 - rho) = Ok (F rho)) /\
  (computed qags (fun x => F (1 - x)) (1 - top) cut 3 (midpoint_sum (fun x => F (1 - x)) (1 - top) cut) 12 5 IPREC r1 \/
   top - (1 - cut) <= cut * cut /\ exists g, r1 = Some (Ok (0, g))) /\
  (forall x g, r1 = Some (Ok (x, g)) ->
   computed qags (fun t => exp t * F (1 - exp t)) (ln cut) (ln 1) 3 (midpoint_sum (fun t => exp t * F (1 - exp t)) (ln cut) (ln 1)) 12 5 IPREC (r2 g)) /\
  epair_differential nan qags (sandrock_pair nan None mass charge c E v) mass c E v =
    (flet (x, g) := (r1 : run (R * engine)) in flet (y, _) := (r2 g : run (R * engine)) in done (Ok (NA / c_atomic c * (x + y)))).
Proof.
  intros nan qags mass charge c E v Hc Hm HE. apply pair_integral_top; auto. intros Hv rho Hr.
  destruct (c68_sandrock_number nan mass charge c E v rho Hc Hm HE Hv Hr) as (y & _ & Ey & _). now exists y.
Qed.
