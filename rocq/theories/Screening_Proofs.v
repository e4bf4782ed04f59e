(** Complete screening, the clamped parametrizations, screening by electrons and
    ionization. *)
From Coq Require Import Lra Psatz.
From Coquelicot Require Import Coquelicot.
From Verif Require Import Prelude PreludeFacts Particle_Model Limits_Model Cross_Model Photo_Model Products_Model Differential_Model
  Ionization_Model Continuous_Model.
From Verif Require Import Continuous_Spec Differential_Spec Transform_Proofs Ionization_Proofs Continuous_Proofs Differential_Proofs Brems_Proofs.

Lemma ALPHA_val : 72 / 10000 <= ALPHA <= 73 / 10000.
Proof. unfold ALPHA. lra. Qed.
(** ** The Coulomb correction and the radiation logarithms *)
Lemma coulomb_range Z : 1 <= Z <= 100 -> 0 < coulomb Z <= 7 / 10.
Proof.
  intros H. pose proof ALPHA_val as A. unfold coulomb. set (a := ALPHA * Z * (ALPHA * Z)).
  assert (0 < ALPHA * Z <= 73 / 100) as B by nra. assert (0 < a <= 54 / 100) as C by (unfold a; nra). clearbody a.
  assert (0 < 1 / (1 + a)) as D by (apply Rdiv_lt_0_compat; lra). assert (1 / (1 + a) <= 1) as D2 by (apply Rle_div_l; lra).
  set (i := 1 / (1 + a)) in *. clearbody i.
  assert (- (2 / 100) <= a * (- (369 / 10 ^ 4) + a * (83 / 10 ^ 4 - 2 / 10 ^ 3 * a)) <= 0) as F.
  { assert (0 <= a * (83 / 10 ^ 4 - 2 / 10 ^ 3 * a) <= 5 / 1000) by nra. nra. }
  set (k := a * (- (369 / 10 ^ 4) + a * (83 / 10 ^ 4 - 2 / 10 ^ 3 * a))) in *. clearbody k.
  split; [apply Rmult_lt_0_compat; lra|]. nra.
Qed.
Lemma coulomb_heavy Z : 80 <= Z <= 100 -> 31 / 100 <= coulomb Z.
Proof.
  intros H. assert (729 / 100000 <= ALPHA <= 73 / 10000) as A by (unfold ALPHA; lra). unfold coulomb. set (a := ALPHA * Z * (ALPHA * Z)).
  assert (5832 / 10000 <= ALPHA * Z <= 73 / 100) as B by nra. assert (34 / 100 <= a <= 54 / 100) as C by (unfold a; nra). clearbody a.
  assert (253 / 1000 <= a * (1 / (1 + a))) as D.
  { replace (a * (1 / (1 + a))) with (a / (1 + a)) by (field; lra). apply (proj1 (Rle_div_r (253 / 1000) a (1 + a) ltac:(lra))). lra. }
  assert (0 <= a * a * (83 / 10 ^ 4 - 2 / 10 ^ 3 * a)) as F by (apply Rmult_le_pos; nra).
  assert (61 / 1000 <= a * (20206 / 10 ^ 5 - 369 / 10 ^ 4 * a)) as G by nra.
  replace (a * (1 / (1 + a) + 20206 / 10 ^ 5 + a * (- (369 / 10 ^ 4) + a * (83 / 10 ^ 4 - 2 / 10 ^ 3 * a)))) with
    (a * (1 / (1 + a)) + a * (20206 / 10 ^ 5 - 369 / 10 ^ 4 * a) + a * (a * a * (83 / 10 ^ 4 - 2 / 10 ^ 3 * a))) by ring.
  assert (0 <= a * (a * a * (83 / 10 ^ 4 - 2 / 10 ^ 3 * a))) by (apply Rmult_le_pos; lra). lra.
Qed.
Lemma ln_32 : 344 / 100 <= ln 32.
Proof. replace 32 with (2 ^ 5) by ring. rewrite ln_pow by lra. pose proof ln_two_lower. cbn [INR]. lra. Qed.
Lemma logarithms_value nan Z : 1 <= Z <= 100 -> exists a b, radiation_logarithms nan Z = Ok (a, b) /\ 344 / 100 <= a /\ 344 / 100 <= b.
Proof.
  intros H. unfold radiation_logarithms. pose proof ln_32 as L.
  assert (215 / 1000 <= inverse_cube_root Z) as Q by (apply icr_ge; lra). set (z := inverse_cube_root Z) in *. clearbody z.
  assert (46 / 1000 <= z * z) by nra.
  assert (32 <= 18415 / 100 * z) as A by lra. assert (32 <= 1194 * z * z) as B by nra.
  assert (exists a b, (olet Lr := log nan (18415 / 100 * z) in olet Lp := log nan (1194 * z * z) in Ok (Lr, Lp)) = Ok (a, b) /\ 344 / 100 <= a /\ 344 / 100 <= b) as G.
  { rewrite log_ok by lra. cbn [obind]. rewrite log_ok by lra. cbn [obind]. do 2 eexists. split; [reflexivity|].
    split; eapply Rle_trans; try exact L; apply ln_le; lra. }
  destruct (truncate (Z + 1 / 2)) as [|[[p|p|]|[p|[p|p|]|]|]|p]; try exact G; do 2 eexists; (split; [reflexivity|lra]).
Qed.
Section Screening.
Variable nan : forall A, outcome A.
Lemma complete_positive mass c E : 0 < mass -> 0 < E -> element c ->
  never_negative (brems_limits None mass (c_charge c) E) (complete_screening nan c).
Proof.
  intros M EP el v V. cbn [v_min brems_limits] in V. destruct (range_max mass E v c M EP V) as [V1 _]. destruct el as [Z _].
  unfold complete_screening. destruct (logarithms_value nan (c_charge c) Z) as (a & b & -> & A & B). cbn [obind fst snd].
  pose proof (coulomb_range (c_charge c) Z) as F. rewrite quo_ok by lra. eexists. split; [reflexivity|].
  apply Rlt_le, Rdiv_lt_0_compat; [|lra]. apply Rplus_lt_le_0_compat.
  - apply Rmult_lt_0_compat; [apply weight_function; lra|]. assert (0 < c_charge c * (a - coulomb (c_charge c))) by (apply Rmult_lt_0_compat; lra). lra.
  - apply Rmult_le_pos; lra.
Qed.
(** ** The clamped parametrizations *)
Lemma andreev_positive mass c E : 0 < mass -> 0 < E -> element c ->
  never_negative (brems_limits None mass (c_charge c) E) (andreev nan mass c E).
Proof.
  intros M EP el v V. cbn [v_min brems_limits] in V. pose proof ME_pos as P. pose proof SQRTE_val as U.
  assert (0 < MMU) as MU by (unfold MMU; lra). assert (1 <= c_charge c) as Z by apply el.
  unfold andreev. pose proof (icr_pos (c_charge c)) as zP. set (z := inverse_cube_root (c_charge c)) in *. clearbody z.
  set (a1 := 18415 / 100 * z / (SQRTE * ME)). set (a2 := 1194 * z * z / (SQRTE * ME)). set (qc := 19 / 10 * MMU * z).
  assert (0 < SQRTE * ME) as UM by nra.
  assert (0 < a1) as A1 by (apply Rdiv_lt_0_compat; lra). assert (0 < a2) as A2 by (apply Rdiv_lt_0_compat; [nra|lra]).
  assert (0 < qc) as QC by (unfold qc; nra). clearbody a1 a2 qc.
  rewrite quo_ok by lra. cbn [obind]. set (aux := 2 * mass / qc). assert (0 < aux) as AP by (apply Rdiv_lt_0_compat; lra). clearbody aux.
  set (zeta := sqrt (1 + aux * aux)). assert (1 < zeta) as ZP by (unfold zeta; rewrite <- sqrt_1 at 1; apply sqrt_lt_1; nra). clearbody zeta.
  rewrite (momentum_ok mass E v c M EP V). cbn [obind]. pose proof (least_pos mass E v c M EP V) as L. set (delta := least mass E v) in *. clearbody delta.
  set (x1 := a1 * delta). set (x2 := a2 * delta). assert (0 < x1) as X1 by (unfold x1; nra). assert (0 < x2) as X2 by (unfold x2; nra). clearbody x1 x2.
  match goal with |- context [if c_charge c =? 1 then Ok (0, 0) else ?t] =>
    assert (exists d1 d2, (if c_charge c =? 1 then Ok (0, 0) else t) = Ok (d1, d2)) as (d1 & d2 & ->) end.
  { destruct (c_charge c =? 1); [now do 2 eexists|]. rewrite quo_ok by lra. cbn [obind]. rewrite log_ok by (apply Rdiv_lt_0_compat; lra). cbn [obind].
    rewrite quo_ok by lra. cbn [obind]. rewrite log_ok by (apply Rdiv_lt_0_compat; lra). cbn [obind]. now do 2 eexists. }
  cbn [obind]. assert (0 < x1 * x1) as Y1 by nra. assert (0 < x2 * x2) as Y2 by nra.
  assert (0 < mass * a1 * (mass * a1)) as B1 by (apply Rmult_lt_0_compat; nra). assert (0 < mass * a2 * (mass * a2)) as B2 by (apply Rmult_lt_0_compat; nra).
  steps ltac:(first [lra|apply Rdiv_lt_0_compat; lra]). eexists. split; [reflexivity|].
  match goal with |- 0 <= if ?a <? 0 then 0 else ?b => destruct (Rltb_spec a 0); lra end.
Qed.
Lemma sandrock_positive mass c E : 0 < mass -> 0 < E -> element c ->
  never_negative (brems_limits None mass (c_charge c) E) (sandrock nan mass c E).
Proof.
  intros M EP el v V. cbn [v_min brems_limits] in V. pose proof ME_pos as P. pose proof SQRTE_val as U.
  assert (0 < MMU) as MU by (unfold MMU; lra). assert (1 <= c_charge c) as Z by apply el.
  pose proof (range_energy mass E v c M EP el V) as EM. destruct (range_max mass E v c M EP V) as [V1 _].
  unfold sandrock. pose proof (icr_pos (c_charge c)) as zP. set (z := inverse_cube_root (c_charge c)) in *. clearbody z.
  destruct (nuclear_radius_bounds c el) as [D1 _]. set (D := nuclear_radius (c_atomic c)) in *. clearbody D.
  pose proof (log_constant_bounds c) as BB. pose proof (b_prime_bounds c) as BP. set (B := log_constant c) in *. set (B' := b_prime c) in *. clearbody B B'.
  pose proof (exp_pos 1) as X1. pose proof (exp_pos (1 / 2)) as X2. pose proof (exp_pos (1 / 3)) as X3. pose proof (exp_pos (- 1 / 6)) as X4.
  assert (0 < MMU * exp 1 / D) as Q by (apply Rdiv_lt_0_compat; nra).
  rewrite quo_ok by lra. cbn [obind]. set (mq := mass / (MMU * exp 1 / D)). assert (0 < mq) as QP by now apply Rdiv_lt_0_compat. clearbody mq.
  set (rho := sqrt (1 + 4 * mq * mq)). assert (1 < rho) as RP by (unfold rho; rewrite <- sqrt_1 at 1; apply sqrt_lt_1; nra). clearbody rho.
  rewrite quo_ok by lra. cbn [obind]. rewrite log_ok by (apply Rdiv_lt_0_compat; lra). cbn [obind]. rewrite log_ok by lra. cbn [obind].
  rewrite (momentum_ok mass E v c M EP V). cbn [obind]. pose proof (least_pos mass E v c M EP V) as L. 
  destruct (electron_limit_value nan mass E (conj M EM)) as (w & -> & _). set (delta := least mass E v) in *. clearbody delta.
  assert (0 < mass / ME) as MM by now apply Rdiv_lt_0_compat. assert (0 < B * z) as Bz by nra.
  assert (0 < 1 + B * z * exp (1 / 2) * delta / ME) as N1.
  { assert (0 < B * z * exp (1 / 2) * delta / ME); [|lra]. apply Rdiv_lt_0_compat; [|lra]. repeat apply Rmult_lt_0_compat; lra. }
  assert (0 < 1 + B * z * exp (1 / 3) * delta / ME) as N2.
  { assert (0 < B * z * exp (1 / 3) * delta / ME); [|lra]. apply Rdiv_lt_0_compat; [|lra]. repeat apply Rmult_lt_0_compat; lra. }
  assert (0 < B * z * (mass / ME)) as N3 by now apply Rmult_lt_0_compat.
  assert (0 < B * z * exp (- 1 / 6) * (mass / ME)) as N4 by (apply Rmult_lt_0_compat; nra).
  rewrite quo_ok by lra. cbn [obind]. rewrite log_ok by now apply Rdiv_lt_0_compat. cbn [obind].
  rewrite quo_ok by lra. cbn [obind]. rewrite log_ok by now apply Rdiv_lt_0_compat. cbn [obind].
  rewrite quo_ok by lra. cbn [obind].
  assert (exists s, (if v <? w then
       olet q := quo nan mass delta in
       olet q := quo nan q (mass * delta / (ME * ME) + SQRTE) in
       olet s1 := log nan q in
       olet f := quo nan ME (delta * B' * z * z * SQRTE) in
       olet s2 := log nan (1 + f) in
       Ok ((4 / 3 * (1 - v) + v * v) * (s1 - s2))
     else Ok 0) = Ok s) as (s & ->).
  { destruct (v <? w); [|now eexists].
    assert (0 < mass * delta / (ME * ME)) by (apply Rdiv_lt_0_compat; nra).
    assert (0 < mass / delta) by now apply Rdiv_lt_0_compat.
    assert (0 < delta * B' * z * z * SQRTE) by (repeat apply Rmult_lt_0_compat; lra).
    assert (0 < ME / (delta * B' * z * z * SQRTE)) by now apply Rdiv_lt_0_compat.
    rewrite quo_ok by lra. cbn [obind]. rewrite quo_ok by lra. cbn [obind]. rewrite log_ok by (apply Rdiv_lt_0_compat; lra). cbn [obind].
    rewrite quo_ok by lra. cbn [obind]. rewrite log_ok by lra. cbn [obind]. now eexists. }
  cbn [obind]. assert (exists r, radiative nan v = Ok r) as (r & ->).
  { unfold radiative. rewrite (proj2 (Rltb_false _ _)) by lra. rewrite (proj2 (Rltb_false 1 v)) by lra. cbn [orb].
    destruct (v <? 2 / 100); [now eexists|]. destruct (v <? 1 / 10); [now eexists|].
    destruct (v <? 9 / 10); rewrite log_ok by lra; cbn [obind]; rewrite log_ok by lra; now eexists. }
  cbn [obind]. eexists. split; [reflexivity|]. apply Rmax_r.
Qed.
(** ** Screening by electrons *)
Lemma ln_100 : ln 100 <= 480 / 100.
Proof.
  rewrite <- (ln_exp (480 / 100)). apply ln_le; [lra|].
  pose proof (exp_lower (480 / 100) 64) as H. replace (INR 64) with 64 in H by (rewrite INR_IZR_INZ; reflexivity).
  specialize (H ltac:(lra) ltac:(lia)). eapply Rle_trans; [|exact H].
  replace ((1 + 480 / 100 / 64) ^ 64) with (((((((1 + 480 / 100 / 64) ^ 2) ^ 2) ^ 2) ^ 2) ^ 2) ^ 2) by (rewrite <- !pow_mult; reflexivity). lra.
Qed.
Lemma screening_negative correction c E : 80 <= c_charge c <= 100 -> 50 <= E ->
  exists x, electron_screening nan correction ME c E (v_max (brems_default_limits ME E)) = Ok x /\ x < 0.
Proof.
  intros Z H. pose proof ME_pos as P. assert (ME <= 52 / 100) as MU by (unfold ME; lra). cbn [brems_default_limits v_max].
  assert (0 < ME / E) as R1 by (apply Rdiv_lt_0_compat; lra). assert (ME / E <= 11 / 1000) as R2 by (apply Rle_div_l; lra).
  set (v := 1 - ME / E). assert (989 / 1000 <= v < 1) as V by (unfold v; lra).
  unfold electron_screening. rewrite log_ok by lra. cbn [obind].
  assert (momentum nan ME E v = Ok (ME * v / 2)) as ->.
  { unfold momentum. assert (2 * E * (1 - v) = 2 * ME) as -> by (unfold v; field; lra). rewrite quo_ok by lra. f_equal. field. lra. }
  cbn [obind].
  assert (215 / 1000 <= inverse_cube_root (c_charge c)) as ZB by (apply icr_ge; lra).
  assert (ln (inverse_cube_root (c_charge c)) = - (1 / 3) * ln (c_charge c)) as LZ by (unfold inverse_cube_root, Rpower; apply ln_exp).
  set (z := inverse_cube_root (c_charge c)) in *. clearbody z.
  replace (136 * z * 2 * (ME * v / 2) / ME) with (136 * v * z) by (field; lra).
  assert (1 < 136 * v * z) as X by nra.
  unfold screening_functions. rewrite (proj2 (Rleb_false _ _)) by lra. rewrite log_ok by lra. cbn [obind].
  destruct (logarithms_value nan (c_charge c) ltac:(lra)) as (a & b & -> & A & B). cbn [obind fst snd].
  pose proof (coulomb_range (c_charge c) ltac:(lra)) as F. pose proof (coulomb_heavy (c_charge c) Z) as F2.
  rewrite quo_ok by lra. cbn [obind]. rewrite (proj2 (Rltb_false E 50)) by lra. cbn [obind]. eexists. split; [reflexivity|].
  set (f := coulomb (c_charge c)) in *. clearbody f.
  assert (0 < b / (a - f)) as XI by (apply Rdiv_lt_0_compat; lra).
  assert (ln (136 * v * z) <= ln (136 * v * z + 952 / 1000)) as L1 by (apply ln_le; lra).
  rewrite (ln_mult (136 * v) z) in L1 by lra. rewrite LZ in L1.
  assert (4823 / 1000 <= ln (136 * v)) as L2.
  { pose proof ln_two_lower as Q. apply Rle_trans with (ln (2 ^ 7)); [rewrite ln_pow by lra; cbn [INR]; lra|]. apply ln_le; [lra|]. replace (2 ^ 7) with 128 by ring. lra. }
  assert (ln (c_charge c) <= 480 / 100) as L3 by (eapply Rle_trans; [|exact ln_100]; apply ln_le; lra).
  set (l := ln (136 * v * z + 952 / 1000)) in *. set (lz := ln (c_charge c)) in *. clearbody l lz.
  assert (2112 / 100 - 4184 / 1000 * l - 4 / 3 * lz - 4 * f < 0) as N by lra.
  replace ((2 - 2 * v + v * v) * (2112 / 100 - 4184 / 1000 * l - 4 / 3 * lz - 4 * f) - 2 / 3 * (1 - v) * (2112 / 100 - 4184 / 1000 * l - 4 / 3 * lz - 4 * f))
    with ((4 / 3 * (1 - v) + v * v) * (2112 / 100 - 4184 / 1000 * l - 4 / 3 * lz - 4 * f)) by field.
  pose proof (weight_function v ltac:(lra)) as W. assert (0 < 1 * c_charge c * (c_charge c + b / (a - f))) as K by (apply Rmult_lt_0_compat; lra).
  set (k := 1 * c_charge c * (c_charge c + b / (a - f))) in *. clearbody k.
  set (n := 2112 / 100 - 4184 / 1000 * l - 4 / 3 * lz - 4 * f) in *. clearbody n.
  set (w := 4 / 3 * (1 - v) + v * v) in *. clearbody w. assert (w * n < 0) by nra. nra.
Qed.
End Screening.

(** ** Ionization *)
Section Ionization.
Variable nan : forall A, outcome A.
Lemma limits_max m E : ME < E -> v_max (bhabha_limits m E) = 1 - m / E \/ v_max (bhabha_limits m E) = 0.
Proof. intros H. cbn. destruct (_ <? _); tauto. Qed.
Lemma bhabha_never_negative m E : sound_material m -> ME < E -> never_negative (bhabha_limits ME E) (bhabha nan ME m E).
Proof.
  intros S H v V. assert (0 < v <= 1 - ME / E) as W.
  { cbn [bhabha_limits v_min v_max] in V. destruct (1 - ME / E <? 0); lra. }
  destruct (bhabha_partition nan (fun _ _ _ => nan _) m E S H) as (s & P & _). destruct (P v W) as [-> Q]. eexists. split; [reflexivity|lra].
Qed.
Lemma moller_never_negative m E : sound_material m -> ME < E -> never_negative (moller_limits ME E) (moller nan ME m E).
Proof.
  intros S H v V. assert (0 < v <= 1 / 2 * (1 - ME / E)) as W.
  { cbn [moller_limits v_min v_max] in V. destruct (1 / 2 * (1 - ME / E) <? 0); lra. }
  destruct (moller_partition nan (fun _ _ _ => nan _) m E S H) as (s & P & _). destruct (P v W) as [-> Q]. eexists. split; [reflexivity|lra].
Qed.
Lemma correction_negative a b c A C : 0 <= a <= A -> b <= - (A * Rabs C + 40) -> c <= C -> ALPHA / (2 * PI) * (a * (2 * b + c) - b * b) < -1.
Proof.
  intros [A0 A1] B C1. pose proof (Rle_abs C) as C2. pose proof (Rabs_pos C) as C3. set (k := Rabs C) in *.
  assert (0 <= A * k) as K by (apply Rmult_le_pos; lra).
  assert (a * c <= A * k) as D.
  { apply Rle_trans with (a * k); [apply Rmult_le_compat_l; lra|apply Rmult_le_compat_r; lra]. }
  assert (a * b <= 0) as F by nra. assert (1600 + A * k <= b * b) as G by nra. clearbody k.
  assert (a * (2 * b + c) - b * b <= -1600) as N by lra.
  pose proof PI_RGT_0 as P. pose proof PI_4 as P4. pose proof ALPHA_val as Al.
  assert (9 / 10000 <= ALPHA / (2 * PI)) as Q by (apply (proj1 (Rle_div_r (9 / 10000) ALPHA (2 * PI) ltac:(lra))); lra).
  set (q := ALPHA / (2 * PI)) in *. set (n := a * (2 * b + c) - b * b) in *. clearbody q n. nra.
Qed.
Lemma rossi_negative mass charge m E : sound_material m -> 0 < mass < E -> charge <> 0 ->
  let lim := ionization_limits mass (mat_I m) E in v_min lim < v_max lim ->
  exists v x, v_min lim < v < v_max lim /\ rossi nan mass charge m E v = Ok x /\ x < 0.
Proof.
  intros S [M EM] Q lim L. destruct (fraction_positive nan m S) as (f & F & Fe).
  pose proof (vmin_pos mass m E S M EM) as Vm. fold lim in Vm. pose proof (vmax_below mass m E M EM L) as V1. fold lim in V1.
  pose proof (gamma_big mass E M EM) as G. pose proof (beta_positive mass E M EM) as B. pose proof (inverse_gamma mass E M EM) as Ig. pose proof ME_pos as P.
  set (W := v_max lim) in *. set (gamma := E / mass) in *.
  set (A := ln (1 + 2 * E / ME)). set (C := ln (4 * gamma * ME / (mass * W))).
  set (eps := Rmin (Rmin (1 / 2) ((1 - v_min lim / W) / 2)) ((1 - W) * exp (- (A * Rabs C + 40)))).
  assert (0 < 1 - v_min lim / W) as S1.
  { assert (v_min lim / W < 1); [|lra]. apply Rlt_div_l; lra. }
  pose proof (exp_pos (- (A * Rabs C + 40))) as XP.
  assert (0 < eps) as E0 by (unfold eps; repeat apply Rmin_glb_lt; try lra; apply Rmult_lt_0_compat; lra).
  assert (eps <= 1 / 2 /\ eps <= (1 - v_min lim / W) / 2 /\ eps <= (1 - W) * exp (- (A * Rabs C + 40))) as (E1 & E2 & E3).
  { unfold eps. pose proof (Rmin_l (Rmin (1 / 2) ((1 - v_min lim / W) / 2)) ((1 - W) * exp (- (A * Rabs C + 40)))).
    pose proof (Rmin_r (Rmin (1 / 2) ((1 - v_min lim / W) / 2)) ((1 - W) * exp (- (A * Rabs C + 40)))).
    pose proof (Rmin_l (1 / 2) ((1 - v_min lim / W) / 2)). pose proof (Rmin_r (1 / 2) ((1 - v_min lim / W) / 2)). lra. }
  clearbody eps. set (v := W * (1 - eps)).
  assert (v_min lim < v < W) as VV.
  { unfold v. split; [|nra]. assert (v_min lim = W * (v_min lim / W)) as Hv by (field; lra). rewrite Hv. apply Rmult_lt_compat_l; lra. }
  assert (v < 1) as V2 by lra. assert (W / 2 <= v) as V3 by (unfold v; nra).
  assert (1 - v / W = eps) as Sh by (unfold v; field; lra).
  exists v. eexists. split; [exact VV|]. unfold rossi. rewrite (core_value nan mass charge m E f M EM Fe v) by (fold lim W; lra). cbn [obind].
  rewrite (correction_value nan mass m E M EM v) by (fold lim W; lra). cbn [obind]. split; [reflexivity|].
  assert (0 < core mass charge m E f v) as K.
  { unfold core. fold lim W gamma. set (beta := sqrt (Rmax ((E - mass) * (E + mass)) 0) / E) in *.
    assert (beta * beta <= 1) as B1.
    { assert (beta <= 1); [|nra]. unfold beta. apply Rle_div_l; [lra|]. rewrite Rmax_left by nra. rewrite Rmult_1_l.
      rewrite <- (sqrt_Rsqr E) at 3 by lra. apply sqrt_le_1; [nra|apply Rle_0_sqr|unfold Rsqr; nra]. }
    assert (0 < v / W < 1) as S2 by (split; [apply Rdiv_lt_0_compat; lra|lra]).
    apply Rmult_lt_0_compat.
    - assert (beta * beta * (v / W) < 1) by (assert (0 < beta * beta) by nra; nra).
      assert (0 < v / (1 + 1 / gamma)) as T by (apply Rdiv_lt_0_compat; lra).
      assert (0 < v / (1 + 1 / gamma) * (1 / 2 * (v / (1 + 1 / gamma)))) by (apply Rmult_lt_0_compat; lra). lra.
    - apply Rdiv_lt_0_compat.
      + apply Rmult_lt_0_compat; [|exact F]. rewrite Rmult_assoc. apply Rmult_lt_0_compat; [unfold IONK; lra|]. exact (Rsqr_pos_lt charge Q).
      + assert (0 < beta * beta) by nra. repeat (apply Rmult_lt_0_compat; try lra). }
  assert (correction mass m E v < -1) as N.
  { unfold correction. fold lim W gamma. rewrite Sh. apply (correction_negative _ _ _ A C).
    - assert (0 < 2 * v * E / ME) by (apply Rdiv_lt_0_compat; nra). split; [rewrite <- ln_1; apply ln_le; lra|].
      unfold A. apply ln_le; [lra|]. apply Rplus_le_compat_l. apply Rmult_le_compat_r; [apply Rlt_le, Rinv_0_lt_compat; lra|nra].
    - rewrite <- (ln_exp (- (A * Rabs C + 40))). apply ln_le; [apply Rdiv_lt_0_compat; lra|]. apply Rle_div_l; [lra|].
      eapply Rle_trans; [exact E3|]. rewrite Rmult_comm. apply Rmult_le_compat_l; lra.
    - unfold C. apply ln_le; [apply Rdiv_lt_0_compat; [repeat (apply Rmult_lt_0_compat; try lra)|nra]|].
      apply Rle_div_l; [nra|].
      replace (4 * gamma * ME / (mass * W) * (mass * v)) with (2 * gamma * ME * (2 * v / W)) by (field; lra).
      replace (2 * gamma * (1 - v) * ME) with (2 * gamma * ME * (1 - v)) by ring.
      apply Rmult_le_compat_l; [nra|]. apply Rle_trans with 1; [lra|]. apply (proj1 (Rle_div_r 1 (2 * v) W ltac:(lra))). lra. }
  nra.
Qed.
End Ionization.

(** ** The differential cross sections of bremsstrahlung *)
Lemma lorenz_range lorenz mass Z E v : v_min (brems_limits lorenz mass Z E) < v <= v_max (brems_limits lorenz mass Z E) ->
  v_min (brems_limits None mass Z E) < v <= v_max (brems_limits None mass Z E).
Proof.
  cbn [brems_limits v_min v_max]. destruct (_ <? 0); [easy|]. destruct lorenz as [cut|]; [|easy]. intros [A B]. split; [exact A|].
  eapply Rle_trans; [exact B|apply Rmin_l].
Qed.
Lemma element_positive c : element c -> 0 < c_charge c /\ 0 < c_atomic c.
Proof. intros [[A _] [B _]]. lra. Qed.
Section Results.
Variables (nan : forall A, outcome A) (lorenz : option R) (mass charge : R) (c : component) (E : R).
Hypotheses (M : ME <= mass) (Q : charge <> 0) (EP : 0 < E) (el : element c).
Lemma mass_positive : 0 < mass.
Proof. pose proof ME_pos. lra. Qed.
Lemma wrap screening parametrization : never_negative (brems_limits None mass (c_charge c) E) (parametrization E) ->
  never_negative (brems_limits lorenz mass (c_charge c) E) (bremsstrahlung nan screening parametrization None mass charge c E).
Proof.
  intros H. destruct (element_positive c el) as [Z A]. apply bremsstrahlung_never_negative; try assumption; [exact mass_positive|cbn; lra|].
  intros v V. apply H. now apply lorenz_range in V.
Qed.
Lemma petrukhin_result : c_charge c <= 10 ->
  never_negative (brems_limits lorenz mass (c_charge c) E) (bremsstrahlung nan false (petrukhin_shestakov nan mass c) None mass charge c E).
Proof. intros Z. apply wrap. now apply petrukhin_light. Qed.
Lemma kelner_result : lepton mass ->
  never_negative (brems_limits lorenz mass (c_charge c) E) (bremsstrahlung nan false (kelner nan mass c) None mass charge c E).
Proof. intros L. apply wrap. now apply kelner_positive. Qed.
Lemma complete_result : never_negative (brems_limits lorenz mass (c_charge c) E) (bremsstrahlung nan false (fun _ => complete_screening nan c) None mass charge c E).
Proof. apply wrap. apply complete_positive; try assumption. exact mass_positive. Qed.
Lemma andreev_result : never_negative (brems_limits lorenz mass (c_charge c) E) (bremsstrahlung nan false (andreev nan mass c) None mass charge c E).
Proof. apply wrap. apply andreev_positive; try assumption. exact mass_positive. Qed.
Lemma sandrock_result : never_negative (brems_limits lorenz mass (c_charge c) E) (bremsstrahlung nan false (sandrock nan mass c) None mass charge c E).
Proof. apply wrap. apply sandrock_positive; try assumption. exact mass_positive. Qed.
Lemma petrukhin_refuted : 10 < c_charge c -> 73 * mass ^ 2 / ME <= E ->
  let lim := brems_limits None mass (c_charge c) E in
  exists v x, v_min lim < v <= v_max lim /\ bremsstrahlung nan false (petrukhin_shestakov nan mass c) None mass charge c E v = Ok x /\ x < 0.
Proof.
  intros Z H lim. destruct (element_positive c el) as [Z0 A]. destruct (petrukhin_heavy nan mass c E M el Z H) as (V & x & X & N). fold lim in V, X.
  destruct (bremsstrahlung_sign nan false (petrukhin_shestakov nan mass c) None mass charge c E (v_max lim) x 1 mass_positive Z0 A Q V X eq_refl) as (k & K & HK).
  exists (v_max lim). eexists. split; [cbn [v_min brems_limits lim] in *; lra|]. split; [exact HK|]. nra.
Qed.
End Results.
Lemma screening_refuted nan correction charge c E : charge <> 0 -> element c -> 80 <= c_charge c -> 50 <= E ->
  let lim := brems_default_limits ME E in
  exists v x, v_min lim < v <= v_max lim /\ bremsstrahlung nan true (electron_screening nan correction ME c) None ME charge c E v = Ok x /\ x < 0.
Proof.
  intros Q el Z H lim. destruct (element_positive c el) as [Z0 A]. assert (c_charge c <= 100) as Z1 by apply el.
  destruct (screening_negative nan correction c E (conj Z Z1) H) as (x & X & N). fold lim in X. pose proof ME_pos as P.
  assert (0 < v_max lim) as V.
  { cbn. assert (ME / E < 1); [|lra]. apply Rlt_div_l; [lra|]. assert (ME < 1) by (unfold ME; lra). lra. }
  destruct (bremsstrahlung_sign nan true (electron_screening nan correction ME c) None ME charge c E (v_max lim) x 1 P Z0 A Q V X eq_refl) as (k & K & HK).
  exists (v_max lim). eexists. split; [cbn [v_min brems_default_limits lim] in *; lra|]. split; [exact HK|]. nra.
Qed.
Lemma klein_nishina_result nan c E v : 0 < E -> 0 < c_charge c -> 0 < c_atomic c -> v_min (compton_limits E) <= v <= v_max (compton_limits E) ->
  klein_nishina nan c E v = Ok (klein_nishina_formula c E v) /\ 0 < klein_nishina_formula c E v /\ -1 <= compton_angle E v <= 1.
Proof.
  intros P Z A V. pose proof (compton_max_lt E P) as L. assert (v < 1) as V1 by lra.
  split; [now apply klein_nishina_value|]. split; [now apply klein_nishina_positive|now apply compton_angle_range].
Qed.
