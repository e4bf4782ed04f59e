(** Bremsstrahlung of electrons with screening by electrons: where the cross section is
    not negative. *)
From Coq Require Import Lra Psatz.
From Coquelicot Require Import Coquelicot.
From Verif Require Import Prelude PreludeFacts Particle_Model Limits_Model Cross_Model Photo_Model Products_Model Differential_Model
  Ionization_Model Continuous_Model.
From Verif Require Import Continuous_Spec Differential_Spec Transform_Proofs Ionization_Proofs Continuous_Proofs Differential_Proofs Brems_Proofs
  Log_Proofs Screening_Proofs.

Section Light.
Variable nan : forall A, outcome A.
Lemma functions_bounds x : 0 < x -> exists p1 p2, screening_functions nan x = Ok (p1, p2) /\ p2 <= p1 <= 20867 / 1000 /\
  ((x <= 1 /\ 18 <= p2) \/ (1 < x /\ p1 = p2 /\ p1 = 2112 / 100 - 4184 / 1000 * ln (x + 952 / 1000))).
Proof.
  intros X. unfold screening_functions. destruct (Rleb_spec x 1) as [H|H].
  - do 2 eexists. split; [reflexivity|]. split; [split; nra|]. left. split; [lra|nra].
  - rewrite log_ok by lra. cbn [obind]. do 2 eexists. split; [reflexivity|].
    assert (/ 2 < ln (x + 952 / 1000)) as L.
    { apply Rlt_le_trans with (ln (19 / 10)); [|apply ln_le; lra]. pose proof ln_2 as L2. replace (19 / 10) with (2 * (19 / 20)) by lra. rewrite ln_mult by lra.
      assert (- (1 / 10) <= ln (19 / 20)); [|lra]. replace (19 / 20) with (/ (20 / 19)) by lra. rewrite ln_Rinv by lra.
      assert (ln (20 / 19) <= 1 / 19); [|lra]. replace (20 / 19) with (1 + 1 / 19) by lra. apply Rlt_le. rewrite <- (ln_exp (1 / 19)) at 2. apply ln_increasing; [lra|]. apply exp_ineq1. lra. }
    split; [lra|]. right. split; [lra|]. split; reflexivity.
Qed.
Lemma ln_141 : ln (14045 / 100) <= 495 / 100.
Proof.
  pose proof ln_2 as L2. replace (14045 / 100) with (2 ^ 7 * (14045 / 12800)) by lra. rewrite ln_mult by lra. rewrite ln_pow by lra.
  assert (ln (14045 / 12800) <= 1245 / 12800) as A.
  { replace (14045 / 12800) with (1 + 1245 / 12800) by lra. apply Rlt_le. rewrite <- (ln_exp (1245 / 12800)) at 2. apply ln_increasing; [lra|]. apply exp_ineq1. lra. }
  cbn [INR]. lra.
Qed.
Lemma coulomb_light Z : 1 <= Z <= 40 -> coulomb Z <= 1 / 10.
Proof.
  intros H. assert (729 / 100000 <= ALPHA <= 73 / 10000) as A by (unfold ALPHA; lra). unfold coulomb. set (a := ALPHA * Z * (ALPHA * Z)).
  assert (0 < ALPHA * Z <= 292 / 1000) as B by nra. assert (0 < a <= 853 / 10000) as C by (unfold a; nra). clearbody a.
  assert (a * (1 / (1 + a)) <= 786 / 10000) as D.
  { replace (a * (1 / (1 + a))) with (a / (1 + a)) by (field; lra). apply Rle_div_l; lra. }
  assert (a * (- (369 / 10 ^ 4) + a * (83 / 10 ^ 4 - 2 / 10 ^ 3 * a)) <= 0) as F.
  { assert (a * (83 / 10 ^ 4 - 2 / 10 ^ 3 * a) <= 1 / 1000) by nra. nra. }
  set (k := a * (- (369 / 10 ^ 4) + a * (83 / 10 ^ 4 - 2 / 10 ^ 3 * a))) in *. clearbody k.
  replace (a * (1 / (1 + a) + 20206 / 10 ^ 5 + k)) with (a * (1 / (1 + a)) + a * (20206 / 10 ^ 5) + a * k) by ring.
  assert (a * k <= 0) by nra. lra.
Qed.
Lemma screening_positive correction c E : element c -> (E < 50 -> exists y, correction (ln (c_charge c)) (E - ME) = Ok y /\ 0 <= y) -> ME < E -> E < 50 \/ c_charge c <= 40 ->
  never_negative (brems_default_limits ME E) (electron_screening nan correction ME c E).
Proof.
  intros el Hc H light v V. pose proof ME_pos as P. cbn [brems_default_limits v_min v_max] in V. assert (1 <= c_charge c <= 100) as Z by apply el.
  assert (0 < ME / E < 1) as R1 by (split; [apply Rdiv_lt_0_compat; lra|apply Rlt_div_l; lra]).
  assert (ME <= E * (1 - v)) as Q.
  { assert (ME / E <= 1 - v) as Q by lra. apply Rle_div_l in Q; lra. }
  unfold electron_screening. rewrite log_ok by lra. cbn [obind].
  assert (exists d, momentum nan ME E v = Ok d /\ 0 < d <= ME / 2) as (d & -> & D).
  { unfold momentum. replace (2 * E * (1 - v)) with (2 * (E * (1 - v))) by ring. rewrite quo_ok by lra. eexists. split; [reflexivity|].
    assert (0 < ME * ME * v) as K by (repeat apply Rmult_lt_0_compat; lra). set (e := E * (1 - v)) in *. clearbody e.
    split; [apply Rdiv_lt_0_compat; lra|]. apply Rle_div_l; [lra|]. assert (ME * ME * v <= ME * ME * 1) by (apply Rmult_le_compat_l; nra). nra. }
  cbn [obind].
  assert (215 / 1000 <= inverse_cube_root (c_charge c)) as ZB by (apply icr_ge; lra).
  assert (ln (inverse_cube_root (c_charge c)) = - (1 / 3) * ln (c_charge c)) as LZ by (unfold inverse_cube_root, Rpower; apply ln_exp).
  set (z := inverse_cube_root (c_charge c)) in *. clearbody z. set (x := 136 * z * 2 * d / ME).
  assert (0 < x <= 136 * z) as X.
  { unfold x. split; [apply Rdiv_lt_0_compat; nra|]. apply Rle_div_l; [lra|]. nra. }
  destruct (functions_bounds x (proj1 X)) as (p1 & p2 & -> & [P21 _] & B). cbn [obind fst snd].
  destruct (logarithms_value nan (c_charge c) Z) as (a & b & -> & A & B'). cbn [obind fst snd].
  pose proof (coulomb_range (c_charge c) Z) as F. rewrite quo_ok by lra. cbn [obind].
  assert (0 < b / (a - coulomb (c_charge c))) as XI by (apply Rdiv_lt_0_compat; lra). set (xi := b / (a - coulomb (c_charge c))) in *. clearbody xi.
  assert (exists y f, (if E <? 50 then correction (ln (c_charge c)) (E - ME) else Ok 1) = Ok y /\ 0 <= y /\
    f = (if E <? 50 then 0 else coulomb (c_charge c)) /\ 0 <= f <= 1 / 10) as (y & f & -> & Y & <- & Hf).
  { destruct (Rltb_spec E 50) as [L|L].
    - destruct (Hc L) as (y & -> & Y). exists y, 0. repeat split; lra.
    - destruct light as [L'|L']; [lra|]. pose proof (coulomb_light (c_charge c) ltac:(lra)). exists 1, (coulomb (c_charge c)). repeat split; lra. }
  cbn [obind]. eexists. split; [reflexivity|].
  assert (0 <= ln (c_charge c)) as L0 by (rewrite <- ln_1; apply ln_le; lra).
  assert (ln (c_charge c) <= 480 / 100) as L3 by (eapply Rle_trans; [|exact ln_100]; apply ln_le; lra).
  assert (0 <= p2 - 4 / 3 * ln (c_charge c) - 4 * f) as N.
  { destruct B as [[B1 B2]|(B1 & B2 & B3)]; [lra|]. rewrite <- B2, B3.
    assert (ln (x + 952 / 1000) <= ln (14045 / 100 * z)) as L by (apply ln_le; lra). rewrite ln_mult, LZ in L by lra. pose proof ln_141. lra. }
  set (lz := ln (c_charge c)) in *. clearbody lz. set (n1 := p1 - 4 / 3 * lz - 4 * f). set (n2 := p2 - 4 / 3 * lz - 4 * f) in *.
  assert (n2 <= n1) as N2 by (unfold n1, n2; lra). clearbody n1 n2.
  apply Rmult_le_pos; [apply Rmult_le_pos; [apply Rmult_le_pos; lra|lra]|].
  pose proof (weight_function v ltac:(lra)) as W. assert (0 <= 2 / 3 * (1 - v)) as K by lra. nra.
Qed.
Lemma screening_result correction charge c E : charge <> 0 -> element c -> (E < 50 -> exists y, correction (ln (c_charge c)) (E - ME) = Ok y /\ 0 <= y) -> ME < E -> E < 50 \/ c_charge c <= 40 ->
  never_negative (brems_default_limits ME E) (bremsstrahlung nan true (electron_screening nan correction ME c) None ME charge c E).
Proof.
  intros Q el Hc H light. destruct (element_positive c el) as [Z A].
  apply bremsstrahlung_never_negative; try assumption; [exact ME_pos|cbn; lra|]. now apply screening_positive.
Qed.
(** The screening functions are close to each other and to the complete screening of
    Tsai. *)
Lemma complete_logarithm : 20861 / 1000 <= 4 * ln (18415 / 100) <= 20865 / 1000.
Proof.
  pose proof ln_2 as L2. set (y := (18415 / 100) ^ 2 / 2 ^ 15). assert (10348 / 10000 <= y <= 1035 / 1000) as Y by (unfold y; lra).
  assert (2 * ln (18415 / 100) = 15 * ln 2 + ln y) as E.
  { replace 15 with (INR 15) by (cbn; lra). rewrite <- ln_pow by lra. rewrite <- ln_mult by (unfold y; lra). replace (2 ^ 15 * y) with ((18415 / 100) ^ 2) by (unfold y; field).
    rewrite ln_pow by lra. cbn [INR]. lra. }
  assert (1 - / y <= ln y) as L.
  { rewrite <- (Rinv_inv y) at 2. rewrite ln_Rinv by (apply Rinv_0_lt_compat; lra). assert (0 < / y) as I by (apply Rinv_0_lt_compat; lra).
    assert (ln (/ y) <= / y - 1); [|lra]. set (t := / y) in *. clearbody t. rewrite <- (ln_exp (t - 1)). apply ln_le; [exact I|]. pose proof (exp_ineq1_le (t - 1)). lra. }
  assert (/ y <= 9664 / 10000) as I. { replace (9664 / 10000) with (/ (10000 / 9664)) by lra. apply Rinv_le_contravar; lra. }
  assert (ln y <= y - 1) as U by (rewrite <- (ln_exp (y - 1)); apply ln_le; [lra|]; pose proof (exp_ineq1_le (y - 1)); lra).
  lra.
Qed.
Lemma screening_values x : 0 <= x -> exists p1 p2, screening_functions nan x = Ok (p1, p2) /\ p2 <= p1 <= 4 * ln (18415 / 100) + 1 / 100 /\ p1 - p2 <= 1 /\
  (x = 0 -> Rabs (p1 - 4 * ln (18415 / 100)) <= 1 / 100).
Proof.
  intros X. pose proof complete_logarithm as L.
  assert (0 < x \/ x = 0) as [X1| ->] by (destruct X; auto).
  - destruct (functions_bounds x X1) as (p1 & p2 & Hp & B & C). exists p1, p2. split; [exact Hp|]. split; [lra|]. split; [|lra].
    unfold screening_functions in Hp. destruct (Rleb_spec x 1) as [H|H]; [injection Hp as <- <-; nra|]. destruct C as [[C _]|(_ & <- & _)]; lra.
  - unfold screening_functions. rewrite (proj2 (Rleb_true 0 1)) by lra. do 2 eexists. split; [reflexivity|]. split; [lra|]. split; [lra|]. intros _. apply Rabs_le. lra.
Qed.
End Light.
