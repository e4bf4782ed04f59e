(** Pair production by photons: the exchange of the two particles. *)
From Coq Require Import Lra Psatz.
From Coquelicot Require Import Coquelicot.
From Verif Require Import Prelude PreludeFacts Particle_Model Limits_Model Cross_Model Photo_Model Products_Model Differential_Model Photopair_Model.
From Verif Require Import Differential_Spec Photopair_Spec Transform_Proofs Ionization_Proofs Differential_Proofs Brems_Proofs Screening_Proofs Lpm_Proofs LpmBound_Proofs.

Section Exchange.
Variable nan : forall A, outcome A.
Lemma limits_exchange E : 0 < E -> exchangeable_limits (photo_pair_limits E) /\ exchangeable_limits (photo_muon_pair_limits E).
Proof.
  intros P. unfold exchangeable_limits, photo_pair_limits, photo_muon_pair_limits. split.
  - destruct (Rleb_spec E (2 * ME)); cbn; lra.
  - destruct (Rleb_spec E (2 * MMU * SQRTE)); cbn; lra.
Qed.
Lemma raw_exchange suppression c E x : suppression = None \/ (exists f, suppression = Some f /\ f E (1 - x) = f E x) ->
  koch_motz_raw nan suppression c E (1 - x) = koch_motz_raw nan suppression c E x.
Proof.
  intros S. unfold koch_motz_raw.
  replace (2 * E * (1 - x) * (1 - (1 - x))) with (2 * E * x * (1 - x)) by ring.
  replace (2 * (1 - x) * (1 - x) - 2 * (1 - x) + 1) with (2 * x * x - 2 * x + 1) by ring.
  replace (2 / 3 * (1 - x) * (1 - (1 - x))) with (2 / 3 * x * (1 - x)) by ring.
  destruct S as [->|(f & -> & H)]; [reflexivity|]. unfold suppressed. rewrite H. reflexivity.
Qed.
Lemma koch_motz_exchange data total suppression c E x : suppression = None \/ (exists f, suppression = Some f /\ f E (1 - x) = f E x) ->
  koch_motz nan data total suppression c E (1 - x) = koch_motz nan data total suppression c E x.
Proof. intros S. unfold koch_motz. now rewrite (raw_exchange suppression c E x S). Qed.
Lemma muon_exchange c E x : photo_muon_pair nan c E (1 - x) = photo_muon_pair nan c E x.
Proof.
  unfold photo_muon_pair.
  replace (2 * E * (1 - x) * (1 - (1 - x))) with (2 * E * x * (1 - x)) by ring.
  replace ((1 - x) * (1 - x) + (1 - (1 - x)) * (1 - (1 - x)) + 2 / 3 * (1 - x) * (1 - (1 - x)))
    with (x * x + (1 - x) * (1 - x) + 2 / 3 * x * (1 - x)) by ring. reflexivity.
Qed.
Lemma muon_value c E x : element c -> 0 < E -> 0 < x < 1 -> exists y, photo_muon_pair nan c E x = Ok y /\ 0 <= y.
Proof.
  intros el EP X. pose proof (element_icr c el) as ZB. pose proof (log_constant_bounds c) as BB. pose proof (b_prime_bounds c) as BP.
  destruct (nuclear_radius_bounds c el) as [D1 D2]. destruct el as [[Z1 Z2] [A1 A2]]. pose proof SQRTE_val as U. pose proof ME_pos as P.
  assert (0 < MMU) as M by (unfold MMU; lra). unfold photo_muon_pair.
  set (z := inverse_cube_root (c_charge c)) in *. set (B := log_constant c) in *. set (B' := b_prime c) in *. set (D := nuclear_radius (c_atomic c)) in *.
  clearbody z B B' D. assert (0 < 2 * E * x * (1 - x)) as Q1 by (apply Rmult_lt_0_compat; [|lra]; apply Rmult_lt_0_compat; lra).
  rewrite quo_ok by lra. cbn [obind].
  assert (0 < MMU * MMU / (2 * E * x * (1 - x))) as Q2 by (apply Rdiv_lt_0_compat; [nra|lra]). set (delta := MMU * MMU / (2 * E * x * (1 - x))) in *. clearbody delta.
  assert (0 < B * z) as Q3 by nra.
  assert (0 < B * z * SQRTE * delta / ME) as Q4 by (apply Rdiv_lt_0_compat; [|lra]; apply Rmult_lt_0_compat; [nra|lra]).
  assert (0 < MMU / ME * B * z) as Q5 by (rewrite Rmult_assoc; apply Rmult_lt_0_compat; [now apply Rdiv_lt_0_compat|lra]).
  assert (0 < delta * (D * SQRTE - 2) / MMU) as Q6 by (apply Rdiv_lt_0_compat; [|lra]; apply Rmult_lt_0_compat; nra).
  rewrite quo_ok by lra. cbn [obind]. rewrite quo_ok by lra. cbn [obind].
  rewrite log_ok by (apply Rdiv_lt_0_compat; lra). cbn [obind]. rewrite log_ok by (apply Rdiv_lt_0_compat; lra). cbn [obind].
  rewrite quo_ok by lra. cbn [obind]. rewrite quo_ok by lra. cbn [obind].
  assert (0 < delta * MMU / (ME * ME)) as Q7 by (apply Rdiv_lt_0_compat; nra).
  rewrite quo_ok by lra. cbn [obind].
  assert (0 < delta * SQRTE * B' * z * z / ME) as Q8.
  { apply Rdiv_lt_0_compat; [|lra]. assert (0 < delta * SQRTE) by (apply Rmult_lt_0_compat; lra). assert (0 < delta * SQRTE * B') by (apply Rmult_lt_0_compat; lra).
    assert (0 < delta * SQRTE * B' * z) by (apply Rmult_lt_0_compat; lra). apply Rmult_lt_0_compat; lra. }
  rewrite quo_ok by lra. cbn [obind].
  rewrite log_ok by (apply Rdiv_lt_0_compat; [apply Rdiv_lt_0_compat|]; lra). cbn [obind].
  assert (0 < 1 / (delta * SQRTE * B' * z * z / ME)) as Q9 by (apply Rdiv_lt_0_compat; lra).
  rewrite log_ok by lra. cbn [obind]. rewrite quo_ok by lra. cbn [obind]. eexists. split; [reflexivity|]. apply Rmax_r.
Qed.
Lemma muon_limits_inside E x : 0 < E -> v_min (photo_muon_pair_limits E) <= x <= v_max (photo_muon_pair_limits E) -> 0 < x < 1.
Proof.
  intros P. unfold photo_muon_pair_limits. destruct (Rleb_spec E (2 * MMU * SQRTE)) as [H|H]; cbn; [lra|].
  assert (0 < 2 * SQRTE * MMU / E) as Q by (apply Rdiv_lt_0_compat; [unfold SQRTE, MMU|]; lra).
  assert (sqrt (1 - 2 * SQRTE * MMU / E) < 1) as S by (rewrite <- sqrt_1 at 2; apply sqrt_lt_1_alt; split; [|lra]; assert (2 * SQRTE * MMU / E < 1) by (apply Rlt_div_l; lra); lra).
  lra.
Qed.
Lemma muon_result c E : element c -> 0 < E -> let lim := photo_muon_pair_limits E in
  never_negative lim (photo_muon_pair nan c E) /\ exchangeable lim (photo_muon_pair nan c E).
Proof.
  intros el P lim. split; [|intros x X; apply muon_exchange]. intros x X. apply muon_value; [exact el|exact P|].
  apply (muon_limits_inside E x P). unfold lim in X. lra.
Qed.
End Exchange.

(** ** The sign of the cross section of Koch and Motz *)
Section Sign.
Variables (nan : forall A, outcome A) (c : component).
Hypothesis el : element c.
(** Beyond x = 1 both functions of the screening are one logarithm. *)
Lemma raw_sign E v : 0 < E -> 0 < v < 1 -> let x := 136 * inverse_cube_root (c_charge c) * ME / (E * v * (1 - v)) in 1 < x ->
  exists k, 0 < k /\ koch_motz_raw nan None c E v =
    Ok (k * (2112 / 100 - 4184 / 1000 * ln (x + 952 / 1000) - 4 / 3 * ln (c_charge c) - 4 * (if E <? 50 then 0 else coulomb (c_charge c)))).
Proof.
  intros EP V x X. pose proof ME_pos as P. destruct el as [[Z1 Z2] [A1 A2]]. unfold koch_motz_raw.
  rewrite log_ok by lra. cbn [obind]. assert (0 < E * v * (1 - v)) as Q1 by (apply Rmult_lt_0_compat; [|lra]; apply Rmult_lt_0_compat; lra).
  rewrite quo_ok by lra. cbn [obind].
  replace (136 * inverse_cube_root (c_charge c) * 2 * (ME * ME / (2 * E * v * (1 - v))) / ME) with x by (unfold x; field; repeat split; lra).
  unfold screening_functions. rewrite (proj2 (Rleb_false _ _)) by lra. rewrite log_ok by lra. cbn [obind].
  destruct (logarithms_value nan (c_charge c) ltac:(lra)) as (a & b & -> & A & B). cbn [obind fst snd].
  pose proof (coulomb_range (c_charge c) ltac:(lra)) as F. rewrite quo_ok by lra. cbn [obind suppressed]. rewrite quo_ok by lra.
  assert (0 < b / (a - coulomb (c_charge c))) as XI by (apply Rdiv_lt_0_compat; lra).
  set (xi := b / (a - coulomb (c_charge c))) in *. clearbody xi. set (f := if E <? 50 then 0 else coulomb (c_charge c)). clearbody f.
  set (l := ln (x + 952 / 1000)). set (lz := ln (c_charge c)). clearbody l lz.
  assert (0 < NA) as NP by (unfold NA; lra). pose proof ALPHA_pos as AL. assert (0 < RE) as RP by (unfold RE; lra).
  exists (c_charge c * (c_charge c + xi) * (RE * RE * ALPHA * (1 - 4 / 3 * v * (1 - v))) * NA / c_atomic c).
  split; [|f_equal; field; lra].
  apply Rdiv_lt_0_compat; [|lra]. apply Rmult_lt_0_compat; [|lra]. apply Rmult_lt_0_compat; [apply Rmult_lt_0_compat; lra|].
  assert (0 < RE * RE) by nra. apply Rmult_lt_0_compat; [apply Rmult_lt_0_compat; lra|]. nra.
Qed.
Lemma ln_icr : ln (inverse_cube_root (c_charge c)) = - (1 / 3) * ln (c_charge c).
Proof. unfold inverse_cube_root, Rpower. apply ln_exp. Qed.
Lemma ln_182 : 512 / 100 <= ln 182.
Proof.
  rewrite <- (ln_exp (512 / 100)). apply ln_le; [apply exp_pos|].
  pose proof (exp_quarter (- (512 / 100)) (2743 / 10000) ltac:(lra) ltac:(lra) ltac:(lra)) as H. rewrite exp_Ropp in H. pose proof (exp_pos (512 / 100)) as P.
  assert (/ 182 <= / exp (512 / 100)) as Q by lra.
  apply Rinv_le_contravar in Q; [|lra]. now rewrite !Rinv_inv in Q by lra.
Qed.
Lemma ln_141 : ln 141 <= 504 / 100.
Proof.
  rewrite <- (ln_exp (504 / 100)). apply ln_le; [lra|]. eapply Rle_trans; [|apply (exp_quarter _ (346 / 100)); lra]. lra.
Qed.
Lemma ln_z : - (16 / 10) <= ln (inverse_cube_root (c_charge c)) <= 0.
Proof.
  destruct el as [[Z1 Z2] _]. rewrite ln_icr. pose proof ln_100 as L. assert (ln (c_charge c) <= ln 100) by (apply ln_le; lra).
  assert (0 <= ln (c_charge c)) by (rewrite <- ln_1; apply ln_le; lra). lra.
Qed.
Lemma low_energy_limit : exists y, koch_motz_raw nan None c (4 * ME) (1 / 4) = Ok y /\ y < 0.
Proof.
  pose proof ME_pos as P. pose proof (element_icr c el) as ZB. pose proof ln_z as LZ. pose proof ln_182 as L. pose proof ln_icr as LI.
  set (z := inverse_cube_root (c_charge c)) in *.
  destruct (raw_sign (4 * ME) (1 / 4) ltac:(lra) ltac:(lra)) as (k & K & ->).
  - fold z. replace (136 * z * ME / (4 * ME * (1 / 4) * (1 - 1 / 4))) with (136 / (3 / 4) * z) by (field; lra). lra.
  - eexists. split; [reflexivity|]. fold z. replace (136 * z * ME / (4 * ME * (1 / 4) * (1 - 1 / 4))) with (136 / (3 / 4) * z) by (field; lra).
    rewrite (proj2 (Rltb_true _ _)) by (unfold ME; lra).
    assert (ln 182 + ln z <= ln (136 / (3 / 4) * z + 952 / 1000)) as Q by (rewrite <- ln_mult by lra; apply ln_le; lra).
    set (l := ln (136 / (3 / 4) * z + 952 / 1000)) in *. set (lz := ln z) in *. clearbody l lz. rewrite Rmult_0_r, Rminus_0_r.
    assert (2112 / 100 - 4184 / 1000 * l - 4 / 3 * ln (c_charge c) < 0) by lra. nra.
Qed.
Lemma low_energy_middle : exists y, koch_motz_raw nan None c (4 * ME) (1 / 2) = Ok y /\ 0 < y.
Proof.
  pose proof ME_pos as P. pose proof (element_icr c el) as ZB. pose proof ln_z as LZ. pose proof ln_141 as L. pose proof ln_icr as LI.
  set (z := inverse_cube_root (c_charge c)) in *.
  destruct (raw_sign (4 * ME) (1 / 2) ltac:(lra) ltac:(lra)) as (k & K & ->).
  - fold z. replace (136 * z * ME / (4 * ME * (1 / 2) * (1 - 1 / 2))) with (136 * z) by (field; lra). lra.
  - eexists. split; [reflexivity|]. fold z. replace (136 * z * ME / (4 * ME * (1 / 2) * (1 - 1 / 2))) with (136 * z) by (field; lra).
    rewrite (proj2 (Rltb_true _ _)) by (unfold ME; lra).
    assert (ln (136 * z + 952 / 1000) <= ln 141 + ln z) as Q by (rewrite <- ln_mult by lra; apply ln_le; lra).
    set (l := ln (136 * z + 952 / 1000)) in *. set (lz := ln z) in *. clearbody l lz. rewrite Rmult_0_r, Rminus_0_r.
    assert (0 < 2112 / 100 - 4184 / 1000 * l - 4 / 3 * ln (c_charge c)) by lra. now apply Rmult_lt_0_compat.
Qed.
Lemma limits_at_four : photo_pair_limits (4 * ME) = mklimits (1 / 4) (3 / 4).
Proof.
  pose proof ME_pos as P. unfold photo_pair_limits. rewrite (proj2 (Rleb_false _ _)) by lra. f_equal; field; lra.
Qed.
Lemma low_energy_refuted data total n d : total (4 * ME) = Ok n -> data (4 * ME) = Ok d -> n <> 0 -> d <> 0 ->
  let lim := photo_pair_limits (4 * ME) in
  exists x y, v_min lim <= x <= v_max lim /\ koch_motz nan data total None c (4 * ME) x = Ok y /\ y < 0.
Proof.
  intros T Dt N0 D0 lim. unfold lim. rewrite limits_at_four. cbn [v_min v_max]. pose proof ME_pos as P.
  assert (forall x y, koch_motz_raw nan None c (4 * ME) x = Ok y -> koch_motz nan data total None c (4 * ME) x = Ok (d / n * y)) as W.
  { intros x y H. unfold koch_motz. rewrite (proj2 (Rltb_false _ _)) by (unfold ME; lra). rewrite T. cbn [obind]. rewrite Dt. cbn [obind].
    rewrite quo_ok by exact N0. cbn [obind]. rewrite H. reflexivity. }
  assert (d / n <> 0) as Q by (unfold Rdiv; apply Rmult_integral_contrapositive_currified; [exact D0|now apply Rinv_neq_0_compat]).
  destruct (Rlt_le_dec 0 (d / n)) as [S|S].
  - destruct low_energy_limit as (y & H & Y). exists (1 / 4), (d / n * y). split; [lra|]. split; [now apply W|nra].
  - destruct low_energy_middle as (y & H & Y). exists (1 / 2), (d / n * y). split; [lra|]. split; [now apply W|]. assert (d / n < 0) by lra. nra.
Qed.
(** Heavy elements, at every energy above the one where the correction for the
    Coulomb field is switched on *)
Lemma heavy_refuted data total E : 80 <= c_charge c -> 50 < E -> 
  exists y, koch_motz nan data total None c E (v_min (photo_pair_limits E)) = Ok y /\ y < 0.
Proof.
  intros Z H. pose proof ME_pos as P. assert (ME <= 52 / 100) as MU by (unfold ME; lra). pose proof (element_icr c el) as ZB. pose proof ln_icr as LI.
  unfold photo_pair_limits. rewrite (proj2 (Rleb_false _ _)) by lra. cbn [v_min]. unfold koch_motz. rewrite (proj2 (Rltb_true _ _)) by lra.
  assert (0 < ME / E) as R1 by (apply Rdiv_lt_0_compat; lra). assert (ME / E <= 11 / 1000) as R2 by (apply Rle_div_l; lra).
  set (z := inverse_cube_root (c_charge c)) in *. assert (136 * z <= 136 * z * ME / (E * (ME / E) * (1 - ME / E))) as X.
  { replace (136 * z * ME / (E * (ME / E) * (1 - ME / E))) with (136 * z / (1 - ME / E)) by (field; repeat split; lra).
    apply (Rle_div_r (136 * z) (136 * z) (1 - ME / E) ltac:(lra)). nra. }
  destruct (raw_sign E (ME / E) ltac:(lra) ltac:(lra)) as (k & K & ->); [fold z; lra|]. eexists. split; [reflexivity|]. fold z.
  rewrite (proj2 (Rltb_false _ _)) by lra. destruct el as [[Z1 Z2] _]. pose proof (coulomb_heavy (c_charge c) ltac:(lra)) as F2.
  set (x := 136 * z * ME / (E * (ME / E) * (1 - ME / E))) in *. clearbody x.
  assert (ln 136 + ln z <= ln (x + 952 / 1000)) as Q by (rewrite <- ln_mult by lra; apply ln_le; lra).
  assert (4823 / 1000 <= ln 136) as L2.
  { pose proof ln_two_lower as Q'. apply Rle_trans with (ln (2 ^ 7)); [rewrite ln_pow by lra; cbn [INR]; lra|]. apply ln_le; [lra|]. replace (2 ^ 7) with 128 by ring. lra. }
  assert (ln (c_charge c) <= 480 / 100) as L3 by (eapply Rle_trans; [|exact ln_100]; apply ln_le; lra).
  set (l := ln (x + 952 / 1000)) in *. set (lz := ln (c_charge c)) in *. set (f := coulomb (c_charge c)) in *. clearbody l lz f.
  assert (2112 / 100 - 4184 / 1000 * l - 4 / 3 * lz - 4 * f < 0) as N by lra. nra.
Qed.
Lemma raw_sign_small E v : 0 < E -> 0 < v < 1 -> let x := 136 * inverse_cube_root (c_charge c) * ME / (E * v * (1 - v)) in x <= 1 ->
  c_charge c <= 26 \/ E < 50 -> exists y, koch_motz_raw nan None c E v = Ok y /\ 0 <= y.
Proof.
  intros EP V x X W. pose proof ME_pos as P. pose proof (element_icr c el) as ZB. destruct el as [[Z1 Z2] [A1 A2]]. unfold koch_motz_raw.
  rewrite log_ok by lra. cbn [obind]. assert (0 < E * v * (1 - v)) as Q1 by (apply Rmult_lt_0_compat; [|lra]; apply Rmult_lt_0_compat; lra).
  rewrite quo_ok by lra. cbn [obind].
  replace (136 * inverse_cube_root (c_charge c) * 2 * (ME * ME / (2 * E * v * (1 - v))) / ME) with x by (unfold x; field; repeat split; lra).
  assert (0 < x) as X0 by (apply Rdiv_lt_0_compat; [apply Rmult_lt_0_compat|]; lra). clearbody x.
  unfold screening_functions. rewrite (proj2 (Rleb_true _ _)) by lra. cbn [obind].
  destruct (logarithms_value nan (c_charge c) ltac:(lra)) as (a & b & -> & A & B). cbn [obind fst snd].
  pose proof (coulomb_range (c_charge c) ltac:(lra)) as F. rewrite quo_ok by lra. cbn [obind suppressed]. rewrite quo_ok by lra.
  assert (0 < b / (a - coulomb (c_charge c))) as XI by (apply Rdiv_lt_0_compat; lra).
  set (xi := b / (a - coulomb (c_charge c))) in *. clearbody xi.
  assert (0 <= (if E <? 50 then 0 else coulomb (c_charge c)) <= 7 / 10) as F1 by (destruct (E <? 50); lra).
  set (f := if E <? 50 then 0 else coulomb (c_charge c)) in *. clearbody f.
  assert (ln (c_charge c) <= 480 / 100) as L3 by (eapply Rle_trans; [|exact ln_100]; apply ln_le; lra).
  set (lz := ln (c_charge c)) in *. clearbody lz.
  assert (0 < NA) as NP by (unfold NA; lra). pose proof ALPHA_pos as AL. assert (0 < RE) as RP by (unfold RE; lra).
  eexists. split; [reflexivity|]. apply Rdiv_le_0_compat; [|lra]. apply Rmult_le_pos; [|lra]. apply Rmult_le_pos; [apply Rmult_le_pos; lra|].
  assert (0 < RE * RE) by nra. apply Rmult_le_pos; [apply Rmult_le_pos; lra|].
  assert (0 <= 20867 / 1000 - 3243 / 1000 * x + 625 / 1000 * (x * x) - 4 / 3 * lz - 4 * f) as G1 by nra.
  assert (0 <= 20029 / 1000 - 1930 / 1000 * x - 86 / 1000 * (x * x) - 4 / 3 * lz - 4 * f) as G2 by nra.
  assert (0 <= 2 * v * v - 2 * v + 1) as G3 by nra. assert (0 <= 2 / 3 * v * (1 - v)) as G4 by nra.
  apply Rplus_le_le_0_compat; apply Rmult_le_pos; lra.
Qed.
Lemma ln_147 : ln (1477 / 10) <= 50475 / 10000.
Proof.
  rewrite <- (ln_exp (50475 / 10000)). apply ln_le; [lra|]. eapply Rle_trans; [|apply (exp_quarter _ (3488 / 1000)); lra]. lra.
Qed.
Lemma ln_1403 : ln (1403 / 10) <= 50066 / 10000.
Proof.
  rewrite <- (ln_exp (50066 / 10000)). apply ln_le; [lra|]. eapply Rle_trans; [|apply (exp_quarter _ (3444 / 1000)); lra]. lra.
Qed.
Lemma coulomb_iron : c_charge c <= 26 -> coulomb (c_charge c) <= 43 / 1000.
Proof.
  intros Z. destruct el as [[Z1 _] _]. unfold coulomb. pose proof ALPHA_pos. assert (ALPHA <= 7298 / 10 ^ 6) by (unfold ALPHA; lra).
  assert (0 < ALPHA * c_charge c <= 18975 / 10 ^ 5) as Q by nra. set (u := ALPHA * c_charge c) in *. clearbody u.
  assert (0 < u * u <= 36006 / 10 ^ 6) as Q2 by nra. set (a := u * u) in *. clearbody a.
  assert (1 / (1 + a) <= 1 - a + a * a) as Q3 by (apply Rle_div_l; nra). set (i := 1 / (1 + a)) in *. clearbody i.
  assert (a * (- (369 / 10 ^ 4) + a * (83 / 10 ^ 4 - 2 / 10 ^ 3 * a)) <= 0) as Q4 by nra.
  assert (i + 20206 / 10 ^ 5 + a * (- (369 / 10 ^ 4) + a * (83 / 10 ^ 4 - 2 / 10 ^ 3 * a)) <= 1 - a + a * a + 20206 / 10 ^ 5) as Q5 by lra.
  eapply Rle_trans; [apply Rmult_le_compat_l; [lra|exact Q5]|]. nra.
Qed.
Lemma raw_positive E v : 20 * ME <= E -> v_min (photo_pair_limits E) <= v <= v_max (photo_pair_limits E) -> E < 50 \/ c_charge c <= 26 ->
  exists y, koch_motz_raw nan None c E v = Ok y /\ 0 <= y.
Proof.
  intros H. pose proof ME_pos as P. assert (51 / 100 <= ME <= 52 / 100) as MU by (unfold ME; lra).
  unfold photo_pair_limits. rewrite (proj2 (Rleb_false _ _)) by lra. cbn [v_min v_max]. intros V W.
  assert (0 < ME / E) as R1 by (apply Rdiv_lt_0_compat; lra). assert (ME / E <= 1 / 20) as R2 by (apply Rle_div_l; lra).
  pose proof (element_icr c el) as ZB. pose proof ln_icr as LI. destruct el as [[Z1 Z2] _].
  set (z := inverse_cube_root (c_charge c)) in *.
  assert (136 * z * ME / (E * v * (1 - v)) <= 136 * z / (1 - ME / E)) as X.
  { replace (136 * z * ME / (E * v * (1 - v))) with (136 * z * (ME / E) / (v * (1 - v))) by (field; repeat split; lra).
    set (q := ME / E) in *. clearbody q. assert (0 < v * (1 - v)) by nra. apply Rle_div_l; [lra|].
    replace (136 * z / (1 - q) * (v * (1 - v))) with (136 * z * (v * (1 - v)) / (1 - q)) by (field; lra).
    apply (Rle_div_r (136 * z * q) (136 * z * (v * (1 - v))) (1 - q) ltac:(lra)). rewrite (Rmult_assoc (136 * z)). apply Rmult_le_compat_l; [lra|]. nra. }
  destruct (Rle_lt_dec (136 * z * ME / (E * v * (1 - v))) 1) as [S|S].
  - destruct (raw_sign_small E v ltac:(lra) ltac:(lra) S ltac:(tauto)) as (y & Y); now exists y.
  - destruct (raw_sign E v ltac:(lra) ltac:(lra) S) as (k & K & ->). eexists. split; [reflexivity|]. apply Rmult_le_pos; [lra|]. fold z.
    set (x := 136 * z * ME / (E * v * (1 - v))) in *. clearbody x.
    assert (0 <= ln (c_charge c)) as L0 by (rewrite <- ln_1; apply ln_le; lra).
    destruct (Rltb_spec E 50) as [E5|E5].
    + assert (136 * z / (1 - ME / E) <= 136 * z / (95 / 100)) as X2 by (apply Rmult_le_compat_l; [lra|]; apply Rinv_le_contravar; lra).
      assert (x + 952 / 1000 <= 1477 / 10 * z) as X3 by lra.
      pose proof ln_147 as L. assert (ln (x + 952 / 1000) <= ln (1477 / 10) + ln z) as Q by (rewrite <- ln_mult by lra; apply ln_le; lra). lra.
    + destruct W as [W|W]; [lra|]. assert (ME / E <= 1022 / 100000) as R3 by (apply Rle_div_l; [lra|]; unfold ME in *; lra).
      assert (3375 / 10000 <= z) as Z3 by (apply icr_ge; lra).
      assert (136 * z / (1 - ME / E) <= 136 * z / (98978 / 100000)) as X2 by (apply Rmult_le_compat_l; [lra|]; apply Rinv_le_contravar; lra).
      assert (x + 952 / 1000 <= 1403 / 10 * z) as X3 by lra.
      pose proof ln_1403 as L. assert (ln (x + 952 / 1000) <= ln (1403 / 10) + ln z) as Q by (rewrite <- ln_mult by lra; apply ln_le; lra).
      pose proof (coulomb_iron W). lra.
Qed.
Lemma koch_motz_positive data total E n d : 20 * ME <= E -> E < 50 \/ c_charge c <= 26 -> total E = Ok n -> data E = Ok d -> 0 < n -> 0 <= d ->
  never_negative (photo_pair_limits E) (koch_motz nan data total None c E).
Proof.
  intros H W T Dt N0 D0 v V. destruct (raw_positive E v H ltac:(lra) W) as (y & Y1 & Y2). unfold koch_motz. destruct (50 <? E); [now exists y|].
  rewrite T. cbn [obind]. rewrite Dt. cbn [obind]. rewrite quo_ok by lra. cbn [obind]. rewrite Y1. cbn [obind]. eexists. split; [reflexivity|].
  apply Rmult_le_pos; [apply Rdiv_le_0_compat; lra|lra].
Qed.
End Sign.

(** ** Tsai *)
Section Tsai.
Variables (nan : forall A, outcome A) (dilog : R -> R) (c : component) (k : R).
Hypotheses (Z : 0 < c_charge c) (A : 0 < c_atomic c) (KP : 2 * ME < k).
(** The distortion of the distribution: the factor that converts the cross section
    into one in x is the one of a single particle. *)
Definition conversion (x : R) : R := x * k ^ 2 / sqrt ((x * k) ^ 2 - ME ^ 2).
Lemma conversion_ok x : ME / k < x -> 0 < (x * k) ^ 2 - ME ^ 2.
Proof.
  intros X. pose proof ME_pos as P. assert (ME < x * k) as Q by (apply (Rlt_div_l ME x k ltac:(lra)) in X; lra). nra.
Qed.
Lemma conversion_value x : ME / k < x -> conversion x = k / sqrt (1 - (ME / (x * k)) ^ 2).
Proof.
  intros X. pose proof ME_pos as P. pose proof (conversion_ok x X) as C. assert (0 < ME / k) as Q by (apply Rdiv_lt_0_compat; lra). assert (0 < x) as XP by lra.
  assert (0 < x * k) as XK by nra. unfold conversion.
  assert (0 < 1 - (ME / (x * k)) ^ 2) as W.
  { replace (1 - (ME / (x * k)) ^ 2) with (((x * k) ^ 2 - ME ^ 2) / (x * k) ^ 2) by (field; lra). apply Rdiv_lt_0_compat; [exact C|nra]. }
  replace ((x * k) ^ 2 - ME ^ 2) with ((x * k) * (x * k) * (1 - (ME / (x * k)) ^ 2)) by (field; lra).
  rewrite sqrt_mult_alt by nra. rewrite sqrt_square by lra. field. assert (0 < sqrt (1 - (ME / (x * k)) ^ 2)) by now apply sqrt_lt_R0. repeat split; lra.
Qed.
Lemma conversion_decreasing x y : ME / k < x -> x < y -> 0 < conversion y < conversion x.
Proof.
  intros X Y. pose proof ME_pos as P. rewrite !conversion_value by lra. assert (0 < ME / k) as Q by (apply Rdiv_lt_0_compat; lra).
  assert (0 < ME / (y * k) < ME / (x * k)) as B.
  { split; [apply Rdiv_lt_0_compat; nra|]. apply Rmult_lt_compat_l; [lra|]. apply Rinv_lt_contravar; [apply Rmult_lt_0_compat; nra|nra]. }
  assert (ME / (x * k) < 1) as C by (apply Rlt_div_l; [nra|]; apply (Rlt_div_l ME x k ltac:(lra)) in X; lra).
  set (a := ME / (x * k)) in *. set (b := ME / (y * k)) in *. clearbody a b. assert (0 < 1 - a ^ 2 < 1 - b ^ 2) as D by nra.
  assert (0 < sqrt (1 - a ^ 2) < sqrt (1 - b ^ 2)) as E by (split; [apply sqrt_lt_R0|apply sqrt_lt_1_alt]; lra).
  split; [apply Rdiv_lt_0_compat; lra|]. apply Rmult_lt_compat_l; [lra|]. apply Rinv_lt_contravar; [apply Rmult_lt_0_compat; lra|lra].
Qed.
Definition common (x r : R) : Prop := forall y, (y = x \/ y = 1 - x) -> ME / k < y -> tsai nan dilog None c k y = Ok (Rmax (r * conversion y) 0).
Lemma tsai_common x a : ME / k < x -> tsai nan dilog None c k x = Ok a -> exists r, common x r.
Proof.
  intros X. pose proof ME_pos as P. unfold tsai.
  destruct (log nan (c_charge c)) as [lz| |] eqn:LZ; cbn [obind]; try discriminate.
  destruct (quo nan (ME ^ 2) (2 * k * x * (1 - x))) as [delta| |] eqn:DL; cbn [obind]; try discriminate.
  destruct (tsai_form_factors nan dilog (c_charge c) delta) as [[[[p1 p2] q1] q2]| |] eqn:F; cbn [obind]; try discriminate. intros _.
  set (z := (c_charge c / 137) ^ 2) in *. set (f := 1202 / 1000 * z - 10369 / 10 ^ 4 * z ^ 2 + 1008 / 1000 * z ^ 3 / (1 + z)) in *.
  exists (NA / c_atomic c * (((4 / 3 * x ^ 2 - 4 / 3 * x + 1) * (c_charge c ^ 2 * (p1 - 4 / 3 * lz - 4 * f) + c_charge c * (q1 - 8 / 3 * lz))
             - 2 / 3 * x * (1 - x) * (c_charge c ^ 2 * (p1 - p2) + c_charge c * (q1 - q2))) * (ALPHA * RE ^ 2 / k))).
  intros y Y L. pose proof (conversion_ok y L) as C. unfold tsai. rewrite LZ. cbn [obind].
  assert (2 * k * y * (1 - y) = 2 * k * x * (1 - x)) as -> by (destruct Y as [->| ->]; ring). rewrite DL. cbn [obind]. rewrite F. cbn [obind].
  fold z. fold f. assert (4 / 3 * y ^ 2 - 4 / 3 * y + 1 = 4 / 3 * x ^ 2 - 4 / 3 * x + 1) as -> by (destruct Y as [->| ->]; field).
  assert (2 / 3 * y * (1 - y) = 2 / 3 * x * (1 - x)) as -> by (destruct Y as [->| ->]; ring).
  rewrite quo_ok by lra. cbn [obind]. unfold electron_momentum, root. rewrite (proj2 (Rltb_false _ _)) by lra. cbn [obind].
  assert (0 < sqrt ((y * k) ^ 2 - ME ^ 2)) by now apply sqrt_lt_R0. rewrite quo_ok by lra. cbn [obind suppressed]. rewrite quo_ok by lra. cbn [obind].
  do 2 f_equal. unfold conversion. ring.
Qed.
Lemma tsai_skew x a : ME / k < x < 1 / 2 -> tsai nan dilog None c k x = Ok a -> 0 < a ->
  exists b, tsai nan dilog None c k (1 - x) = Ok b /\ 0 < b < a.
Proof.
  intros [X1 X2] H AP. destruct (tsai_common x a X1 H) as (r & W). destruct (conversion_decreasing x (1 - x) X1 ltac:(lra)) as [D1 D2].
  rewrite (W x (or_introl eq_refl) X1) in H. injection H as <-. exists (Rmax (r * conversion (1 - x)) 0). split; [apply W; [now right|lra]|].
  assert (0 < r) as RP.
  { destruct (Rlt_le_dec 0 r) as [L|L]; [exact L|]. rewrite Rmax_right in AP; [lra|]. nra. }
  rewrite !Rmax_left by nra. split; nra.
Qed.
End Tsai.
Section Tsai_value.
Variables (nan : forall A, outcome A) (dilog : R -> R) (c : component) (k : R).
Hypotheses (el : element c) (KP : 2 * ME < k).
Lemma form_factors_ok delta : 0 < delta -> exists F, tsai_form_factors nan dilog (c_charge c) delta = Ok F.
Proof.
  intros D. pose proof ME_pos as P. pose proof ALPHA_pos as AL. destruct el as [[Z1 Z2] _]. unfold tsai_form_factors.
  assert (forall y, 0 < Rpower (c_charge c) y) as RP by (intros y; apply exp_pos).
  destruct (Rleb_spec (c_charge c) (25 / 10)) as [L|L]; [|destruct (Rleb_spec (c_charge c) (45 / 10)) as [M|M]].
  - unfold tsai_light. set (eta := if c_charge c <=? 3 / 2 then 1 else 16875 / 10 ^ 4).
    assert (0 < eta) as H by (unfold eta; destruct (c_charge c <=? 3 / 2); lra). clearbody eta.
    assert (0 < 2 * ALPHA * ME * eta) as Q1 by (apply Rmult_lt_0_compat; [|lra]; nra).
    assert (0 < delta / (2 * ALPHA * ME * eta)) as Q2 by (apply Rdiv_lt_0_compat; lra). set (C := delta / (2 * ALPHA * ME * eta)) in *. clearbody C.
    assert (0 < C * C) as Q3 by nra. assert (0 < 1 / (C * C)) as Q4 by (apply Rdiv_lt_0_compat; lra).
    rewrite log_ok by lra. cbn [obind]. rewrite log_ok by (apply Rdiv_lt_0_compat; nra). cbn [obind]. rewrite log_ok by lra. cbn [obind].
    rewrite quo_ok by lra. cbn [obind]. rewrite quo_ok by lra. cbn [obind]. rewrite log_ok by lra. cbn [obind]. rewrite log_ok by lra. cbn [obind]. eexists. reflexivity.
  - unfold tsai_medium.
    assert (0 < (if c_charge c <=? 7 / 2 then 100 else 106) * Rpower (c_charge c) (- (1 / 3)) / ME) as Q1
      by (apply Rdiv_lt_0_compat; [|lra]; apply Rmult_lt_0_compat; [destruct (c_charge c <=? 7 / 2); lra|apply RP]).
    set (a := (if c_charge c <=? 7 / 2 then 100 else 106) * Rpower (c_charge c) (- (1 / 3)) / ME) in *. clearbody a.
    assert (0 < (if c_charge c <=? 7 / 2 then 4186 / 10 else 5714 / 10) * Rpower (c_charge c) (- (2 / 3)) / ME) as Q2
      by (apply Rdiv_lt_0_compat; [|lra]; apply Rmult_lt_0_compat; [destruct (c_charge c <=? 7 / 2); lra|apply RP]).
    set (ap := (if c_charge c <=? 7 / 2 then 4186 / 10 else 5714 / 10) * Rpower (c_charge c) (- (2 / 3)) / ME) in *. clearbody ap.
    assert (0 < delta * a) as Q3 by nra. assert (0 < delta * ap) as Q4 by nra. set (b := delta * a) in *. set (bp := delta * ap) in *. clearbody b bp.
    assert (0 < b * b) as Q5 by nra. assert (0 < bp * bp) as Q6 by nra. assert (0 < 1 / (b * b)) by (apply Rdiv_lt_0_compat; lra). assert (0 < 1 / (bp * bp)) by (apply Rdiv_lt_0_compat; lra).
    rewrite log_ok by (repeat apply Rmult_lt_0_compat; try lra; apply RP). cbn [obind]. rewrite log_ok by lra. cbn [obind].
    rewrite quo_ok by lra. cbn [obind]. rewrite quo_ok by lra. cbn [obind]. rewrite log_ok by lra. cbn [obind].
    rewrite log_ok by (repeat apply Rmult_lt_0_compat; try lra; apply RP). cbn [obind]. rewrite log_ok by lra. cbn [obind].
    rewrite quo_ok by lra. cbn [obind]. rewrite quo_ok by lra. cbn [obind]. rewrite log_ok by lra. cbn [obind]. eexists. reflexivity.
  - unfold tsai_heavy. pose proof (RP (1 / 3)) as R1. pose proof (RP (2 / 3)) as R2.
    assert (0 < ME * Rpower (c_charge c) (1 / 3)) as Q1 by nra. assert (0 < ME * Rpower (c_charge c) (2 / 3)) as Q2 by nra.
    rewrite quo_ok by lra. cbn [obind]. rewrite quo_ok by lra. cbn [obind].
    set (g := 200 * delta / (ME * Rpower (c_charge c) (1 / 3))). set (e := 200 * delta / (ME * Rpower (c_charge c) (2 / 3))).
    assert (0 < g) by (apply Rdiv_lt_0_compat; lra). assert (0 < e) by (apply Rdiv_lt_0_compat; lra). clearbody g e.
    rewrite log_ok by nra. cbn [obind]. rewrite quo_ok by nra. cbn [obind]. rewrite log_ok by nra. cbn [obind]. rewrite quo_ok by nra. cbn [obind]. eexists. reflexivity.
Qed.
Lemma tsai_ok suppression x : ME / k < x < 1 -> match suppression with Some f => exists s, f k x = Ok s | None => True end ->
  exists y, tsai nan dilog suppression c k x = Ok y /\ 0 <= y.
Proof.
  intros [X1 X2] S. pose proof ME_pos as P. assert (0 < ME / k) as Q by (apply Rdiv_lt_0_compat; lra).
  assert (0 < 2 * k * x * (1 - x)) as Q1 by (apply Rmult_lt_0_compat; [nra|lra]).
  destruct (form_factors_ok (ME ^ 2 / (2 * k * x * (1 - x))) ltac:(apply Rdiv_lt_0_compat; nra)) as ([[[p1 p2] q1] q2] & F).
  destruct el as [[Z1 Z2] [A1 A2]]. unfold tsai. rewrite log_ok by lra. cbn [obind]. rewrite quo_ok by lra. cbn [obind]. rewrite F. cbn [obind].
  rewrite quo_ok by lra. cbn [obind]. pose proof (conversion_ok k KP x X1) as C. unfold electron_momentum, root. rewrite (proj2 (Rltb_false _ _)) by lra. cbn [obind].
  assert (0 < sqrt ((x * k) ^ 2 - ME ^ 2)) by now apply sqrt_lt_R0. rewrite quo_ok by lra. cbn [obind].
  match goal with |- context [suppressed suppression k x ?r] => assert (exists r', suppressed suppression k x r = Ok r') as (r' & ->) end.
  { unfold suppressed. destruct suppression as [f|]; [|now eexists]. destruct S as (s & ->). cbn [obind]. now eexists. }
  cbn [obind]. rewrite quo_ok by lra. cbn [obind]. eexists. split; [reflexivity|]. apply Rmax_r.
Qed.
(** At the lower limit the electron has no momentum. *)
Lemma tsai_at_limit suppression : (forall A (a : A), nan A <> Ok a) -> forall y, tsai nan dilog suppression c k (v_min (photo_pair_limits k)) <> Ok y.
Proof.
  intros N y. pose proof ME_pos as P. unfold photo_pair_limits. rewrite (proj2 (Rleb_false _ _)) by lra. cbn [v_min].
  assert (0 < ME / k) as Q by (apply Rdiv_lt_0_compat; lra). assert (ME / k < 1) as Q' by (apply Rlt_div_l; lra). set (x := ME / k) in *.
  assert (0 < 2 * k * x * (1 - x)) as Q1 by (apply Rmult_lt_0_compat; [nra|lra]).
  destruct (form_factors_ok (ME ^ 2 / (2 * k * x * (1 - x))) ltac:(apply Rdiv_lt_0_compat; nra)) as ([[[p1 p2] q1] q2] & F).
  destruct el as [[Z1 Z2] [A1 A2]]. unfold tsai. rewrite log_ok by lra. cbn [obind]. rewrite quo_ok by lra. cbn [obind]. rewrite F. cbn [obind].
  rewrite quo_ok by lra. cbn [obind]. unfold electron_momentum, root. rewrite (proj2 (Rltb_false _ _)) by (unfold x; replace (ME / k * k) with ME by (field; lra); lra). cbn [obind].
  replace (sqrt ((x * k) ^ 2 - ME ^ 2)) with 0 by (unfold x; replace (ME / k * k) with ME by (field; lra); replace (ME ^ 2 - ME ^ 2) with 0 by ring; now rewrite sqrt_0).
  unfold quo at 1. rewrite (proj2 (Reqb_true 0 0) eq_refl). specialize (N R). destruct (nan R) as [a| |]; [destruct (N a eq_refl)| |]; cbn; discriminate.
Qed.
End Tsai_value.
Lemma ln_small y : 0 <= y -> 0 <= ln (1 + y) <= y.
Proof.
  intros Y. split; [rewrite <- ln_1 at 1; apply ln_le; lra|]. apply Rle_trans with (ln (exp y)); [apply ln_le; [lra|]|rewrite ln_exp; lra]. pose proof (exp_ineq1_le y); lra.
Qed.
Section Tsai_positive.
Variables (nan : forall A, outcome A) (dilog : R -> R) (c : component) (k x : R).
Hypotheses (el : element c) (Z5 : 5 <= c_charge c) (KP : 2 * ME < k) (X1 : ME / k < x < 1) (S : 1000 * ME <= k * x * (1 - x)).
Lemma tsai_positive : exists y, tsai nan dilog None c k x = Ok y /\ 0 < y.
Proof.
  pose proof ME_pos as P. assert (0 < ME / k) as Q by (apply Rdiv_lt_0_compat; lra). destruct el as [[Z1 Z2] [A1 A2]].
  assert (0 < 2 * k * x * (1 - x)) as Q1 by lra. set (delta := ME ^ 2 / (2 * k * x * (1 - x))).
  assert (0 < delta) as D0 by (apply Rdiv_lt_0_compat; nra).
  assert (delta <= ME / 2000) as D1 by (apply Rle_div_l; [lra|]; replace (ME / 2000 * (2 * k * x * (1 - x))) with (ME / 1000 * (k * x * (1 - x))) by field; nra).
  unfold tsai. rewrite log_ok by lra. cbn [obind]. rewrite quo_ok by lra. cbn [obind]. fold delta. clearbody delta.
  unfold tsai_form_factors. rewrite (proj2 (Rleb_false _ _)) by lra. rewrite (proj2 (Rleb_false _ _)) by lra. unfold tsai_heavy.
  assert (forall y, 0 <= y -> 1 <= Rpower (c_charge c) y) as RP.
  { intros y Y. unfold Rpower. rewrite <- exp_0 at 1. apply exp_mono. apply Rmult_le_pos; [exact Y|]. rewrite <- ln_1. apply ln_le; lra. }
  pose proof (RP (1 / 3) ltac:(lra)) as R1. pose proof (RP (2 / 3) ltac:(lra)) as R2. set (r1 := Rpower (c_charge c) (1 / 3)) in *. set (r2 := Rpower (c_charge c) (2 / 3)) in *. clearbody r1 r2.
  rewrite quo_ok by nra. cbn [obind]. rewrite quo_ok by nra. cbn [obind].
  assert (0 <= 200 * delta / (ME * r1) <= 1 / 10) as G by (split; [apply Rdiv_le_0_compat; nra|apply Rle_div_l; nra]).
  assert (0 <= 200 * delta / (ME * r2) <= 1 / 10) as E by (split; [apply Rdiv_le_0_compat; nra|apply Rle_div_l; nra]).
  set (g := 200 * delta / (ME * r1)) in *. set (e := 200 * delta / (ME * r2)) in *. clearbody g e.
  rewrite log_ok by nra. cbn [obind]. rewrite quo_ok by nra. cbn [obind]. rewrite log_ok by nra. cbn [obind]. rewrite quo_ok by nra. cbn [obind].
  rewrite quo_ok by lra. cbn [obind]. pose proof (conversion_ok k KP x (proj1 X1)) as C. unfold electron_momentum, root. rewrite (proj2 (Rltb_false _ _)) by lra. cbn [obind].
  assert (0 < sqrt ((x * k) ^ 2 - ME ^ 2)) as C2 by now apply sqrt_lt_R0. rewrite quo_ok by lra. cbn [obind suppressed]. rewrite quo_ok by lra. cbn [obind].
  eexists. split; [reflexivity|]. apply Rlt_le_trans with (2 := Rmax_l _ _).
  assert (0 < NA) as NP by (unfold NA; lra). pose proof ALPHA_pos as AL. assert (0 < RE) as REP by (unfold RE; lra).
  apply Rmult_lt_0_compat; [apply Rdiv_lt_0_compat; lra|]. apply Rmult_lt_0_compat; [|apply Rdiv_lt_0_compat; [apply Rmult_lt_0_compat; nra|exact C2]].
  apply Rmult_lt_0_compat; [|apply Rdiv_lt_0_compat; [apply Rmult_lt_0_compat; [lra|apply pow_lt; lra]|lra]].
  pose proof (ln_small ((55846 / 10 ^ 5 * g) ^ 2) ltac:(apply pow2_ge_0)) as LG. pose proof (ln_small ((3621 / 1000 * e) ^ 2) ltac:(apply pow2_ge_0)) as LE.
  assert ((55846 / 10 ^ 5 * g) ^ 2 <= 1) as LG2 by nra. assert ((3621 / 1000 * e) ^ 2 <= 1) as LE2 by nra.
  pose proof (exp_pos (- (9 / 10) * g)) as E1. pose proof (exp_pos (- (15 / 10) * g)) as E2. pose proof (exp_pos (- 8 * e)) as E3. pose proof (exp_pos (- (292 / 10) * e)) as E4.
  set (lg := ln (1 + (55846 / 10 ^ 5 * g) ^ 2)) in *. set (le := ln (1 + (3621 / 1000 * e) ^ 2)) in *.
  set (e1 := exp (- (9 / 10) * g)) in *. set (e2 := exp (- (15 / 10) * g)) in *. set (e3 := exp (- 8 * e)) in *. set (e4 := exp (- (292 / 10) * e)) in *. clearbody lg le e1 e2 e3 e4.
  assert (0 <= 1 / (1 + 65 / 10 * g + 6 * g ^ 2) <= 1) as I1 by (split; [apply Rdiv_le_0_compat; nra|apply Rle_div_l; nra]).
  assert (0 <= 1 / (1 + 40 * e + 400 * e ^ 2) <= 1) as I2 by (split; [apply Rdiv_le_0_compat; nra|apply Rle_div_l; nra]).
  set (i1 := 1 / (1 + 65 / 10 * g + 6 * g ^ 2)) in *. set (i2 := 1 / (1 + 40 * e + 400 * e ^ 2)) in *. clearbody i1 i2.
  assert (ln (c_charge c) <= 480 / 100) as L3 by (eapply Rle_trans; [|exact ln_100]; apply ln_le; lra). set (lz := ln (c_charge c)) in *. clearbody lz.
  assert (0 <= (c_charge c / 137) ^ 2 <= 533 / 1000) as W.
  { assert (0 <= c_charge c / 137 <= 73 / 100) by lra. split; nra. }
  set (z := (c_charge c / 137) ^ 2) in *. clearbody z.
  assert (1008 / 1000 * z ^ 3 / (1 + z) <= 1008 / 1000 * z ^ 3) as W2 by (apply Rle_div_l; [lra|]; assert (0 <= z ^ 3) by (apply pow_le; lra); nra).
  assert (z ^ 3 <= 533 / 1000 * z ^ 2) as W3 by (replace (z ^ 3) with (z * z ^ 2) by ring; apply Rmult_le_compat_r; [apply pow2_ge_0|lra]).
  set (u := 1008 / 1000 * z ^ 3 / (1 + z)) in *. clearbody u.
  assert (1202 / 1000 * z - 10369 / 10 ^ 4 * z ^ 2 + u <= 65 / 100) as W4 by nra.
  set (f := 1202 / 1000 * z - 10369 / 10 ^ 4 * z ^ 2 + u) in *. clearbody f.
  set (p1 := 20863 / 1000 - 2 * lg - 4 * (1 - 6 / 10 * e1 - 4 / 10 * e2)). set (q1 := 28340 / 1000 - 2 * le - 4 * (1 - 7 / 10 * e3 - 3 / 10 * e4)).
  assert (5 <= p1 - 4 / 3 * lz - 4 * f) as T1 by (unfold p1; lra). assert (5 <= q1 - 8 / 3 * lz) as T2 by (unfold q1; lra).
  replace (p1 - (p1 - 2 / 3 * i1)) with (2 / 3 * i1) by ring. replace (q1 - (q1 - 2 / 3 * i2)) with (2 / 3 * i2) by ring.
  set (a := p1 - 4 / 3 * lz - 4 * f) in *. set (b := q1 - 8 / 3 * lz) in *. clearbody a b. clear - T1 T2 I1 I2 Z1 X1 Q.
  assert (2 / 3 <= 4 / 3 * x ^ 2 - 4 / 3 * x + 1) as Y1 by (pose proof (Rle_0_sqr (x - 1 / 2)); unfold Rsqr in *; lra). assert (0 <= 2 / 3 * x * (1 - x) <= 1 / 6) as Y2 by nra.
  set (y1 := 4 / 3 * x ^ 2 - 4 / 3 * x + 1) in *. set (y2 := 2 / 3 * x * (1 - x)) in *. set (Z := c_charge c) in *. clearbody y1 y2 Z.
  assert (0 < Z ^ 2) as ZZ by nra.
  assert (5 * Z ^ 2 + 5 * Z <= Z ^ 2 * a + Z * b) as H1 by nra.
  assert (Z ^ 2 * (2 / 3 * i1) + Z * (2 / 3 * i2) <= Z ^ 2 + Z) as H2 by nra.
  assert (0 <= Z ^ 2 * (2 / 3 * i1) + Z * (2 / 3 * i2)) as H3 by nra.
  set (h := Z ^ 2 * a + Z * b) in *. set (j := Z ^ 2 * (2 / 3 * i1) + Z * (2 / 3 * i2)) in *. clearbody h j.
  assert (2 / 3 * h <= y1 * h) by (apply Rmult_le_compat_r; lra). assert (y2 * j <= 1 / 6 * j) by (apply Rmult_le_compat_r; lra). lra.
Qed.
End Tsai_positive.
Lemma tsai_refuted nan dilog c k x : element c -> 5 <= c_charge c -> ME / k < x < 1 / 2 -> 2 * ME < k -> 1000 * ME <= k * x * (1 - x) ->
  exists a b, tsai nan dilog None c k x = Ok a /\ tsai nan dilog None c k (1 - x) = Ok b /\ 0 < b < a.
Proof.
  intros el Z X K S. destruct (tsai_positive nan dilog c k x el Z K ltac:(lra) S) as (a & H & A). pose proof el as [[Z1 _] [A1 _]].
  destruct (tsai_skew nan dilog c k ltac:(lra) K x a X H A) as (b & H' & B). now exists a, b.
Qed.

(** ** The suppression distinguishes the two particles *)
Lemma phi_2 s : 2 <= s -> 99 / 100 <= lpm_phi s /\ 99 / 100 <= lpm_G s.
Proof.
  intros S. unfold lpm_phi, lpm_G. rewrite !(proj2 (Rltb_false _ _)) by lra.
  assert (4 <= s * s) as A by nra. assert (16 <= s * s * (s * s)) as B by nra.
  assert (12 / 1000 / (s * s * (s * s)) <= 1 / 100) by (apply Rle_div_l; lra). assert (22 / 1000 / (s * s * (s * s)) <= 1 / 100) by (apply Rle_div_l; lra). lra.
Qed.
Section Suppression.
Variables (nan : forall A, outcome A) (m : lpm_medium) (density : R) (c : component).
Hypotheses (el : element c) (D : 0 < density) (LE : 1000 * density <= l_energy m).
Hypotheses (N1 : 0 < l_sum_charge m * l_mol_density m) (N2 : l_sum_charge m * l_mol_density m * density <= 10 ^ 26).
Lemma lpm_skew : exists E x f g, 2 * ME < E /\ v_min (photo_pair_limits E) < x < 1 / 2 /\
  pair_suppression nan m density c E x = Ok f /\ pair_suppression nan m density c E (1 - x) = Ok g /\ f < 1 / 2 /\ 9 / 10 < g.
Proof.
  pose proof ME_pos as P. assert (ME <= 52 / 100) as MU by (unfold ME; lra). pose proof PI_bounds as PB. pose proof PI_RGT_0 as PP.
  set (n := l_sum_charge m * l_mol_density m * density) in *. assert (0 < n) as N0 by (unfold n; nra).
  set (kappa := PI * n * (4 * RE * (RE / ALPHA) * (RE / ALPHA))).
  assert (0 < 4 * RE * (RE / ALPHA) * (RE / ALPHA) <= 2 / 10 ^ 33) as K by (unfold RE, ALPHA; lra).
  assert (0 < kappa <= 1 / 10 ^ 6) as KA.
  { unfold kappa. set (k := 4 * RE * (RE / ALPHA) * (RE / ALPHA)) in *. clearbody k n. assert (0 < PI * n) by nra.
    assert (PI * n <= 3143 / 1000 * 10 ^ 26) as A by (apply Rmult_le_compat; lra). split; [nra|].
    assert (PI * n * k <= 3143 / 1000 * 10 ^ 26 * (2 / 10 ^ 33)) as A2 by (apply Rmult_le_compat; lra). lra. }
  assert (forall x, x <> 0 -> pair_Gamma m density x = 1 + kappa / (x * x)) as GV.
  { intros x X. unfold pair_Gamma, kappa, n. field. repeat split; try lra. unfold ALPHA; lra. }
  clearbody kappa. set (x := sqrt kappa). assert (0 < x) as X0 by (apply sqrt_lt_R0; lra).
  assert (x <= 1 / 1000) as X1 by (unfold x; rewrite <- (sqrt_square (1 / 1000)) by lra; apply sqrt_le_1_alt; lra).
  assert (x * x = kappa) as XX by (apply sqrt_sqrt; lra). clearbody x.
  set (E := l_energy m / (256 * density * x * (1 - x))). assert (0 < 256 * density * x * (1 - x)) as Q1 by (apply Rmult_lt_0_compat; [nra|lra]).
  assert (0 < E) as EP by (apply Rdiv_lt_0_compat; lra).
  assert (3 < E * x) as EX.
  { unfold E. replace (l_energy m / (256 * density * x * (1 - x)) * x) with (l_energy m / (256 * density * (1 - x))) by (field; repeat split; lra).
    apply (Rlt_div_r 3 (l_energy m) (256 * density * (1 - x)) ltac:(nra)). nra. }
  assert (3 < E) as E3 by nra.
  assert (forall y, y = x \/ y = 1 - x -> pair_sp m density E y = 2) as SP.
  { intros y Y. unfold pair_sp. replace (l_energy m / (density * E * y * (1 - y))) with (16 * 16); [rewrite sqrt_square; lra|].
    replace (density * E * y * (1 - y)) with (density * E * x * (1 - x)) by (destruct Y as [->| ->]; ring). unfold E. field. repeat split; lra. }
  destruct (pair_suppression_value nan m density c E x el D EP ltac:(lra) ltac:(lra) ltac:(lra)) as (xi & _ & A2 & A3).
  destruct (pair_suppression_value nan m density c E (1 - x) el D EP ltac:(lra) ltac:(lra) ltac:(lra)) as (xi' & _ & B2 & B3).
  rewrite SP in A2, A3 by tauto. rewrite SP in B2, B3 by tauto. rewrite A2 in A3 by lra. rewrite B2 in B3 by lra. rewrite sqrt_1 in A3, B3.
  rewrite GV in A3 by lra. rewrite GV in B3 by lra. rewrite XX in A3. replace (1 + kappa / kappa) with 2 in A3 by (field; lra).
  exists E, x. do 2 eexists. split; [lra|]. split.
  { unfold photo_pair_limits. rewrite (proj2 (Rleb_false _ _)) by lra. cbn [v_min]. split; [apply Rlt_div_l; lra|lra]. }
  split; [exact A3|]. split; [exact B3|]. split.
  - destruct (mixture_range 1 1 (2 * (kappa + (1 - x) * (1 - x))) 2 (2 / 1 * 2) ltac:(lra) ltac:(lra) ltac:(nra) ltac:(lra) ltac:(lra)) as [_ H].
    eapply Rle_lt_trans; [exact H|]. set (B := 2 * (kappa + (1 - x) * (1 - x))) in *. assert (0 < B) by (unfold B; nra). clearbody B.
    rewrite Rmult_1_l. apply Rlt_div_l; lra.
  - assert (0 <= kappa / ((1 - x) * (1 - x)) <= 2 / 10 ^ 6) as G by (split; [apply Rdiv_le_0_compat; nra|apply Rle_div_l; nra]).
    clear B3. set (Ga := 1 + kappa / ((1 - x) * (1 - x))) in *. assert (1 <= Ga <= 1 + 2 / 10 ^ 6) as G2 by (unfold Ga; lra). clearbody Ga.
    destruct (phi_2 (2 / 1 * Ga) ltac:(lra)) as [F1 F2]. unfold mixture. set (f := lpm_phi (2 / 1 * Ga)) in *. set (g := lpm_G (2 / 1 * Ga)) in *. clearbody f g.
    set (B := 2 * ((1 - x) * (1 - x) + (1 - (1 - x)) * (1 - (1 - x)))) in *. assert (0 < B) by (unfold B; nra). clearbody B.
    assert (98 / 100 <= g / (Ga * Ga)) as H1 by (apply (Rle_div_r (98 / 100) g (Ga * Ga) ltac:(nra)); nra).
    assert (98 / 100 <= f / Ga) as H2 by (apply (Rle_div_r (98 / 100) f Ga ltac:(lra)); nra).
    replace (1 * g / (Ga * Ga)) with (g / (Ga * Ga)) by (field; nra). replace (B * f / Ga) with (B * (f / Ga)) by (field; lra).
    set (a := g / (Ga * Ga)) in *. set (b := f / Ga) in *. clearbody a b. apply (Rlt_div_r (9 / 10) (1 * (a + B * b)) (1 + B) ltac:(lra)). nra.
Qed.
End Suppression.
(** The suppression multiplies the cross sections. *)
Lemma brems_scaled nan screening parametrization factor mass charge c E v x f :
  bremsstrahlung nan screening parametrization None mass charge c E v = Ok x -> factor E v = Ok f ->
  bremsstrahlung nan screening parametrization (Some factor) mass charge c E v = Ok (x * f).
Proof.
  unfold bremsstrahlung. intros H F. rewrite F. destruct (parametrization E v) as [r| |]; cbn [obind] in *; try discriminate.
  destruct (brems_prefactor nan screening mass charge c) as [k| |]; cbn [obind] in *; try discriminate.
  destruct (quo nan ALPHA v) as [a| |]; cbn [obind] in *; try discriminate.
  destruct (quo nan NA (c_atomic c)) as [n| |]; cbn [obind] in *; try discriminate. injection H as <-. f_equal. ring.
Qed.
Lemma raw_scaled nan factor c E v x f : c_atomic c <> 0 -> koch_motz_raw nan None c E v = Ok x -> factor E v = Ok f ->
  koch_motz_raw nan (Some factor) c E v = Ok (x * f).
Proof.
  intros A. unfold koch_motz_raw, suppressed. intros H F. rewrite F. destruct (log nan (c_charge c)) as [lz| |]; cbn [obind] in *; try discriminate.
  destruct (quo nan (ME * ME) (2 * E * v * (1 - v))) as [d| |]; cbn [obind] in *; try discriminate.
  destruct (screening_functions nan _) as [p| |]; cbn [obind] in *; try discriminate.
  destruct (radiation_logarithms nan (c_charge c)) as [L| |]; cbn [obind] in *; try discriminate.
  destruct (quo nan (snd L) (fst L - coulomb (c_charge c))) as [xi| |]; cbn [obind] in *; try discriminate.
  rewrite quo_ok in * by exact A. injection H as <-. f_equal. field. exact A.
Qed.
Lemma koch_motz_scaled nan data total factor c E v x f : c_atomic c <> 0 -> 50 < E -> koch_motz nan data total None c E v = Ok x -> factor E v = Ok f ->
  koch_motz nan data total (Some factor) c E v = Ok (x * f).
Proof. intros A H. unfold koch_motz. rewrite (proj2 (Rltb_true _ _)) by lra. now apply raw_scaled. Qed.
Lemma suppressed_bremsstrahlung nan screening parametrization mass charge m density c E v x :
  ME <= mass -> element c -> 0 < density -> 0 < E -> 0 < v < 1 -> 0 < l_energy m -> 0 <= l_sum_charge m * l_mol_density m ->
  bremsstrahlung nan screening parametrization None mass charge c E v = Ok x ->
  exists f, 0 < f < 21 / 20 /\ (MMU <= mass \/ 64 * (density * E * (1 - v)) <= l_energy m * v -> f < 1) /\
    bremsstrahlung nan screening parametrization (Some (brems_suppression nan mass m density c)) mass charge c E v = Ok (x * f).
Proof.
  intros M el D EP V LE N H. destruct (c64_brems nan mass m density c E v M el D EP V LE N) as (f & F & B & L). exists f. split; [exact B|]. split; [exact L|].
  now apply brems_scaled.
Qed.
Lemma suppressed_koch_motz nan data total m density c E x y :
  element c -> 0 < density -> 50 < E -> 0 < x < 1 -> 0 < l_energy m -> 0 <= l_sum_charge m * l_mol_density m ->
  koch_motz nan data total None c E x = Ok y ->
  exists f, 0 < f < 21 / 20 /\ (64 * (density * E * x * (1 - x)) <= l_energy m -> f < 1) /\
    koch_motz nan data total (Some (pair_suppression nan m density c)) c E x = Ok (y * f).
Proof.
  intros el D EP V LE N H. destruct (c64_pairs nan m density c E x el D ltac:(lra) V LE N) as (f & F & B & L). exists f. split; [exact B|]. split; [exact L|].
  pose proof el as [[Z1 _] [A1 _]]. apply koch_motz_scaled; [lra|exact EP|exact H|exact F].
Qed.
Lemma tsai_result nan dilog c k : element c -> 0 < k -> never_negative (photo_pair_limits k) (tsai nan dilog None c k).
Proof.
  intros el K x. unfold photo_pair_limits. destruct (Rleb_spec k (2 * ME)) as [H|H]; cbn [v_min v_max]; intros X; [lra|].
  pose proof ME_pos as P. assert (0 < ME / k) by (apply Rdiv_lt_0_compat; lra). apply tsai_ok; [exact el|lra|lra|exact I].
Qed.
Lemma koch_motz_symmetric nan data total c E : exchangeable (photo_pair_limits E) (koch_motz nan data total None c E).
Proof. intros x _. apply koch_motz_exchange. now left. Qed.
