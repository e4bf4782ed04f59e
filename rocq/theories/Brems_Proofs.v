(** The parametrizations of bremsstrahlung. *)
From Coq Require Import Lra Psatz.
From Coquelicot Require Import Coquelicot.
From Verif Require Import Prelude PreludeFacts Particle_Model Limits_Model Cross_Model Photo_Model Products_Model Differential_Model.
From Verif Require Import Differential_Spec Transform_Proofs Ionization_Proofs Differential_Proofs.

Lemma SQRTE_val : 16487 / 10000 <= SQRTE <= 16488 / 10000.
Proof. unfold SQRTE. lra. Qed.
Lemma ALPHA_pos : 0 < ALPHA < 74 / 10000.
Proof. unfold ALPHA. lra. Qed.
Lemma weight_function v : 0 <= v <= 1 -> 0 < 4 / 3 * (1 - v) + v * v.
Proof. intros. nra. Qed.

(** ** The common factor *)
Section Common.
Variable nan : forall A, outcome A.
Lemma prefactor_value screening mass charge c : 0 < mass -> 0 < c_charge c -> charge <> 0 ->
  exists k, 0 < k /\ brems_prefactor nan screening mass charge c = Ok k.
Proof.
  intros M Z Q. pose proof ME_pos as P. assert (0 < RE) by (unfold RE; lra). assert (0 < charge * charge) by nra.
  unfold brems_prefactor. rewrite quo_ok by lra. cbn [obind]. eexists. split; [|reflexivity].
  assert (0 < ME / mass) by now apply Rdiv_lt_0_compat.
  assert (0 < ME / mass * RE) by now apply Rmult_lt_0_compat.
  assert (0 < ME / mass * RE * c_charge c) by now apply Rmult_lt_0_compat.
  destruct screening; nra.
Qed.
Lemma bremsstrahlung_sign screening parametrization suppression mass charge c E v r s :
  0 < mass -> 0 < c_charge c -> 0 < c_atomic c -> charge <> 0 -> 0 < v ->
  parametrization E v = Ok r -> match suppression with Some f => f E v = Ok s | None => s = 1 end ->
  exists k, 0 < k /\ bremsstrahlung nan screening parametrization suppression mass charge c E v = Ok (k * (r * s)).
Proof.
  intros M Z A Q V H S. destruct (prefactor_value screening mass charge c M Z Q) as (k & K & HK).
  unfold bremsstrahlung. rewrite H. cbn [obind]. rewrite HK. cbn [obind]. rewrite quo_ok by lra. cbn [obind].
  assert (0 < NA) by (unfold NA; lra). pose proof ALPHA_pos.
  assert (match suppression with
          | Some factor => olet s := factor E v in Ok (k * (k * (ALPHA / v) * r) * s)
          | None => Ok (k * (k * (ALPHA / v) * r))
          end = Ok (k * (k * (ALPHA / v) * r) * s)) as ->.
  { destruct suppression as [f|]; [now rewrite S|]. rewrite S, Rmult_1_r. reflexivity. }
  cbn [obind]. rewrite quo_ok by lra. cbn [obind]. exists (NA / c_atomic c * (k * (k * (ALPHA / v)))). split; [|f_equal; ring].
  apply Rmult_lt_0_compat; [apply Rdiv_lt_0_compat; lra|]. apply Rmult_lt_0_compat; [lra|]. apply Rmult_lt_0_compat; [lra|].
  apply Rdiv_lt_0_compat; lra.
Qed.
Lemma bremsstrahlung_never_negative screening parametrization mass charge c E lim :
  0 < mass -> 0 < c_charge c -> 0 < c_atomic c -> charge <> 0 -> 0 <= v_min lim ->
  never_negative lim (parametrization E) -> never_negative lim (bremsstrahlung nan screening parametrization None mass charge c E).
Proof.
  intros M Z A Q L H v V. destruct (H v V) as (r & R & P).
  destruct (bremsstrahlung_sign screening parametrization None mass charge c E v r 1 M Z A Q ltac:(lra) R eq_refl) as (k & K & HK).
  eexists. split; [exact HK|]. nra.
Qed.
End Common.

(** ** The kinematic limits *)
Section Range.
Variables (mass E v : R) (c : component).
Hypotheses (M : 0 < mass) (EP : 0 < E) (el : element c).
Hypothesis V : 0 < v <= v_max (brems_limits None mass (c_charge c) E).
Let z := inverse_cube_root (c_charge c).
Lemma charge_pos : 1 <= c_charge c.
Proof. apply el. Qed.
Lemma range_max : v < 1 /\ 3 / 4 * SQRTE * mass * cube_root (c_charge c) <= E * (1 - v).
Proof.
  destruct V as [V1 V2]. cbn [brems_limits v_max] in V2. pose proof SQRTE_val.
  set (w := 1 - 75 / 100 * SQRTE * (mass / E) * cube_root (c_charge c)) in *.
  destruct (w <? 0) eqn:D; [lra|]. assert (0 < cube_root (c_charge c)) as C by apply exp_pos.
  assert (0 < 75 / 100 * SQRTE * (mass / E) * cube_root (c_charge c)) as P.
  { apply Rmult_lt_0_compat; [|exact C]. apply Rmult_lt_0_compat; [lra|now apply Rdiv_lt_0_compat]. }
  split; [unfold w in V2; lra|].
  assert (E * (75 / 100 * SQRTE * (mass / E) * cube_root (c_charge c)) = 3 / 4 * SQRTE * mass * cube_root (c_charge c)) as Q by (field; lra).
  rewrite <- Q. apply Rmult_le_compat_l; [lra|]. unfold w in V2. lra.
Qed.
Definition least := mass * mass * v / (2 * E * (1 - v)).
Lemma momentum_ok nan : momentum nan mass E v = Ok least.
Proof. destruct range_max as [A _]. unfold momentum. apply quo_ok. apply Rgt_not_eq. nra. Qed.
Lemma least_pos : 0 < least.
Proof. destruct range_max as [A _]. unfold least. apply Rdiv_lt_0_compat; [|nra]. destruct V. repeat apply Rmult_lt_0_compat; lra. Qed.
Lemma least_le : least * (3 / 2 * SQRTE) <= mass * v * z.
Proof.
  destruct range_max as [A B]. pose proof charge_pos as C. pose proof SQRTE_val. destruct V as [V1 _].
  pose proof (icr_cube (c_charge c) ltac:(lra)) as I. fold z in I. set (y := cube_root (c_charge c)) in *.
  assert (0 < z) as ZP by apply icr_pos. assert (0 < y) as YP by apply exp_pos. clearbody z y.
  unfold least. assert (0 < 2 * E * (1 - v)) as D by nra.
  replace (mass * mass * v / (2 * E * (1 - v)) * (3 / 2 * SQRTE)) with (mass * mass * v * (3 / 2 * SQRTE) / (2 * E * (1 - v))) by (field; split; lra).
  apply Rle_div_l; [exact D|].
  replace (mass * mass * v * (3 / 2 * SQRTE)) with (mass * v * z * (2 * (3 / 4 * SQRTE * mass * y))).
  2:{ replace (mass * v * z * (2 * (3 / 4 * SQRTE * mass * y))) with (mass * mass * v * (3 / 2 * SQRTE) * (z * y)) by field. rewrite I. ring. }
  apply Rmult_le_compat_l; [|lra]. assert (0 < mass * v) by nra. nra.
Qed.
(** In units of the mass *)
Lemma least_share : least <= 4044 / 10000 * z * mass.
Proof.
  pose proof least_le as L. pose proof SQRTE_val. destruct range_max as [A _]. destruct V as [V1 _].
  assert (0 < z) as ZP by apply icr_pos. pose proof least_pos.
  assert (mass * v * z <= mass * z) by (assert (0 < mass * z) by nra; nra).
  assert (least * (3 / 2 * (16487 / 10000)) <= mass * z) by nra. nra.
Qed.
End Range.

(** ** Petrukhin and Shestakov *)
Section Petrukhin.
Variable nan : forall A, outcome A.
Lemma petrukhin_light mass c E : ME <= mass -> 0 < E -> element c -> c_charge c <= 10 ->
  never_negative (brems_limits None mass (c_charge c) E) (petrukhin_shestakov nan mass c E).
Proof.
  intros M EP el Z v V. pose proof ME_pos as P. pose proof SQRTE_val as Q. cbn [v_min brems_limits] in V.
  assert (0 < mass) as MP by lra. destruct (range_max mass E v c MP EP V) as [V1 _].
  unfold petrukhin_shestakov. rewrite (momentum_ok mass E v c MP EP V). cbn [obind].
  pose proof (least_pos mass E v c MP EP V) as L. pose proof (least_share mass E v c MP EP el V) as U.
  set (z := inverse_cube_root (c_charge c)) in *.
  assert (4 / 10 <= z <= 1) as ZB by (split; [apply icr_ge|apply icr_le]; destruct el; lra).
  set (delta := least mass E v) in *. clearbody delta z. set (F := 189 * z / ME).
  assert (0 < F) as FP by (apply Rdiv_lt_0_compat; lra).
  assert (0 < SQRTE * delta * F) as DP by (apply Rmult_lt_0_compat; [apply Rmult_lt_0_compat; lra|exact FP]).
  rewrite quo_ok by lra. cbn [obind]. rewrite (proj2 (Rltb_false _ _)) by lra.
  assert (1 <= mass * F / (1 + SQRTE * delta * F)) as G.
  { apply (proj1 (Rle_div_r 1 (mass * F) (1 + SQRTE * delta * F) ltac:(lra))).
    assert (75 <= mass * F) as A.
    { unfold F. replace (mass * (189 * z / ME)) with (189 * z * (mass / ME)) by (field; lra).
      assert (1 <= mass / ME) by (apply (proj1 (Rle_div_r 1 mass ME P)); lra). nra. }
    assert (SQRTE * delta <= 7 / 10 * mass) as B.
    { assert (SQRTE * delta <= 16488 / 10000 * (4044 / 10000 * 1 * mass)); [|lra]. apply Rmult_le_compat; try lra. nra. }
    assert (SQRTE * delta * F <= 7 / 10 * mass * F) by (apply Rmult_le_compat_r; lra). lra. }
  rewrite log_ok by lra. cbn [obind]. eexists. split; [reflexivity|].
  apply Rmult_le_pos; [apply Rlt_le, weight_function; lra|]. rewrite <- ln_1. apply ln_le; lra.
Qed.
Lemma petrukhin_heavy mass c E : ME <= mass -> element c -> 10 < c_charge c -> 73 * mass ^ 2 / ME <= E ->
  0 < v_max (brems_limits None mass (c_charge c) E) /\
  exists x, petrukhin_shestakov nan mass c E (v_max (brems_limits None mass (c_charge c) E)) = Ok x /\ x < 0.
Proof.
  intros M el Z EB. pose proof ME_pos as P. pose proof SQRTE_val as Q. assert (0 < mass) as MP by lra.
  assert (1 <= mass / ME) as R by (apply (proj1 (Rle_div_r 1 mass ME P)); lra).
  assert (73 * mass <= E) as E1.
  { replace (73 * mass ^ 2 / ME) with (73 * mass * (mass / ME)) in EB by (field; lra). nra. }
  assert (0 < E) as EP by lra.
  set (w := v_max (brems_limits None mass (c_charge c) E)).
  pose proof (icr_cube (c_charge c) ltac:(lra)) as I. pose proof (element_icr c el) as ZB.
  set (z := inverse_cube_root (c_charge c)) in *. set (y := cube_root (c_charge c)) in *.
  assert (z <= 465 / 1000) as Z4 by (apply icr_le; lra).
  assert (0 < y) as YP by apply exp_pos. assert (y <= 4652 / 1000) as Y4 by (assert (215 / 1000 * y <= 1) by (rewrite <- I; apply Rmult_le_compat_r; lra); lra).
  assert (0 < mass / E <= 1 / 73) as S1 by (split; [now apply Rdiv_lt_0_compat|apply Rle_div_l; lra]).
  assert (0 < 75 / 100 * SQRTE * (mass / E) * y <= 1 / 10) as S2.
  { assert (0 < mass / E * y) as B1 by (apply Rmult_lt_0_compat; lra).
    assert (mass / E * y <= 1 / 73 * (4652 / 1000)) as B2 by (apply Rmult_le_compat; lra).
    rewrite Rmult_assoc. set (q := mass / E * y) in *. clearbody q.
    split; [apply Rmult_lt_0_compat; lra|].
    assert (75 / 100 * SQRTE * q <= 75 / 100 * (16488 / 10000) * (1 / 73 * (4652 / 1000))); [|lra].
    apply Rmult_le_compat; lra. }
  assert (w = 1 - 75 / 100 * SQRTE * (mass / E) * y) as W.
  { unfold w. cbn [brems_limits v_max]. fold y. rewrite (proj2 (Rltb_false _ _)); [reflexivity|lra]. }
  split; [lra|].
  assert (momentum nan mass E w = Ok (mass * w * z / (3 / 2 * SQRTE))) as Mo.
  { unfold momentum. rewrite quo_ok.
    2:{ apply Rgt_not_eq. assert (0 < 1 - w) by lra. nra. }
    f_equal. assert (1 - w = 75 / 100 * SQRTE * (mass / E) * y) as -> by lra.
    apply (Rmult_eq_reg_r (3 / 2 * SQRTE * y)); [|apply Rgt_not_eq; nra].
    transitivity (mass * w * (z * y)); [rewrite I|]; field; repeat split; lra. }
  unfold petrukhin_shestakov. rewrite Mo. cbn [obind]. fold z.
  set (F := 189 * z / ME). assert (0 < F) as FP by (apply Rdiv_lt_0_compat; lra).
  assert (SQRTE * (mass * w * z / (3 / 2 * SQRTE)) * F = 2 / 3 * z * w * (mass * F)) as -> by (field; lra).
  assert (0 < mass * F) as MF by nra. assert (0 < w) as WP by lra.
  assert (0 < 2 / 3 * z * w * (mass * F)) as DP by (apply Rmult_lt_0_compat; [apply Rmult_lt_0_compat; lra|exact MF]).
  rewrite quo_ok by lra. cbn [obind]. rewrite (proj2 (Rltb_true _ _)) by lra.
  assert (0 < mass * F / (1 + 2 / 3 * z * w * (mass * F)) * (2 / 3 * z)) as A1.
  { apply Rmult_lt_0_compat; [apply Rdiv_lt_0_compat|]; lra. }
  assert (mass * F / (1 + 2 / 3 * z * w * (mass * F)) * (2 / 3 * z) < 1) as A2.
  { replace (mass * F / (1 + 2 / 3 * z * w * (mass * F)) * (2 / 3 * z)) with (2 / 3 * z * (mass * F) / (1 + 2 / 3 * z * w * (mass * F))) by (field; lra).
    apply Rlt_div_l; [lra|].
    assert (2 / 3 * z * (mass * F) * (1 - w) < 1); [|lra].
    assert (2 / 3 * z * (mass * F) * (1 - w) = 945 / 10 * SQRTE * z * (z * y) * (mass ^ 2 / ME / E)) as ->.
    { rewrite W. unfold F. field. lra. }
    rewrite I. assert (mass ^ 2 / ME / E <= 1 / 73) as B.
    { apply Rle_div_l; [lra|]. replace (73 * mass ^ 2 / ME) with (73 * (mass ^ 2 / ME)) in EB by (field; lra). lra. }
    assert (0 < mass ^ 2 / ME / E) by (repeat apply Rdiv_lt_0_compat; nra).
    set (q := mass ^ 2 / ME / E) in *. clearbody q.
    assert (SQRTE * z <= 16488 / 10000 * (465 / 1000)) by (apply Rmult_le_compat; lra). assert (0 < SQRTE * z) by nra.
    assert (SQRTE * z * q <= 16488 / 10000 * (465 / 1000) * (1 / 73)) by (apply Rmult_le_compat; lra). lra. }
  rewrite log_ok by exact A1. cbn [obind]. eexists. split; [reflexivity|].
  assert (0 < 4 / 3 * (1 - w) + w * w) by (apply weight_function; lra).
  assert (ln (mass * F / (1 + 2 / 3 * z * w * (mass * F)) * (2 / 3 * z)) < 0) by (rewrite <- ln_1; apply ln_increasing; lra).
  nra.
Qed.
End Petrukhin.

(** ** Kelner, Kokoulin and Petrukhin *)
Lemma share_squares z : 215 / 1000 <= z <= 1 -> 46 / 1000 <= z * z <= z /\ z * z * z <= z * z /\ (z <= 1 / 2 -> z * z * z <= 1 / 2 * (z * z)).
Proof. intros. assert (46 / 1000 <= z * z) by nra. repeat split; try nra. Qed.
Lemma elastic_bound z D d mu b : 215 / 1000 <= z <= 1 -> 154 / 100 <= D -> D * z <= 2222 / 1000 -> 0 < d <= 4044 / 10000 * z ->
  0 < mu <= 1 -> 150 * z <= b -> D * exp (1 / 2) * (d + mu / (SQRTE * b)) <= 1 + d * (D * SQRTE - 2).
Proof.
  intros Z D1 D2 [d1 d2] [m1 m2] B. pose proof SQRTE_val as U. pose proof half_exp_upper as X. pose proof (exp_pos (1 / 2)) as XP.
  assert (0 < b) as BP by lra. assert (0 < SQRTE * b) as UB by nra.
  assert (mu / (SQRTE * b) <= 1 / (16487 / 10000 * 150 * z)) as A.
  { apply Rle_div_l; [exact UB|]. apply Rle_trans with (1 / (16487 / 10000 * 150 * z) * (16487 / 10000 * (150 * z))).
    - apply Rle_trans with 1; [lra|right; field; lra].
    - apply Rmult_le_compat_l; [apply Rlt_le, Rdiv_lt_0_compat; nra|]. apply Rmult_le_compat; lra. }
  assert (D * (mu / (SQRTE * b)) <= 9 / 1000 / (z * z)) as A2.
  { assert (0 < mu / (SQRTE * b)) by (apply Rdiv_lt_0_compat; lra).
    assert (D <= 2222 / 1000 / z) as D3 by (apply (proj1 (Rle_div_r D (2222 / 1000) z ltac:(lra))); lra).
    apply Rle_trans with (2222 / 1000 / z * (1 / (16487 / 10000 * 150 * z))); [apply Rmult_le_compat; lra|].
    replace (2222 / 1000 / z * (1 / (16487 / 10000 * 150 * z))) with (2222 / 1000 / (16487 / 10000 * 150) / (z * z)) by (field; lra).
    apply Rmult_le_compat_r; [apply Rlt_le, Rinv_0_lt_compat; nra|lra]. }
  assert (D * d <= 9 / 10) as A3 by (assert (D * d <= D * (4044 / 10000 * z)) by (apply Rmult_le_compat_l; lra); nra).
  assert (0 <= D * d) as A4 by nra.
  set (t := D * (mu / (SQRTE * b))) in *.
  assert (0 <= t) as TP by (unfold t; apply Rmult_le_pos; [lra|apply Rlt_le, Rdiv_lt_0_compat; lra]).
  replace (D * exp (1 / 2) * (d + mu / (SQRTE * b))) with (exp (1 / 2) * (D * d + t)) by (unfold t; ring).
  clearbody t. apply Rle_trans with (166 / 100 * (D * d + t)); [apply Rmult_le_compat_r; lra|].
  assert (166 / 100 * t + 2 * d <= 95 / 100).
  { destruct (share_squares z Z) as ([Q1 Q2] & Q3 & Q4).
    assert (t * (z * z) <= 9 / 1000) as T1 by (apply (proj2 (Rle_div_r t (9 / 1000) (z * z) ltac:(lra))); exact A2).
    apply (Rmult_le_reg_r (z * z)); [lra|]. replace ((166 / 100 * t + 2 * d) * (z * z)) with (166 / 100 * (t * (z * z)) + 2 * d * (z * z)) by ring.
    assert (2 * d * (z * z) <= 8088 / 10000 * (z * z * z)) by (replace (8088 / 10000 * (z * z * z)) with (2 * (4044 / 10000 * z) * (z * z)) by field; apply Rmult_le_compat_r; lra).
    destruct (Rle_lt_dec z (1 / 2)) as [L|L]; [specialize (Q4 L); lra|].
    assert (1 / 4 <= z * z) by nra. lra. }
  nra.
Qed.
Lemma inelastic_light z d b : 215 / 1000 <= z <= 1 -> 0 < d <= 4044 / 10000 * z -> 446 * (z * z) <= b -> (d + SQRTE) * (d + 1 / (SQRTE * b)) <= 1.
Proof.
  intros Z [d1 d2] B. pose proof SQRTE_val as U. destruct (share_squares z Z) as ([Q1 Q2] & Q3 & Q4).
  assert (0 < b) as BP by lra. assert (16487 / 10000 * (446 * (z * z)) <= SQRTE * b) as UB by (apply Rmult_le_compat; lra).
  set (e := 1 / (SQRTE * b)). assert (0 < e) by (apply Rdiv_lt_0_compat; lra).
  assert (e * (z * z) <= 14 / 10000) as A.
  { assert (e * (SQRTE * b) = 1) as K by (unfold e; field; lra). clearbody e.
    assert (e * (16487 / 10000 * (446 * (z * z))) <= 1) by (rewrite <- K; apply Rmult_le_compat_l; lra). lra. }
  clearbody e. assert (d + e <= 43 / 100).
  { apply (Rmult_le_reg_r (z * z)); [lra|].
    assert (d * (z * z) <= 4044 / 10000 * (z * z * z)) by (replace (4044 / 10000 * (z * z * z)) with (4044 / 10000 * z * (z * z)) by ring; apply Rmult_le_compat_r; lra).
    destruct (Rle_lt_dec z (1 / 2)) as [L|L]; [specialize (Q4 L); lra|]. assert (1 / 4 <= z * z) by nra. lra. }
  assert ((d + SQRTE) * (d + e) <= (4044 / 10000 * 1 + 16488 / 10000) * (43 / 100)); [|lra]. apply Rmult_le_compat; lra.
Qed.
Lemma inelastic_heavy z d mu b : 215 / 1000 <= z <= 1 -> 0 < mu <= 2 / 100 -> 0 < d < mu -> 446 * (z * z) <= b ->
  (d / mu + SQRTE * mu) * (d / mu + 1 / (SQRTE * b)) <= 107 / 100.
Proof.
  intros Z [m1 m2] [d1 d2] B. pose proof SQRTE_val as U. destruct (share_squares z Z) as ([Q1 Q2] & Q3 & Q4).
  assert (16487 / 10000 * (446 * (z * z)) <= SQRTE * b) as UB by (apply Rmult_le_compat; lra).
  assert (0 < d / mu) by now apply Rdiv_lt_0_compat. assert (d / mu <= 1) by (apply Rle_div_l; lra).
  assert (1 / (SQRTE * b) <= 3 / 100) by (apply Rle_div_l; lra). assert (0 < 1 / (SQRTE * b)) by (apply Rdiv_lt_0_compat; lra).
  assert (SQRTE * mu <= 16488 / 10000 * (2 / 100)) by (apply Rmult_le_compat; lra). assert (0 < SQRTE * mu) by nra.
  set (x := d / mu) in *. set (e := 1 / (SQRTE * b)) in *. set (y := SQRTE * mu) in *. clearbody x e y.
  assert ((x + y) * (x + e) <= (1 + 16488 / 10000 * (2 / 100)) * (1 + 3 / 100)); [|lra]. apply Rmult_le_compat; lra.
Qed.
Lemma elastic_heavy z D d mu b Q : 215 / 1000 <= z <= 1 -> 154 / 100 <= D -> D * z <= 2222 / 1000 -> 0 < mu <= 2 / 100 -> 0 < d < mu ->
  150 * z <= b -> 0 < Q <= 107 / 100 -> D * exp (1 / 2) * (d + mu / (SQRTE * b)) * Q <= 1 + d * (D * SQRTE - 2).
Proof.
  intros Z D1 D2 [m1 m2] [d1 d2] B [Q1 Q2]. pose proof SQRTE_val as U. pose proof half_exp_upper as X. pose proof (exp_pos (1 / 2)) as XP.
  assert (16487 / 10000 * (150 * z) <= SQRTE * b) as UB by (apply Rmult_le_compat; lra).
  assert (mu / (SQRTE * b) <= 1 / 1000) as A.
  { apply Rle_div_l; lra. }
  assert (0 < mu / (SQRTE * b)) by (apply Rdiv_lt_0_compat; lra). assert (D <= 1034 / 100) by nra.
  assert (D * exp (1 / 2) <= 1034 / 100 * (166 / 100)) by (apply Rmult_le_compat; lra). assert (0 < D * exp (1 / 2)) by nra.
  assert (D * exp (1 / 2) * (d + mu / (SQRTE * b)) <= 1034 / 100 * (166 / 100) * (2 / 100 + 1 / 1000)) by (apply Rmult_le_compat; lra).
  assert (0 < D * exp (1 / 2) * (d + mu / (SQRTE * b))) by (apply Rmult_lt_0_compat; lra).
  assert (D * exp (1 / 2) * (d + mu / (SQRTE * b)) * Q <= 1034 / 100 * (166 / 100) * (2 / 100 + 1 / 1000) * (107 / 100)) by (apply Rmult_le_compat; lra).
  assert (0 <= d * (D * SQRTE - 2)) by (apply Rmult_le_pos; nra). lra.
Qed.

Section Kelner.
Variable nan : forall A, outcome A.
(** Below the limit for an atomic electron the least momentum is less than the mass
    of the electron. *)
Lemma electron_limit_value mass E : 0 < mass < E ->
  exists w, electron_limit nan mass E = Ok w /\ forall v, 0 < v < 1 -> v < w -> least mass E v < ME.
Proof.
  intros [M EM]. pose proof ME_pos as P. unfold electron_limit. set (s := (E - mass) * (E + mass)). assert (0 < s) as SP by (unfold s; nra).
  rewrite Rmax_left by lra. set (p := sqrt s). assert (p * p = s) as PS by (apply sqrt_sqrt; lra).
  assert (0 < p) as PP by now apply sqrt_lt_R0. assert (p < E) as PE by (unfold s in PS; nra).
  assert (0 < E * (E - p + ME)) as DP by (apply Rmult_lt_0_compat; lra).
  rewrite quo_ok by lra. eexists. split; [reflexivity|]. intros v [V0 V1] H.
  apply Rlt_div_r in H; [|exact DP]. unfold least. apply Rlt_div_l; [nra|].
  assert (mass * mass = (E - p) * (E + p)) as Q by (unfold s in PS; lra).
  assert ((E - mass) * (mass * mass + 2 * E * ME) <= 2 * E * (E * (E - p + ME))) as A.
  { rewrite Q. assert ((E - mass) * ((E - p) * (E + p)) <= E * ((E - p) * (E + p))) by (apply Rmult_le_compat_r; nra).
    assert (E * ((E - p) * (E + p)) <= E * ((E - p) * (2 * E))) by (apply Rmult_le_compat_l; [lra|]; apply Rmult_le_compat_l; lra).
    assert ((E - mass) * (2 * E * ME) <= E * (2 * E * ME)) by (apply Rmult_le_compat_r; nra). lra. }
  assert (0 < mass * mass + 2 * E * ME) as K by nra.
  assert (v * (mass * mass + 2 * E * ME) < 2 * E * ME); [|lra].
  apply (Rmult_lt_reg_r (E * (E - p + ME))); [exact DP|].
  apply Rlt_le_trans with (ME * (E - mass) * (mass * mass + 2 * E * ME)).
  - replace (v * (mass * mass + 2 * E * ME) * (E * (E - p + ME))) with (v * (E * (E - p + ME)) * (mass * mass + 2 * E * ME)) by ring.
    now apply Rmult_lt_compat_r.
  - replace (2 * E * ME * (E * (E - p + ME))) with (ME * (2 * E * (E * (E - p + ME)))) by ring.
    rewrite Rmult_assoc. apply Rmult_le_compat_l; lra.
Qed.
Lemma range_energy mass E v c : 0 < mass -> 0 < E -> element c -> 0 < v <= v_max (brems_limits None mass (c_charge c) E) -> mass < E.
Proof.
  intros M EP el V. destruct (range_max mass E v c M EP V) as [V1 V2]. pose proof (element_icr c el) as Z. pose proof SQRTE_val as U.
  pose proof (icr_cube (c_charge c) ltac:(destruct el; lra)) as I. set (z := inverse_cube_root (c_charge c)) in *.
  assert (0 < cube_root (c_charge c)) as CP by apply exp_pos. set (y := cube_root (c_charge c)) in *. clearbody y z. assert (1 <= y) by nra.
  assert (mass * 1 <= mass * y) by (apply Rmult_le_compat_l; lra). assert (0 < mass * y) by nra.
  assert (1236 / 1000 * (mass * y) <= 3 / 4 * SQRTE * (mass * y)) by (apply Rmult_le_compat_r; lra). nra.
Qed.
Lemma kelner_positive mass c E : lepton mass -> 0 < E -> element c ->
  never_negative (brems_limits None mass (c_charge c) E) (kelner nan mass c E).
Proof.
  intros lep EP el v V. pose proof ME_pos as P. pose proof SQRTE_val as U. cbn [v_min brems_limits] in V.
  assert (0 < mass) as MP by (destruct lep; lra). destruct (range_max mass E v c MP EP V) as [V1 _].
  pose proof (range_energy mass E v c MP EP el V) as EM.
  unfold kelner. rewrite (momentum_ok mass E v c MP EP V). cbn [obind].
  pose proof (least_pos mass E v c MP EP V) as L. pose proof (least_share mass E v c MP EP el V) as S.
  destruct (electron_limit_value mass E (conj MP EM)) as (w & -> & HW). specialize (HW v ltac:(lra)).
  pose proof (element_icr c el) as ZB. destruct (nuclear_radius_bounds c el) as [D1 D2].
  pose proof (log_constant_bounds c) as BB. pose proof (b_prime_bounds c) as BP.
  assert (1 <= c_charge c) as Z1 by apply el.
  set (z := inverse_cube_root (c_charge c)) in *. set (D := nuclear_radius (c_atomic c)) in *. set (delta := least mass E v) in *.
  set (B := log_constant c) in *. set (B' := b_prime c) in *. clearbody delta z D B B'.
  set (d := delta / mass). set (mu := ME / mass).
  assert (0 < d) as dP by now apply Rdiv_lt_0_compat. assert (d <= 4044 / 10000 * z) as dU by (apply Rle_div_l; lra).
  assert (0 < mu) as muP by now apply Rdiv_lt_0_compat. assert (mu <= 1) as muU by (apply Rle_div_l; destruct lep; lra).
  assert (0 < B * z) as Bz by nra. assert (0 < B' * z * z) as Bzz by (repeat apply Rmult_lt_0_compat; lra).
  assert (0 < delta * SQRTE * B * z) as N1 by (repeat apply Rmult_lt_0_compat; lra).
  assert (0 < delta * SQRTE * B' * z * z) as N2 by (repeat apply Rmult_lt_0_compat; lra).
  assert (0 < ME / (delta * SQRTE * B * z)) as T1 by now apply Rdiv_lt_0_compat.
  assert (0 < ME / (delta * SQRTE * B' * z * z)) as T2 by now apply Rdiv_lt_0_compat.
  assert (0 < D * SQRTE - 2) as DU by nra.
  assert (0 < delta * (D * SQRTE - 2) / mass) as T3 by (apply Rdiv_lt_0_compat; nra).
  assert (0 < D / (1 + delta * (D * SQRTE - 2) / mass)) as T4 by (apply Rdiv_lt_0_compat; lra).
  assert (0 < mass / delta) as T5 by now apply Rdiv_lt_0_compat.
  assert (0 < delta * mass / (ME * ME) + SQRTE) as T6.
  { assert (0 < delta * mass / (ME * ME)) by (apply Rdiv_lt_0_compat; nra). lra. }
  assert (0 < mass / (delta * (delta * mass / (ME * ME) + SQRTE))) as T7 by (apply Rdiv_lt_0_compat; [lra|now apply Rmult_lt_0_compat]).
  assert (1 + delta * (D * SQRTE - 2) / mass = 1 + d * (D * SQRTE - 2)) as Ed by (unfold d; field; lra).
  (* the nucleus *)
  assert (1 <= D / (1 + delta * (D * SQRTE - 2) / mass)) as NE.
  { apply (proj1 (Rle_div_r 1 D (1 + delta * (D * SQRTE - 2) / mass) ltac:(lra))). rewrite Ed. assert (d <= 4044 / 10000) by lra.
    assert (0 <= (D - 154 / 100) * (1 - d * SQRTE)) by (apply Rmult_le_pos; nra). nra. }
  assert (0 <= ln (D / (1 + delta * (D * SQRTE - 2) / mass))) as NEl by (rewrite <- ln_1; apply ln_le; lra).
  assert (exp (1 / 2) * (1 + ME / (delta * SQRTE * B * z)) * (D / (1 + delta * (D * SQRTE - 2) / mass)) =
          D * exp (1 / 2) * (d + mu / (SQRTE * (B * z))) / (1 + d * (D * SQRTE - 2)) * (mass / delta)) as K1.
  { rewrite Ed. unfold mu. unfold d at 2. field. assert (0 < 1 + d * (D * SQRTE - 2)) by nra. repeat split; nra. }
  assert (0 < 1 + d * (D * SQRTE - 2)) as DDp by nra.
  pose proof (exp_pos (1 / 2)) as XP.
  assert (0 < D * exp (1 / 2) * (d + mu / (SQRTE * (B * z)))) as ElP.
  { assert (0 < mu / (SQRTE * (B * z))) by (apply Rdiv_lt_0_compat; nra). repeat apply Rmult_lt_0_compat; lra. }
  assert (forall Q, 0 < Q -> D * exp (1 / 2) * (d + mu / (SQRTE * (B * z))) * Q <= 1 + d * (D * SQRTE - 2) ->
    ln Q <= ln (mass / delta) - 1 / 2 - ln (1 + ME / (delta * SQRTE * B * z)) - ln (D / (1 + delta * (D * SQRTE - 2) / mass))) as K2.
  { intros Q QP H. assert (1 / 2 = ln (exp (1 / 2))) as HH by (symmetry; apply ln_exp).
    assert (ln Q + ln (exp (1 / 2)) + ln (1 + ME / (delta * SQRTE * B * z)) + ln (D / (1 + delta * (D * SQRTE - 2) / mass)) =
            ln (Q * (exp (1 / 2) * (1 + ME / (delta * SQRTE * B * z)) * (D / (1 + delta * (D * SQRTE - 2) / mass))))) as HS.
    { assert (0 < 1 + ME / (delta * SQRTE * B * z)) by lra.
      assert (0 < exp (1 / 2) * (1 + ME / (delta * SQRTE * B * z))) by now apply Rmult_lt_0_compat.
      assert (0 < exp (1 / 2) * (1 + ME / (delta * SQRTE * B * z)) * (D / (1 + delta * (D * SQRTE - 2) / mass))) by now apply Rmult_lt_0_compat.
      rewrite (ln_mult Q) by lra. rewrite (ln_mult (exp (1 / 2) * _)) by lra. rewrite (ln_mult (exp (1 / 2))) by lra. ring. }
    assert (ln (Q * (exp (1 / 2) * (1 + ME / (delta * SQRTE * B * z)) * (D / (1 + delta * (D * SQRTE - 2) / mass)))) <= ln (mass / delta)); [|lra].
    rewrite K1. apply ln_le.
    - apply Rmult_lt_0_compat; [exact QP|]. apply Rmult_lt_0_compat; [now apply Rdiv_lt_0_compat|exact T5].
    - rewrite <- (Rmult_1_l (mass / delta)) at 2. rewrite <- Rmult_assoc. apply Rmult_le_compat_r; [lra|].
      unfold Rdiv at 1. rewrite <- Rmult_assoc. apply (proj2 (Rle_div_l _ 1 _ DDp)). lra. }
  assert (0 <= ln (mass / delta) - 1 / 2 - ln (1 + ME / (delta * SQRTE * B * z)) - ln (D / (1 + delta * (D * SQRTE - 2) / mass))) as EL.
  { rewrite <- ln_1. apply K2; [lra|]. rewrite Rmult_1_r. apply (elastic_bound z); try lra. rewrite <- (Rmult_comm z). nra. }
  (* the electrons *)
  assert (exists ai, (if v <? w then
       olet e := quo nan mass (delta * (delta * mass / (ME * ME) + SQRTE)) in
       olet l1 := log nan e in
       olet f := quo nan ME (delta * SQRTE * B' * z * z) in
       olet l2 := log nan (1 + f) in Ok (l1 - l2)
     else Ok 0) = Ok ai /\
     - ai <= ln (mass / delta) - 1 / 2 - ln (1 + ME / (delta * SQRTE * B * z)) - ln (D / (1 + delta * (D * SQRTE - 2) / mass))) as (ai & HA & AI).
  { destruct (v <? w) eqn:VW; [|exists 0; split; [reflexivity|lra]]. apply Rltb_true in VW. specialize (HW VW).
    rewrite quo_ok by (apply Rgt_not_eq; nra). cbn [obind]. rewrite log_ok by exact T7. cbn [obind].
    rewrite quo_ok by lra. cbn [obind]. rewrite log_ok by lra. cbn [obind]. eexists. split; [reflexivity|].
    set (Q := (1 + ME / (delta * SQRTE * B' * z * z)) / (mass / (delta * (delta * mass / (ME * ME) + SQRTE)))).
    assert (0 < Q) as QP by (apply Rdiv_lt_0_compat; lra).
    assert (- (ln (mass / (delta * (delta * mass / (ME * ME) + SQRTE))) - ln (1 + ME / (delta * SQRTE * B' * z * z))) = ln Q) as ->.
    { unfold Q. rewrite (ln_div (1 + ME / (delta * SQRTE * B' * z * z))) by lra. ring. }
    assert (d < mu) as dm by (unfold d, mu; apply Rmult_lt_compat_r; [now apply Rinv_0_lt_compat|lra]).
    assert (Q = (d / mu + SQRTE * mu) * (d / mu + 1 / (SQRTE * (B' * z * z)))) as QV.
    { unfold Q, d, mu. assert (0 < delta * mass + SQRTE * (ME * ME)) by nra. field. repeat split; try lra; apply Rgt_not_eq; nra. }
    assert (446 * (z * z) <= B' * z * z) as BPz by (rewrite Rmult_assoc; apply Rmult_le_compat_r; nra).
    destruct lep as [-> | H].
    - assert (Q <= 1) as Q1.
      { rewrite QV. assert (mu = 1) as -> by (unfold mu; field; lra). replace (d / 1) with d by field. rewrite Rmult_1_r.
        apply (inelastic_light z); [exact ZB|split; assumption|exact BPz]. }
      apply Rle_trans with 0; [|exact EL]. rewrite <- ln_1. apply ln_le; lra.
    - assert (mu <= 2 / 100) as m2 by (apply Rle_div_l; lra).
      apply K2; [exact QP|]. apply (elastic_heavy z D d mu (B * z) Q); try lra.
      + apply Rmult_le_compat_r; lra.
      + split; [lra|]. rewrite QV. apply (inelastic_heavy z); lra. }
  rewrite quo_ok by lra. cbn [obind]. rewrite log_ok by lra. cbn [obind]. rewrite quo_ok by lra. cbn [obind].
  rewrite quo_ok by lra. cbn [obind]. rewrite log_ok by lra. cbn [obind]. rewrite HA. cbn [obind].
  rewrite quo_ok by lra. cbn [obind]. rewrite log_ok by lra. cbn [obind]. rewrite quo_ok by lra. cbn [obind].
  eexists. split; [reflexivity|]. apply Rmult_le_pos; [apply Rlt_le, weight_function; lra|].
  set (el0 := ln (mass / delta) - 1 / 2 - ln (1 + ME / (delta * SQRTE * B * z)) - ln (D / (1 + delta * (D * SQRTE - 2) / mass))) in *.
  set (ni := if c_charge c =? 1 then 0 else ln (D / (1 + delta * (D * SQRTE - 2) / mass))).
  assert (0 <= ni) as NI by (unfold ni; destruct (c_charge c =? 1); lra). clearbody ni el0.
  assert (- el0 <= (ni + ai) / c_charge c); [|lra].
  apply (proj1 (Rle_div_r (- el0) (ni + ai) (c_charge c) ltac:(lra))). nra.
Qed.
End Kelner.
