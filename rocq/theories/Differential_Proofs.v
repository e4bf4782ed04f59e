(** Signs of the differential cross sections. *)
From Coq Require Import Lra Psatz.
From Coquelicot Require Import Coquelicot.
From Verif Require Import Prelude PreludeFacts Particle_Model Limits_Model Cross_Model Photo_Model Products_Model Differential_Model.
From Verif Require Import Continuous_Spec Differential_Spec Transform_Proofs Ionization_Proofs.

Ltac steps t := repeat (first [rewrite quo_ok by t | rewrite log_ok by t]; cbn [obind]).

(** ** Bounds *)
Lemma exp_lower x n : 0 <= 1 + x / INR n -> (0 < n)%nat -> (1 + x / INR n) ^ n <= exp x.
Proof.
  intros P N. assert (0 < INR n) by now apply lt_0_INR.
  assert (exp x = exp (x / INR n) ^ n) as ->.
  { rewrite <- Rpower_pow by apply exp_pos. unfold Rpower. rewrite ln_exp. f_equal. field. lra. }
  apply pow_incr. split; [exact P|]. pose proof (exp_ineq1_le (x / INR n)). lra.
Qed.
Lemma ln_two_lower : 689 / 1000 <= ln 2.
Proof.
  rewrite <- (ln_exp (689 / 1000)). apply ln_le; [apply exp_pos|].
  pose proof (exp_lower (- (689 / 1000)) 64) as H. replace (INR 64) with 64 in H by (rewrite INR_IZR_INZ; reflexivity).
  specialize (H ltac:(lra) ltac:(lia)). rewrite exp_Ropp in H.
  pose proof (exp_pos (689 / 1000)) as P. apply Rmult_le_compat_r with (r := exp (689 / 1000)) in H; [|lra].
  rewrite Rinv_l in H by lra. assert (/ 2 <= (1 + - (689 / 1000) / 64) ^ 64) as B.
  { replace (1 + - (689 / 1000) / 64) with (63311 / 64000) by field. cbn [pow]. lra. }
  nra.
Qed.
Lemma half_exp_upper : exp (1 / 2) <= 166 / 100.
Proof.
  pose proof (exp_lower (- (1 / 2)) 32) as H. replace (INR 32) with 32 in H by (rewrite INR_IZR_INZ; reflexivity).
  specialize (H ltac:(lra) ltac:(lia)). rewrite exp_Ropp in H.
  pose proof (exp_pos (1 / 2)) as P. apply Rmult_le_compat_r with (r := exp (1 / 2)) in H; [|lra].
  rewrite Rinv_l in H by lra. assert (100 / 166 <= (1 + - (1 / 2) / 32) ^ 32) as B.
  { replace (1 + - (1 / 2) / 32) with (63 / 64) by field. cbn [pow]. lra. }
  nra.
Qed.
Lemma icr_pos Z : 0 < inverse_cube_root Z.
Proof. apply exp_pos. Qed.
Lemma icr_cube Z : 0 < Z -> inverse_cube_root Z * cube_root Z = 1.
Proof. intros P. unfold inverse_cube_root, cube_root. rewrite <- Rpower_plus. replace (- (1 / 3) + 1 / 3) with 0 by lra. now apply Rpower_O. Qed.
Lemma cube_root_cubed Z : 0 < Z -> cube_root Z ^ 3 = Z.
Proof.
  intros P. unfold cube_root. rewrite <- Rpower_pow by apply exp_pos. rewrite Rpower_mult. replace (1 / 3 * INR 3) with 1 by (cbn; field).
  now apply Rpower_1.
Qed.
Lemma icr_cubed Z : 0 < Z -> inverse_cube_root Z ^ 3 * Z = 1.
Proof.
  intros P. rewrite <- (cube_root_cubed Z P) at 2. rewrite <- Rpow_mult_distr, icr_cube by exact P. ring.
Qed.
Lemma cube_mono x y : 0 <= x -> 0 <= y -> x ^ 3 <= y ^ 3 -> x <= y.
Proof.
  intros X Y H. destruct (Rle_lt_dec x y) as [L|L]; [exact L|exfalso].
  assert (0 < x) by lra. assert (y * y <= x * x) by nra. assert (y * (y * y) <= y * (x * x)) by (apply Rmult_le_compat_l; lra). assert (0 < x * x) by nra. assert (y * (x * x) < x * (x * x)) by (apply Rmult_lt_compat_r; lra). replace (x ^ 3) with (x * (x * x)) in H by ring. replace (y ^ 3) with (y * (y * y)) in H by ring. lra.
Qed.
Lemma icr_le Z y : 0 < Z -> 0 <= y -> 1 <= y ^ 3 * Z -> inverse_cube_root Z <= y.
Proof.
  intros P Y H. pose proof (icr_pos Z). apply cube_mono; try lra. pose proof (icr_cubed Z P). nra.
Qed.
Lemma icr_ge Z y : 0 < Z -> 0 <= y -> y ^ 3 * Z <= 1 -> y <= inverse_cube_root Z.
Proof.
  intros P Y H. pose proof (icr_pos Z). apply cube_mono; try lra. pose proof (icr_cubed Z P). nra.
Qed.
Lemma element_icr c : element c -> 215 / 1000 <= inverse_cube_root (c_charge c) <= 1.
Proof. intros [[A B] _]. split; [apply icr_ge|apply icr_le]; lra. Qed.
Lemma log_constant_bounds c : 150 <= log_constant c <= 203.
Proof.
  unfold log_constant. destruct (truncate (c_charge c + 1 / 2)) as [|p|p]; [lra| |lra].
  do 7 (destruct p as [p|p|]; try lra).
Qed.
Lemma b_prime_bounds c : 446 <= b_prime c <= 1429.
Proof. unfold b_prime. destruct (truncate (c_charge c + 1 / 2)) as [|[p|p|]|p]; lra. Qed.
Lemma nuclear_radius_bounds c : element c ->
  154 / 100 <= nuclear_radius (c_atomic c) /\ nuclear_radius (c_atomic c) * inverse_cube_root (c_charge c) <= 2222 / 1000.
Proof.
  intros [[A B] [C D]]. unfold nuclear_radius. set (Z := c_charge c) in *. set (M := c_atomic c) in *. clearbody Z M. split.
  - assert (1 <= Rpower M (27 / 100)); [|lra]. rewrite <- (Rpower_O M) by lra. apply Rle_Rpower; lra.
  - rewrite Rmult_assoc. assert (Rpower M (27 / 100) * inverse_cube_root Z <= 14425 / 10000); [|lra].
    apply Rle_trans with (cube_root 3 * (cube_root Z * inverse_cube_root Z)).
    + rewrite <- Rmult_assoc. apply Rmult_le_compat_r; [apply Rlt_le, icr_pos|].
      unfold cube_root. rewrite Rpower_mult_distr by lra.
      apply Rle_trans with (Rpower (3 * Z) (27 / 100)); [apply Rle_Rpower_l; lra|apply Rle_Rpower; lra].
    + rewrite (Rmult_comm (cube_root Z)), icr_cube, Rmult_1_r by lra.
      apply cube_mono; [apply Rlt_le, exp_pos|lra|]. rewrite cube_root_cubed; lra.
Qed.

(** ** Compton scattering *)
Lemma klein_nishina_value nan c E v : 0 < E -> v < 1 -> 0 < c_atomic c -> klein_nishina nan c E v = Ok (klein_nishina_formula c E v).
Proof.
  intros P V A. pose proof ME_pos as Q. unfold klein_nishina. assert (0 < E / ME) as K by now apply Rdiv_lt_0_compat.
  steps ltac:(first [lra|nra]). f_equal.
  unfold klein_nishina_formula, compton_angle. field. repeat split; lra.
Qed.
Lemma compton_angle_range E v : 0 < E -> v_min (compton_limits E) <= v <= v_max (compton_limits E) -> -1 <= compton_angle E v <= 1.
Proof.
  intros P [A B]. cbn in A, B. pose proof ME_pos as Q. unfold compton_angle.
  assert (0 < 1 + 2 * E / ME) as K by (assert (0 < 2 * E / ME) by (apply Rdiv_lt_0_compat; lra); lra).
  assert (0 < 1 / (1 + 2 * E / ME) <= 1 - v) as W by (split; [apply Rdiv_lt_0_compat; lra|lra]).
  assert (1 <= 1 / (1 - v)) as L by (apply (proj1 (Rle_div_r 1 1 (1 - v) ltac:(lra))); lra).
  assert (1 / (1 - v) <= 1 + 2 * E / ME) as U.
  { apply Rle_div_l; [lra|]. destruct W as [_ W]. apply Rle_div_l in W; [|lra]. lra. }
  assert (0 < ME / E) by now apply Rdiv_lt_0_compat.
  assert (ME / E * (2 * E / ME) = 2) as R by (field; lra). split; nra.
Qed.
Lemma compton_angle_ends E : 0 < E -> compton_angle E (v_min (compton_limits E)) = 1 /\ compton_angle E (v_max (compton_limits E)) = -1.
Proof.
  intros P. pose proof ME_pos as Q. cbn. unfold compton_angle. split; [field; lra|].
  replace (1 - (1 - 1 / (1 + 2 * E / ME))) with (1 / (1 + 2 * E / ME)) by ring. field. repeat split; lra.
Qed.
Lemma klein_nishina_positive c E v : 0 < E -> v_min (compton_limits E) <= v <= v_max (compton_limits E) -> v < 1 ->
  0 < c_charge c -> 0 < c_atomic c -> 0 < klein_nishina_formula c E v.
Proof.
  intros P B V Z A. pose proof ME_pos as Q. pose proof (compton_angle_range E v P B) as C. unfold klein_nishina_formula.
  assert (0 < NA) by (unfold NA; lra). assert (0 < RE) by (unfold RE; lra). pose proof PI_RGT_0.
  apply Rmult_lt_0_compat; [apply Rmult_lt_0_compat; [apply Rdiv_lt_0_compat; nra|]|].
  - apply Rdiv_lt_0_compat; [|lra]. apply Rmult_lt_0_compat; [|lra]. apply Rmult_lt_0_compat; [lra|]. apply pow_lt. lra.
  - set (k := compton_angle E v) in *. clearbody k. assert (0 <= v) by apply B. assert (1 <= 1 / (1 - v)) by (apply (proj1 (Rle_div_r 1 1 (1 - v) ltac:(lra))); lra).
    assert (0 <= k ^ 2) by nra. lra.
Qed.
Lemma compton_max_lt E : 0 < E -> v_max (compton_limits E) < 1.
Proof.
  intros P. cbn. pose proof ME_pos as Q. assert (0 < 1 / (1 + 2 * E / ME)); [|lra]. apply Rdiv_lt_0_compat; [lra|].
  assert (0 < 2 * E / ME) by (apply Rdiv_lt_0_compat; lra). lra.
Qed.

(** ** Annihilation *)
Lemma annihilation_primitive g r : 0 < r -> is_derive (f_term (1 + 2 * g * (1 / (g + 1) ^ 2)) (1 / (g + 1) ^ 2)) r
  (annihilation_density g r) \/ g + 1 = 0.
Proof.
  intros P. destruct (Req_dec (g + 1) 0) as [Z|N]; [now right|left]. unfold f_term, annihilation_density. auto_derive; [lra|].
  field. split; lra.
Qed.
Section Annihilation.
Variable g : R.
Hypothesis big : 1 < g.
Let a := annihilation_limit g.
Lemma limit_square : a * a = (g - 1) / (g + 1).
Proof. unfold a, annihilation_limit. apply sqrt_sqrt. apply Rdiv_le_0_compat; lra. Qed.
Lemma limit_range : 0 < a < 1.
Proof.
  split.
  - unfold a, annihilation_limit. apply sqrt_lt_R0. apply Rdiv_lt_0_compat; lra.
  - assert (a * a < 1) as H by (rewrite limit_square; apply Rlt_div_l; lra). assert (0 <= a) by apply sqrt_pos. nra.
Qed.
Lemma limit_momentum : sqrt (g * g - 1) = a * (g + 1).
Proof.
  rewrite <- (sqrt_Rsqr (a * (g + 1))) by (pose proof limit_range; nra). f_equal. unfold Rsqr.
  replace (a * (g + 1) * (a * (g + 1))) with (a * a * ((g + 1) * (g + 1))) by ring. rewrite limit_square. field. lra.
Qed.
Lemma limit_log : ln (1 / 2 * (1 + a)) - ln (1 / 2 * (1 - a)) = ln (g + sqrt (g * g - 1)).
Proof.
  pose proof limit_range as R. rewrite <- ln_div by lra. f_equal. rewrite limit_momentum. pose proof limit_square as S.
  apply (Rmult_eq_reg_r (1 / 2 * (1 - a))); [|lra]. unfold Rdiv at 1. rewrite Rmult_assoc, Rinv_l, Rmult_1_r by lra.
  replace ((g + a * (g + 1)) * (1 / 2 * (1 - a))) with (1 / 2 * (g + a - a * a * (g + 1))) by ring. rewrite S. field. lra.
Qed.
Lemma annihilation_integral : integral_of (annihilation_density g) (1 / 2 * (1 - a)) (1 / 2 * (1 + a)) =
  (g * g + 4 * g + 1) / (g + 1) ^ 2 * ln (g + sqrt (g * g - 1)) - a * (g + 3) / (g + 1).
Proof.
  pose proof limit_range as L. pose proof limit_square as S.
  transitivity (f_term (1 + 2 * g * (1 / (g + 1) ^ 2)) (1 / (g + 1) ^ 2) (1 / 2 * (1 + a)) -
                f_term (1 + 2 * g * (1 / (g + 1) ^ 2)) (1 / (g + 1) ^ 2) (1 / 2 * (1 - a))).
  - apply is_RInt_unique. apply (is_RInt_derive (V := R_CompleteNormedModule)
      (f_term (1 + 2 * g * (1 / (g + 1) ^ 2)) (1 / (g + 1) ^ 2))).
    + intros x [X _]. rewrite Rmin_left in X by lra. destruct (annihilation_primitive g x) as [D|Z]; [lra|exact D|lra].
    + intros x [X _]. rewrite Rmin_left in X by lra. apply (ex_derive_continuous (annihilation_density g)). unfold annihilation_density.
      auto_derive. repeat split; try lra. apply Rgt_not_eq. assert (0 < (g + 1) ^ 2) by (apply pow_lt; lra). cbn in *. nra.
  - unfold f_term. rewrite <- limit_log. set (l1 := ln (1 / 2 * (1 + a))). set (l2 := ln (1 / 2 * (1 - a))). clearbody l1 l2. clearbody a.
    assert (1 - a * a <> 0) as K by nra.
    assert (1 / (1 / 2 * (1 + a)) - 1 / (1 / 2 * (1 - a)) = - (2 * a * (g + 1))) as Q.
    { replace (1 / (1 / 2 * (1 + a)) - 1 / (1 / 2 * (1 - a))) with (- (4 * a) / (1 - a * a)) by (field; repeat split; try lra). rewrite S. field. split; lra. }
    replace (1 / (g + 1) ^ 2 / (1 / 2 * (1 + a))) with (1 / (g + 1) ^ 2 * (1 / (1 / 2 * (1 + a)))) by (field; lra).
    replace (1 / (g + 1) ^ 2 / (1 / 2 * (1 - a))) with (1 / (g + 1) ^ 2 * (1 / (1 / 2 * (1 - a)))) by (field; lra).
    assert (1 / (1 / 2 * (1 + a)) = 1 / (1 / 2 * (1 - a)) - 2 * a * (g + 1)) as Q' by lra. rewrite Q'.
    set (w := 1 / (1 / 2 * (1 - a))). clearbody w. match goal with |- ?x = ?y => change (@eq R x y) end. field. lra.
Qed.
Lemma momentum_derive x : 1 < x -> is_derive (fun x => ln (x + sqrt (x * x - 1)) - (x + 3) * sqrt (x * x - 1) / (x * x + 4 * x + 1)) x
  (/ sqrt (x * x - 1) * (x ^ 4 + 7 * x ^ 3 + 15 * x ^ 2 - x - 10) / (x * x + 4 * x + 1) ^ 2).
Proof.
  intros X. assert (0 < x * x - 1) as P by nra. pose proof (sqrt_lt_R0 _ P) as Q.
  assert (0 < x * x + 4 * x + 1) as D by nra. auto_derive; [change (x * x + - (1)) with (x * x - 1); repeat split; try lra; nra|].
  pose proof (sqrt_sqrt (x * x - 1) ltac:(lra)) as S. replace (x * x + - (1)) with (x * x - 1) by ring.
  set (s := sqrt (x * x - 1)) in *. clearbody s. assert (0 < x + s) as N by lra.
  replace (x ^ 4 + 7 * x ^ 3 + 15 * x ^ 2 - x - 10) with ((x * x + 4 * x + 1) ^ 2 - (x ^ 3 + 3 * x ^ 2 + 9 * x + 11)) by ring.
  apply (Rmult_eq_reg_r (s * (x + s) * (x * x + 4 * x + 1) ^ 2)).
  2:{ apply Rgt_not_eq. apply Rmult_lt_0_compat; [nra|apply pow_lt; lra]. }
  field_simplify; [|repeat split; lra|repeat split; lra].
  assert (s ^ 2 = x * x - 1) as S2 by (rewrite <- S; ring).
  assert (s ^ 3 = (x * x - 1) * s) as S3 by (replace (s ^ 3) with (s ^ 2 * s) by ring; now rewrite S2).
  assert (s ^ 4 = (x * x - 1) ^ 2) as S4 by (replace (s ^ 4) with (s ^ 2 * s ^ 2) by ring; rewrite S2; ring).
  rewrite ?S4, ?S3, ?S2. field.
Qed.
Lemma annihilation_positive : (g + 3) * sqrt (g * g - 1) / (g * g + 4 * g + 1) < ln (g + sqrt (g * g - 1)).
Proof.
  set (F := fun x => ln (x + sqrt (x * x - 1)) - (x + 3) * sqrt (x * x - 1) / (x * x + 4 * x + 1)).
  set (dF := fun x => / sqrt (x * x - 1) * (x ^ 4 + 7 * x ^ 3 + 15 * x ^ 2 - x - 10) / (x * x + 4 * x + 1) ^ 2).
  assert (forall a b, 1 <= a < b -> exists c, a <= c <= b /\ F b - F a = dF c * (b - a)) as M.
  { intros u v [U V]. destruct (MVT_gen F u v dF) as (c & C & H).
  - intros x [X _]. rewrite Rmin_left in X by lra. apply momentum_derive. lra.
  - intros x [X _]. rewrite Rmin_left in X by lra. apply continuity_pt_filterlim. unfold F.
    apply (continuous_minus (V := R_NormedModule) (fun x => ln (x + sqrt (x * x - 1))) (fun x => (x + 3) * sqrt (x * x - 1) / (x * x + 4 * x + 1))).
    + apply (continuous_comp (fun x => x + sqrt (x * x - 1)) ln).
      * apply (continuous_plus (V := R_NormedModule) (fun x => x) (fun x => sqrt (x * x - 1))); [apply continuous_id|].
        apply (continuous_comp (fun x => x * x - 1) sqrt); [|apply continuous_sqrt].
        apply (ex_derive_continuous (fun x => x * x - 1)). auto_derive. trivial.
      * apply (ex_derive_continuous ln). auto_derive. pose proof (sqrt_pos (x * x - 1)). lra.
    + apply (continuous_mult (K := R_AbsRing) (fun x => (x + 3) * sqrt (x * x - 1)) (fun x => / (x * x + 4 * x + 1))).
      * apply (continuous_mult (K := R_AbsRing) (fun x => x + 3) (fun x => sqrt (x * x - 1))).
        { apply (ex_derive_continuous (fun x => x + 3)). auto_derive. trivial. }
        apply (continuous_comp (fun x => x * x - 1) sqrt); [|apply continuous_sqrt].
        apply (ex_derive_continuous (fun x => x * x - 1)). auto_derive. trivial.
      * apply (ex_derive_continuous (fun x => / (x * x + 4 * x + 1))). auto_derive. nra.
  - rewrite Rmin_left, Rmax_right in C by lra. exists c. now split. }
  assert (forall c, 1 <= c -> 0 <= dF c /\ (1 < c -> 0 < dF c)) as D.
  { intros c C. assert (0 < (c * c + 4 * c + 1) ^ 2) as P by (apply pow_lt; nra).
    assert (0 < c ^ 4 + 7 * c ^ 3 + 15 * c ^ 2 - c - 10) as Q.
    { assert (1 <= c ^ 2) by nra. assert (1 <= c ^ 3) by (cbn; nra). assert (0 <= c ^ 4) by (apply pow_le; lra). nra. }
    assert (1 < c -> 0 < dF c) as S.
    { intros C'. unfold dF. apply Rdiv_lt_0_compat; [|exact P]. apply Rmult_lt_0_compat; [|exact Q].
      apply Rinv_0_lt_compat, sqrt_lt_R0. nra. }
    split; [|exact S]. destruct (Req_dec c 1) as [->|N].
    - unfold dF. replace (1 * 1 - 1) with 0 by ring. rewrite sqrt_0, Rinv_0. lra.
    - apply Rlt_le, S. lra. }
  assert (F 1 = 0) as Z. { unfold F. replace (1 * 1 - 1) with 0 by ring. rewrite sqrt_0, Rplus_0_r, ln_1. field. }
  destruct (M 1 ((1 + g) / 2)) as (c1 & C1 & H1); [lra|]. destruct (M ((1 + g) / 2) g) as (c2 & C2 & H2); [lra|].
  destruct (D c1 ltac:(lra)) as [D1 _]. destruct (D c2 ltac:(lra)) as [_ D2]. specialize (D2 ltac:(lra)).
  assert (0 < F g) as R by nra. unfold F in R. lra.
Qed.
End Annihilation.
Lemma heitler_rate_value nan mass weight c E : 0 < mass < E -> weight <> 0 -> c_atomic c <> 0 ->
  let g := E / mass in
  heitler_rate nan mass weight c E = Ok (NA * c_charge c / c_atomic c * (PI * RE ^ 2) / (g - 1) / weight *
    integral_of (annihilation_density g) (1 / 2 * (1 - annihilation_limit g)) (1 / 2 * (1 + annihilation_limit g))).
Proof.
  intros [M ME'] W A g. assert (1 < g) as G by (unfold g; apply (proj1 (Rlt_div_r 1 E mass M)); lra).
  unfold heitler_rate. rewrite (proj2 (Rleb_false _ _)) by lra. rewrite quo_ok by lra. cbn [obind]. fold g.
  assert (0 < g * g - 1) as P by nra. pose proof (sqrt_lt_R0 _ P) as Q.
  unfold root. rewrite (proj2 (Rltb_false _ _)) by lra. cbn [obind]. rewrite quo_ok by lra. cbn [obind].
  rewrite log_ok by lra. cbn [obind]. rewrite quo_ok by lra. cbn [obind]. rewrite quo_ok by exact A. cbn [obind].
  rewrite quo_ok by lra. cbn [obind]. rewrite quo_ok by exact W. cbn [obind]. f_equal.
  rewrite annihilation_integral by exact G. set (l := ln _). rewrite limit_momentum by exact G.
  pose proof (limit_range g G) as L. pose proof (limit_square g G) as S. set (a := annihilation_limit g) in *. clearbody a l g.
  assert ((g + 3) / (a * (g + 1)) = a * (g + 3) / (g - 1)) as ->.
  { assert (a * a * (g + 1) = g - 1) as S' by (rewrite S; field; lra).
    apply (Rmult_eq_reg_r (a * (g + 1) * (g - 1))); [|apply Rmult_integral_contrapositive_currified; nra].
    field_simplify; [|lra|repeat split; lra]. replace (a ^ 2) with (a * a) by ring. rewrite S. field. lra. }
  field. repeat split; lra.
Qed.
Lemma heitler_rate_positive nan mass weight c E : 0 < mass < E -> 0 < weight -> 0 < c_charge c -> 0 < c_atomic c ->
  exists x, heitler_rate nan mass weight c E = Ok x /\ 0 < x.
Proof.
  intros M W Z A. eexists. split; [apply heitler_rate_value; lra|].
  assert (1 < E / mass) as G by (apply (proj1 (Rlt_div_r 1 E mass ltac:(lra))); lra). set (g := E / mass) in *. clearbody g.
  assert (0 < NA) by (unfold NA; lra). assert (0 < RE) by (unfold RE; lra). pose proof PI_RGT_0.
  apply Rmult_lt_0_compat.
  - repeat (apply Rdiv_lt_0_compat; [|lra]). apply Rmult_lt_0_compat; [apply Rdiv_lt_0_compat; nra|].
    apply Rmult_lt_0_compat; [lra|apply pow_lt; lra].
  - rewrite annihilation_integral by exact G. pose proof (annihilation_positive g G) as P. rewrite (limit_momentum g G) in P |- *.
    set (l := ln (g + _)) in *. clearbody l. pose proof (limit_range g G) as L. set (a := annihilation_limit g) in *. clearbody a.
    replace ((g * g + 4 * g + 1) / (g + 1) ^ 2 * l - a * (g + 3) / (g + 1))
      with ((g * g + 4 * g + 1) / (g + 1) ^ 2 * (l - (g + 3) * (a * (g + 1)) / (g * g + 4 * g + 1))) by (field; split; nra).
    apply Rmult_lt_0_compat; [apply Rdiv_lt_0_compat; [nra|apply pow_lt; lra]|lra].
Qed.
