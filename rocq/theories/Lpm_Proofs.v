(** The suppression of Landau, Pomeranchuk and Migdal. *)
From Coq Require Import Lra Psatz Machin Ratan.
From Coquelicot Require Import Coquelicot.
From Verif Require Import Prelude PreludeFacts Particle_Model Limits_Model Cross_Model Photo_Model Products_Model Differential_Model Photopair_Model.
From Verif Require Import Differential_Spec Transform_Proofs Ionization_Proofs Differential_Proofs Brems_Proofs Screening_Proofs.

Lemma PI_bounds : 314 / 100 <= PI <= 3143 / 1000.
Proof.
  pose proof (PI_2_3_7_ineq 1) as H. cbn [Nat.mul Nat.add sum_f_R0] in H. unfold tg_alt, PI_2_3_7_tg, Ratan_seq in H. cbn in H.
  replace (1 + 1 + 1 + 1 + 1 + 1 + 1) with 7 in H by ring. replace (1 + 1 + 1 + 1 + 1) with 5 in H by ring. replace (1 + 1 + 1) with 3 in H by ring.
  lra.
Qed.
Lemma SQRT2_val : 1414 / 1000 <= SQRT2 <= 1415 / 1000.
Proof. unfold SQRT2. lra. Qed.
Lemma ln_512 : 62 / 10 <= ln 512.
Proof. replace 512 with (2 ^ 9) by ring. rewrite ln_pow by lra. pose proof ln_two_lower. cbn [INR]. lra. Qed.

(** ** The functions of the variable s *)
(** xi, for a small s1 *)
Lemma xi_range nan s1 sp : 0 < s1 <= 1 / 512 -> 0 < sp -> exists xi, lpm_xi nan s1 sp = Ok xi /\ 1 <= xi <= 2 /\
  (1 <= sp -> xi = 1) /\ (s1 <= sp < 1 -> 1 + ln sp / ln s1 <= xi <= 1 + ln sp / ln s1 + 13 / 1000).
Proof.
  intros [A B] S. assert (ln s1 <= - (62 / 10)) as L.
  { apply Rle_trans with (ln (1 / 512)); [apply ln_le; lra|]. replace (1 / 512) with (/ 512) by field. rewrite ln_Rinv by lra. pose proof ln_512. lra. }
  unfold lpm_xi. destruct (Rltb_spec sp s1) as [C|C]; [exists 2; repeat split; try lra; intros; lra|].
  destruct (Rltb_spec sp 1) as [D|D]; [|exists 1; repeat split; try lra; intros; lra].
  rewrite log_ok by lra. cbn [obind]. rewrite log_ok by lra. cbn [obind]. rewrite quo_ok by lra. cbn [obind]. rewrite quo_ok by lra. cbn [obind].
  assert (ln sp <= 0) as L0 by (rewrite <- ln_1; apply ln_le; lra). assert (ln s1 <= ln sp) as L1 by (apply ln_le; lra).
  set (b := ln s1) in *. set (a := ln sp) in *. clearbody a b.
  assert (0 <= a / b <= 1) as H.
  { replace (a / b) with (- a / - b) by (field; lra). split; [apply Rdiv_le_0_compat; lra|apply Rle_div_l; lra]. }
  set (h := a / b) in *. clearbody h. 
  assert (0 <= 8 / 100 * (1 - h) * (1 - (1 - h) * (1 - h)) <= 8 / 100 * (1 - h)) as N.
  { assert (0 <= 1 - (1 - h) * (1 - h) <= 1) by nra. set (y := 1 - (1 - h) * (1 - h)) in *. clearbody y. split; [apply Rmult_le_pos; lra|nra]. }
  set (n := 8 / 100 * (1 - h) * (1 - (1 - h) * (1 - h))) in *. clearbody n.
  assert (- (13 / 1000) * (1 - h) <= n / b <= 0) as Q.
  { replace (n / b) with (- (n / - b)) by (field; lra). assert (0 <= n / - b) by (apply Rdiv_le_0_compat; lra).
    assert (n / - b <= 13 / 1000 * (1 - h)); [|lra]. apply Rle_div_l; [lra|]. nra. }
  exists (1 + h - n / b). repeat split; try lra; try (intros; nra).
Qed.
(** The exponents of phi and psi *)
Section Exponents.
Variable s : R.
Hypothesis P : 0 < s.
Definition exponent_phi : R := - 6 * s * (1 + (3 - PI) * s) + s * s * s / (623 / 1000 + 796 / 1000 * s + 658 / 1000 * (s * s)).
Definition denominator_psi : R := 1 + 3936 / 1000 * s + 497 / 100 * (s * s) - 5 / 100 * (s * s) * s + 750 / 100 * (s * s) * (s * s).
Lemma cubic_part : 0 < s * s * s / (623 / 1000 + 796 / 1000 * s + 658 / 1000 * (s * s)) <= 49 / 100 * (s * s).
Proof.
  assert (0 < 623 / 1000 + 796 / 1000 * s + 658 / 1000 * (s * s)) as D by nra.
  split; [apply Rdiv_lt_0_compat; [repeat apply Rmult_lt_0_compat; lra|exact D]|]. apply Rle_div_l; [exact D|].
  replace (49 / 100 * (s * s) * (623 / 1000 + 796 / 1000 * s + 658 / 1000 * (s * s)))
    with (s * s * (49 / 100 * (623 / 1000 + 796 / 1000 * s + 658 / 1000 * (s * s)))) by ring.
  apply Rmult_le_compat_l; [nra|]. pose proof (Rle_0_sqr (s - 946 / 1000)) as W. unfold Rsqr in W. lra.
Qed.
Lemma exponent_phi_negative : s < 154954 / 10 ^ 5 -> exponent_phi < 0.
Proof.
  intros S. pose proof PI_bounds as Q. pose proof cubic_part as [_ C]. unfold exponent_phi.
  assert (- 6 * s * (1 + (3 - PI) * s) <= - 6 * s + 858 / 1000 * (s * s)) as A by nra. nra.
Qed.
Lemma phi_range : 0 < lpm_phi s < 1.
Proof.
  unfold lpm_phi. destruct (Rltb_spec s (154954 / 10 ^ 5)) as [S|S].
  - fold exponent_phi. pose proof (exponent_phi_negative S) as N. pose proof (exp_pos exponent_phi).
    assert (exp exponent_phi < 1) by (rewrite <- exp_0; apply exp_increasing; lra). lra.
  - assert (2 <= s * s) as A by nra. assert (4 <= s * s * (s * s)) as B by nra. set (q := s * s * (s * s)) in *. clearbody q.
    assert (0 < 12 / 1000 / q) by (apply Rdiv_lt_0_compat; lra). assert (12 / 1000 / q <= 1 / 100) by (apply Rle_div_l; lra). lra.
Qed.
Lemma denominator_large : s < 710390 / 10 ^ 6 -> 1 + 3936 / 1000 * s + 49 / 10 * (s * s) <= denominator_psi.
Proof.
  intros S. unfold denominator_psi. assert (0 <= s * s) by nra. assert (s * s * s <= s * s) by nra. assert (0 <= s * s * (s * s)) by nra. lra.
Qed.
Lemma psi_part : s < 710390 / 10 ^ 6 -> 0 < 8 * (s * s) / denominator_psi <= 12 / 10 * s.
Proof.
  intros S. pose proof (denominator_large S) as D. assert (0 < denominator_psi) as DP by nra.
  split; [apply Rdiv_lt_0_compat; nra|]. apply Rle_div_l; [exact DP|].
  assert (12 / 10 * s * (1 + 3936 / 1000 * s + 49 / 10 * (s * s)) <= 12 / 10 * s * denominator_psi) by (apply Rmult_le_compat_l; lra).
  assert (8 * (s * s) <= 12 / 10 * s * (1 + 3936 / 1000 * s + 49 / 10 * (s * s))); [|lra].
  replace (8 * (s * s)) with (s * (8 * s)) by ring.
  replace (12 / 10 * s * (1 + 3936 / 1000 * s + 49 / 10 * (s * s))) with (s * (12 / 10 * (1 + 3936 / 1000 * s + 49 / 10 * (s * s)))) by ring.
  apply Rmult_le_compat_l; nra.
Qed.
Lemma G_range : 0 <= lpm_G s <= 1.
Proof.
  unfold lpm_G. destruct (Rltb_spec s (710390 / 10 ^ 6)) as [S|S].
  - unfold lpm_phi. rewrite (proj2 (Rltb_true s (154954 / 10 ^ 5))) by lra. fold exponent_phi denominator_psi.
    pose proof PI_bounds as Q. destruct (psi_part S) as [A1 A2]. destruct cubic_part as [C1 C2].
    replace (- 4 * s - 8 * (s * s) / denominator_psi) with (- (4 * s + 8 * (s * s) / denominator_psi)) by (unfold Rdiv; ring).
    set (d := 8 * (s * s) / denominator_psi) in *. clearbody d.
    unfold exponent_phi. set (k := s * s * s / _) in *. clearbody k.
    assert (exp (- (4 * s + d)) <= exp (2 / 3 * (- 6 * s * (1 + (3 - PI) * s) + k))) as L.
    { destruct (Rle_lt_or_eq_dec (- (4 * s + d)) (2 / 3 * (- 6 * s * (1 + (3 - PI) * s) + k))) as [H|H]; [nra|now apply Rlt_le, exp_increasing|rewrite H; lra]. }
    assert (2 / 3 * exp (- 6 * s * (1 + (3 - PI) * s) + k) <= exp (- (4 * s + d))) as U.
    { replace (2 / 3 * exp (- 6 * s * (1 + (3 - PI) * s) + k)) with (exp (- 6 * s * (1 + (3 - PI) * s) + k) / (3 / 2)) by field.
      apply Rle_div_l; [lra|].
      assert (exp (- (4 * s + d)) * exp (1 / 3) <= exp (- (4 * s + d)) * (3 / 2)) as X.
      { apply Rmult_le_compat_l; [apply Rlt_le, exp_pos|].
        pose proof (exp_lower (- (1 / 3)) 16) as H. replace (INR 16) with 16 in H by (rewrite INR_IZR_INZ; reflexivity).
        specialize (H ltac:(lra) ltac:(lia)). rewrite exp_Ropp in H. pose proof (exp_pos (1 / 3)) as XP.
        replace ((1 + - (1 / 3) / 16) ^ 16) with (((((1 + - (1 / 3) / 16) ^ 2) ^ 2) ^ 2) ^ 2) in H by (rewrite <- !pow_mult; reflexivity).
        assert (2 / 3 <= / exp (1 / 3)) as H2 by lra. apply Rinv_le_contravar in H2; [|lra]. rewrite Rinv_inv in H2. lra. }
      eapply Rle_trans; [|exact X]. rewrite <- exp_plus.
      destruct (Rle_lt_or_eq_dec (- 6 * s * (1 + (3 - PI) * s) + k) (- (4 * s + d) + 1 / 3)) as [H|H]; [nra|now apply Rlt_le, exp_increasing|rewrite H; lra]. }
    pose proof (exp_pos (- (4 * s + d))) as XP.
    split; [|lra].
    set (t := exp (1 / 3 * (- 6 * s * (1 + (3 - PI) * s) + k))).
    assert (exp (- 6 * s * (1 + (3 - PI) * s) + k) = t * t * t) as T3.
    { unfold t. rewrite <- !exp_plus. f_equal. field. }
    assert (exp (2 / 3 * (- 6 * s * (1 + (3 - PI) * s) + k)) = t * t) as T2.
    { unfold t. rewrite <- !exp_plus. f_equal. field. }
    assert (0 < t) as TP by apply exp_pos. rewrite T3. rewrite T2 in L. clearbody t.
    assert (0 <= (1 - t) * (1 - t) * (1 + 2 * t)) by (apply Rmult_le_pos; [apply Rle_0_sqr|lra]). lra.
  - destruct (Rltb_spec s (904912 / 10 ^ 6)) as [T|T].
    + assert (1 / 2 <= s * s) by nra. split; [apply Rdiv_le_0_compat; lra|apply Rle_div_l; lra].
    + assert (8 / 10 <= s * s) by nra. assert (6 / 10 <= s * s * (s * s)) by nra. set (q := s * s * (s * s)) in *. clearbody q.
      assert (0 < 22 / 1000 / q) by (apply Rdiv_lt_0_compat; lra). assert (22 / 1000 / q <= 1 / 10) by (apply Rle_div_l; lra). lra.
Qed.
End Exponents.

(** ** The factors *)
(** Bremsstrahlung: A = v^2, B = 4 - 4 v + 2 v^2; pairs: A = 1, B = 2 - 4 x + 4 x^2 *)
Definition mixture (xi A B Gamma s : R) : R := xi * (A * lpm_G s / (Gamma * Gamma) + B * lpm_phi s / Gamma) / (A + B).
Lemma mixture_range xi A B Gamma s : 1 <= xi -> 0 <= A -> 0 < B -> 1 <= Gamma -> 0 < s ->
  0 < mixture xi A B Gamma s < xi /\ mixture xi A B Gamma s <= xi * ((A / (Gamma * Gamma) + B / Gamma) / (A + B)).
Proof.
  intros X PA PB G S. destruct (phi_range s S) as [F1 F2]. destruct (G_range s S) as [H1 H2]. unfold mixture.
  set (f := lpm_phi s) in *. set (g := lpm_G s) in *. clearbody f g.
  assert (1 <= Gamma * Gamma) as GG by nra.
  assert (0 <= A * g / (Gamma * Gamma) <= A / (Gamma * Gamma)) as Q1.
  { split; [apply Rdiv_le_0_compat; [apply Rmult_le_pos; lra|lra]|]. apply Rmult_le_compat_r; [apply Rlt_le, Rinv_0_lt_compat; lra|].
    rewrite <- (Rmult_1_r A) at 2. apply Rmult_le_compat_l; lra. }
  assert (0 < B * f / Gamma < B / Gamma) as Q2.
  { split; [apply Rdiv_lt_0_compat; [apply Rmult_lt_0_compat; lra|lra]|]. apply Rmult_lt_compat_r; [apply Rinv_0_lt_compat; lra|].
    rewrite <- (Rmult_1_r B) at 2. apply Rmult_lt_compat_l; lra. }
  assert (A / (Gamma * Gamma) <= A) as Q3 by (apply Rle_div_l; [lra|]; rewrite <- (Rmult_1_r A) at 1; apply Rmult_le_compat_l; lra).
  assert (B / Gamma <= B) as Q4 by (apply Rle_div_l; [lra|]; rewrite <- (Rmult_1_r B) at 1; apply Rmult_le_compat_l; lra).
  set (a := A * g / (Gamma * Gamma)) in *. set (b := B * f / Gamma) in *. set (a' := A / (Gamma * Gamma)) in *. set (b' := B / Gamma) in *.
  clearbody a b a' b'. split; [split|].
  - apply Rdiv_lt_0_compat; [apply Rmult_lt_0_compat; lra|lra].
  - apply Rlt_div_l; [lra|]. apply Rmult_lt_compat_l; lra.
  - unfold Rdiv. rewrite Rmult_assoc. apply Rmult_le_compat_l; [lra|]. apply Rmult_le_compat_r; [apply Rlt_le, Rinv_0_lt_compat; lra|lra].
Qed.
Section Bremsstrahlung.
Variables (nan : forall A, outcome A) (mass : R) (m : lpm_medium) (density : R) (c : component) (E v : R).
Hypotheses (M : ME <= mass) (el : element c) (D : 0 < density) (EP : 0 < E) (V : 0 < v < 1).
Hypotheses (LE : 0 < l_energy m) (N : 0 <= l_sum_charge m * l_mol_density m).
Definition brems_s1 : R :=
  let q := ME / (mass * inverse_cube_root (c_charge c) * log_constant c) in
  q * q * (1 + mass / MMU * nuclear_radius (c_atomic c) * (mass / MMU * nuclear_radius (c_atomic c))) * SQRT2.
Definition brems_sp : R := 125 / 1000 * sqrt (l_energy m * v / (density * E * (1 - v))).
Definition brems_Gamma : R :=
  1 + 4 * PI * l_sum_charge m * RE * (RE * ME / (ALPHA * mass * v)) * (RE * ME / (ALPHA * mass * v)) * l_mol_density m * density.
Lemma brems_s1_range : 0 < brems_s1 <= 1 / 512.
Proof.
  pose proof ME_pos as P. pose proof SQRT2_val as S2. pose proof (element_icr c el) as ZB. pose proof (log_constant_bounds c) as BB.
  destruct (nuclear_radius_bounds c el) as [D1 D2]. unfold brems_s1.
  set (z := inverse_cube_root (c_charge c)) in *. set (B := log_constant c) in *. set (Dn := nuclear_radius (c_atomic c)) in *. clearbody z B Dn.
  assert (32 <= z * B) as ZBp by nra. assert (0 < mass * z * B) as MZ by (repeat apply Rmult_lt_0_compat; lra).
  set (q := ME / (mass * z * B)). assert (0 < q) as Q0 by now apply Rdiv_lt_0_compat.
  assert (q <= 1 / 32) as Q1 by (apply Rle_div_l; [exact MZ|]; nra).
  assert (105 <= MMU) as MU by (unfold MMU; lra). assert (ME <= 512 / 1000) as MEU by (unfold ME; lra). assert (Dn <= 1034 / 100) as DU by nra.
  set (w := q * (mass / MMU * Dn)). assert (0 < w) as W0.
  { unfold w. apply Rmult_lt_0_compat; [exact Q0|]. apply Rmult_lt_0_compat; [apply Rdiv_lt_0_compat|]; lra. }
  assert (w <= 2 / 1000) as W1.
  { assert (w = ME * Dn / (MMU * (z * B))) as -> by (unfold w, q; field; repeat split; lra).
    apply Rle_div_l; [nra|]. apply Rle_trans with (512 / 1000 * (1034 / 100)); [apply Rmult_le_compat; lra|].
    apply Rle_trans with (2 / 1000 * (105 * 32)); [lra|]. apply Rmult_le_compat_l; [lra|]. apply Rmult_le_compat; lra. }
  replace (q * q * (1 + mass / MMU * Dn * (mass / MMU * Dn)) * SQRT2) with ((q * q + w * w) * SQRT2) by (unfold w; ring).
  clearbody w q. split; nra.
Qed.
Lemma brems_sp_pos : 0 < brems_sp.
Proof. unfold brems_sp. assert (0 < sqrt (l_energy m * v / (density * E * (1 - v)))); [|lra]. apply sqrt_lt_R0, Rdiv_lt_0_compat; [nra|]. repeat apply Rmult_lt_0_compat; lra. Qed.
Lemma brems_Gamma_big : 1 <= brems_Gamma.
Proof.
  unfold brems_Gamma. pose proof PI_RGT_0 as P. assert (0 < RE) as Q by (unfold RE; lra). set (g := RE * ME / _).
  replace (1 + 4 * PI * l_sum_charge m * RE * g * g * l_mol_density m * density)
    with (1 + 4 * PI * RE * density * (g * g) * (l_sum_charge m * l_mol_density m)) by ring.
  assert (0 <= 4 * PI * RE * density * (g * g) * (l_sum_charge m * l_mol_density m)); [|lra].
  apply Rmult_le_pos; [|exact N]. apply Rmult_le_pos; [|apply Rle_0_sqr].
  assert (0 < PI * RE) as PR by (apply Rmult_lt_0_compat; lra). assert (0 < PI * RE * density) by (apply Rmult_lt_0_compat; lra). lra.
Qed.
Lemma brems_suppression_xi : exists xi, lpm_xi nan brems_s1 brems_sp = Ok xi /\ 1 <= xi <= 2 /\ (1 <= brems_sp -> xi = 1) /\
  (brems_s1 <= brems_sp < 1 -> 1 + ln brems_sp / ln brems_s1 <= xi <= 1 + ln brems_sp / ln brems_s1 + 13 / 1000) /\
  brems_suppression nan mass m density c E v = Ok (mixture xi (v * v) (4 - 4 * v + 2 * (v * v)) brems_Gamma (brems_sp / sqrt xi * brems_Gamma)).
Proof.
  pose proof ME_pos as P. pose proof brems_s1_range as S1. pose proof brems_sp_pos as SP. pose proof brems_Gamma_big as GB.
  destruct (xi_range nan brems_s1 brems_sp S1 SP) as (xi & HX & X1 & X2 & X3).
  exists xi. split; [exact HX|]. split; [exact X1|]. split; [exact X2|]. split; [exact X3|]. unfold brems_suppression.
  pose proof (element_icr c el) as ZB. pose proof (log_constant_bounds c) as BB.
  assert (0 < mass * inverse_cube_root (c_charge c) * log_constant c) as Q1 by (repeat apply Rmult_lt_0_compat; lra).
  rewrite quo_ok by lra. cbn [obind]. fold brems_s1.
  assert (0 < density * E * (1 - v)) as Q2 by (repeat apply Rmult_lt_0_compat; lra).
  rewrite quo_ok by lra. cbn [obind].
  assert (0 < l_energy m * v / (density * E * (1 - v))) as Q3 by (apply Rdiv_lt_0_compat; nra).
  unfold root. rewrite (proj2 (Rltb_false _ _)) by lra. cbn [obind]. fold brems_sp.
  change (lpm_xi nan _ brems_sp) with (lpm_xi nan brems_s1 brems_sp). rewrite HX. cbn [obind].
  assert (0 < ALPHA) as AL by (unfold ALPHA; lra). assert (0 < ALPHA * mass * v) as Q4 by (repeat apply Rmult_lt_0_compat; lra).
  rewrite quo_ok by lra. cbn [obind]. fold brems_Gamma.
  assert (0 < sqrt xi) as Q5 by (apply sqrt_lt_R0; lra). rewrite quo_ok by lra. cbn [obind].
  rewrite quo_ok by nra. cbn [obind]. rewrite quo_ok by lra. cbn [obind].
  pose proof (weight_function v ltac:(lra)) as W. rewrite quo_ok by lra. f_equal. unfold mixture.
  set (Ga := brems_Gamma) in *. set (s := brems_sp / sqrt xi * Ga). generalize (lpm_G s) (lpm_phi s). clearbody Ga. intros g f. field.
  repeat split; try lra; apply Rgt_not_eq; nra.
Qed.
Lemma brems_suppression_value : exists xi, 1 <= xi <= 2 /\ (1 <= brems_sp -> xi = 1) /\
  (brems_s1 <= brems_sp < 1 -> 1 + ln brems_sp / ln brems_s1 <= xi <= 1 + ln brems_sp / ln brems_s1 + 13 / 1000) /\
  brems_suppression nan mass m density c E v = Ok (mixture xi (v * v) (4 - 4 * v + 2 * (v * v)) brems_Gamma (brems_sp / sqrt xi * brems_Gamma)).
Proof. destruct brems_suppression_xi as (xi & _ & H). exists xi. exact H. Qed.
Lemma brems_weight : 0 <= v * v /\ 0 < 4 - 4 * v + 2 * (v * v).
Proof. nra. Qed.
Lemma brems_sp_large : 64 * (density * E * (1 - v)) <= l_energy m * v -> 1 <= brems_sp.
Proof.
  intros H. unfold brems_sp. assert (0 < density * E * (1 - v)) as Q2 by (repeat apply Rmult_lt_0_compat; lra).
  assert (8 <= sqrt (l_energy m * v / (density * E * (1 - v)))); [|lra]. replace 8 with (sqrt 64) by (replace 64 with (8 * 8) by lra; apply sqrt_square; lra).
  apply sqrt_le_1_alt. apply (Rle_div_r 64 (l_energy m * v) (density * E * (1 - v)) Q2); lra.
Qed.
Lemma brems_factor : exists x, brems_suppression nan mass m density c E v = Ok x /\ 0 < x < 2 /\
  (64 * (density * E * (1 - v)) <= l_energy m * v -> x < 1).
Proof.
  destruct brems_suppression_value as (xi & X1 & X2 & _ & ->). eexists. split; [reflexivity|].
  pose proof brems_sp_pos as SP. pose proof brems_Gamma_big as GB. destruct brems_weight as [W1 W2].
  assert (0 < sqrt xi) as Q5 by (apply sqrt_lt_R0; lra).
  assert (0 < brems_sp / sqrt xi * brems_Gamma) as S by (apply Rmult_lt_0_compat; [now apply Rdiv_lt_0_compat|lra]).
  destruct (mixture_range xi (v * v) (4 - 4 * v + 2 * (v * v)) brems_Gamma _ (proj1 X1) W1 W2 GB S) as [[A B] _].
  split; [lra|]. intros H. specialize (X2 (brems_sp_large H)). lra.
Qed.
End Bremsstrahlung.

Section Pairs.
Variables (nan : forall A, outcome A) (m : lpm_medium) (density : R) (c : component) (E x : R).
Hypotheses (el : element c) (D : 0 < density) (EP : 0 < E) (V : 0 < x < 1).
Hypotheses (LE : 0 < l_energy m) (N : 0 <= l_sum_charge m * l_mol_density m).
Definition pair_s1 : R := let q := 1 / (inverse_cube_root (c_charge c) * log_constant c) in q * q * SQRT2.
Definition pair_sp : R := 125 / 1000 * sqrt (l_energy m / (density * E * x * (1 - x))).
Definition pair_Gamma : R :=
  1 + 4 * PI * l_sum_charge m * RE * (RE * ME / (ALPHA * ME * x)) * (RE * ME / (ALPHA * ME * x)) * l_mol_density m * density.
Lemma pair_s1_range : 0 < pair_s1 <= 1 / 512.
Proof.
  pose proof SQRT2_val as S2. pose proof (element_icr c el) as ZB. pose proof (log_constant_bounds c) as BB. unfold pair_s1.
  set (z := inverse_cube_root (c_charge c)) in *. set (B := log_constant c) in *. clearbody z B.
  assert (32 <= z * B) as ZBp by nra. set (q := 1 / (z * B)). assert (0 < q) as Q0 by (apply Rdiv_lt_0_compat; lra).
  assert (q <= 1 / 32) as Q1 by (apply Rle_div_l; lra). clearbody q. cbv zeta. split; nra.
Qed.
Lemma pair_scale : 0 < density * E * x * (1 - x).
Proof. assert (0 < density * E) by nra. assert (0 < density * E * x) by nra. apply Rmult_lt_0_compat; lra. Qed.
Lemma pair_sp_pos : 0 < pair_sp.
Proof. unfold pair_sp. assert (0 < sqrt (l_energy m / (density * E * x * (1 - x)))); [|lra]. apply sqrt_lt_R0, Rdiv_lt_0_compat; [exact LE|exact pair_scale]. Qed.
Lemma pair_sp_large : 64 * (density * E * x * (1 - x)) <= l_energy m -> 1 <= pair_sp.
Proof.
  intros H. unfold pair_sp. pose proof pair_scale as Q2.
  assert (8 <= sqrt (l_energy m / (density * E * x * (1 - x)))); [|lra]. replace 8 with (sqrt 64) by (replace 64 with (8 * 8) by lra; apply sqrt_square; lra).
  apply sqrt_le_1_alt. apply (Rle_div_r 64 (l_energy m) (density * E * x * (1 - x)) Q2); lra.
Qed.
Lemma pair_Gamma_big : 1 <= pair_Gamma.
Proof.
  unfold pair_Gamma. pose proof PI_RGT_0 as P. assert (0 < RE) as Q by (unfold RE; lra). set (g := RE * ME / _).
  replace (1 + 4 * PI * l_sum_charge m * RE * g * g * l_mol_density m * density)
    with (1 + 4 * PI * RE * density * (g * g) * (l_sum_charge m * l_mol_density m)) by ring.
  assert (0 <= 4 * PI * RE * density * (g * g) * (l_sum_charge m * l_mol_density m)); [|lra].
  apply Rmult_le_pos; [|exact N]. apply Rmult_le_pos; [|apply Rle_0_sqr].
  assert (0 < PI * RE) as PR by (apply Rmult_lt_0_compat; lra). assert (0 < PI * RE * density) by (apply Rmult_lt_0_compat; lra). lra.
Qed.
Lemma pair_suppression_xi : exists xi, lpm_xi nan pair_s1 pair_sp = Ok xi /\ 1 <= xi <= 2 /\ (1 <= pair_sp -> xi = 1) /\
  pair_suppression nan m density c E x = Ok (mixture xi 1 (2 * (x * x + (1 - x) * (1 - x))) pair_Gamma (pair_sp / sqrt xi * pair_Gamma)).
Proof.
  pose proof ME_pos as P. pose proof pair_s1_range as S1. pose proof pair_sp_pos as SP. pose proof pair_Gamma_big as GB.
  destruct (xi_range nan pair_s1 pair_sp S1 SP) as (xi & HX & X1 & X2 & _).
  exists xi. split; [exact HX|]. split; [exact X1|]. split; [exact X2|]. unfold pair_suppression.
  pose proof (element_icr c el) as ZB. pose proof (log_constant_bounds c) as BB.
  rewrite quo_ok by nra. cbn [obind]. fold pair_s1. pose proof pair_scale as Q2.
  rewrite quo_ok by lra. cbn [obind].
  assert (0 < l_energy m / (density * E * x * (1 - x))) as Q3 by (apply Rdiv_lt_0_compat; lra).
  unfold root. rewrite (proj2 (Rltb_false _ _)) by lra. cbn [obind]. fold pair_sp.
  change (lpm_xi nan _ pair_sp) with (lpm_xi nan pair_s1 pair_sp). rewrite HX. cbn [obind].
  assert (0 < ALPHA) as AL by (unfold ALPHA; lra). assert (0 < ALPHA * ME * x) as Q4 by (repeat apply Rmult_lt_0_compat; lra).
  rewrite quo_ok by lra. cbn [obind]. fold pair_Gamma.
  assert (0 < sqrt xi) as Q5 by (apply sqrt_lt_R0; lra). rewrite quo_ok by lra. cbn [obind].
  rewrite quo_ok by nra. cbn [obind]. rewrite quo_ok by lra. cbn [obind].
  assert (0 < 1 - 4 / 3 * x * (1 - x)) as W by nra. rewrite quo_ok by lra. f_equal. unfold mixture.
  set (Ga := pair_Gamma) in *. set (s := pair_sp / sqrt xi * Ga). generalize (lpm_G s) (lpm_phi s). clearbody Ga. intros g f. field.
  repeat split; try lra; apply Rgt_not_eq; nra.
Qed.
Lemma pair_suppression_value : exists xi, 1 <= xi <= 2 /\ (1 <= pair_sp -> xi = 1) /\
  pair_suppression nan m density c E x = Ok (mixture xi 1 (2 * (x * x + (1 - x) * (1 - x))) pair_Gamma (pair_sp / sqrt xi * pair_Gamma)).
Proof. destruct pair_suppression_xi as (xi & _ & H). exists xi. exact H. Qed.
Lemma pair_weight : 0 <= 1 /\ 0 < 2 * (x * x + (1 - x) * (1 - x)).
Proof. nra. Qed.
Lemma pair_factor : exists f, pair_suppression nan m density c E x = Ok f /\ 0 < f < 2 /\
  (64 * (density * E * x * (1 - x)) <= l_energy m -> f < 1).
Proof.
  destruct pair_suppression_value as (xi & X1 & X2 & ->). eexists. split; [reflexivity|].
  pose proof pair_sp_pos as SP. pose proof pair_Gamma_big as GB. destruct pair_weight as [W1 W2].
  assert (0 < sqrt xi) as Q5 by (apply sqrt_lt_R0; lra).
  assert (0 < pair_sp / sqrt xi * pair_Gamma) as S by (apply Rmult_lt_0_compat; [now apply Rdiv_lt_0_compat|lra]).
  destruct (mixture_range xi 1 (2 * (x * x + (1 - x) * (1 - x))) pair_Gamma _ (proj1 X1) W1 W2 GB S) as [[A B] _].
  split; [lra|]. intros H. specialize (X2 (pair_sp_large H)). lra.
Qed.
End Pairs.

(** ** An enhancement *)
Lemma ln_065 : - (44 / 100) <= ln (65 / 100) <= - (428 / 1000).
Proof.
  assert (exp (- (44 / 100)) <= 65 / 100) as A.
  { pose proof (exp_lower (44 / 100) 64) as H. cbn [INR] in H. rewrite exp_Ropp. 
    assert (1538462 / 1000000 <= exp (44 / 100)) as B by (eapply Rle_trans; [|apply H; [lra|apply Nat.lt_0_succ]]; lra).
    apply Rle_trans with (/ (1538462 / 1000000)); [apply Rinv_le_contravar; lra|lra]. }
  assert (65 / 100 <= exp (- (428 / 1000))) as B.
  { pose proof (exp_lower (- (428 / 1000)) 64) as H. cbn [INR] in H. eapply Rle_trans; [|apply H; [lra|apply Nat.lt_0_succ]]; lra. }
  split.
  - rewrite <- (ln_exp (- (44 / 100))). apply ln_le; [apply exp_pos|exact A].
  - rewrite <- (ln_exp (- (428 / 1000))). apply ln_le; [lra|exact B].
Qed.
Lemma exp_quarter x y : 0 <= 1 + x / 4 / 64 -> 0 <= y -> y <= (1 + x / 4 / 64) ^ 64 -> y ^ 4 <= exp x.
Proof.
  intros P Y H. replace (exp x) with (exp (x / 4) ^ 4) by (replace (exp (x / 4) ^ 4) with (exp (x / 4) * exp (x / 4) * (exp (x / 4) * exp (x / 4))) by ring; rewrite <- !exp_plus; f_equal; field).
  apply pow_incr. split; [exact Y|]. eapply Rle_trans; [exact H|]. pose proof (exp_lower (x / 4) 64) as L.
  replace (INR 64) with 64 in L by (rewrite INR_IZR_INZ; reflexivity). apply L; [exact P|apply Nat.lt_0_succ].
Qed.
Lemma exp_mono x y : x <= y -> exp x <= exp y.
Proof. intros [H|<-]; [now apply Rlt_le, exp_increasing|apply Rle_refl]. Qed.
Lemma exp_75 : 1600 <= exp (75 / 10).
Proof. eapply Rle_trans; [|apply (exp_quarter _ (633 / 100)); lra]. lra. Qed.
Lemma exp_3227 : 246 / 10 <= exp (32265 / 10000).
Proof. eapply Rle_trans; [|apply (exp_quarter _ (2228 / 1000)); lra]. lra. Qed.
Lemma phi_065 s : 6242 / 10000 <= s <= 6324 / 10000 -> 9593 / 10000 <= lpm_phi s.
Proof.
  intros S. unfold lpm_phi. rewrite (proj2 (Rltb_true _ _)) by lra. pose proof PI_bounds as P.
  assert (s * s * s / (623 / 1000 + 796 / 1000 * s + 658 / 1000 * (s * s)) <= 184 / 1000) as A.
  { apply Rle_div_l; [nra|]. assert (s * s <= 6324 / 10000 * s) by nra. assert (389 / 1000 <= s * s <= 4 / 10) by nra. nra. }
  assert (- 6 * s * (1 + (3 - PI) * s) <= - (34105 / 10000)) as B by nra.
  assert (exp (- 6 * s * (1 + (3 - PI) * s) + s * s * s / (623 / 1000 + 796 / 1000 * s + 658 / 1000 * (s * s))) <= exp (- (32265 / 10000))) as C
    by (apply exp_mono; lra).
  pose proof exp_3227 as F. rewrite exp_Ropp in C. assert (/ exp (32265 / 10000) <= / (246 / 10)) by (apply Rinv_le_contravar; lra). lra.
Qed.
Lemma enhancement nan m density c : element c -> 80 <= c_charge c -> 0 < density -> 0 < l_energy m ->
  0 <= l_sum_charge m * l_mol_density m -> l_sum_charge m * l_mol_density m * density <= 10 ^ 26 ->
  exists x, brems_suppression nan ME m density c (l_energy m / (24336 / 100 * density)) (1 / 10) = Ok x /\ 101 / 100 < x.
Proof.
  intros el Z D LE N1 N2. set (E := l_energy m / (24336 / 100 * density)). assert (0 < E) as EP by (apply Rdiv_lt_0_compat; lra).
  pose proof (Rle_refl ME) as M. assert (0 < 1 / 10 < 1) as V by lra. pose proof ME_pos as P.
  destruct (brems_suppression_value nan ME m density c E (1 / 10) M el D EP V LE N1) as (xi & X1 & _ & X3 & ->). eexists. split; [reflexivity|].
  pose proof (brems_s1_range ME c (1 / 10) M el V) as S1. pose proof (brems_Gamma_big ME m density (1 / 10) ltac:(assumption) N1) as G1.
  assert (brems_sp m density E (1 / 10) = 65 / 100) as SP.
  { unfold brems_sp. replace (l_energy m * (1 / 10) / (density * E * (1 - 1 / 10))) with (52 / 10 * (52 / 10)) by (unfold E; field; lra).
    rewrite sqrt_square by lra. lra. }
  rewrite SP in *. pose proof ln_065 as L.
  assert (- (75 / 10) <= ln (brems_s1 ME c) <= - (62 / 10)) as LS.
  { split.
    - rewrite <- (ln_exp (- (75 / 10))). apply ln_le; [apply exp_pos|]. rewrite exp_Ropp. pose proof exp_75 as X.
      apply Rle_trans with (/ 1600); [apply Rinv_le_contravar; lra|].
      pose proof SQRT2_val as S2. pose proof (element_icr c el) as ZB. pose proof (log_constant_bounds c) as BB.
      assert (inverse_cube_root (c_charge c) <= 2322 / 10000) as ZU by (apply icr_le; lra).
      destruct (nuclear_radius_bounds c el) as [D1 D2]. unfold brems_s1.
      set (z := inverse_cube_root (c_charge c)) in *. set (B := log_constant c) in *. set (w := ME / MMU * nuclear_radius (c_atomic c)). clearbody z B w. cbv zeta.
      replace (ME / (ME * z * B)) with (1 / (z * B)) by (field; repeat split; nra). assert (0 < z * B <= 472 / 10) as ZBU by nra.
      assert (10 / 472 <= 1 / (z * B)) as Q by (apply (Rle_div_r (10 / 472) 1 (z * B) ltac:(lra)); lra). set (q := 1 / (z * B)) in *. clearbody q.
      assert (448 / 1000000 <= q * q) by nra. assert (1 <= 1 + w * w) by nra.
      assert (448 / 1000000 * 1 <= q * q * (1 + w * w)) by (apply Rmult_le_compat; lra). nra.
    - pose proof ln_512 as Q. apply Rle_trans with (ln (1 / 512)); [apply ln_le; lra|]. rewrite (ln_div 1 512), ln_1 by lra. lra. }
  destruct (X3 ltac:(lra)) as [X4 X5]. 
  assert (57 / 1000 <= ln (65 / 100) / ln (brems_s1 ME c) <= 71 / 1000) as H.
  { replace (ln (65 / 100) / ln (brems_s1 ME c)) with (- ln (65 / 100) / - ln (brems_s1 ME c)) by (field; lra).
    split; [apply (Rle_div_r (57 / 1000) (- ln (65 / 100)) (- ln (brems_s1 ME c)) ltac:(lra))|apply Rle_div_l]; lra. }
  assert (1057 / 1000 <= xi <= 1084 / 1000) as XI by lra. clear X3 X4 X5 H LS L.
  assert (brems_Gamma ME m density (1 / 10) <= 1 + 1 / 10000) as G2.
  { unfold brems_Gamma. pose proof PI_bounds as PB. set (n := l_sum_charge m * l_mol_density m * density) in *.
    replace (4 * PI * l_sum_charge m * RE * (RE * ME / (ALPHA * ME * (1 / 10))) * (RE * ME / (ALPHA * ME * (1 / 10))) * l_mol_density m * density)
      with (PI * n * (4 * RE * (RE / ALPHA * 10) * (RE / ALPHA * 10))) by (unfold n; field; unfold ALPHA; lra).
    assert (0 <= n) as N0 by (unfold n; apply Rmult_le_pos; lra).
    assert (0 <= 4 * RE * (RE / ALPHA * 10) * (RE / ALPHA * 10) <= 2 / 10 ^ 31) as K by (unfold RE, ALPHA; lra).
    set (k := 4 * RE * (RE / ALPHA * 10) * (RE / ALPHA * 10)) in *. clearbody k n.
    assert (PI * n <= 3143 / 1000 * 10 ^ 26) as A by (apply Rmult_le_compat; lra).
    assert (PI * n * k <= 3143 / 1000 * 10 ^ 26 * (2 / 10 ^ 31)) as A2 by (apply Rmult_le_compat; try lra; apply Rmult_le_pos; lra). lra. }
  set (Ga := brems_Gamma ME m density (1 / 10)) in *. clearbody Ga.
  assert (1028 / 1000 <= sqrt xi <= 10412 / 10000) as SX.
  { split; [rewrite <- (sqrt_square (1028 / 1000)) by lra|rewrite <- (sqrt_square (10412 / 10000)) by lra]; apply sqrt_le_1_alt; lra. }
  set (s := 65 / 100 / sqrt xi * Ga).
  assert (6242 / 10000 <= s <= 6324 / 10000) as S.
  { assert (6242 / 10000 <= 65 / 100 / sqrt xi <= 63230 / 100000) as Q
      by (split; [apply (Rle_div_r (6242 / 10000) (65 / 100) (sqrt xi) ltac:(lra))|apply Rle_div_l]; lra).
    unfold s. set (u := 65 / 100 / sqrt xi) in *. clearbody u. nra. }
  pose proof (phi_065 s S) as F. destruct (G_range s ltac:(lra)) as [H1 _]. clearbody s. unfold mixture.
  set (g := lpm_G s) in *. set (f := lpm_phi s) in *. clearbody g f.
  replace (1 / 10 * (1 / 10)) with (1 / 100) by lra. replace (4 - 4 * (1 / 10) + 2 * (1 / 100)) with (362 / 100) by lra.
  replace (1 / 100 + 362 / 100) with (363 / 100) by lra.
  assert (0 <= 1 / 100 * g / (Ga * Ga)) as T1 by (apply Rdiv_le_0_compat; nra).
  assert (3472 / 1000 <= 362 / 100 * f / Ga) as T2 by (apply (Rle_div_r (3472 / 1000) (362 / 100 * f) Ga ltac:(lra)); nra).
  set (a := 1 / 100 * g / (Ga * Ga)) in *. set (b := 362 / 100 * f / Ga) in *. clearbody a b.
  apply (Rlt_div_r (101 / 100) (xi * (a + b)) (363 / 100) ltac:(lra)).
  assert (1057 / 1000 * (3472 / 1000) <= xi * (a + b)) by (apply Rmult_le_compat; lra). lra.
Qed.
