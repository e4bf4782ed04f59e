(** Proofs about the deflection by bremsstrahlung after Van Ginneken. *)
From Coquelicot Require Rcomplements Continuity.
From Verif Require Import Prelude PreludeFacts Particle_Model Limits_Model Limits_Spec Math_Model Math_Proofs Vec_Model Geometry_Model Propagator_Model
  Deflection_Model Deflection_Spec Deflection_Proofs.

Lemma brems_exponent_pos E : 0 < E -> 0 < brems_exponent E.
Proof. intro H. unfold brems_exponent. pose proof (sqrt_lt_R0 E H). apply Rdiv_lt_0_compat; lra. Qed.
Lemma Rpower_pos x y : 0 < Rpower x y. Proof. apply exp_pos. Qed.

Section Ginneken.
Variable nan : forall A, outcome A.

Lemma brems_low e_i e_f m Z : 0 < m < e_f -> e_f < e_i -> 0 < Z -> lost_part m e_i e_f <= 1 / 2 ->
  brems_rms nan e_i e_f m Z = Ok (brems_mean_low e_i (lost_part m e_i e_f) Z).
Proof.
  intros H L HZ N. pose proof (lost_part_range m e_i e_f H L) as P. unfold brems_rms. rewrite quotient_ok by lra. cbn [obind]. fold (lost_part m e_i e_f).
  rewrite yes_le by exact N. rewrite power_ok by lra. cbn [obind]. rewrite quotient_ok by lra. cbn [obind]. rewrite power_ok by lra. cbn [obind].
  rewrite power_ok by lra. cbn [obind]. rewrite root_ok by lra. cbn [obind]. reflexivity.
Qed.

(** The position at which the two branches meet *)
Lemma bisection_between f x1 x2 acc passes : x1 < x2 -> f x1 * f x2 <= 0 ->
  exists a b, bisection f x1 x2 acc passes = Ok (a, b) /\ x1 <= a < b /\ b <= x2.
Proof.
  intros L S. unfold bisection. rewrite no_lt by exact S. rewrite no_lt by lra.
  pose proof (bisection_loop_ok f acc passes x1 x2 ltac:(lra) S) as B. destruct (bisection_loop f acc passes x1 x2) as (a & b).
  destruct B as (B1 & B2 & B3 & _ & k & _ & W & _). exists a, b. split; [reflexivity|].
  assert (0 < (x2 - x1) / 2 ^ k) by (apply Rdiv_lt_0_compat; [lra|apply pow_lt; lra]). lra.
Qed.
Lemma nu_g_range n k_4 : exists g, get_nu_g n k_4 = Ok g /\ 1 / 2 <= g < 1.
Proof.
  unfold get_nu_g. cbv zeta. destruct (Rltb_spec (f_nu_g n k_4 (1 / 2) * f_nu_g n k_4 1) 0) as [S|S].
  - destruct (bisection_between (f_nu_g n k_4) (1 / 2) 1 (/ 10 ^ 5) 101 ltac:(lra) ltac:(lra)) as (a & b & E & A & B). rewrite E. cbn [obind fst snd].
    eexists. split; [reflexivity|lra].
  - exists (1 / 2). split; [reflexivity|lra].
Qed.
Lemma brems_high e_i e_f m Z : 0 < m < e_f -> e_f < e_i -> 1 / 2 < lost_part m e_i e_f -> let nu := lost_part m e_i e_f in
  brems_rms nan e_i e_f m Z = if brems_mean_high e_i nu <? 2 / 10 then Ok (brems_mean_high e_i nu)
    else olet g := get_nu_g (brems_exponent e_i) (26 / 100 * Rpower e_i (- (91 / 100))) in
         let rms := 26 / 100 * Rpower e_i (- (91 / 100)) * Rpower g (1 + brems_exponent e_i) * Rpower (1 - g) (1 / 2 - brems_exponent e_i) * Rpower (1 - nu) (- (1 / 2)) in
         if rms <? 2 / 10 then Throw invalid_argument else Ok rms.
Proof.
  intros H L N nu. pose proof (lost_part_range m e_i e_f H L) as P. unfold brems_rms. rewrite quotient_ok by lra. cbn [obind]. fold (lost_part m e_i e_f). fold nu in P, N |- *.
  rewrite no_le by exact N. rewrite power_ok by lra. cbn [obind]. rewrite power_ok by lra. cbn [obind].
  assert (Q : Rpower e_i (1 / 2) = sqrt e_i) by (replace (1 / 2) with (/ 2) by lra; apply Rpower_sqrt; lra). rewrite !Q. change (81 / 100 * sqrt e_i / (sqrt e_i + 18 / 10)) with (brems_exponent e_i).
  rewrite power_ok by lra. cbn [obind]. rewrite power_ok by lra. cbn [obind]. fold (brems_mean_high e_i nu).
  destruct (brems_mean_high e_i nu <? 2 / 10); [reflexivity|].
  destruct (nu_g_range (brems_exponent e_i) (26 / 100 * Rpower e_i (- (91 / 100)))) as (g & E & G). rewrite E. cbn [obind].
  rewrite power_ok by lra. cbn [obind]. rewrite power_ok by lra. cbn [obind]. rewrite power_ok by lra. cbn [obind]. reflexivity.
Qed.
Lemma brems_result e_i e_f m Z : 0 < m < e_f -> e_f < e_i -> 1 / 2 < lost_part m e_i e_f -> 2 / 10 <= brems_mean_high e_i (lost_part m e_i e_f) ->
  brems_rms nan e_i e_f m Z = Throw invalid_argument \/ exists rms, brems_rms nan e_i e_f m Z = Ok rms /\ 2 / 10 <= rms.
Proof.
  intros H L N B. rewrite brems_high by assumption. cbv zeta. rewrite no_lt by exact B.
  destruct (nu_g_range (brems_exponent e_i) (26 / 100 * Rpower e_i (- (91 / 100)))) as (g & E & G). rewrite E. cbn [obind].
  match goal with |- context [?x <? 2 / 10] => destruct (Rltb_spec x (2 / 10)) as [S|S] end; [left; reflexivity|right].
  eexists. split; [reflexivity|lra].
Qed.

(** The deflection *)
Lemma ginneken_low m Z e_i e_f r0 r1 l : 0 < m < e_f -> e_f < e_i -> 0 < Z -> lost_part m e_i e_f <= 1 / 2 -> 0 <= r0 < 1 ->
  sampled_angle (brems_ginneken nan m Z e_i e_f (r0 :: r1 :: l)) (brems_mean_low (e_i / 1000) (lost_part m e_i e_f) Z) r0 r1.
Proof.
  intros H L HZ N R0. unfold brems_ginneken. rewrite brems_low by (rewrite ?GeV; lra). rewrite GeV. cbn [obind number nth_error].
  destruct (exponential_value nan r0 (brems_mean_low (e_i / 1000) (lost_part m e_i e_f) Z) R0) as (t & E & A). rewrite E. cbn [obind]. unfold around. cbn [number nth_error obind].
  exists t. split; [reflexivity|exact A].
Qed.
Lemma ginneken_high m Z e_i e_f r0 r1 l : 0 < m < e_f -> e_f < e_i -> 1 / 2 < lost_part m e_i e_f ->
  brems_mean_high (e_i / 1000) (lost_part m e_i e_f) < 2 / 10 -> 0 <= r0 < 1 ->
  sampled_angle (brems_ginneken nan m Z e_i e_f (r0 :: r1 :: l)) (brems_mean_high (e_i / 1000) (lost_part m e_i e_f)) r0 r1.
Proof.
  intros H L N B R0. unfold brems_ginneken. rewrite brems_high by (rewrite ?GeV; lra). cbv zeta. rewrite GeV. rewrite yes_lt by exact B. cbn [obind number nth_error].
  destruct (exponential_value nan r0 (brems_mean_high (e_i / 1000) (lost_part m e_i e_f)) R0) as (t & E & A). rewrite E. cbn [obind]. unfold around. cbn [number nth_error obind].
  exists t. split; [reflexivity|exact A].
Qed.
Lemma ginneken_top m Z e_i e_f r0 r1 l : 0 < m < e_f -> e_f < e_i -> 1 / 2 < lost_part m e_i e_f ->
  2 / 10 <= brems_mean_high (e_i / 1000) (lost_part m e_i e_f) -> 0 <= r0 < 1 ->
  brems_ginneken nan m Z e_i e_f (r0 :: r1 :: l) = Throw invalid_argument \/
  exists mean, 2 / 10 <= mean /\ sampled_angle (brems_ginneken nan m Z e_i e_f (r0 :: r1 :: l)) mean r0 r1.
Proof.
  intros H L N B R0. unfold brems_ginneken.
  destruct (brems_result (e_i / 1000) (e_f / 1000) (m / 1000) Z) as [E|(rms & E & Ge)]; try (rewrite ?GeV; lra); rewrite E; cbn [obind number nth_error].
  - left. reflexivity.
  - right. exists rms. split; [exact Ge|]. destruct (exponential_value nan r0 rms R0) as (t & E2 & A). rewrite E2. cbn [obind]. unfold around. cbn [number nth_error obind].
    exists t. split; [reflexivity|exact A].
Qed.
End Ginneken.

(** ** The exception can happen *)
Definition phi (t : R) : R := 26 / 100 * exp (- (91 / 100) * t) * (exp ((1 + brems_exponent (exp t)) * ln (3 / 4)) * exp (- brems_exponent (exp t) * ln (1 / 4))).
Lemma phi_mean t : brems_mean_high (exp t) (3 / 4) = phi t.
Proof. unfold brems_mean_high, phi, Rpower. rewrite ln_exp. replace (1 - 3 / 4) with (1 / 4) by field. ring. Qed.
Lemma exponent_continuous : continuity (fun t => brems_exponent (exp t)).
Proof.
  assert (E : forall t, brems_exponent (exp t) = 81 / 100 * exp (t / 2) / (exp (t / 2) + 18 / 10)).
  { intro t. unfold brems_exponent. replace (sqrt (exp t)) with (exp (t / 2)); [reflexivity|].
    symmetry. rewrite <- (sqrt_Rsqr (exp (t / 2))) by (left; apply exp_pos). apply f_equal. unfold Rsqr. rewrite <- exp_plus. apply f_equal. field. }
  intro t. apply (Continuity.continuity_pt_ext (fun t => 81 / 100 * exp (t / 2) / (exp (t / 2) + 18 / 10))); [intro; symmetry; apply E|].
  apply derivable_continuous_pt. pose proof (exp_pos (t / 2)). unfold Rdiv. reg. unfold Rdiv in *. lra.
Qed.
Lemma phi_continuous : continuity phi.
Proof.
  unfold phi. pose proof exponent_continuous as C.
  assert (CE : forall g, continuity g -> continuity (fun t => exp (g t))).
  { intros g G t. apply (continuity_pt_comp g exp); [apply G|]. apply derivable_continuous_pt, derivable_exp. }
  apply continuity_mult; [apply continuity_mult; [apply continuity_const; intros ? ?; reflexivity|]|apply continuity_mult].
  - apply CE. apply continuity_mult; [apply continuity_const; intros ? ?; reflexivity|]. apply derivable_continuous, derivable_id.
  - apply CE. apply continuity_mult; [|apply continuity_const; intros ? ?; reflexivity]. apply continuity_plus; [apply continuity_const; intros ? ?; reflexivity|exact C].
  - apply CE. apply continuity_mult; [|apply continuity_const; intros ? ?; reflexivity]. apply continuity_opp. exact C.
Qed.
Lemma phi_form t : phi t = 195 / 1000 * exp (- (91 / 100) * t) * exp (brems_exponent (exp t) * ln 3).
Proof.
  unfold phi. rewrite <- (exp_plus ((1 + _) * _)).
  replace ((1 + brems_exponent (exp t)) * ln (3 / 4) + - brems_exponent (exp t) * ln (1 / 4)) with (ln (3 / 4) + brems_exponent (exp t) * ln 3).
  - rewrite exp_plus, exp_ln by lra. lra.
  - replace (ln 3) with (ln (3 / 4) - ln (1 / 4)); [ring|]. rewrite <- Rcomplements.ln_div by lra. apply f_equal. field.
Qed.
Lemma exponent_bounds t : 0 <= t <= 2 * ln 2 -> 28 / 100 < brems_exponent (exp t) < 1 / 2.
Proof.
  intro T. assert (S : 1 <= sqrt (exp t) <= 2).
  { split; [rewrite <- sqrt_1; apply sqrt_le_1_alt; rewrite <- exp_0; destruct T as [[T|<-] _]; [left; apply exp_increasing; exact T|right; reflexivity]|].
    replace 2 with (sqrt 4) by (replace 4 with (2 * 2) by ring; apply sqrt_square; lra). apply sqrt_le_1_alt.
    replace 4 with (exp (2 * ln 2)); [destruct T as [_ [T| ->]]; [left; apply exp_increasing; exact T|right; reflexivity]|].
    replace (2 * ln 2) with (ln 2 + ln 2) by ring. rewrite exp_plus, exp_ln by lra. lra. }
  unfold brems_exponent. set (s := sqrt (exp t)) in *. split;
    [apply (proj1 (Rcomplements.Rlt_div_r (28 / 100) (81 / 100 * s) (s + 18 / 10) ltac:(lra))); lra
    |apply (proj2 (Rcomplements.Rlt_div_l (81 / 100 * s) (1 / 2) (s + 18 / 10) ltac:(lra))); lra].
Qed.
Lemma ln3_ge : 1 <= ln 3.
Proof. rewrite <- (ln_exp 1) at 1. destruct exp_le_3 as [H|H]; [left; apply ln_increasing; [apply exp_pos|exact H]|right; rewrite H; reflexivity]. Qed.
Lemma phi_start : 2 / 10 < phi 0.
Proof.
  rewrite phi_form. replace (- (91 / 100) * 0) with 0 by ring. rewrite exp_0.
  pose proof (exponent_bounds 0) as B. assert (0 < ln 2) by (rewrite <- ln_1; apply ln_increasing; lra). specialize (B ltac:(lra)). rewrite exp_0 in *.
  pose proof (exp_ineq1_le (brems_exponent 1 * ln 3)). pose proof ln3_ge. nra.
Qed.
Lemma phi_end : phi (2 * ln 2) < 2 / 10.
Proof.
  rewrite phi_form. assert (0 < ln 2) by (rewrite <- ln_1; apply ln_increasing; lra). pose proof (exponent_bounds (2 * ln 2) ltac:(lra)) as B.
  pose proof ln3_ge as L3. assert (exp (- (91 / 100) * (2 * ln 2)) < / 2).
  { rewrite <- (exp_ln (/ 2)) by lra. apply exp_increasing. rewrite ln_Rinv by lra. lra. }
  assert (S : exp (brems_exponent (exp (2 * ln 2)) * ln 3) < 2).
  { set (n := brems_exponent _) in *. clearbody n. apply Rlt_le_trans with (exp (ln 2)); [|rewrite exp_ln by lra; lra]. apply exp_increasing. assert (ln 3 < 2 * ln 2).
    { replace (2 * ln 2) with (ln 4) by (replace 4 with (2 * 2) by ring; rewrite ln_mult by lra; ring). apply ln_increasing; lra. }
    nra. }
  pose proof (exp_pos (- (91 / 100) * (2 * ln 2))). pose proof (exp_pos (brems_exponent (exp (2 * ln 2)) * ln 3)). nra.
Qed.
Lemma meeting_energy : exists t, 0 <= t <= 2 * ln 2 /\ phi t = 2 / 10.
Proof.
  assert (0 < ln 2) by (rewrite <- ln_1; apply ln_increasing; lra). pose proof phi_start. pose proof phi_end.
  destruct (Continuity.IVT_gen phi 0 (2 * ln 2) (2 / 10) phi_continuous) as (t & T & E).
  - split; [apply Rle_trans with (1 := Rmin_r _ _)|apply Rle_trans with (2 := Rmax_l _ _)]; lra.
  - exists t. rewrite Rmin_left, Rmax_right in T by lra. split; [exact T|exact E].
Qed.

(** Bisection of a function which vanishes at the first centre *)
Lemma bisection_left f acc z : (forall x, 1 / 2 <= x < z -> f x < 0) -> forall passes x1, 1 / 2 <= x1 < z ->
  exists a, bisection_loop f acc passes x1 z = (a, z) /\ x1 <= a < z.
Proof.
  intros N passes. assert (SN : forall x, 1 / 2 <= x < z -> sgn (f x) = (-1)%Z).
  { intros x X. pose proof (N x X). destruct (sgn_cases (f x)) as [(A & _)|[(A & _)|(_ & A)]]; [lra|lra|exact A]. }
  induction passes as [|p IH]; intros x1 X; [exists x1; split; [reflexivity|lra]|].
  cbn [bisection_loop]. rewrite (SN ((x1 + z) / 2)) by lra. rewrite (SN x1) by lra. cbn [Z.eqb Pos.eqb].
  destruct (Rabs (z - (x1 + z) / 2) <? acc); [exists ((x1 + z) / 2); split; [reflexivity|lra]|].
  destruct (IH ((x1 + z) / 2) ltac:(lra)) as (a & E & A). exists a. split; [exact E|lra].
Qed.
Lemma bisection_first f acc passes : 1 / 4 >= acc -> (forall x, 1 / 2 <= x < 3 / 4 -> f x < 0) -> f (3 / 4) = 0 -> 0 < f 1 ->
  exists a, bisection f (1 / 2) 1 acc (S passes) = Ok (a, 3 / 4) /\ 1 / 2 <= a < 3 / 4.
Proof.
  intros A N Z P. pose proof (N (1 / 2) ltac:(lra)) as N2. unfold bisection. rewrite no_lt by nra. rewrite no_lt by lra. cbn [bisection_loop].
  replace ((1 / 2 + 1) / 2) with (3 / 4) by field. rewrite Z.
  destruct (sgn_cases 0) as [(B & _)|[(_ & B)|(B & _)]]; [lra| |lra]. rewrite B.
  destruct (sgn_cases (f (1 / 2))) as [(D & _)|[(D & _)|(_ & D)]]; [lra|lra|]. rewrite D. cbn [Z.eqb].
  rewrite no_lt by (rewrite Rabs_pos_eq; lra).
  destruct (bisection_left f acc (3 / 4) N passes (1 / 2) ltac:(lra)) as (a & E & R). exists a. rewrite E. split; [reflexivity|lra].
Qed.
Lemma meeting_root n k : 0 < n -> 0 < k -> k * (Rpower (3 / 4) (1 + n) * Rpower (1 / 4) (- n)) = 2 / 10 ->
  f_nu_g n k (3 / 4) = 0 /\ (forall x, 1 / 2 <= x < 3 / 4 -> f_nu_g n k x < 0) /\ 0 < f_nu_g n k 1.
Proof.
  intros N K E. assert (Q : Rpower (2 / 10 / k) (1 / n) = 4 * Rpower (3 / 4) (1 / n + 1)).
  { replace (2 / 10 / k) with (Rpower (3 / 4) (1 + n) * Rpower (1 / 4) (- n)) by (rewrite <- E; field; lra).
    rewrite <- Rpower_mult_distr by apply Rpower_pos. rewrite !Rpower_mult.
    replace ((1 + n) * (1 / n)) with (1 / n + 1) by (field; lra). replace (- n * (1 / n)) with (Ropp 1) by (field; lra).
    rewrite Rpower_Ropp, Rpower_1 by lra. field. }
  unfold f_nu_g. rewrite Q. split; [field|]. split.
  - intros x X. assert (Rpower x (1 / n + 1) < Rpower (3 / 4) (1 / n + 1)).
    { unfold Rpower. apply exp_increasing. apply Rmult_lt_compat_l; [assert (0 < 1 / n) by (apply Rdiv_lt_0_compat; lra); lra|]. apply ln_increasing; lra. }
    pose proof (Rpower_pos (3 / 4) (1 / n + 1)). nra.
  - replace (Rpower 1 (1 / n + 1)) with 1; [lra|]. unfold Rpower. rewrite ln_1, Rmult_0_r, exp_0. reflexivity.
Qed.
(** Left of the meeting point the continuation is smaller *)
Lemma continuation_smaller n c : 28 / 100 < n < 1 / 2 -> 1 / 2 <= c < 3 / 4 ->
  Rpower c (1 + n) * Rpower (1 - c) (1 / 2 - n) * Rpower (1 / 4) (- (1 / 2)) < Rpower (3 / 4) (1 + n) * Rpower (1 / 4) (- n).
Proof.
  intros N C. unfold Rpower. rewrite <- !exp_plus. apply exp_increasing.
  assert (A : ln c - ln (3 / 4) <= - (4 / 3 * (3 / 4 - c))).
  { rewrite <- Rcomplements.ln_div by lra. pose proof (exp_ineq1_le (ln (c / (3 / 4)))) as X. rewrite exp_ln in X by (apply Rdiv_lt_0_compat; lra). lra. }
  assert (B : ln (1 - c) - ln (1 / 4) <= 4 * (3 / 4 - c)).
  { rewrite <- Rcomplements.ln_div by lra. pose proof (exp_ineq1_le (ln ((1 - c) / (1 / 4)))) as X. rewrite exp_ln in X by (apply Rdiv_lt_0_compat; lra). lra. }
  enough ((1 + n) * (ln c - ln (3 / 4)) + (1 / 2 - n) * (ln (1 - c) - ln (1 / 4)) < 0) by lra.
  assert ((1 + n) * (ln c - ln (3 / 4)) <= (1 + n) * - (4 / 3 * (3 / 4 - c))) by (apply Rmult_le_compat_l; lra).
  assert ((1 / 2 - n) * (ln (1 - c) - ln (1 / 4)) <= (1 / 2 - n) * (4 * (3 / 4 - c))) by (apply Rmult_le_compat_l; lra). nra.
Qed.
Lemma ginneken_exception nan r : exists e_i e_f, 1000 <= e_i <= 4000 /\ MMU < e_f < e_i /\ forall Z, brems_ginneken nan MMU Z e_i e_f r = Throw invalid_argument.
Proof.
  destruct meeting_energy as (t & T & E). set (e := exp t). pose proof (exponent_bounds t T) as N. fold e in N.
  assert (Ee : 1 <= e <= 4).
  { unfold e. split; [rewrite <- exp_0; destruct T as [[T|<-] _]; [left; apply exp_increasing; exact T|right; reflexivity]|].
    replace 4 with (exp (2 * ln 2)); [destruct T as [_ [T| ->]]; [left; apply exp_increasing; exact T|right; reflexivity]|].
    replace (2 * ln 2) with (ln 2 + ln 2) by ring. rewrite exp_plus, exp_ln by lra. lra. }
  set (i := 1000 * e). set (f := i - 3 / 4 * (i - MMU)). assert (M : MMU < 200 /\ 0 < MMU) by (unfold MMU; lra). exists i, f. split; [unfold i; lra|]. split; [unfold f, i; lra|]. intro Z.
  assert (NU : lost_part (MMU / 1000) (i / 1000) (f / 1000) = 3 / 4) by (rewrite GeV; unfold lost_part, f; field; unfold i; lra).
  assert (Ie : i / 1000 = e) by (unfold i; field).
  unfold brems_ginneken. rewrite brems_high by (rewrite ?NU; unfold f, i; lra). cbv zeta. rewrite NU, Ie.
  rewrite <- phi_mean in E. fold e in E. rewrite no_lt by (rewrite E; lra). unfold brems_mean_high in E.
  replace (1 - 3 / 4) with (1 / 4) in E by field. set (k := 26 / 100 * Rpower e (- (91 / 100))) in *. set (n := brems_exponent e) in *.
  assert (K : 0 < k) by (unfold k; pose proof (Rpower_pos e (- (91 / 100))); lra).
  assert (Ek : k * (Rpower (3 / 4) (1 + n) * Rpower (1 / 4) (- n)) = 2 / 10) by (rewrite <- E; ring).
  destruct (meeting_root n k ltac:(lra) K Ek) as (Z0 & Neg & Pos).
  destruct (bisection_first (f_nu_g n k) (/ 10 ^ 5) 100 ltac:(lra) Neg Z0 Pos) as (a & B & A).
  unfold get_nu_g. rewrite yes_lt by (pose proof (Neg (1 / 2) ltac:(lra)); nra). rewrite B. cbn [obind fst snd].
  set (c := (a + 3 / 4) / 2). pose proof (continuation_smaller n c ltac:(lra) ltac:(unfold c; lra)) as S.
  rewrite yes_lt; [reflexivity|]. replace (1 - 3 / 4) with (1 / 4) by field. rewrite <- Ek. rewrite !Rmult_assoc. apply Rmult_lt_compat_l; [exact K|]. rewrite <- Rmult_assoc. exact S.
Qed.

(** The same for the calculator *)
Lemma ginneken_low_deflection (nan : forall A, outcome A) m Z e_i e_f r0 r1 l : 0 < m < e_f -> e_f < e_i -> 0 < Z -> lost_part m e_i e_f <= 1 / 2 -> 0 <= r0 < 1 ->
  forall charge c, charge c = Ok Z ->
  sampled_angle (deflection nan charge m BremsGinneken e_i e_f (r0 :: r1 :: l) c) (brems_mean_low (e_i / 1000) (lost_part m e_i e_f) Z) r0 r1.
Proof. intros H L P N R charge c C. cbn [deflection]. rewrite C. exact (ginneken_low nan m Z e_i e_f r0 r1 l H L P N R). Qed.
Lemma ginneken_high_deflection (nan : forall A, outcome A) m Z e_i e_f r0 r1 l : 0 < m < e_f -> e_f < e_i -> 1 / 2 < lost_part m e_i e_f ->
  brems_mean_high (e_i / 1000) (lost_part m e_i e_f) < 2 / 10 -> 0 <= r0 < 1 -> forall charge c, charge c = Ok Z ->
  sampled_angle (deflection nan charge m BremsGinneken e_i e_f (r0 :: r1 :: l) c) (brems_mean_high (e_i / 1000) (lost_part m e_i e_f)) r0 r1.
Proof. intros H L N B R charge c C. cbn [deflection]. rewrite C. exact (ginneken_high nan m Z e_i e_f r0 r1 l H L N B R). Qed.
Lemma ginneken_top_deflection (nan : forall A, outcome A) m Z e_i e_f r0 r1 l : 0 < m < e_f -> e_f < e_i -> 1 / 2 < lost_part m e_i e_f ->
  2 / 10 <= brems_mean_high (e_i / 1000) (lost_part m e_i e_f) -> 0 <= r0 < 1 -> forall charge c, charge c = Ok Z ->
  deflection nan charge m BremsGinneken e_i e_f (r0 :: r1 :: l) c = Throw invalid_argument \/
  exists mean, 2 / 10 <= mean /\ sampled_angle (deflection nan charge m BremsGinneken e_i e_f (r0 :: r1 :: l) c) mean r0 r1.
Proof. intros H L N B R charge c C. cbn [deflection]. rewrite C. exact (ginneken_top nan m Z e_i e_f r0 r1 l H L N B R). Qed.
Lemma ginneken_exception_deflection (nan : forall A, outcome A) rnd : exists e_i e_f, 1000 <= e_i <= 4000 /\ MMU < e_f < e_i /\
  forall charge c Z, charge c = Ok Z -> deflection nan charge MMU BremsGinneken e_i e_f rnd c = Throw invalid_argument.
Proof.
  destruct (ginneken_exception nan rnd) as (e_i & e_f & H1 & H2 & H3). exists e_i, e_f. split; [exact H1|]. split; [exact H2|].
  intros charge c Z C. cbn [deflection]. rewrite C. exact (H3 Z).
Qed.
