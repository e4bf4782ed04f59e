(** Newton's iteration for the reduced angle B, B - ln B = c. *)
From Coquelicot Require Import Coquelicot.
From Verif Require Import Prelude Integral_Model Multiple_Model Log_Proofs.

Definition newton_map (c x : R) : R := x * (ln x + c - 1) / (x - 1).
Lemma model_step L x : x <> 1 -> x * ((1 - ln x - L - 1 + 2 * EULER_MASCHERONI) / (1 - x))
  = newton_map (L + 1 - 2 * EULER_MASCHERONI) x.
Proof. intros X. unfold newton_map. field. split; lra. Qed.

(** ** An orbit without a root: c = 0.37 *)
Lemma ln_pow2 k : ln (2 ^ k) = INR k * ln 2.
Proof.
  induction k as [|k IH]; [cbn; rewrite ln_1; ring|]. rewrite S_INR. cbn [pow].
  rewrite ln_mult, IH by (try apply pow_lt; lra). ring.
Qed.
Ltac logarithm v e m z :=
  let B := fresh "B" in
  pose proof (ln_bounds m ltac:(lra)) as B; unfold area in B; cbv zeta in B;
  replace ((m - 1) / (m + 1)) with z in B by (field; lra);
  let E := fresh "E" in
  assert (E : v = e) by (field; lra);
  rewrite E, ln_mult by (try apply Rinv_0_lt_compat; try apply pow_lt; lra);
  repeat rewrite ln_Rinv by (try apply pow_lt; lra);
  rewrite ln_pow2; pose proof ln_2; cbn [INR]; lra.
Lemma affine p q a b x : a <= x <= b -> 0 <= p + q * a -> 0 <= p + q * b -> 0 <= p + q * x.
Proof. intros X A B. destruct (Rle_dec 0 q) as [Q|Q]; [assert (0 <= q * (x - a)) by (apply Rmult_le_pos; lra)|assert (0 <= - q * (b - x)) by (apply Rmult_le_pos; lra)]; lra. Qed.
Lemma newton_above c x a b la lb lo hi : 1 < a -> a <= x <= b -> la <= ln a -> ln b <= lb ->
  lo * (a - 1) <= a * (la + c - 1) -> lo * (b - 1) <= b * (la + c - 1) ->
  a * (lb + c - 1) <= hi * (a - 1) -> b * (lb + c - 1) <= hi * (b - 1) -> lo <= newton_map c x <= hi.
Proof.
  intros A X LA LB H1 H2 H3 H4. unfold newton_map.
  assert (ln a <= ln x) by (destruct (proj1 X) as [U|U]; [left; apply ln_increasing; lra|rewrite U; lra]).
  assert (ln x <= ln b) by (destruct (proj2 X) as [U|U]; [left; apply ln_increasing; lra|rewrite U; lra]).
  split.
  - apply (proj1 (Rcomplements.Rle_div_r lo (x * (ln x + c - 1)) (x - 1) ltac:(lra))).
    assert (0 <= x * (ln x - la)) by (apply Rmult_le_pos; lra).
    pose proof (affine lo (la + c - 1 - lo) a b x X ltac:(lra) ltac:(lra)); lra.
  - apply (proj2 (Rcomplements.Rle_div_l (x * (ln x + c - 1)) hi (x - 1) ltac:(lra))).
    assert (0 <= x * (lb - ln x)) by (apply Rmult_le_pos; lra).
    pose proof (affine (- hi) (hi - (lb + c - 1)) a b x X ltac:(lra) ltac:(lra)); lra.
Qed.
Lemma newton_below c x a b la lb lo hi : 0 < a /\ b < 1 -> a <= x <= b -> la <= ln a -> ln b <= lb ->
  lo * (1 - a) <= a * (1 - c - lb) -> lo * (1 - b) <= b * (1 - c - lb) ->
  a * (1 - c - la) <= hi * (1 - a) -> b * (1 - c - la) <= hi * (1 - b) -> lo <= newton_map c x <= hi.
Proof.
  intros A X LA LB H1 H2 H3 H4. unfold newton_map.
  assert (ln a <= ln x) by (destruct (proj1 X) as [U|U]; [left; apply ln_increasing; lra|rewrite U; lra]).
  assert (ln x <= ln b) by (destruct (proj2 X) as [U|U]; [left; apply ln_increasing; lra|rewrite U; lra]).
  replace (x * (ln x + c - 1) / (x - 1)) with (x * (1 - c - ln x) / (1 - x)) by (field; lra).
  split.
  - apply (proj1 (Rcomplements.Rle_div_r lo (x * (1 - c - ln x)) (1 - x) ltac:(lra))).
    assert (0 <= x * (lb - ln x)) by (apply Rmult_le_pos; lra).
    pose proof (affine (- lo) (1 - c - lb + lo) a b x X ltac:(lra) ltac:(lra)); lra.
  - apply (proj2 (Rcomplements.Rle_div_l (x * (1 - c - ln x)) hi (1 - x) ltac:(lra))).
    assert (0 <= x * (ln x - la)) by (apply Rmult_le_pos; lra).
    pose proof (affine hi (- (1 - c - la) - hi) a b x X ltac:(lra) ltac:(lra)); lra.
Qed.
Lemma orbit_low_0 : (1354025079 / 500000000) <= ln (15).
Proof. logarithm (15) (/ (16 / 15) * 2 ^ 4) (16 / 15) (1 / 31). Qed.
Lemma orbit_high_0 : ln (15) <= (2708050239 / 1000000000).
Proof. logarithm (15) (/ (16 / 15) * 2 ^ 4) (16 / 15) (1 / 31). Qed.
Lemma orbit_0 x : (15) <= x <= (15) -> (278310289 / 125000000) <= newton_map (37 / 100) x <= (2226482399 / 1000000000).
Proof. intros X. eapply newton_above; [|exact X|exact orbit_low_0|exact orbit_high_0| | | |]; lra. Qed.
Lemma orbit_low_1 : (80042289 / 100000000) <= ln (278310289 / 125000000).
Proof. logarithm (278310289 / 125000000) ((278310289 / 250000000) * 2 ^ 1) (278310289 / 250000000) (28310289 / 528310289). Qed.
Lemma orbit_high_1 : ln (2226482399 / 1000000000) <= (16008459 / 20000000).
Proof. logarithm (2226482399 / 1000000000) ((2226482399 / 2000000000) * 2 ^ 1) (2226482399 / 2000000000) (226482399 / 4226482399). Qed.
Lemma orbit_1 x : (278310289 / 125000000) <= x <= (2226482399 / 1000000000) -> (309375467 / 1000000000) <= newton_map (37 / 100) x <= (154687793 / 500000000).
Proof. intros X. eapply newton_above; [|exact X|exact orbit_low_1|exact orbit_high_1| | | |]; lra. Qed.
Lemma orbit_low_2 : (-146649957 / 125000000) <= ln (309375467 / 1000000000).
Proof. logarithm (309375467 / 1000000000) ((309375467 / 250000000) * / 2 ^ 2) (309375467 / 250000000) (59375467 / 559375467). Qed.
Lemma orbit_high_2 : ln (154687793 / 500000000) <= (-117319923 / 100000000).
Proof. logarithm (154687793 / 500000000) ((154687793 / 125000000) * / 2 ^ 2) (154687793 / 125000000) (29687793 / 279687793). Qed.
Lemma orbit_2 x : (309375467 / 1000000000) <= x <= (154687793 / 500000000) -> (403884873 / 500000000) <= newton_map (37 / 100) x <= (201942597 / 250000000).
Proof. intros X. eapply newton_below; [|exact X|exact orbit_low_2|exact orbit_high_2| | | |]; lra. Qed.
Lemma orbit_low_3 : (-213478229 / 1000000000) <= ln (403884873 / 500000000).
Proof. logarithm (403884873 / 500000000) (/ (500000000 / 403884873) * 2 ^ 0) (500000000 / 403884873) (96115127 / 903884873). Qed.
Lemma orbit_high_3 : ln (201942597 / 250000000) <= (-106738717 / 500000000).
Proof. logarithm (201942597 / 250000000) (/ (250000000 / 201942597) * 2 ^ 0) (250000000 / 201942597) (48057403 / 451942597). Qed.
Lemma orbit_3 x : (403884873 / 500000000) <= x <= (201942597 / 250000000) -> (1772186059 / 500000000) <= newton_map (37 / 100) x <= (1772195057 / 500000000).
Proof. intros X. eapply newton_below; [|exact X|exact orbit_low_3|exact orbit_high_3| | | |]; lra. Qed.
Lemma orbit_low_4 : (253072201 / 200000000) <= ln (1772186059 / 500000000).
Proof. logarithm (1772186059 / 500000000) (/ (2000000000 / 1772186059) * 2 ^ 2) (2000000000 / 1772186059) (227813941 / 3772186059). Qed.
Lemma orbit_high_4 : ln (1772195057 / 500000000) <= (1265366123 / 1000000000).
Proof. logarithm (1772195057 / 500000000) (/ (2000000000 / 1772195057) * 2 ^ 2) (2000000000 / 1772195057) (227804943 / 3772195057). Qed.
Lemma orbit_4 x : (1772186059 / 500000000) <= x <= (1772195057 / 500000000) -> (177014307 / 200000000) <= newton_map (37 / 100) x <= (55317527 / 62500000).
Proof. intros X. eapply newton_above; [|exact X|exact orbit_low_4|exact orbit_high_4| | | |]; lra. Qed.
Lemma orbit_low_5 : (-122086807 / 1000000000) <= ln (177014307 / 200000000).
Proof. logarithm (177014307 / 200000000) (/ (200000000 / 177014307) * 2 ^ 0) (200000000 / 177014307) (22985693 / 377014307). Qed.
Lemma orbit_high_5 : ln (55317527 / 62500000) <= (-61038377 / 500000000).
Proof. logarithm (55317527 / 62500000) (/ (62500000 / 55317527) * 2 ^ 0) (62500000 / 55317527) (7182473 / 117817527). Qed.
Lemma orbit_5 x : (177014307 / 200000000) <= x <= (55317527 / 62500000) -> (5791791677 / 1000000000) <= newton_map (37 / 100) x <= (2896187863 / 500000000).
Proof. intros X. eapply newton_below; [|exact X|exact orbit_low_5|exact orbit_high_5| | | |]; lra. Qed.
Lemma orbit_accepted (nan : forall A, outcome A) L : L + 1 - 2 * EULER_MASCHERONI = 37 / 100 ->
  exists x, newton_steps nan 6 L 15 = Ok (Some x) /\ 57 / 10 <= x <= 58 / 10.
Proof.
  intros HL.
  pose proof (orbit_0 15 ltac:(lra)) as X1. set (x1 := newton_map (37 / 100) 15) in *.
  pose proof (orbit_1 x1 ltac:(lra)) as X2. set (x2 := newton_map (37 / 100) x1) in *.
  pose proof (orbit_2 x2 ltac:(lra)) as X3. set (x3 := newton_map (37 / 100) x2) in *.
  pose proof (orbit_3 x3 ltac:(lra)) as X4. set (x4 := newton_map (37 / 100) x3) in *.
  pose proof (orbit_4 x4 ltac:(lra)) as X5. set (x5 := newton_map (37 / 100) x4) in *.
  pose proof (orbit_5 x5 ltac:(lra)) as X6. set (x6 := newton_map (37 / 100) x5) in *.
  exists x6. split; [|lra].
  assert (step : forall n x, 0 < x -> x <> 1 -> newton_steps nan (S n) L x = newton_steps nan n L (newton_map (37 / 100) x)).
  { intros n x P N. cbn [newton_steps]. unfold Rltb, Reqb, quotient. unfold Reqb.
    destruct (Rlt_dec x 0); [lra|]. destruct (Req_EM_T x 0); [lra|]. destruct (Req_EM_T (1 - x) 0); [lra|]. cbn [obind].
    rewrite model_step, HL by exact N. reflexivity. }
  rewrite !step; fold x1; fold x2; fold x3; fold x4; fold x5; fold x6; try reflexivity; lra.
Qed.

(** ** Convergence where there is a root *)
Lemma ln_ge_inv r : 0 < r -> 1 - / r <= ln r.
Proof.
  intros P. pose proof (exp_ineq1_le (- ln r)) as H. rewrite exp_Ropp, exp_ln in H by exact P. lra.
Qed.
Lemma ln_le_sub r : 0 < r -> ln r <= r - 1.
Proof. intros P. pose proof (exp_ineq1_le (ln r)) as H. rewrite exp_ln in H by exact P. lra. Qed.
(** The root, B >= 1 *)
Lemma root_exists c : 1 <= c -> exists B, 1 <= B /\ B - ln B = c.
Proof.
  intros C. pose proof (ln_le_sub ((2 * c + 2) / 2) ltac:(lra)) as H. pose proof ln_2 as L2.
  assert (T : ln (2 * c + 2) = ln 2 + ln ((2 * c + 2) / 2)) by (rewrite <- ln_mult by lra; f_equal; field).
  assert (P : 0 <= ln (2 * c + 2)) by (rewrite <- ln_1; left; apply ln_increasing; lra).
  destruct (IVT_gen (fun t => exp t - t) 0 (ln (2 * c + 2)) c) as (t & Ht & E).
  - intros x. apply continuity_pt_filterlim. apply (ex_derive_continuous (fun t => exp t - t)). auto_derive. exact I.
  - rewrite exp_0, exp_ln by lra. split; [apply Rle_trans with (1 := Rmin_l _ _)|apply Rle_trans with (2 := Rmax_r _ _)]; lra.
  - rewrite Rmin_left, Rmax_right in Ht by lra. exists (exp t). rewrite ln_exp. split; [|exact E].
    rewrite <- exp_0. destruct (Req_dec t 0) as [->|N]; [lra|left; apply exp_increasing; lra].
Qed.
Lemma newton_error c B x : 0 < B -> B - ln B = c -> 0 < x -> x <> 1 ->
  newton_map c x = B + B * ((x / B) * ln (x / B) - x / B + 1) / (x - 1).
Proof.
  intros PB E P N. unfold newton_map. replace (ln (x / B)) with (ln x - ln B).
  - rewrite <- E. field. lra.
  - unfold Rdiv. rewrite ln_mult, ln_Rinv by (try apply Rinv_0_lt_compat; lra). ring.
Qed.
Lemma gap_nonneg r : 0 < r -> 0 <= r * ln r - r + 1.
Proof.
  intros P. pose proof (ln_ge_inv r P) as H. assert (0 <= r * (ln r - (1 - / r))) by (apply Rmult_le_pos; lra).
  replace (r * (ln r - (1 - / r))) with (r * ln r - r + 1) in H0 by (field; lra). exact H0.
Qed.
Lemma gap_crude r : 0 < r -> r * ln r - r + 1 <= (r - 1) ^ 2.
Proof. intros P. pose proof (ln_le_sub r P). assert (0 <= r * (r - 1 - ln r)) by (apply Rmult_le_pos; lra). lra. Qed.
Lemma ln_le_half r : 1 <= r -> ln r <= (r - / r) / 2.
Proof.
  intros P. pose proof (nondecreasing_from (fun x => (x - / x) / 2 - ln x) (fun x => (1 - / x) ^ 2 / 2) 1 r P) as M.
  cbv beta in M. rewrite ln_1, Rinv_1 in M.
  assert ((1 - 1) / 2 - 0 <= (r - / r) / 2 - ln r); [|lra]. apply M.
  - intros x X. auto_derive; [repeat split; lra|]. field. lra.
  - intros x X. assert (0 <= (1 - / x) ^ 2) by apply pow2_ge_0. lra.
Qed.
Lemma gap_fine r : 1 <= r -> r * ln r - r + 1 <= (r - 1) ^ 2 / 2.
Proof.
  intros P. pose proof (ln_le_half r P) as H. assert (0 <= r * ((r - / r) / 2 - ln r)) as H1 by (apply Rmult_le_pos; lra).
  replace (r * ((r - / r) / 2 - ln r)) with ((r * r - 1) / 2 - r * ln r) in H1 by (field; lra). lra.
Qed.
Lemma ratio_fold c B x : 0 < B -> B - ln B = c -> 0 < x -> x <> 1 ->
  newton_map c x / B = 1 + (x / B * ln (x / B) - x / B + 1) / (x - 1).
Proof. intros PB E P N. rewrite (newton_error c B x PB E P N). field. lra. Qed.
Lemma newton_at_least c B x : 1 <= B -> B - ln B = c -> 1 < x -> B <= newton_map c x.
Proof.
  intros PB E X. rewrite (newton_error c B x ltac:(lra) E ltac:(lra) ltac:(lra)).
  assert (0 < x / B) by (apply Rdiv_lt_0_compat; lra). pose proof (gap_nonneg (x / B) H).
  assert (0 <= B * (x / B * ln (x / B) - x / B + 1) / (x - 1)); [|lra].
  apply Rmult_le_pos; [apply Rmult_le_pos; lra|left; apply Rinv_0_lt_compat; lra].
Qed.
Lemma newton_above_one c x : 1 <= c -> 1 < x -> 1 < newton_map c x.
Proof.
  intros C X. unfold newton_map. apply (proj1 (Rcomplements.Rlt_div_r 1 (x * (ln x + c - 1)) (x - 1) ltac:(lra))).
  assert (0 < ln x) by (rewrite <- ln_1; apply ln_increasing; lra).
  destruct (Req_dec (ln x) (1 - / x)) as [D|D].
  - assert (S : 1 - / sqrt x <= ln (sqrt x)) by (apply ln_ge_inv; apply sqrt_lt_R0; lra).
    assert (Q : 1 < sqrt x) by (rewrite <- sqrt_1; apply sqrt_lt_1; lra).
    assert (ln x = 2 * ln (sqrt x)). { rewrite <- (sqrt_sqrt x) at 1 by lra. rewrite ln_mult by lra. ring. }
    assert (I : / x = / sqrt x * / sqrt x) by (rewrite <- (sqrt_sqrt x) at 1 by lra; rewrite Rinv_mult; reflexivity).
    assert (0 < / sqrt x < 1) by (split; [apply Rinv_0_lt_compat; lra|rewrite <- Rinv_1; apply Rinv_lt_contravar; lra]).
    exfalso. nra.
  - pose proof (ln_ge_inv x ltac:(lra)). assert (0 < x * (ln x - (1 - / x))) by (apply Rmult_lt_0_compat; lra).
    replace (x * (ln x - (1 - / x))) with (x * ln x - x + 1) in H1 by (field; lra). nra.
Qed.
Lemma sub_ln_mono a b : 1 <= a <= b -> a - ln a <= b - ln b.
Proof.
  intros L. assert (0 < b / a) by (apply Rdiv_lt_0_compat; lra). pose proof (ln_le_sub (b / a) H) as M.
  assert (ln (b / a) = ln b - ln a) by (unfold Rdiv; rewrite ln_mult, ln_Rinv by (try apply Rinv_0_lt_compat; lra); ring).
  assert (b / a - 1 <= b - a); [|lra]. replace (b / a - 1) with ((b - a) * / a) by (field; lra).
  assert (/ a <= 1) by (rewrite <- Rinv_1; apply Rinv_le_contravar; lra). assert (0 <= (b - a) * (1 - / a)) by (apply Rmult_le_pos; lra). lra.
Qed.
Lemma newton_at_most c B x : 1 <= B -> B - ln B = c -> 1 < x -> B <= x -> newton_map c x <= x.
Proof.
  intros PB E X L. unfold newton_map. apply (proj2 (Rcomplements.Rle_div_l (x * (ln x + c - 1)) x (x - 1) ltac:(lra))).
  pose proof (sub_ln_mono B x ltac:(lra)). apply Rmult_le_compat_l; lra.
Qed.
(** The relative distance to the root *)
Lemma newton_square c B x : 1 < B -> B - ln B = c -> B <= x ->
  0 <= newton_map c x / B - 1 <= (x / B - 1) ^ 2 / (2 * (B - 1)).
Proof.
  intros PB E L. rewrite (ratio_fold c B x ltac:(lra) E ltac:(lra) ltac:(lra)).
  assert (R1 : 1 <= x / B) by (apply (proj1 (Rcomplements.Rle_div_r 1 x B ltac:(lra))); lra).
  pose proof (gap_fine _ R1) as G. pose proof (gap_nonneg (x / B) ltac:(lra)) as G0. set (g := x / B * ln (x / B) - x / B + 1) in *.
  replace (1 + g / (x - 1) - 1) with (g / (x - 1)) by ring. split.
  - apply Rmult_le_pos; [exact G0|left; apply Rinv_0_lt_compat; lra].
  - apply Rle_trans with ((x / B - 1) ^ 2 / 2 / (x - 1)).
    + apply Rmult_le_compat_r; [left; apply Rinv_0_lt_compat; lra|exact G].
    + replace ((x / B - 1) ^ 2 / (2 * (B - 1))) with ((x / B - 1) ^ 2 / 2 / (B - 1)) by (field; lra).
      apply Rmult_le_compat_l; [assert (0 <= (x / B - 1) ^ 2) by apply pow2_ge_0; lra|].
      apply Rinv_le_contravar; lra.
Qed.
Lemma newton_first c B : 4 <= B -> B - ln B = c -> 0 <= newton_map c 15 / B - 1 <= 55 / 100.
Proof.
  intros PB E. rewrite (ratio_fold c B 15 ltac:(lra) E ltac:(lra) ltac:(lra)).
  assert (R0 : 0 < 15 / B) by (apply Rdiv_lt_0_compat; lra).
  assert (R1 : 15 / B <= 15 / 4) by (apply Rmult_le_compat_l; [lra|apply Rinv_le_contravar; lra]).
  pose proof (gap_nonneg _ R0). pose proof (gap_crude _ R0). nra.
Qed.
Lemma model_newton (nan : forall A, outcome A) n L x : 0 < x -> x <> 1 ->
  newton_steps nan (S n) L x = newton_steps nan n L (newton_map (L + 1 - 2 * EULER_MASCHERONI) x).
Proof.
  intros P N. cbn [newton_steps]. unfold Rltb, Reqb, quotient. unfold Reqb.
  destruct (Rlt_dec x 0); [lra|]. destruct (Req_EM_T x 0); [lra|]. destruct (Req_EM_T (1 - x) 0); [lra|]. cbn [obind].
  rewrite model_step by exact N. reflexivity.
Qed.
Lemma relative_square d B x : 4 <= B -> 0 <= d -> 0 <= x / B - 1 <= d -> (x / B - 1) ^ 2 / (2 * (B - 1)) <= d ^ 2 / 6.
Proof.
  intros PB D X. unfold Rdiv at 1 3. apply Rmult_le_compat; [apply pow2_ge_0|left; apply Rinv_0_lt_compat; lra| |apply Rinv_le_contravar; lra].
  apply pow_incr. exact X.
Qed.
Lemma six_steps (nan : forall A, outcome A) L : let c := L + 1 - 2 * EULER_MASCHERONI in 1 <= c ->
  exists x, newton_steps nan 6 L 15 = Ok (Some x) /\ 1 < x /\
  forall B, 1 <= B -> B - ln B = c ->
    (B < 4 -> x < 45 / 10) /\ (4 <= B -> B <= x <= B * (1 + / 10 ^ 30)).
Proof.
  intros c C.
  set (x1 := newton_map c 15). set (x2 := newton_map c x1). set (x3 := newton_map c x2).
  set (x4 := newton_map c x3). set (x5 := newton_map c x4). set (x6 := newton_map c x5).
  assert (X1 : 1 < x1) by (apply newton_above_one; lra). assert (X2 : 1 < x2) by (apply newton_above_one; lra).
  assert (X3 : 1 < x3) by (apply newton_above_one; lra). assert (X4 : 1 < x4) by (apply newton_above_one; lra).
  assert (X5 : 1 < x5) by (apply newton_above_one; lra). assert (X6 : 1 < x6) by (apply newton_above_one; lra).
  exists x6. split; [|split; [exact X6|]].
  { rewrite !model_newton; fold c; fold x1; fold x2; fold x3; fold x4; fold x5; fold x6; try lra. reflexivity. }
  intros B PB E.
  assert (B1 : B <= x1) by (apply newton_at_least; lra). assert (B2 : B <= x2) by (apply newton_at_least; lra).
  assert (B3 : B <= x3) by (apply newton_at_least; lra). assert (B4 : B <= x4) by (apply newton_at_least; lra).
  assert (B5 : B <= x5) by (apply newton_at_least; lra). assert (B6 : B <= x6) by (apply newton_at_least; lra).
  assert (D1 : x2 <= x1) by (apply newton_at_most with B; lra). assert (D2 : x3 <= x2) by (apply newton_at_most with B; lra).
  assert (D3 : x4 <= x3) by (apply newton_at_most with B; lra). assert (D4 : x5 <= x4) by (apply newton_at_most with B; lra).
  assert (D5 : x6 <= x5) by (apply newton_at_most with B; lra).
  split.
  - intros S. destruct (Rlt_dec x1 (45 / 10)) as [H|H]; [lra|].
    assert (C4 : c <= 4 - ln 4) by (rewrite <- E; apply sub_ln_mono; lra).
    assert (L4 : ln 4 = 2 * ln 2) by (replace 4 with (2 * 2) by ring; rewrite ln_mult by lra; ring). pose proof ln_2 as L2.
    assert (L15 : ln 15 <= 271 / 100) by (pose proof orbit_high_0; lra).
    assert (x1 = 15 * (ln 15 + c - 1) / 14) by (unfold x1, newton_map; field).
    assert (x1 <= 4633 / 1000) by lra.
    assert (LX : ln x1 <= ln 4 + (x1 / 4 - 1)).
    { pose proof (ln_le_sub (x1 / 4) ltac:(lra)) as M. unfold Rdiv in M. rewrite ln_mult, ln_Rinv in M by lra. lra. }
    assert (x2 < 45 / 10); [|lra]. unfold x2, newton_map.
    apply (proj2 (Rcomplements.Rlt_div_l (x1 * (ln x1 + c - 1)) (45 / 10) (x1 - 1) ltac:(lra))). nra.
  - intros S. split; [exact B6|].
    pose proof (newton_first c B S E) as E1. fold x1 in E1.
    pose proof (newton_square c B x1 ltac:(lra) E B1) as E2. fold x2 in E2. pose proof (relative_square (55 / 100) B x1 S ltac:(lra) E1).
    pose proof (newton_square c B x2 ltac:(lra) E B2) as E3. fold x3 in E3. pose proof (relative_square (51 / 1000) B x2 S ltac:(lra) ltac:(lra)).
    pose proof (newton_square c B x3 ltac:(lra) E B3) as E4. fold x4 in E4. pose proof (relative_square (45 / 10 ^ 5) B x3 S ltac:(lra) ltac:(lra)).
    pose proof (newton_square c B x4 ltac:(lra) E B4) as E5. fold x5 in E5. pose proof (relative_square (35 / 10 ^ 9) B x4 S ltac:(lra) ltac:(lra)).
    pose proof (newton_square c B x5 ltac:(lra) E B5) as E6. fold x6 in E6. pose proof (relative_square (3 / 10 ^ 16) B x5 S ltac:(lra) ltac:(lra)).
    assert (x6 / B - 1 <= / 10 ^ 30) by lra.
    replace x6 with (B * (x6 / B)) by (field; lra). apply Rmult_le_compat_l; lra.
Qed.
(** Where the root is at least 4.5 the position is accepted. *)
Lemma threshold c B : 1 <= B -> B - ln B = c -> 3 <= c -> 45 / 10 <= B.
Proof.
  intros PB E C. destruct (Rle_dec (45 / 10) B) as [H|H]; [exact H|].
  pose proof (sub_ln_mono B (45 / 10) ltac:(lra)). assert (1504 / 1000 <= ln (45 / 10)); [|lra].
  logarithm (45 / 10) (9 / 8 * 2 ^ 2) (9 / 8) (1 / 17).
Qed.
Lemma no_root c : c < 1 -> forall B, 0 < B -> B - ln B <> c.
Proof. intros C B P. pose proof (ln_le_sub B P). lra. Qed.
