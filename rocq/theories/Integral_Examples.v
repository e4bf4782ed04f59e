(** Integrals of known functions, and the place of a quarter of one. *)
From Verif Require Import Prelude PreludeFacts Function_Model Integral_Model Function_Spec Integral_Spec Function_Proofs
  Trapezoid_Proofs Neville_Proofs Expansion_Proofs Romberg_Proofs Integral_Proofs Values_Proofs Safety_Proofs Upper_Proofs Overrun_Proofs.

Lemma small_enough : (3 ^ Z.of_nat 12 <= INT_MAX)%Z.
Proof. unfold INT_MAX. cbv. discriminate. Qed.
Lemma default_roomy : roomy default_integral.
Proof. split; [split; cbn; lia|exact small_enough]. Qed.
Lemma wide_range a b : Rabs a <= 10 -> 1 <= b - a -> negligible a b = false.
Proof.
  intros A B. unfold negligible, COMPUTER_PRECISION. apply leb_no. rewrite (Rabs_right (b - a)) by lra.
  assert (0 <= Rabs a) by apply Rabs_pos. lra.
Qed.
Lemma zero_one : negligible 0 1 = false.
Proof. apply wide_range; [rewrite Rabs_R0|]; lra. Qed.
(** x^9 has ten coefficients *)
Definition ninth : list R := [0; 0; 0; 0; 0; 0; 0; 0; 0; 1].
Lemma ninth_integral x : derivable_pt_lim (fun x => x ^ 10 / 10) x (polynomial ninth x).
Proof.
  replace (polynomial ninth x) with (/ 10 * (INR 10 * x ^ 9)).
  - apply (derivable_pt_lim_ext (mult_real_fct (/ 10) (fun y => y ^ 10))).
    + intro y. unfold mult_real_fct. lra.
    + apply derivable_pt_lim_scal. apply (derivable_pt_lim_pow x 10).
  - unfold ninth. rewrite !polynomial_cons, polynomial_nil. rewrite (INR_IZR_INZ 10). cbn [Z.of_nat Pos.of_succ_nat Pos.succ]. field.
Qed.

Section Reciprocal.
Variable nan : forall A, outcome A.
Definition exactly_one : (R -> outcome R) -> R -> R -> outcome R := fun _ a b => Ok (b - a).
Lemma constant_romberg g big : roomy g -> e_min g < e_max g -> (forall t, evaluate nan g t = Ok 1) -> plain g big ->
  exists g', like g g' /\ romberg_opened nan exactly_one big g = Some (Ok (e_max g - e_min g, g')).
Proof.
  intros (F & M) L Ev P.
  assert (Ev' : forall t, e_min g < t < e_max g -> evaluate nan g t = Ok (polynomial [1] t)).
  { intros t _. rewrite Ev. apply f_equal. rewrite polynomial_cons, polynomial_nil. lra. }
  destruct (romberg_opened_ends nan exactly_one g (polynomial [1]) big F L Ev' P M) as (g' & Lk & H).
  exists g'. split; [exact Lk|]. destruct H as [(v & -> & C)| ->]; [|reflexivity].
  assert (X : expands (midpoint_sum (polynomial [1]) (e_min g) (e_max g)) (e_romberg g - 1) (id (e_max g) - id (e_min g))).
  { apply midpoint_expansion; [cbn [length]; lia|].
    intro x. rewrite polynomial_cons, polynomial_nil. replace (1 + x * 0) with 1 by lra. apply derivable_pt_lim_id. }
  apply (converged_exact 3 _ _ _ _ _ v (e_romberg g - 1) (e_max g - e_min g)) in C; [subst; reflexivity|lia| |exact X].
  destruct F as [R1 _ _ _]. lia.
Qed.
Definition reciprocal (x : R) : outcome R := Ok (/ x).
Lemma reciprocal_evaluates g : e_power g = 0 -> e_log g = true -> e_reverse g = false -> e_integrand g = Some reciprocal ->
  forall t, evaluate nan g t = Ok 1.
Proof.
  intros P L Rv I t. unfold evaluate. rewrite P, L, Rv, I. destruct (Reqb_spec 0 0) as [_|X]; [|lra]. cbn. apply f_equal.
  rewrite Rmult_1_l, Rinv_r; [reflexivity|]. apply Rgt_not_eq, exp_pos.
Qed.

(** One point for the extrapolation *)
Definition single : engine := new_integral 1 20 (/ 10 ^ 6).
Lemma single_roomy : roomy single.
Proof. split; [split; cbn; lia|exact small_enough]. Qed.
Lemma ln_half : ln (1 / 2) = - ln 2.
Proof. replace (1 / 2) with (/ 2) by lra. apply ln_Rinv. lra. Qed.
Lemma ln_two : / 2 < ln 2 < 1.
Proof.
  split.
  - rewrite <- (ln_exp (/ 2)). apply ln_increasing; [apply exp_pos|].
    assert (E : exp (/ 2) * exp (/ 2) = exp 1) by (rewrite <- exp_plus; f_equal; lra).
    pose proof exp_le_3. pose proof (exp_pos (/ 2)). nra.
  - rewrite <- (ln_exp 1). apply ln_increasing; [lra|].
    pose proof (exp_ineq1 1 ltac:(lra)). lra.
Qed.
Lemma half_two_apart : negligible (1 / 2) 2 = false /\ negligible (- ln 2) (ln 2) = false.
Proof.
  pose proof ln_two. split; apply wide_range.
  - rewrite Rabs_right; lra.
  - lra.
  - rewrite Rabs_left; lra.
  - lra.
Qed.
Definition started : engine := prepared single (- ln 2) (ln 2) reciprocal 0 false true (1 / 4) false 0.
Definition integrated : engine := with_buffers started (1 :: repeat 0 19) (2 * ln 2 :: repeat 0 19).
Lemma started_runs : romberg_opened nan exactly_one None started = Some (Ok (2 * ln 2, integrated)).
Proof.
  unfold romberg_opened. change (e_steps started) with (S 11). generalize 11%nat. intro n. cbn [opened_loop].
  change (e_random started) with (1 / 4). rewrite !eqb_no by lra. cbn [orb].
  unfold trapezoid3s. change (1 =? 1)%Z with true. cbv iota.
  rewrite (reciprocal_evaluates started) by reflexivity. cbn [obind]. rewrite fbind_Ok.
  cbn [e_max e_min started prepared]. replace ((ln 2 - - ln 2) * 1) with (2 * ln 2) by lra.
  change (arr_set (e_ix started) 0 1) with (Ok (1 :: repeat 0 19)). rewrite fbind_Ok.
  change (arr_set (e_iy started) 0 (2 * ln 2)) with (Ok (2 * ln 2 :: repeat 0 19)). rewrite fbind_Ok. fold integrated.
  change (Nat.leb (e_romberg integrated) 1) with true. cbv iota.
  change (0 - (e_romberg integrated - 1))%nat with 0%nat.
  assert (I : interpolate integrated 0 0 = Ok (2 * ln 2, 0)).
  { unfold interpolate, integrated, with_buffers, started, prepared, single, new_integral. cbn -[ln Rabs Rltb].
    destruct (_ <? _); reflexivity. }
  rewrite I. rewrite fbind_Ok. cbv zeta. rewrite eqb_no by (pose proof ln_two; lra). rewrite fbind_Ok.
  rewrite ltb_yes; [reflexivity|]. unfold Rdiv. rewrite Rmult_0_l, Rabs_R0.
  change (e_precision integrated) with (if / 10 ^ 6 <=? 0 then / 10 ^ 6 else / 10 ^ 6). destruct (_ <=? _); lra.
Qed.
Definition sampled1 : engine := sampled integrated (1 / 4) (2 * ln 2).
Lemma quarter_integral : integrate_ratio nan exactly_one single (1 / 2) 2 reciprocal 4 (1 / 4) 0 = Some (Ok (2 * ln 2, sampled1)).
Proof.
  unfold integrate_ratio. rewrite eqb_no by lra. cbn [andb]. rewrite !leb_no by lra. cbn [orb]. unfold integrate_log_ratio.
  rewrite (proj1 half_two_apart). destruct (order (1 / 2) 2 ltac:(lra)) as (-> & -> & ->). unfold logarithm. rewrite !ltb_yes by lra.
  rewrite !fbind_Ok. cbv zeta. rewrite (ltb_no 2 (1 / 2)), (ltb_no 1 (1 / 4)) by lra. rewrite ln_half.
  change (prepared single (- ln 2) (ln 2) reciprocal 0 (e_random_do single) true (1 / 4) false (e_reverse_x single)) with started.
  rewrite started_runs. cbn [fbind]. change (e_random integrated) with (1 / 4). rewrite ltb_no by lra. rewrite fbind_Ok.
  unfold done. do 2 f_equal. rewrite Rmult_1_l. reflexivity.
Qed.
Lemma range_romberg g0 lo hi v : roomy g0 -> (forall t, evaluate nan g0 t = Ok 1) -> lo < hi -> 2 * ln 2 <> 0 ->
  (v = hi - lo) ->
  exists g', like (with_range g0 lo hi) g' /\ romberg_opened nan exactly_one (Some (2 * ln 2)) (with_range g0 lo hi) = Some (Ok (v, g')).
Proof.
  intros Ro Ev L N ->. apply (constant_romberg (with_range g0 lo hi)); [|exact L|exact Ev|exact N].
  destruct Ro as ([A B C D] & M). split; [split|]; assumption.
Qed.
Lemma quarter_place : exists g2, get_upper_limit nan exactly_one sampled1 = Some (Ok (exp (- ln 2 / 2), g2)).
Proof.
  pose proof ln_two as T. unfold get_upper_limit. cbn [e_random_do sampled1 sampled]. 
  change (e_min sampled1) with (- ln 2). change (e_max sampled1) with (ln 2). rewrite (proj2 half_two_apart).
  change (e_saved sampled1) with (2 * ln 2).
  assert (R : exists g3, refine_upper_limit nan exactly_one sampled1 (2 * ln 2) = Some (Ok g3) /\ e_random_x g3 = - ln 2 / 2 /\
    e_reverse g3 = false /\ e_power g3 = 0 /\ e_log g3 = true).
  { unfold refine_upper_limit. change (e_random sampled1) with (1 / 4). rewrite !eqb_no by lra. cbn [orb]. cbv zeta.
    rewrite (ltb_no 0 (- (1 / 4) * (2 * ln 2) * ((1 - 1 / 4) * (2 * ln 2)))) by nra.
    rewrite (ltb_no 0 (- (1 / 4) * (2 * ln 2))) by nra.
    change (e_min sampled1) with (- ln 2). change (e_max sampled1) with (ln 2). change (e_random_x sampled1) with 0.
    rewrite (ltb_no 0 (- ln 2)), (ltb_no (ln 2) 0) by lra. cbn [orb]. cbv iota.
    change (e_min sampled1) with (- ln 2). change (e_max sampled1) with (ln 2). change (e_random_x sampled1) with 0.
    assert (Rs : roomy sampled1) by (split; [split; cbn; lia|exact small_enough]).
    destruct (range_romberg sampled1 (- ln 2) 0 (ln 2) Rs) as (g3 & L3 & E3); [apply reciprocal_evaluates; reflexivity|lra..|].
    rewrite E3. cbn [fbind].
    destruct (romberg_opened_kept _ _ _ _ _ _ E3) as (_ & [P3|(Z & _)]); [|discriminate Z]. cbn [placed] in P3.
    change (e_random_x (with_range sampled1 (- ln 2) 0)) with 0 in P3.
    set (g4 := with_romberg g3 _).
    assert (Lf := like_fields _ _ L3). destruct Lf as (F1 & F2 & F3 & F4 & F5 & F6 & F7 & F8 & F9 & F10 & F11 & F12).
    assert (Ev4 : forall t, evaluate nan g4 t = Ok 1).
    { intro t. change (evaluate nan g3 t = Ok 1). rewrite F12. apply reciprocal_evaluates; reflexivity. }
    rewrite Ev4, fbind_Ok. change (e_refine_steps g4) with (e_refine_steps g3). rewrite F2.
    change (e_refine_steps (with_range sampled1 (- ln 2) 0)) with (S (S 18)).
    change (e_random g3) with (e_random g3). rewrite F11. change (e_random (with_range sampled1 (- ln 2) 0)) with (1 / 4).
    replace (ln 2 - 1 / 4 * (2 * ln 2)) with (ln 2 / 2) by lra. replace (ln 2 - - ln 2) with (2 * ln 2) by lra.
    generalize 18%nat. intro n. cbn [refine_loop]. rewrite (ltb_no (ln 2 / 2) 0) by lra.
    rewrite (ltb_no 0 (((0 - 0) * 1 - ln 2 / 2) * ((0 - - ln 2) * 1 - ln 2 / 2))) by nra.
    rewrite (ltb_no (Rabs (2 * ln 2 * 1)) (Rabs (2 * (ln 2 / 2)))) by (rewrite !Rabs_right; lra). cbn [orb].
    unfold quotient at 1. rewrite (eqb_no 1 0) by lra. cbn [obind]. rewrite fbind_Ok.
    replace (ln 2 / 2 / 1) with (ln 2 / 2) by field. replace (0 - ln 2 / 2) with (- ln 2 / 2) by lra.
    assert (Pr : e_precision g4 = / 10 ^ 6).
    { change (e_precision g4) with (e_precision g3). rewrite F5. cbn. destruct (_ <=? _); reflexivity. }
    rewrite (eqb_no 0 (- ln 2 / 2)) by lra. rewrite Pr. rewrite (ltb_no (Rabs (ln 2 / 2))) by (rewrite Rabs_right; lra). cbn [orb].
    change (e_random_x g4) with (e_random_x g3). rewrite P3.
    rewrite (Rmin_right 0 (- ln 2 / 2)), (Rmax_left 0 (- ln 2 / 2)) by lra.
    assert (R4 : roomy g4).
    { split; [split|].
      - change (1 <= e_romberg_refine g3)%nat. rewrite F4. cbn. lia.
      - change (e_romberg_refine g3 <= e_work g3)%nat. rewrite F4, F6. cbn. lia.
      - change (e_steps g3 <= length (e_ix g3))%nat. rewrite F1, F7. cbn. lia.
      - change (e_steps g3 <= length (e_iy g3))%nat. rewrite F1, F8. cbn. lia.
      - change (3 ^ Z.of_nat (e_steps g3) <= INT_MAX)%Z. rewrite F1. exact small_enough. }
    destruct (range_romberg g4 (- ln 2 / 2) 0 (ln 2 / 2) R4 Ev4) as (g5 & L5 & E5); [lra..|].
    rewrite E5. cbn [fbind]. destruct (like_fields _ _ L5) as (_ & _ & _ & _ & G5 & _ & _ & _ & _ & _ & _ & G12).
    rewrite G12. change (evaluate nan (with_range g4 (- ln 2 / 2) 0)) with (evaluate nan g4). rewrite Ev4, fbind_Ok.
    destruct (romberg_opened_kept _ _ _ _ _ _ E5) as (K5 & [P5|(Z & _)]); [|change (e_steps g3 = 0%nat) in Z; rewrite F1 in Z; discriminate Z].
    cbn [placed] in P5. change (e_random_x (with_range g4 (- ln 2 / 2) 0)) with (e_random_x g3) in P5. rewrite P3 in P5. rewrite P5.
    unfold sign_of. rewrite (ltb_yes (- ln 2 / 2) 0) by lra. replace (ln 2 / 2 + -1 * (ln 2 / 2)) with 0 by lra.
    rewrite (ltb_no 0 0) by lra.
    rewrite (ltb_no 0 (((- ln 2 / 2 - - ln 2 / 2) * 1 - 0) * ((- ln 2 / 2 - - ln 2) * 1 - 0))) by nra.
    rewrite (ltb_no (Rabs _) (Rabs (2 * 0))) by (rewrite Rmult_0_r, Rabs_R0; apply Rabs_pos). cbn [orb].
    unfold quotient at 1. rewrite (eqb_no 1 0) by lra. cbn [obind]. rewrite fbind_Ok.
    replace (- ln 2 / 2 - 0 / 1) with (- ln 2 / 2) by lra.
    replace (- ln 2 / 2 =? - ln 2 / 2) with true by (symmetry; apply Reqb_true; reflexivity). cbn [orb]. rewrite fbind_Ok.
    eexists. split; [reflexivity|]. split; [reflexivity|].
    destruct L5 as (ix5 & iy5 & x5 & -> & _). destruct L3 as (ix3 & iy3 & x3 & -> & _). repeat split. }
  destruct R as (g3 & -> & X & Rv & P & L). cbn [fbind]. rewrite X, Rv, P, L. cbv zeta.
  rewrite (ltb_no 0 0) by lra. rewrite fbind_Ok. eexists. reflexivity.
Qed.

(** Limits of a million that differ by two parts in ten thousand millions *)
Definition million : R := 10 ^ 6.
Definition beyond : R := million * (1 + 2 * / 10 ^ 10).
Lemma close_limits : 0 < million < beyond /\ negligible million beyond = false /\ negligible (ln million) (ln beyond) = true /\ ln million < million.
Proof.
  assert (L : 2 <= ln million < million).
  { split.
    - rewrite <- (ln_exp 2). left. apply ln_increasing; [apply exp_pos|].
      replace 2 with (1 + 1) by lra. rewrite exp_plus. pose proof exp_le_3. pose proof (exp_pos 1). unfold million. nra.
    - rewrite <- (ln_exp million) at 2. apply ln_increasing; [unfold million; lra|].
      pose proof (exp_ineq1 million ltac:(unfold million; lra)). lra. }
  split; [unfold beyond, million; lra|]. split; [|split; [|lra]].
  - unfold negligible, COMPUTER_PRECISION. apply leb_no. unfold beyond, million. rewrite !Rabs_right by lra. lra.
  - unfold negligible, COMPUTER_PRECISION. apply Rleb_true.
    assert (E : ln beyond = ln million + ln (1 + 2 * / 10 ^ 10)) by (unfold beyond; apply ln_mult; unfold million; lra).
    assert (S : 0 < ln (1 + 2 * / 10 ^ 10) < 2 * / 10 ^ 10).
    { split; [rewrite <- ln_1; apply ln_increasing; lra|]. rewrite <- (ln_exp (2 * / 10 ^ 10)) at 2.
      apply ln_increasing; [lra|]. apply exp_ineq1. lra. }
    rewrite E. rewrite !Rabs_right by lra. lra.
Qed.
Lemma close_integral : exists v g1, integrate_ratio nan exactly_one default_integral million beyond reciprocal 4 1 0 = Some (Ok (v, g1)).
Proof.
  destruct close_limits as (A & B & C & D). unfold integrate_ratio. rewrite eqb_no by lra. cbn [andb]. rewrite !leb_no by lra. cbn [orb].
  unfold integrate_log_ratio. rewrite B. destruct (order million beyond ltac:(lra)) as (-> & -> & ->). unfold logarithm.
  rewrite !ltb_yes by lra. rewrite !fbind_Ok. cbv zeta. rewrite (ltb_no beyond million), (ltb_no 1 1) by lra.
  destruct (constant_romberg (prepared default_integral (ln million) (ln beyond) reciprocal 0 (e_random_do default_integral) true 1 false
    (e_reverse_x default_integral)) None) as (g' & L & ->).
  - apply roomy_prepared, default_roomy.
  - change (ln million < ln beyond). apply ln_increasing; lra.
  - apply reciprocal_evaluates; reflexivity.
  - right. reflexivity.
  - cbn [fbind]. destruct (like_fields _ _ L) as (_ & _ & _ & _ & _ & _ & _ & _ & _ & _ & -> & _). cbn [e_random prepared].
    rewrite (ltb_no 1 0) by lra. rewrite fbind_Ok. eexists. eexists. reflexivity.
Qed.
End Reciprocal.
Lemma close_refuted nan : exists a b f v g1 g2, 0 < a < b /\ ln a < a /\
  integrate_ratio nan exactly_one default_integral a b f 4 1 0 = Some (Ok (v, g1)) /\
  get_upper_limit nan exactly_one g1 = Some (Ok (ln a, g2)).
Proof.
  destruct close_limits as (A & B & C & D). destruct (close_integral nan) as (v & g1 & E).
  destruct (upper_log_refuted nan exactly_one default_integral million beyond reciprocal 1 v g1 0 A B C E) as (g2 & U).
  exists million, beyond, reciprocal, v, g1, g2. repeat split; try assumption; apply A.
Qed.
