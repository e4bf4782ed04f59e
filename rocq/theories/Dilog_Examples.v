(** The dilogarithm exists. *)
From Coquelicot Require Import Coquelicot.
From Verif Require Import Prelude PreludeFacts Cross_Model Dilog_Model Dilog_Spec DilogEquations_Proofs.

(** Its derivative, with the limit at 0 *)
Definition slope (t : R) : R := if Req_EM_T t 0 then 1 else - ln (1 - t) / t.
Lemma slope_value t : t <> 0 -> slope t = - ln (1 - t) / t.
Proof. intro H. unfold slope. destruct (Req_EM_T t 0); [contradiction|reflexivity]. Qed.
Lemma minus_ln_derive y : y < 1 -> is_derive (fun y => - ln (1 - y)) y (/ (1 - y)).
Proof. intro H. auto_derive; [lra|]. change (1 + - y) with (1 - y). field. lra. Qed.
Lemma slope_zero : continuous slope 0.
Proof.
  apply continuity_pt_filterlim. intros eps He.
  pose proof (proj1 (is_derive_Reals _ _ _) (minus_ln_derive 0 ltac:(lra)) eps He) as (delta & D).
  exists delta. split; [apply cond_pos|]. intros x [[_ Hx] Hd]. cbn in Hd |- *. unfold R_dist in *.
  specialize (D x ltac:(auto)). rewrite Rminus_0_r in Hd. specialize (D Hd).
  rewrite slope_value by auto. unfold slope. destruct (Req_EM_T 0 0) as [_|X]; [|contradiction].
  rewrite Rplus_0_l, Rminus_0_r, ln_1, Rinv_1 in D. replace (- ln (1 - x) / x - 1) with ((- ln (1 - x) - - 0) / x - 1) by (field; auto). exact D.
Qed.
Lemma slope_continuous t : t < 1 -> continuous slope t.
Proof.
  intro H. destruct (Req_EM_T t 0) as [->|N]; [exact slope_zero|].
  apply (continuous_ext_loc slope (fun t => - ln (1 - t) / t) t).
  - assert (P : 0 < Rabs t) by (apply Rabs_pos_lt; assumption). exists (mkposreal _ P). intros y B. symmetry. apply slope_value. intros ->.
    cbv [ball] in B; cbn in B. cbv [AbsRing_ball abs minus plus opp] in B; cbn in B. rewrite Rplus_0_l, Rabs_Ropp in B. lra.
  - apply (ex_derive_continuous (fun t => - ln (1 - t) / t)). auto_derive. split; [lra|]. split; [assumption|trivial].
Qed.
Definition below (x : R) : R := RInt slope 0 x.
Lemma below_derive x : x < 1 -> is_derive below x (slope x).
Proof.
  intro H. apply (is_derive_RInt slope below 0 x); [|apply slope_continuous; assumption].
  assert (P : 0 < 1 - x) by lra. exists (mkposreal _ P). intros y B. apply (RInt_correct slope 0 y).
  apply (ex_RInt_continuous slope). intros z Z. apply slope_continuous.
  cbv [ball] in B; cbn in B. cbv [AbsRing_ball abs minus plus opp] in B; cbn in B. apply Rabs_def2 in B.
  assert (Rmax 0 y < 1) by (apply Rmax_lub_lt; lra). lra.
Qed.
Lemma below_zero : below 0 = 0.
Proof. unfold below. rewrite RInt_point. reflexivity. Qed.
Lemma below_derive' x : x <> 0 -> x < 1 -> is_derive below x (- ln (Rabs (1 - x)) / x).
Proof. intros N H. rewrite Rabs_right by lra. rewrite <- slope_value by assumption. apply below_derive. assumption. Qed.
Lemma ln_abs_derive x : x <> 0 -> is_derive (fun x => ln (Rabs x)) x (/ x).
Proof.
  intro N. destruct (Rlt_le_dec 0 x) as [P|P].
  - apply (is_derive_ext_loc ln); [|apply is_derive_ln'; assumption].
    exists (mkposreal _ P). intros y B. cbv [ball] in B; cbn in B. cbv [AbsRing_ball abs minus plus opp] in B; cbn in B. apply Rabs_def2 in B.
    rewrite Rabs_right by lra. reflexivity.
  - assert (P' : 0 < - x) by lra. apply (is_derive_ext_loc (fun x => ln (- x))).
    + exists (mkposreal _ P'). intros y B. cbv [ball] in B; cbn in B. cbv [AbsRing_ball abs minus plus opp] in B; cbn in B. apply Rabs_def2 in B.
      rewrite Rabs_left by lra. reflexivity.
    + auto_derive; [lra|]. field. assumption.
Qed.
Definition beyond (x : R) : R := 2 * below (1 / 2) + ln 2 * ln 2 - ln x * ln (Rabs (1 - x)) - below (1 - x).
Lemma beyond_derive x : 0 < x -> x <> 1 -> is_derive beyond x (- ln (Rabs (1 - x)) / x).
Proof.
  intros P N. unfold beyond.
  assert (I : is_derive (fun x => 1 - x) x (-1)) by (auto_derive; [trivial|ring]).
  pose proof (is_derive_comp below (fun x => 1 - x) x _ _ (below_derive (1 - x) ltac:(lra)) I) as D1.
  rewrite slope_value in D1 by lra. replace (1 - (1 - x)) with x in D1 by ring.
  pose proof (is_derive_comp (fun x => ln (Rabs x)) (fun x => 1 - x) x _ _ (ln_abs_derive (1 - x) ltac:(lra)) I) as D2.
  pose proof (is_derive_mult ln (fun x => ln (Rabs (1 - x))) x _ _ (is_derive_ln' x P) D2 Rmult_comm) as D3.
  pose proof (is_derive_const (2 * below (1 / 2) + ln 2 * ln 2) x) as D0.
  pose proof (is_derive_minus _ _ _ _ _ (is_derive_minus _ _ _ _ _ D0 D3) D1) as G.
  cbv [plus minus opp mult scal zero] in G; cbn in G. cbv [mult] in G; cbn in G.
  match type of G with is_derive _ _ ?v => replace (- ln (Rabs (1 - x)) / x) with v end; [exact G|]. field. lra.
Qed.
Lemma beyond_half : beyond (1 / 2) = below (1 / 2).
Proof.
  unfold beyond. replace (1 - 1 / 2) with (/ 2) by field. rewrite (Rabs_right (/ 2)) by lra. replace (1 / 2) with (/ 2) by field. rewrite ln_Rinv by lra. ring.
Qed.
Lemma same x : 0 < x < 1 -> below x = beyond x.
Proof.
  intro H. set (g := fun x => below x - beyond x).
  assert (D : forall t, 0 < t < 1 -> is_derive g t 0).
  { intros t T. pose proof (is_derive_minus _ _ _ _ _ (below_derive' t ltac:(lra) ltac:(lra)) (beyond_derive t ltac:(lra) ltac:(lra))) as G.
    cbv [minus plus opp] in G; cbn in G. match type of G with is_derive _ _ ?v => replace 0 with v by ring end. exact G. }
  assert (K : forall t, 0 < t < 1 -> continuous g t) by (intros t T; apply (ex_derive_continuous g); exists 0; apply D; assumption).
  assert (Z : g (1 / 2) = 0) by (unfold g; rewrite beyond_half; ring).
  assert (E : g x = 0).
  { rewrite <- Z. destruct (Rle_lt_dec x (1 / 2)).
    - apply constant; [assumption| |]; intros t T; [apply D|apply K]; lra.
    - symmetry. apply constant; [lra| |]; intros t T; [apply D|apply K]; lra. }
  unfold g in E. lra.
Qed.
Lemma product_small_above x : 1 < x < 3 / 2 -> Rabs (ln x * ln (x - 1)) <= 2 * sqrt (x - 1).
Proof.
  intro H. pose proof (sub_ln_le x ltac:(lra)) as A1. assert (0 < ln x) by (rewrite <- ln_1; apply ln_increasing; lra).
  pose proof (sub_ln_le (x - 1) ltac:(lra)) as B1. pose proof (minus_ln_le (x - 1) ltac:(lra)) as B2.
  rewrite Rabs_mult, (Rabs_right (ln x)), (Rabs_left1 (ln (x - 1))) by lra.
  set (s := sqrt (x - 1)) in *. assert (S : 0 < s) by (apply sqrt_lt_R0; lra). assert (SS : s * s = x - 1) by (apply sqrt_sqrt; lra).
  apply Rle_trans with ((x - 1) * (2 / s)); [apply Rmult_le_compat; lra|]. rewrite <- SS. right. field. lra.
Qed.
Lemma product_abs_continuous : continuous (fun x => ln x * ln (Rabs (1 - x))) 1.
Proof.
  apply continuity_pt_filterlim. intros eps He.
  exists (Rmin (1 / 2) ((eps / 8) * (eps / 8))). split.
  - apply Rlt_gt. apply Rmin_glb_lt; [lra|]. apply Rmult_lt_0_compat; lra.
  - intros x [_ Hx]. cbn in Hx |- *. unfold R_dist in *. rewrite ln_1, Rmult_0_l, Rminus_0_r.
    assert (X1 : Rabs (x - 1) < 1 / 2) by (eapply Rlt_le_trans; [exact Hx|apply Rmin_l]).
    assert (X2 : Rabs (x - 1) < eps / 8 * (eps / 8)) by (eapply Rlt_le_trans; [exact Hx|apply Rmin_r]).
    apply Rabs_def2 in X1. destruct (Rtotal_order x 1) as [L|[->|L]].
    + rewrite Rabs_right with (r := 1 - x) by lra. eapply Rle_lt_trans; [apply product_small; lra|].
      assert (sqrt (1 - x) <= eps / 8); [|lra].
      rewrite <- (sqrt_square (eps / 8)) by lra. apply sqrt_le_1_alt. apply Rabs_def2 in X2. lra.
    + rewrite ln_1, Rmult_0_l, Rabs_R0. lra.
    + rewrite (Rabs_left (1 - x)) by lra. replace (- (1 - x)) with (x - 1) by ring. eapply Rle_lt_trans; [apply product_small_above; lra|].
      assert (sqrt (x - 1) <= eps / 8); [|lra].
      rewrite <- (sqrt_square (eps / 8)) by lra. apply sqrt_le_1_alt. apply Rabs_def2 in X2. lra.
Qed.
Lemma beyond_continuous x : 0 < x -> continuous beyond x.
Proof.
  intro P. destruct (Req_EM_T x 1) as [->|N].
  - unfold beyond. apply (continuous_minus (fun x => 2 * below (1 / 2) + ln 2 * ln 2 - ln x * ln (Rabs (1 - x))) (fun x => below (1 - x))).
    + apply (continuous_minus (fun _ => 2 * below (1 / 2) + ln 2 * ln 2) (fun x => ln x * ln (Rabs (1 - x)))); [apply continuous_const|exact product_abs_continuous].
    + apply (continuous_comp (fun x => 1 - x) below).
      * apply (ex_derive_continuous (fun x : R => 1 - x)). auto_derive. trivial.
      * apply (ex_derive_continuous below). eexists. apply below_derive. lra.
  - apply (ex_derive_continuous beyond). eexists. apply beyond_derive; assumption.
Qed.
Definition spence (x : R) : R := if Rle_dec x (1 / 2) then below x else beyond x.
Lemma spence_below x : x < 1 -> spence x = below x.
Proof. intro H. unfold spence. destruct (Rle_dec x (1 / 2)); [reflexivity|]. symmetry. apply same. lra. Qed.
Lemma spence_beyond x : 0 < x -> spence x = beyond x.
Proof. intro H. unfold spence. destruct (Rle_dec x (1 / 2)); [|reflexivity]. apply same. lra. Qed.
Lemma near_below x : x < 1 -> locally x (fun y => below y = spence y).
Proof.
  intro H. assert (P : 0 < 1 - x) by lra. exists (mkposreal _ P). intros y B. symmetry. apply spence_below.
  cbv [ball] in B; cbn in B. cbv [AbsRing_ball abs minus plus opp] in B; cbn in B. apply Rabs_def2 in B. lra.
Qed.
Lemma near_beyond x : 0 < x -> locally x (fun y => beyond y = spence y).
Proof.
  intro H. exists (mkposreal _ H). intros y B. symmetry. apply spence_beyond.
  cbv [ball] in B; cbn in B. cbv [AbsRing_ball abs minus plus opp] in B; cbn in B. apply Rabs_def2 in B. lra.
Qed.
Lemma spence_dilogarithm : dilogarithm spence.
Proof.
  split.
  - rewrite spence_below by lra. apply below_zero.
  - intro x. destruct (Rlt_le_dec x 1) as [L|L].
    + apply (continuous_ext_loc spence below x); [apply near_below; assumption|]. apply (ex_derive_continuous below). eexists. apply below_derive. assumption.
    + apply (continuous_ext_loc spence beyond x); [apply near_beyond; lra|]. apply beyond_continuous. lra.
  - intros x N0 N1. destruct (Rlt_le_dec x 1) as [L|L].
    + apply (is_derive_ext_loc below); [apply near_below; assumption|]. apply below_derive'; assumption.
    + apply (is_derive_ext_loc beyond); [apply near_beyond; lra|]. apply beyond_derive; lra.
Qed.
Lemma only_one f g : dilogarithm f -> dilogarithm g -> forall x, x <= 1 -> f x = g x.
Proof.
  intros F G x H. set (d := fun x => f x - g x).
  assert (K : forall t, continuous d t) by (intro t; apply (continuous_minus f g); [apply (dl_continuous f F)|apply (dl_continuous g G)]).
  assert (D : forall t, t <> 0 -> t <> 1 -> is_derive d t 0).
  { intros t N0 N1. pose proof (is_derive_minus _ _ _ _ _ (dl_derivative f F t N0 N1) (dl_derivative g G t N0 N1)) as X.
    cbv [minus plus opp] in X; cbn in X. match type of X with is_derive _ _ ?v => replace 0 with v by ring end. exact X. }
  assert (Z : d 0 = 0) by (unfold d; rewrite (dl_zero f F), (dl_zero g G); ring).
  assert (E : d x = 0).
  { rewrite <- Z. destruct (Rle_lt_dec x 0).
    - apply constant; [assumption| |]; intros t T; [apply D; lra|apply K].
    - symmetry. apply constant; [lra| |]; intros t T; [apply D; lra|apply K]. }
  unfold d in E. lra.
Qed.
Lemma unique_dilogarithm f g : dilogarithm f -> dilogarithm g -> forall x, f x = g x.
Proof.
  intros F G x. destruct (Rle_lt_dec x 1) as [L|L]; [apply only_one; assumption|].
  rewrite (inversion_ f F x), (inversion_ g G x) by lra.
  assert (I : 1 / x <= 1) by (apply (Rmult_le_reg_r x); [lra|]; unfold Rdiv; rewrite Rmult_assoc, Rinv_l by lra; lra).
  rewrite (only_one f g F G (1 / x) I). unfold C. rewrite (only_one f g F G (1 / 2)) by lra. reflexivity.
Qed.
