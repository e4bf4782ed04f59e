(** Functional equations of the dilogarithm. *)
From Coquelicot Require Import Coquelicot.
From Verif Require Import Prelude PreludeFacts Dilog_Spec.

Lemma cont_pt (f : R -> R) x : continuous f x -> continuity_pt f x.
Proof. intro H. apply continuity_pt_filterlim. exact H. Qed.
(** A function with derivative zero between [a] and [b] that is continuous there and at both ends *)
Lemma constant (g : R -> R) a b : a <= b -> (forall x, a < x < b -> is_derive g x 0) -> (forall x, a <= x <= b -> continuous g x) -> g a = g b.
Proof.
  intros H D C. destruct (MVT_gen g a b (fun _ => 0)) as (c & _ & E).
  - intros x Hx. rewrite Rmin_left, Rmax_right in Hx by assumption. apply D. assumption.
  - intros x Hx. rewrite Rmin_left, Rmax_right in Hx by assumption. apply cont_pt, C. assumption.
  - lra.
Qed.
Lemma sub_ln_le u : 0 < u -> ln u <= u - 1.
Proof. intro U. pose proof (exp_ineq1_le (ln u)) as H. rewrite exp_ln in H by assumption. lra. Qed.
Lemma ln_sqrt u : 0 < u -> ln u = 2 * ln (sqrt u).
Proof.
  intro U. pose proof (sqrt_lt_R0 u U). rewrite <- (sqrt_sqrt u) at 1 by lra. rewrite ln_mult by assumption. ring.
Qed.
Lemma minus_ln_le u : 0 < u -> - ln u <= 2 / sqrt u.
Proof.
  intro U. pose proof (sqrt_lt_R0 u U) as S. rewrite (ln_sqrt u U). pose proof (Rinv_0_lt_compat _ S) as I.
  pose proof (sub_ln_le (/ sqrt u) I) as H. rewrite ln_Rinv in H by assumption. unfold Rdiv. lra.
Qed.
(** Both logarithms at 1 *)
Lemma product_small x : 1 / 2 < x < 1 -> Rabs (ln x * ln (1 - x)) <= 4 * sqrt (1 - x).
Proof.
  intros H. pose proof (sub_ln_le x ltac:(lra)) as A1. pose proof (sub_ln_le (/ x) ltac:(apply Rinv_0_lt_compat; lra)) as A2.
  rewrite ln_Rinv in A2 by lra. pose proof (sub_ln_le (1 - x) ltac:(lra)) as B1. pose proof (minus_ln_le (1 - x) ltac:(lra)) as B2.
  assert (A3 : - ln x <= 2 * (1 - x)).
  { assert (/ x - 1 <= 2 * (1 - x)); [|lra]. replace (/ x - 1) with ((1 - x) * / x) by (field; lra).
    assert (/ x <= 2); [|nra]. replace 2 with (/ (1 / 2)) by field. apply Rinv_le_contravar; lra. }
  rewrite Rabs_mult, (Rabs_left1 (ln x)), (Rabs_left1 (ln (1 - x))) by lra.
  set (s := sqrt (1 - x)) in *. assert (S : 0 < s) by (apply sqrt_lt_R0; lra). assert (SS : s * s = 1 - x) by (apply sqrt_sqrt; lra).
  apply Rle_trans with (2 * (1 - x) * (2 / s)).
  - apply Rmult_le_compat; lra.
  - rewrite <- SS. right. field. lra.
Qed.
Lemma product_continuous : continuous (fun x => ln x * ln (1 - x)) 1.
Proof.
  apply continuity_pt_filterlim. intros eps He. 
  exists (Rmin (1 / 2) ((eps / 8) * (eps / 8))). split.
  - apply Rlt_gt. apply Rmin_glb_lt; [lra|]. apply Rmult_lt_0_compat; lra.
  - intros x [_ Hx]. cbn in Hx |- *. unfold R_dist in *. rewrite ln_1, Rmult_0_l, Rminus_0_r.
    assert (X1 : Rabs (x - 1) < 1 / 2) by (eapply Rlt_le_trans; [exact Hx|apply Rmin_l]).
    assert (X2 : Rabs (x - 1) < eps / 8 * (eps / 8)) by (eapply Rlt_le_trans; [exact Hx|apply Rmin_r]).
    apply Rabs_def2 in X1. destruct (Rlt_le_dec x 1) as [L|L].
    + eapply Rle_lt_trans; [apply product_small; lra|].
      assert (sqrt (1 - x) <= eps / 8); [|lra].
      rewrite <- (sqrt_square (eps / 8)) by lra. apply sqrt_le_1_alt. apply Rabs_def2 in X2. lra.
    + assert (ln (1 - x) = 0) as ->.
      { unfold ln. destruct (Rlt_dec 0 (1 - x)); [exfalso; lra|reflexivity]. }
      rewrite Rmult_0_r, Rabs_R0. lra.
Qed.

Section Equations.
Variable f : R -> R.
Hypothesis F : dilogarithm f.
Definition C := 2 * f (1 / 2) + ln 2 * ln 2.

Lemma derivative_below x : x <> 0 -> x < 1 -> is_derive f x (- ln (1 - x) / x).
Proof. intros X Y. pose proof (dl_derivative f F x X ltac:(lra)) as D. rewrite Rabs_right in D by lra. exact D. Qed.
Lemma derivative_above x : 1 < x -> is_derive f x (- ln (x - 1) / x).
Proof.
  intros Y. pose proof (dl_derivative f F x ltac:(lra) ltac:(lra)) as D. rewrite Rabs_left in D by lra.
  replace (x - 1) with (- (1 - x)) by ring. exact D.
Qed.
Lemma ln_continuous x : 0 < x -> continuous ln x.
Proof. intro H. apply continuity_pt_filterlim, derivable_continuous_pt. exists (/ x). apply derivable_pt_lim_ln. assumption. Qed.
Lemma is_derive_ln' x : 0 < x -> is_derive ln x (/ x).
Proof. intro H. apply is_derive_Reals, derivable_pt_lim_ln. assumption. Qed.

(** Reflection *)
Definition mirrored (x : R) : R := f x + f (1 - x) + ln x * ln (1 - x).
Lemma mirrored_derivative x : 0 < x < 1 -> is_derive mirrored x 0.
Proof.
  intros H. unfold mirrored.
  pose proof (derivative_below x ltac:(lra) ltac:(lra)) as D1.
  pose proof (derivative_below (1 - x) ltac:(lra) ltac:(lra)) as D2. replace (1 - (1 - x)) with x in D2 by ring.
  pose proof (is_derive_ln' x ltac:(lra)) as L1. pose proof (is_derive_ln' (1 - x) ltac:(lra)) as L2.
  assert (I : is_derive (fun x => 1 - x) x (-1)) by (auto_derive; [trivial|ring]).
  pose proof (is_derive_comp f (fun x => 1 - x) x _ _ D2 I) as D3.
  pose proof (is_derive_comp ln (fun x => 1 - x) x _ _ L2 I) as L3.
  pose proof (is_derive_mult ln (fun x => ln (1 - x)) x _ _ L1 L3 Rmult_comm) as M.
  pose proof (is_derive_plus _ _ _ _ _ (is_derive_plus _ _ _ _ _ D1 D3) M) as G.
  cbv [plus mult scal] in G; cbn in G. cbv [mult] in G; cbn in G.
  match type of G with is_derive _ _ ?v => replace 0 with v end; [exact G|]. field. lra.
Qed.
Lemma mirrored_continuous x : 0 < x < 1 -> continuous mirrored x.
Proof. intro H. apply (ex_derive_continuous mirrored). exists 0. apply mirrored_derivative. assumption. Qed.
Lemma mirrored_half : mirrored (1 / 2) = C.
Proof.
  unfold mirrored, C. replace (1 - 1 / 2) with (1 / 2) by field. replace (1 / 2) with (/ 2) by field. rewrite ln_Rinv by lra. ring.
Qed.
Lemma reflection x : 0 < x < 1 -> f x = C - ln x * ln (1 - x) - f (1 - x).
Proof.
  intros H. assert (E : mirrored x = C).
  { rewrite <- mirrored_half. destruct (Rle_lt_dec x (1 / 2)) as [L|L].
    - apply constant; [assumption| |]; intros t Ht; [apply mirrored_derivative|apply mirrored_continuous]; lra.
    - symmetry. apply constant; [lra| |]; intros t Ht; [apply mirrored_derivative|apply mirrored_continuous]; lra. }
  unfold mirrored in E. lra.
Qed.
Lemma at_one : f 1 = C.
Proof.
  assert (E : mirrored 1 = C).
  { rewrite <- mirrored_half. symmetry. apply constant; [lra| |]; intros t Ht; [apply mirrored_derivative; lra|].
    destruct (Rlt_le_dec t 1) as [L|L]; [apply mirrored_continuous; lra|]. replace t with 1 by lra.
    unfold mirrored. apply (continuous_plus (fun x => f x + f (1 - x)) (fun x => ln x * ln (1 - x))); [|exact product_continuous].
    apply (continuous_plus f (fun x => f (1 - x))); [apply (dl_continuous f F)|].
    apply (continuous_comp (fun x => 1 - x) f); [|apply (dl_continuous f F)].
    apply (ex_derive_continuous (fun x : R => 1 - x)). auto_derive. trivial. }
  unfold mirrored in E. rewrite ln_1, Rminus_diag_eq, (dl_zero f F) in E by reflexivity. lra.
Qed.

(** Landen *)
Lemma landen x : x <= 0 -> f x = - (1 / 2) * ln (1 - x) * ln (1 - x) - f (x / (x - 1)).
Proof.
  intro H. set (g := fun x => f x + f (x / (x - 1)) + 1 / 2 * (ln (1 - x) * ln (1 - x))).
  assert (D : forall x, x < 0 -> is_derive g x 0).
  { intros t T. unfold g.
    pose proof (derivative_below t ltac:(lra) ltac:(lra)) as D1.
    assert (Y : 0 < t / (t - 1) < 1).
    { replace (t / (t - 1)) with (- t * / (1 - t)) by (field; lra). assert (0 < / (1 - t)) by (apply Rinv_0_lt_compat; lra).
      split; [nra|]. apply (Rmult_lt_reg_r (1 - t)); [lra|]. rewrite Rmult_assoc, Rinv_l by lra. lra. }
    pose proof (derivative_below (t / (t - 1)) ltac:(lra) ltac:(lra)) as D2.
    replace (1 - t / (t - 1)) with (/ (1 - t)) in D2 by (field; lra). rewrite ln_Rinv in D2 by lra.
    assert (I : is_derive (fun x => x / (x - 1)) t (- 1 / ((t - 1) * (t - 1)))) by (auto_derive; [lra|field; lra]).
    pose proof (is_derive_comp f (fun x => x / (x - 1)) t _ _ D2 I) as D3.
    assert (M : is_derive (fun x => 1 / 2 * (ln (1 - x) * ln (1 - x))) t (- ln (1 - t) / (1 - t))) by (auto_derive; [lra|change (1 + - t) with (1 - t); field; lra]).
    pose proof (is_derive_plus _ _ _ _ _ (is_derive_plus _ _ _ _ _ D1 D3) M) as G.
    cbv [plus scal] in G; cbn in G. cbv [mult] in G; cbn in G.
    match type of G with is_derive _ _ ?v => replace 0 with v end; [exact G|]. field. lra. }
  assert (E : g x = g 0).
  { apply constant; [assumption|intros; apply D; lra|]. intros t Ht. destruct (Rlt_le_dec t 0) as [L|L].
    - apply (ex_derive_continuous g). exists 0. apply D. assumption.
    - replace t with 0 by lra. unfold g.
      apply (continuous_plus (fun x => f x + f (x / (x - 1))) (fun x => 1 / 2 * (ln (1 - x) * ln (1 - x)))).
      + apply (continuous_plus f (fun x => f (x / (x - 1)))); [apply (dl_continuous f F)|].
        apply (continuous_comp (fun x => x / (x - 1)) f); [|apply (dl_continuous f F)].
        apply (ex_derive_continuous (fun x : R => x / (x - 1))). auto_derive. lra.
      + apply (ex_derive_continuous (fun x : R => 1 / 2 * (ln (1 - x) * ln (1 - x)))). auto_derive. lra. }
  unfold g in E. replace (0 / (0 - 1)) with 0 in E by field. rewrite (dl_zero f F), Rminus_0_r, ln_1 in E. lra.
Qed.

(** Inversion *)
Lemma inversion_ x : 1 <= x -> f x = 2 * C - 1 / 2 * ln x * ln x - f (1 / x).
Proof.
  intro H. set (g := fun x => f x + f (1 / x) + 1 / 2 * (ln x * ln x)).
  assert (D : forall x, 1 < x -> is_derive g x 0).
  { intros t T. unfold g.
    pose proof (derivative_above t T) as D1.
    assert (Y : 0 < 1 / t < 1).
    { split; [apply Rdiv_lt_0_compat; lra|]. apply (Rmult_lt_reg_r t); [lra|]. unfold Rdiv. rewrite Rmult_assoc, Rinv_l by lra. lra. }
    pose proof (derivative_below (1 / t) ltac:(lra) ltac:(lra)) as D2.
    replace (1 - 1 / t) with ((t - 1) * / t) in D2 by (field; lra).
    rewrite ln_mult, ln_Rinv in D2 by (try lra; apply Rinv_0_lt_compat; lra).
    assert (I : is_derive (fun x => 1 / x) t (- 1 / (t * t))) by (auto_derive; [lra|field; lra]).
    pose proof (is_derive_comp f (fun x => 1 / x) t _ _ D2 I) as D3.
    assert (M : is_derive (fun x => 1 / 2 * (ln x * ln x)) t (ln t / t)) by (auto_derive; [lra|field; lra]).
    pose proof (is_derive_plus _ _ _ _ _ (is_derive_plus _ _ _ _ _ D1 D3) M) as G.
    cbv [plus scal] in G; cbn in G. cbv [mult] in G; cbn in G.
    match type of G with is_derive _ _ ?v => replace 0 with v end; [exact G|]. field. lra. }
  assert (E : g 1 = g x).
  { apply constant; [assumption|intros; apply D; lra|]. intros t Ht. destruct (Rlt_le_dec 1 t) as [L|L].
    - apply (ex_derive_continuous g). exists 0. apply D. assumption.
    - replace t with 1 by lra. unfold g.
      apply (continuous_plus (fun x => f x + f (1 / x)) (fun x => 1 / 2 * (ln x * ln x))).
      + apply (continuous_plus f (fun x => f (1 / x))); [apply (dl_continuous f F)|].
        apply (continuous_comp (fun x => 1 / x) f); [|apply (dl_continuous f F)].
        apply (ex_derive_continuous (fun x : R => 1 / x)). auto_derive. lra.
      + apply (ex_derive_continuous (fun x : R => 1 / 2 * (ln x * ln x))). auto_derive. lra. }
  unfold g in E. replace (1 / 1) with 1 in E by field. rewrite at_one, ln_1 in E. lra.
Qed.
End Equations.
