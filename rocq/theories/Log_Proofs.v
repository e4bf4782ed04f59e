(** Rational bounds of logarithms. *)
From Coquelicot Require Import Coquelicot.
From Verif Require Import Prelude.

Definition area (z : R) : R := 2 * (z + z ^ 3 / 3 + z ^ 5 / 5 + z ^ 7 / 7 + z ^ 9 / 9).
Lemma nondecreasing_from (f df : R -> R) a b : a <= b -> (forall x, a <= x <= b -> is_derive f x (df x)) ->
  (forall x, a <= x <= b -> 0 <= df x) -> f a <= f b.
Proof.
  intros L D P. destruct (MVT_gen f a b df) as (c & C & E).
  - intros x X. rewrite Rmin_left, Rmax_right in X by lra. apply D. lra.
  - intros x X. rewrite Rmin_left, Rmax_right in X by lra. apply continuity_pt_filterlim. apply @ex_derive_continuous.
    eexists. apply D. lra.
  - rewrite Rmin_left, Rmax_right in C by lra. specialize (P c C).
    assert (0 <= df c * (b - a)) by (apply Rmult_le_pos; lra). lra.
Qed.
Lemma ln_area z : 0 <= z < 1 -> area z <= ln ((1 + z) / (1 - z)) <= area z + 2 * z ^ 11 / (11 * (1 - z * z)).
Proof.
  intros Z. replace (ln ((1 + z) / (1 - z))) with (ln (1 + z) - ln (1 - z))
    by (unfold Rdiv; rewrite ln_mult, ln_Rinv by (try apply Rinv_0_lt_compat; lra); lra).
  split.
  - pose proof (nondecreasing_from (fun x => ln (1 + x) - ln (1 - x) - area x) (fun x => 2 * x ^ 10 / (1 - x * x)) 0 z) as M.
    assert (Z1 : forall x, 0 <= x <= z -> 0 < 1 - x * x) by (intros x X; nra).
    unfold area in *. cbv beta in M. rewrite !Rplus_0_r, !Rminus_0_r, !ln_1 in M.
    assert (0 - 2 * (0 + 0 ^ 3 / 3 + 0 ^ 5 / 5 + 0 ^ 7 / 7 + 0 ^ 9 / 9) <= ln (1 + z) - ln (1 - z) - 2 * (z + z ^ 3 / 3 + z ^ 5 / 5 + z ^ 7 / 7 + z ^ 9 / 9)).
    { replace (0 - 2 * (0 + 0 ^ 3 / 3 + 0 ^ 5 / 5 + 0 ^ 7 / 7 + 0 ^ 9 / 9)) with (0 - 0 - 2 * (0 + 0 ^ 3 / 3 + 0 ^ 5 / 5 + 0 ^ 7 / 7 + 0 ^ 9 / 9)) by ring.
      apply M; [lra| |].
      - intros x X. specialize (Z1 x X). auto_derive; [repeat split; lra|]. field. repeat split; nra.
      - intros x X. specialize (Z1 x X). apply Rmult_le_pos; [|left; now apply Rinv_0_lt_compat].
        apply Rmult_le_pos; [lra|]. apply pow_le. lra. }
    lra.
  - pose proof (nondecreasing_from (fun x => area x + 2 * x ^ 11 / (11 * (1 - x * x)) - (ln (1 + x) - ln (1 - x)))
      (fun x => 4 * x ^ 12 / (11 * (1 - x * x) ^ 2)) 0 z) as M.
    assert (Z1 : forall x, 0 <= x <= z -> 0 < 1 - x * x) by (intros x X; nra).
    unfold area in *. cbv beta in M. rewrite !Rplus_0_r, !Rminus_0_r, !ln_1 in M.
    assert (0 <= 2 * (z + z ^ 3 / 3 + z ^ 5 / 5 + z ^ 7 / 7 + z ^ 9 / 9) + 2 * z ^ 11 / (11 * (1 - z * z)) - (ln (1 + z) - ln (1 - z))).
    { refine (Rle_trans _ _ _ _ (M _ _ _)); [|lra| |].
      - right. field.
      - intros x X. specialize (Z1 x X). auto_derive; [repeat split; nra|]. field. repeat split; nra.
      - intros x X. specialize (Z1 x X). apply Rmult_le_pos.
        + apply Rmult_le_pos; [lra|]. apply pow_le. lra.
        + left. apply Rinv_0_lt_compat. apply Rmult_lt_0_compat; [lra|]. now apply pow_lt. }
    lra.
Qed.
(** Bounds of the logarithm of a number [x >= 1] *)
Lemma ln_bounds x : 1 <= x -> let z := (x - 1) / (x + 1) in
  area z <= ln x <= area z + 2 * z ^ 11 / (11 * (1 - z * z)).
Proof.
  intros X z. assert (Hz : 0 <= z < 1).
  { unfold z. split; [apply Rmult_le_pos; [lra|left; apply Rinv_0_lt_compat; lra]|].
    apply (proj1 (Rcomplements.Rdiv_lt_1 (x - 1) (x + 1) ltac:(lra))). lra. }
  pose proof (ln_area z Hz) as B. replace ((1 + z) / (1 - z)) with x in B; [exact B|].
  unfold z. field. split; lra.
Qed.
Lemma ln_2 : 69314717 / 10 ^ 8 < ln 2 < 69314719 / 10 ^ 8.
Proof.
  replace 2 with (4 / 3 * (3 / 2)) by field. rewrite ln_mult by lra.
  pose proof (ln_bounds (4 / 3) ltac:(lra)) as A. pose proof (ln_bounds (3 / 2) ltac:(lra)) as B. unfold area in A, B. cbv zeta in A, B.
  replace ((4 / 3 - 1) / (4 / 3 + 1)) with (1 / 7) in A by field. replace ((3 / 2 - 1) / (3 / 2 + 1)) with (1 / 5) in B by field. lra.
Qed.
