(** A loss that is proportional to the energy, and a table of it. *)
From Verif Require Import Prelude PreludeFacts Function_Model Integral_Model Function_Spec Integral_Spec Math_Model Function_Proofs
  Trapezoid_Proofs Integral_Proofs Upper_Proofs Vec_Model Geometry_Model Propagator_Model Cross_Model
  Utility_Model Utility_Spec Utility_Proofs Direct_Proofs Twin_Proofs Grammage_Proofs.

(** dE/dx = E *)
Definition proportional (E : R) : outcome R := Ok (-1 / E).
Definition minus_width : (R -> outcome R) -> R -> R -> outcome R := fun _ lo hi => Ok (lo - hi).
Lemma proportional_polynomial : log_polynomial minus_width proportional [-1] (fun t => - t).
Proof.
  split.
  - intros E HE. unfold proportional, polynomial. cbn. f_equal. field. lra.
  - cbn. lia.
  - intro t. unfold polynomial. cbn. replace (-1 * 1 + 0) with (- (1)) by lra. apply derivable_pt_lim_opp. apply derivable_pt_lim_id.
  - intros h lo hi _ _. unfold minus_width. f_equal. ring.
Qed.
Lemma minus_width_exact : constants_exact (- (1)) minus_width.
Proof. intros h lo hi L H. unfold minus_width. apply f_equal. ring. Qed.
Lemma proportional_line : log_polynomial minus_width proportional [- (1)] (fun t => - (1) * t).
Proof.
  destruct proportional_polynomial as [A B C D]. split.
  - intros E HE. rewrite A by exact HE. unfold polynomial. cbn. apply f_equal. field. lra.
  - exact B.
  - intro t. apply (derivable_pt_lim_ext (fun t => - t)); [intro; ring|]. replace (polynomial [- (1)] t) with (polynomial [-1] t) by (unfold polynomial; cbn; ring). apply C.
  - intros h lo hi L H. unfold minus_width. apply f_equal. ring.
Qed.
Lemma minus_width_mirrors : mirrors minus_width.
Proof. intros h lo hi. reflexivity. Qed.
Lemma ln_10 : 1 < ln 10 < 10.
Proof.
  split.
  - rewrite <- (ln_exp 1) at 1. apply ln_increasing; [apply exp_pos|]. pose proof exp_le_3. lra.
  - rewrite <- (ln_exp 10) at 2. apply ln_increasing; [lra|]. pose proof (exp_ineq1 10 ltac:(lra)). lra.
Qed.
Lemma ln_100 : ln 100 = 2 * ln 10.
Proof. replace 100 with (10 * 10) by lra. rewrite ln_mult by lra. ring. Qed.
Lemma apart_100_10 : logs_apart 100 10.
Proof.
  pose proof ln_10. unfold logs_apart. rewrite Rmin_right by lra. rewrite ln_100. rewrite Rabs_left, Rabs_right by lra. lra.
Qed.
Lemma apart_10_1 : logs_apart 10 1.
Proof. pose proof ln_10. unfold logs_apart. rewrite Rmin_right by lra. rewrite ln_1. rewrite Rabs_left, Rabs_right by lra. lra. Qed.
Lemma apart_100_1 : logs_apart 100 1.
Proof. pose proof ln_10. unfold logs_apart. rewrite Rmin_right by lra. rewrite ln_1, ln_100. rewrite Rabs_left, Rabs_right by lra. lra. Qed.

(** A linear table: dE/dx = 1, one interaction per unit of energy *)
Definition unit_loss (E : R) : outcome R := Ok (-1).
Definition identity_table (E : R) : R := E.
Definition unit_calculator : calculator := Tabulated unit_loss 1 identity_table false.
Definition find_exact (table : R -> R) (y a b guess : R) : option R :=
  if (a <=? y) && (y <=? b) && (table y =? y) then Some y else None.
Lemma find_exact_within : finds_within 0 find_exact.
Proof.
  intros table y a b guess x. unfold find_exact. destruct (Rleb_spec a y) as [A|A]; [|discriminate]. destruct (Rleb_spec y b) as [B|B]; [|discriminate].
  destruct (Reqb_spec (table y) y) as [T|T]; [|discriminate]. cbn. intro H. injection H as <-. rewrite T, Rminus_eq_0, Rabs_R0. lra.
Qed.
Lemma identity_continuous : continuity identity_table.
Proof. apply derivable_continuous. apply derivable_id. Qed.
Lemma unit_derivative E : derivable_pt_lim identity_table E (- -1).
Proof. replace (- -1) with 1 by lra. apply derivable_pt_lim_id. Qed.
Lemma unit_steady low high d : steady (fun _ => -1) low high d 0.
Proof. intros x y _ _ _. rewrite Rminus_eq_0, Rabs_R0. lra. Qed.

(** A distribution on the line with a quantile: erf is replaced by z / (1 + |z|). *)
Definition squash (z : R) : R := z / (1 + Rabs z).
Definition stretch (y : R) : R := y / (1 - Rabs y).
Lemma squash_abs z : Rabs (squash z) = Rabs z / (1 + Rabs z).
Proof.
  unfold squash. pose proof (Rabs_pos z). unfold Rdiv. rewrite Rabs_mult, Rabs_inv. rewrite (Rabs_right (1 + Rabs z)) by lra. reflexivity.
Qed.
Lemma stretch_squash z : stretch (squash z) = z.
Proof. unfold stretch. rewrite squash_abs. unfold squash. pose proof (Rabs_pos z). field. lra. Qed.
Lemma squash_bound z : -1 < squash z < 1.
Proof.
  enough (Rabs (squash z) < 1) as X by (apply Rabs_def2 in X; lra). rewrite squash_abs. pose proof (Rabs_pos z). apply (Rmult_lt_reg_r (1 + Rabs z)); [lra|].
  replace (Rabs z / (1 + Rabs z) * (1 + Rabs z)) with (Rabs z) by (field; lra). lra.
Qed.
Lemma stretch_increasing x y : -1 < x -> x <= y -> y < 1 -> stretch x <= stretch y.
Proof.
  intros A B C. unfold stretch. assert (Dx : 0 < 1 - Rabs x) by (unfold Rabs; destruct (Rcase_abs x); lra).
  assert (Dy : 0 < 1 - Rabs y) by (unfold Rabs; destruct (Rcase_abs y); lra).
  apply (Rmult_le_reg_r ((1 - Rabs x) * (1 - Rabs y))); [apply Rmult_lt_0_compat; assumption|].
  replace (x / (1 - Rabs x) * ((1 - Rabs x) * (1 - Rabs y))) with (x * (1 - Rabs y)) by (field; lra).
  replace (y / (1 - Rabs y) * ((1 - Rabs x) * (1 - Rabs y))) with (y * (1 - Rabs x)) by (field; lra).
  unfold Rabs in *. destruct (Rcase_abs x), (Rcase_abs y); nra.
Qed.
Lemma squash_increasing x y : x <= y -> squash x <= squash y.
Proof.
  intro L. unfold squash. pose proof (Rabs_pos x). pose proof (Rabs_pos y).
  apply (Rmult_le_reg_r ((1 + Rabs x) * (1 + Rabs y))); [apply Rmult_lt_0_compat; lra|].
  replace (x / (1 + Rabs x) * ((1 + Rabs x) * (1 + Rabs y))) with (x * (1 + Rabs y)) by (field; lra).
  replace (y / (1 + Rabs y) * ((1 + Rabs x) * (1 + Rabs y))) with (y * (1 + Rabs x)) by (field; lra).
  unfold Rabs in *. destruct (Rcase_abs x), (Rcase_abs y); nra.
Qed.
Definition quantile_example (p : R) : outcome R := Ok (SQRT2 * stretch (2 * p - 1)).
Lemma quantile_exists : quantile SQRT2 squash quantile_example.
Proof.
  assert (S : 0 < SQRT2) by (unfold SQRT2; lra). split; [exact squash_increasing|]. split.
  - intro z. unfold quantile_example. replace (2 * (/ 2 + squash z / 2) - 1) with (squash z) by field. rewrite stretch_squash. reflexivity.
  - intros z1 z2 p (A & B). exists (SQRT2 * stretch (2 * p - 1)). split; [reflexivity|].
    pose proof (squash_bound z1). pose proof (squash_bound z2).
    split; apply Rmult_le_compat_l; try lra.
    + rewrite <- (stretch_squash z1) at 1. apply stretch_increasing; lra.
    + rewrite <- (stretch_squash z2) at 1. apply stretch_increasing; lra.
Qed.
