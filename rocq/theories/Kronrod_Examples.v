(** Concrete cases for C92: the square on [0, 1]. *)
From Coq Require Import List.
From Coquelicot Require Import Coquelicot.
From Verif Require Import Prelude PreludeFacts Kronrod_Model Kronrod_Spec Kronrod_Proofs.
Import ListNotations.
Local Open Scope R_scope.
Definition square (x : R) : R := x * x.
Definition square_coefficients : list R := [1 / 4; 1 / 2; 1 / 4].
Lemma square_between : polynomial_between 0 1 square square_coefficients.
Proof. intros u _. unfold square, square_coefficients. cbn [polynomial]. field. Qed.
Lemma square_magnitudes : magnitudes square_coefficients = 1.
Proof. unfold square_coefficients. cbn [magnitudes]. rewrite !Rabs_right by lra. field. Qed.
Lemma square_integral : is_RInt square 0 1 (1 / 3).
Proof.
  replace (1 / 3) with (minus ((fun x => x ^ 3 / 3) 1) ((fun x => x ^ 3 / 3) 0)) by (cbv [minus plus opp]; cbn; field).
  apply (is_RInt_derive (V := R_CompleteNormedModule) (fun x => x ^ 3 / 3) square).
  - intros x _. unfold square. auto_derive; [exact I|]. field.
  - intros x _. apply (ex_derive_continuous square). unfold square. auto_derive. exact I.
Qed.
Lemma square_large : Rabs (1 - 0) * magnitudes square_coefficients / 10 ^ 5 <= Rabs (1 / 3).
Proof. rewrite square_magnitudes, !Rabs_right by lra. lra. Qed.
Lemma square_range : forall x, 0 <= x <= 1 -> 0 <= square x <= 1.
Proof. intros x H. unfold square. nra. Qed.
Lemma square_short : (length square_coefficients <= 20)%nat.
Proof. cbn. lia. Qed.
Lemma square_value : Rabs (k_value (gauss_kronrod square 0 1) - 1 / 3) <= 1 / 10 ^ 15.
Proof.
  pose proof (polynomials square 0 1 square_coefficients (1 / 3) square_between ltac:(cbn; lia) square_integral) as H.
  rewrite square_magnitudes, Rminus_0_r, Rabs_R1, Rmult_1_r in H. exact H.
Qed.
(** Some function is accepted without a complaint. *)
Lemma some_accepted : exists f o, qags_start 50 (/ 10 ^ 50) (/ 10 ^ 6) f (-1) 1 = Some o /\ q_ier o = 0%Z.
Proof. destruct blind as (f & I & _ & _ & _ & H). exists f, (mkquadpack 0 0 21 0). split; [exact H|reflexivity]. Qed.
Lemma exp_close : forall u, -1 <= u <= 1 -> Rabs (exp ((-1 + 1) / 2 + (1 - -1) / 2 * u) - polynomial (1 :: nil) u) <= 2.
Proof.
  intros u H. cbn [polynomial]. replace ((-1 + 1) / 2 + (1 - -1) / 2 * u) with u by field. pose proof (exp_pos u).
  assert (exp u <= 3). { apply Rle_trans with (exp 1); [|apply exp_le_3]. destruct (Rle_lt_or_eq_dec u 1 (proj2 H)) as [L| ->]; [left; now apply exp_increasing|apply Rle_refl]. }
  apply Rabs_le. lra.
Qed.
Lemma exp_integral : is_RInt exp (-1) 1 (exp 1 - exp (-1)).
Proof.
  apply (is_RInt_derive (V := R_CompleteNormedModule) exp exp).
  - intros x _. apply is_derive_Reals, derivable_pt_lim_exp.
  - intros x _. apply continuity_pt_filterlim, derivable_continuous_pt, derivable_pt_exp.
Qed.
Lemma square_not_tiny : UFLOW / (50 * EPMACH) < k_abs (gauss_kronrod square 0 1).
Proof.
  rewrite magnitude by lra. replace (fun x => Rabs (square x)) with square by (apply FunctionalExtensionality.functional_extensionality; intro x; unfold square; symmetry; apply Rabs_pos_eq; nra).
  pose proof square_value as V. apply Rabs_le_between in V.
  assert (T : 1 / 10 ^ 15 <= 1 / 10) by (apply Rmult_le_compat_l; [lra|]; apply Rinv_le_contravar; [lra|]; rewrite <- (pow_1 10) at 1; apply Rle_pow; [lra|lia]).
  assert (U : UFLOW / (50 * EPMACH) <= 1 / 50).
  { unfold UFLOW, EPMACH. replace (/ 2 ^ 1022 / (50 * / 2 ^ 52)) with (/ 2 ^ 970 / 50).
    - assert (0 < / 2 ^ 970 <= 1) by (split; [apply Rinv_0_lt_compat, pow_lt; lra|]; rewrite <- Rinv_1; apply Rinv_le_contravar; [lra|]; apply pow_R1_Rle; lra). lra.
    - replace 1022%nat with (970 + 52)%nat by reflexivity. rewrite pow_add. generalize (pow_nonzero 2 970 ltac:(lra)), (pow_nonzero 2 52 ltac:(lra)). generalize (2 ^ 970), (2 ^ 52). intros x y X Y. field. split; assumption. }
  lra.
Qed.
