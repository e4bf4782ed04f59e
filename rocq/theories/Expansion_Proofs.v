(** The midpoint and trapezoid sums of a polynomial are polynomials in the square
    of the width of the cells, with the integral as the constant term. *)
From Verif Require Import Prelude PreludeFacts Function_Model Function_Spec Integral_Spec Function_Proofs Trapezoid_Proofs Neville_Proofs.

(** [s n] is a polynomial in 1/n^2 of degree [d] at most, with the constant term [v]. *)
Definition expands (s : nat -> R) (d : nat) (v : R) : Prop :=
  exists c, (length c <= S d)%nat /\ polynomial c 0 = v /\ forall n, (1 <= n)%nat -> s n = polynomial c ((/ INR n) ^ 2).

Lemma expands_ext s s' d v : (forall n, (1 <= n)%nat -> s n = s' n) -> expands s d v -> expands s' d v.
Proof. intros H (c & L & V & E). exists c. split; [exact L|]. split; [exact V|]. intros n N. rewrite <- H by exact N. apply E, N. Qed.
Lemma expands_weaken s d d' v : (d <= d')%nat -> expands s d v -> expands s d' v.
Proof. intros H (c & L & V & E). exists c. split; [lia|]. split; assumption. Qed.
Lemma expands_const v d : expands (fun _ => v) d v.
Proof.
  exists [v]. cbn [length]. split; [lia|].
  split; [|intros n _]; rewrite polynomial_cons, polynomial_nil; lra.
Qed.
Lemma expands_add s s' d v v' : expands s d v -> expands s' d v' -> expands (fun n => s n + s' n) d (v + v').
Proof.
  intros (c & L & V & E) (c' & L' & V' & E'). exists (poly_add c c'). split; [apply poly_add_length; assumption|].
  split; [rewrite poly_add_spec, V, V'; reflexivity|]. intros n N. rewrite poly_add_spec, <- E, <- E' by exact N. reflexivity.
Qed.
Lemma expands_scale s d v k : expands s d v -> expands (fun n => k * s n) d (k * v).
Proof.
  intros (c & L & V & E). exists (poly_scale k c). rewrite poly_scale_length. split; [exact L|].
  split; [rewrite poly_scale_spec, V; reflexivity|]. intros n N. rewrite poly_scale_spec, <- E by exact N. reflexivity.
Qed.
Lemma expands_shift s d v : expands s d v -> expands (fun n => (/ INR n) ^ 2 * s n) (S d) 0.
Proof.
  intros (c & L & V & E). exists (0 :: c). cbn [length]. split; [lia|].
  split; [|intros n N]; rewrite polynomial_cons; [lra|]. rewrite <- E by exact N. lra.
Qed.
Lemma expands_shifts s d v l : expands s d v -> expands (fun n => ((/ INR n) ^ 2) ^ l * s n) (l + d) (if Nat.eqb l 0 then v else 0).
Proof.
  intro H. induction l as [|l IH]; cbn [Nat.eqb].
  - apply (expands_ext s); [intros; cbn [pow]; lra|exact H].
  - apply (expands_ext (fun n => (/ INR n) ^ 2 * (((/ INR n) ^ 2) ^ l * s n))).
    + intros n _. rewrite <- (tech_pow_Rmult ((/ INR n) ^ 2)). lra.
    + apply (expands_shift _ (l + d) _ IH).
Qed.
Lemma expands_sum k s d v : (forall j, (j < k)%nat -> expands (s j) d (v j)) ->
  expands (fun n => sum_below k (fun j => s j n)) d (sum_below k v).
Proof.
  induction k as [|k IH]; intro H; cbn [sum_below].
  - apply expands_const.
  - apply expands_add; [apply IH; intros; apply H; lia|apply H; lia].
Qed.

Lemma sum_below_rev n f : sum_below n f = sum_below n (fun j => f (n - 1 - j)%nat).
Proof.
  induction n as [|n IH]; [reflexivity|]. rewrite (sum_below_shift n (fun j => f (S n - 1 - j)%nat)). cbn [sum_below].
  replace (S n - 1 - 0)%nat with n by lia. rewrite IH at 1.
  rewrite (sum_below_ext n (fun j => f (n - 1 - j)%nat) (fun i => f (S n - 1 - S i)%nat)); [lra|].
  intros i _. f_equal. lia.
Qed.
Lemma sum_below_0 n f : (forall i, (i < n)%nat -> f i = 0) -> sum_below n f = 0.
Proof. induction n as [|n IH]; intro H; cbn [sum_below]; [reflexivity|]. rewrite IH, H; [lra|lia|]. intros; apply H; lia. Qed.
Lemma sum_below_telescope n f : sum_below n (fun j => f (S j) - f j) = f n - f 0%nat.
Proof. induction n as [|n IH]; cbn [sum_below]; [|rewrite IH]; lra. Qed.
Lemma sum_below_swap k n (f : nat -> nat -> R) :
  sum_below k (fun j => sum_below n (fun i => f i j)) = sum_below n (fun i => sum_below k (fun j => f i j)).
Proof.
  induction k as [|k IH]; cbn [sum_below].
  - symmetry. apply sum_below_0. reflexivity.
  - rewrite IH, <- sum_below_plus. reflexivity.
Qed.
Lemma sum_f_R0_below f n : sum_f_R0 f n = sum_below (S n) f.
Proof. induction n as [|n IH]; cbn [sum_f_R0 sum_below] in *; [|rewrite IH]; lra. Qed.

Lemma minus_pow_even w i : (- w) ^ (2 * i) = w ^ (2 * i).
Proof. rewrite !pow_mult. f_equal. lra. Qed.
Lemma minus_pow_odd w i : (- w) ^ (2 * i + 1) = - w ^ (2 * i + 1).
Proof. rewrite !pow_add, minus_pow_even. lra. Qed.

(** (u + w)^(2k+1) - (u - w)^(2k+1) and (u + w)^(2k) + (u - w)^(2k) *)
Lemma odd_difference k u w : (u + w) ^ (2 * k + 1) - (u - w) ^ (2 * k + 1) =
  2 * w * sum_below (S k) (fun j => Binomial.C (2 * k + 1) (2 * j) * (w ^ 2) ^ (k - j) * u ^ (2 * j)).
Proof.
  replace (u - w) with (u + - w) by lra. rewrite !binomial, !sum_f_R0_below.
  replace (S (2 * k + 1)) with (2 * S k)%nat by lia. rewrite !sum_below_double.
  rewrite <- sum_below_scale.
  rewrite (sum_below_ext (S k) (fun j => Binomial.C (2 * k + 1) (2 * j + 1) * u ^ (2 * j + 1) * (- w) ^ (2 * k + 1 - (2 * j + 1)))
    (fun j => Binomial.C (2 * k + 1) (2 * j + 1) * u ^ (2 * j + 1) * w ^ (2 * k + 1 - (2 * j + 1)))).
  2:{ intros j J. replace (2 * k + 1 - (2 * j + 1))%nat with (2 * (k - j))%nat by lia. rewrite minus_pow_even. reflexivity. }
  rewrite (sum_below_ext (S k) (fun j => Binomial.C (2 * k + 1) (2 * j) * u ^ (2 * j) * (- w) ^ (2 * k + 1 - 2 * j))
    (fun j => -1 * (Binomial.C (2 * k + 1) (2 * j) * u ^ (2 * j) * w ^ (2 * k + 1 - 2 * j)))).
  2:{ intros j J. replace (2 * k + 1 - 2 * j)%nat with (2 * (k - j) + 1)%nat by lia. rewrite minus_pow_odd. lra. }
  rewrite sum_below_scale.
  rewrite (sum_below_ext (S k) (fun j => 2 * w * (Binomial.C (2 * k + 1) (2 * j) * (w ^ 2) ^ (k - j) * u ^ (2 * j)))
    (fun j => 2 * (Binomial.C (2 * k + 1) (2 * j) * u ^ (2 * j) * w ^ (2 * k + 1 - 2 * j)))).
  - rewrite sum_below_scale. lra.
  - intros j J. replace (2 * k + 1 - 2 * j)%nat with (2 * (k - j) + 1)%nat by lia. rewrite pow_add, (pow_mult w), pow_1. ring.
Qed.
Lemma even_sum k u w : (u + w) ^ (2 * k) + (u - w) ^ (2 * k) =
  2 * sum_below (S k) (fun j => Binomial.C (2 * k) (2 * j) * (w ^ 2) ^ (k - j) * u ^ (2 * j)).
Proof.
  replace (u - w) with (u + - w) by lra. rewrite !binomial, !sum_f_R0_below.
  assert (X : forall f, (f (S (2 * k))) = 0 -> sum_below (S (2 * k)) f = sum_below (2 * S k) f).
  { intros f Z. replace (2 * S k)%nat with (S (S (2 * k))) by lia. cbn [sum_below]. lra. }
  assert (B : forall w, sum_below (S (2 * k)) (fun j => Binomial.C (2 * k) j * u ^ j * w ^ (2 * k - j)) =
    sum_below (2 * S k) (fun j => if Nat.ltb (2 * k) j then 0 else Binomial.C (2 * k) j * u ^ j * w ^ (2 * k - j))).
  { intro v. rewrite <- X by (destruct (Nat.ltb_spec (2 * k) (S (2 * k))); [reflexivity|lia]).
    apply sum_below_ext. intros i I. destruct (Nat.ltb_spec (2 * k) i); [lia|reflexivity]. }
  rewrite !B, !sum_below_double. clear X B.
  rewrite <- sum_below_scale.
  rewrite (sum_below_ext (S k) (fun j => if Nat.ltb (2 * k) (2 * j + 1) then 0
      else Binomial.C (2 * k) (2 * j + 1) * u ^ (2 * j + 1) * (- w) ^ (2 * k - (2 * j + 1)))
    (fun j => -1 * (if Nat.ltb (2 * k) (2 * j + 1) then 0
      else Binomial.C (2 * k) (2 * j + 1) * u ^ (2 * j + 1) * w ^ (2 * k - (2 * j + 1))))).
  2:{ intros j J. destruct (Nat.ltb_spec (2 * k) (2 * j + 1)); [lra|].
      replace (2 * k - (2 * j + 1))%nat with (2 * (k - j - 1) + 1)%nat by lia. rewrite minus_pow_odd. lra. }
  rewrite sum_below_scale.
  rewrite (sum_below_ext (S k) (fun j => if Nat.ltb (2 * k) (2 * j) then 0
      else Binomial.C (2 * k) (2 * j) * u ^ (2 * j) * (- w) ^ (2 * k - 2 * j))
    (fun j => Binomial.C (2 * k) (2 * j) * (w ^ 2) ^ (k - j) * u ^ (2 * j))).
  2:{ intros j J. destruct (Nat.ltb_spec (2 * k) (2 * j)); [lia|].
      replace (2 * k - 2 * j)%nat with (2 * (k - j))%nat by lia. rewrite minus_pow_even, (pow_mult w). ring. }
  rewrite (sum_below_ext (S k) (fun j => if Nat.ltb (2 * k) (2 * j) then 0
      else Binomial.C (2 * k) (2 * j) * u ^ (2 * j) * w ^ (2 * k - 2 * j))
    (fun j => Binomial.C (2 * k) (2 * j) * (w ^ 2) ^ (k - j) * u ^ (2 * j))).
  2:{ intros j J. destruct (Nat.ltb_spec (2 * k) (2 * j)); [lia|].
      replace (2 * k - 2 * j)%nat with (2 * (k - j))%nat by lia. rewrite (pow_mult w). ring. }
  rewrite sum_below_scale. lra.
Qed.
Lemma choose_all n : Binomial.C n n = 1.
Proof. unfold Binomial.C. rewrite Nat.sub_diag. cbn [fact INR]. field. apply INR_fact_neq_0. Qed.
Lemma choose_last k : Binomial.C (2 * k + 1) (2 * k) = INR (2 * k + 1).
Proof.
  unfold Binomial.C. replace (2 * k + 1)%nat with (S (2 * k)) by lia. replace (S (2 * k) - 2 * k)%nat with 1%nat by lia.
  rewrite fact_simpl, mult_INR. change (INR (fact 1)) with 1. field. apply INR_fact_neq_0.
Qed.

Section Moments.
Variables a b : R.
Let L := b - a.
Let mid := (a + b) / 2.
Let h n := L / INR n.
(** The centre of a cell, from the middle of the range *)
Let u n j := (INR j + / 2) * h n - L / 2.
Definition moment (k n : nat) : R := h n * sum_below n (fun j => u n j ^ k).

Lemma u_reverse n j : (1 <= n)%nat -> (j < n)%nat -> u n (n - 1 - j) = - u n j.
Proof.
  intros N J. assert (0 < INR n) by (apply (lt_INR 0); lia). unfold u, h.
  rewrite !minus_INR by lia. cbn [INR]. field. lra.
Qed.
Lemma odd_moment k n : (1 <= n)%nat -> moment (2 * k + 1) n = 0.
Proof.
  intro N. unfold moment.
  assert (E : sum_below n (fun j => u n j ^ (2 * k + 1)) = - sum_below n (fun j => u n j ^ (2 * k + 1))).
  { rewrite sum_below_rev at 1. replace (- sum_below n (fun j => u n j ^ (2 * k + 1))) with (-1 * sum_below n (fun j => u n j ^ (2 * k + 1))) by lra.
    rewrite <- sum_below_scale. apply sum_below_ext. intros j J. rewrite u_reverse, minus_pow_odd by assumption. lra. }
  nra.
Qed.
Lemma h_square n : (1 <= n)%nat -> (h n / 2) ^ 2 = L ^ 2 / 4 * (/ INR n) ^ 2.
Proof. intro N. assert (0 < INR n) by (apply (lt_INR 0); lia). unfold h. field. lra. Qed.
Lemma even_moment_sum k n : (1 <= n)%nat ->
  sum_below (S k) (fun j => Binomial.C (2 * k + 1) (2 * j) * ((h n / 2) ^ 2) ^ (k - j) * moment (2 * j) n) = 2 * (L / 2) ^ (2 * k + 1).
Proof.
  intro N. assert (P : 0 < INR n) by (apply (lt_INR 0); lia).
  assert (E : sum_below n (fun j => (u n j + h n / 2) ^ (2 * k + 1) - (u n j - h n / 2) ^ (2 * k + 1)) = 2 * (L / 2) ^ (2 * k + 1)).
  { rewrite (sum_below_ext n _ (fun j => (INR (S j) * h n - L / 2) ^ (2 * k + 1) - (INR j * h n - L / 2) ^ (2 * k + 1))).
    - rewrite (sum_below_telescope n (fun j => (INR j * h n - L / 2) ^ (2 * k + 1))).
      replace (INR n * h n - L / 2) with (L / 2) by (unfold h; field; lra).
      replace (INR 0 * h n - L / 2) with (- (L / 2)) by (cbn [INR]; lra). rewrite minus_pow_odd. lra.
    - intros j _. unfold u. rewrite S_INR. f_equal; f_equal; lra. }
  rewrite <- E. clear E.
  rewrite (sum_below_ext n _ (fun j => h n * sum_below (S k) (fun i => Binomial.C (2 * k + 1) (2 * i) * ((h n / 2) ^ 2) ^ (k - i) * u n j ^ (2 * i))))
    by (intros j _; rewrite odd_difference; lra).
  rewrite sum_below_scale, <- (sum_below_swap (S k) n (fun j i => Binomial.C (2 * k + 1) (2 * i) * ((h n / 2) ^ 2) ^ (k - i) * u n j ^ (2 * i))).
  rewrite <- sum_below_scale. apply sum_below_ext. intros i _. unfold moment. rewrite sum_below_scale. lra.
Qed.
Lemma even_moment_expands k : expands (moment (2 * k)) k (2 * (L / 2) ^ (2 * k + 1) / INR (2 * k + 1)).
Proof.
  induction k as [k IH] using lt_wf_ind.
  assert (P : 0 < INR (2 * k + 1)) by (apply (lt_INR 0); lia).
  apply (expands_ext (fun n => / INR (2 * k + 1) * (2 * (L / 2) ^ (2 * k + 1) +
    -1 * sum_below k (fun j => Binomial.C (2 * k + 1) (2 * j) * (L ^ 2 / 4) ^ (k - j) * (((/ INR n) ^ 2) ^ (k - j) * moment (2 * j) n))))).
  - intros n N. pose proof (even_moment_sum k n N) as E. cbn [sum_below] in E. rewrite Nat.sub_diag, choose_last, pow_O in E.
    match type of E with ?s + _ = _ => match goal with |- context[-1 * ?t] => replace t with s end end.
    + rewrite <- E. field. lra.
    + apply sum_below_ext. intros j J. rewrite h_square by exact N. rewrite Rpow_mult_distr. ring.
  - replace (2 * (L / 2) ^ (2 * k + 1) / INR (2 * k + 1)) with
      (/ INR (2 * k + 1) * (2 * (L / 2) ^ (2 * k + 1) + -1 * sum_below k (fun j => 0))).
    + apply expands_scale. apply expands_add; [apply expands_const|]. apply expands_scale. apply expands_sum.
      intros j J. replace 0 with (Binomial.C (2 * k + 1) (2 * j) * (L ^ 2 / 4) ^ (k - j) * (if Nat.eqb (k - j) 0 then 2 * (L / 2) ^ (2 * j + 1) / INR (2 * j + 1) else 0))
        by (destruct (Nat.eqb_spec (k - j) 0); [lia|lra]).
      apply expands_scale. apply (expands_weaken _ (k - j + j)); [lia|]. apply expands_shifts. apply IH. exact J.
    + rewrite (sum_below_0 k) by reflexivity. field. lra.
Qed.

(** The same for the corners of the cells *)
Definition corner_moment (k n : nat) : R := h n * sum_below n (fun j => ((u n j - h n / 2) ^ k + (u n j + h n / 2) ^ k) / 2).
Lemma odd_corner k n : (1 <= n)%nat -> corner_moment (2 * k + 1) n = 0.
Proof.
  intro N. unfold corner_moment.
  set (f := fun j => ((u n j - h n / 2) ^ (2 * k + 1) + (u n j + h n / 2) ^ (2 * k + 1)) / 2).
  assert (E : sum_below n f = - sum_below n f).
  { rewrite sum_below_rev at 1. replace (- sum_below n f) with (-1 * sum_below n f) by lra.
    rewrite <- sum_below_scale. apply sum_below_ext. intros j J. unfold f. rewrite u_reverse by assumption.
    replace (- u n j - h n / 2) with (- (u n j + h n / 2)) by lra. replace (- u n j + h n / 2) with (- (u n j - h n / 2)) by lra.
    rewrite !minus_pow_odd. lra. }
  nra.
Qed.
Lemma even_corner k : expands (corner_moment (2 * k)) k (2 * (L / 2) ^ (2 * k + 1) / INR (2 * k + 1)).
Proof.
  apply (expands_ext (fun n => sum_below k (fun j => Binomial.C (2 * k) (2 * j) * (L ^ 2 / 4) ^ (k - j) * (((/ INR n) ^ 2) ^ (k - j) * moment (2 * j) n))
     + moment (2 * k) n)).
  - intros n N. unfold corner_moment.
    rewrite (sum_below_ext n (fun j => _ / 2) (fun j => sum_below (S k) (fun i => Binomial.C (2 * k) (2 * i) * ((h n / 2) ^ 2) ^ (k - i) * u n j ^ (2 * i))))
      by (intros j _; rewrite (Rplus_comm ((_ - _) ^ _)), even_sum; lra).
    rewrite <- (sum_below_swap (S k) n (fun j i => Binomial.C (2 * k) (2 * i) * ((h n / 2) ^ 2) ^ (k - i) * u n j ^ (2 * i))).
    rewrite <- sum_below_scale. cbn [sum_below]. f_equal.
    + apply sum_below_ext. intros j J. rewrite sum_below_scale. rewrite h_square by exact N. rewrite Rpow_mult_distr. unfold moment. ring.
    + rewrite sum_below_scale, Nat.sub_diag, choose_all, pow_O. unfold moment. ring.
  - replace (2 * (L / 2) ^ (2 * k + 1) / INR (2 * k + 1)) with (sum_below k (fun j => 0) + 2 * (L / 2) ^ (2 * k + 1) / INR (2 * k + 1))
      by (rewrite (sum_below_0 k) by reflexivity; lra).
    apply expands_add; [|apply even_moment_expands]. apply expands_sum.
    intros j J. replace 0 with (Binomial.C (2 * k) (2 * j) * (L ^ 2 / 4) ^ (k - j) * (if Nat.eqb (k - j) 0 then 2 * (L / 2) ^ (2 * j + 1) / INR (2 * j + 1) else 0))
      by (destruct (Nat.eqb_spec (k - j) 0); [lia|lra]).
    apply expands_scale. apply (expands_weaken _ (k - j + j)); [lia|]. apply expands_shifts. apply even_moment_expands.
Qed.

(** ** Polynomials *)
(** Sums of [F] that expand up to the degree [d], with the integral of [F] first *)
Definition integrates (rule : (R -> R) -> nat -> R) (F : R -> R) (d : nat) : Prop :=
  exists G, (forall x, derivable_pt_lim G x (F x)) /\ expands (rule F) d (G b - G a).

Definition linear_rule (rule : (R -> R) -> nat -> R) : Prop :=
  (forall F G, (forall x, F x = G x) -> forall n, rule F n = rule G n) /\
  (forall F G n, rule (fun x => F x + G x) n = rule F n + rule G n) /\
  (forall k F n, rule (fun x => k * F x) n = k * rule F n).

Lemma monomial_derivative i x : derivable_pt_lim (fun x => (x - mid) ^ S i / INR (S i)) x ((x - mid) ^ i).
Proof.
  assert (P : INR (S i) <> 0) by (apply not_0_INR; lia).
  replace ((x - mid) ^ i) with (INR (S i) * (x - mid) ^ Nat.pred (S i) * (1 - 0) * / INR (S i)).
  2:{ cbn [Nat.pred]. field. exact P. }
  apply (derivable_pt_lim_scal_right (fun x => (x - mid) ^ S i)).
  apply (derivable_pt_lim_comp (fun x => x - mid) (fun y => y ^ S i)).
  - apply derivable_pt_lim_minus; [apply derivable_pt_lim_id|apply derivable_pt_lim_const].
  - apply derivable_pt_lim_pow.
Qed.

Section Rule.
Variable rule : (R -> R) -> nat -> R.
Hypothesis linear : linear_rule rule.
Hypothesis odd_rule : forall k n, (1 <= n)%nat -> rule (fun x => (x - mid) ^ (2 * k + 1)) n = 0.
Hypothesis even_rule : forall k, expands (rule (fun x => (x - mid) ^ (2 * k))) k (2 * (L / 2) ^ (2 * k + 1) / INR (2 * k + 1)).

Lemma monomial_integrates i d : (i <= 2 * d + 1)%nat -> integrates rule (fun x => (x - mid) ^ i) d.
Proof.
  intro I. exists (fun x => (x - mid) ^ S i / INR (S i)). split; [apply monomial_derivative|].
  replace (b - mid) with (L / 2) by (unfold mid, L; lra). replace (a - mid) with (- (L / 2)) by (unfold mid, L; lra).
  assert (P : INR (S i) <> 0) by (apply not_0_INR; lia).
  destruct (Nat.Even_or_Odd i) as [(k & ->)|(k & ->)].
  - apply (expands_weaken _ k); [lia|].
    replace (S (2 * k)) with (2 * k + 1)%nat in * by lia. rewrite minus_pow_odd.
    replace ((L / 2) ^ (2 * k + 1) / INR (2 * k + 1) - - (L / 2) ^ (2 * k + 1) / INR (2 * k + 1)) with
      (2 * (L / 2) ^ (2 * k + 1) / INR (2 * k + 1)) by (field; exact P).
    apply even_rule.
  - replace (S (2 * k + 1)) with (2 * S k)%nat in * by lia. rewrite minus_pow_even.
    replace ((L / 2) ^ (2 * S k) / INR (2 * S k) - (L / 2) ^ (2 * S k) / INR (2 * S k)) with 0 by lra.
    apply (expands_ext (fun _ => 0)); [|apply expands_const]. intros n N. symmetry. apply odd_rule. exact N.
Qed.
Lemma integrates_add F G d : integrates rule F d -> integrates rule G d -> integrates rule (fun x => F x + G x) d.
Proof.
  intros (P & DP & EP) (Q & DQ & EQ). exists (fun x => P x + Q x). split.
  - intro x. apply derivable_pt_lim_plus; [apply DP|apply DQ].
  - replace (P b + Q b - (P a + Q a)) with ((P b - P a) + (Q b - Q a)) by lra.
    apply (expands_ext (fun n => rule F n + rule G n)); [|apply expands_add; assumption].
    intros n _. symmetry. apply linear.
Qed.
Lemma integrates_scale k F d : integrates rule F d -> integrates rule (fun x => k * F x) d.
Proof.
  intros (P & DP & EP). exists (fun x => k * P x). split.
  - intro x. apply derivable_pt_lim_scal. apply DP.
  - replace (k * P b - k * P a) with (k * (P b - P a)) by lra.
    apply (expands_ext (fun n => k * rule F n)); [|apply expands_scale; assumption].
    intros n _. symmetry. apply linear.
Qed.
Lemma integrates_ext F G d : (forall x, F x = G x) -> integrates rule F d -> integrates rule G d.
Proof.
  intros H (P & DP & EP). exists P. split.
  - intro x. rewrite <- H. apply DP.
  - apply (expands_ext (rule F)); [|exact EP]. intros n _. apply linear. exact H.
Qed.
Lemma centred_integrates d : forall c i, (i + length c <= 2 * d + 2)%nat ->
  integrates rule (fun x => (x - mid) ^ i * polynomial c (x - mid)) d.
Proof.
  induction c as [|k c IH]; intros i I.
  - apply (integrates_ext (fun x => 0 * (x - mid) ^ 0)).
    + intro x. rewrite polynomial_nil. lra.
    + apply integrates_scale, monomial_integrates. lia.
  - cbn [length] in I. apply (integrates_ext (fun x => k * (x - mid) ^ i + (x - mid) ^ S i * polynomial c (x - mid))).
    + intro x. rewrite polynomial_cons, <- tech_pow_Rmult. ring.
    + apply integrates_add; [apply integrates_scale, monomial_integrates; lia|apply IH; lia].
Qed.
Lemma recentre (m : R) c : exists c', length c' = length c /\ forall x, polynomial c x = polynomial c' (x - m).
Proof.
  induction c as [|k c (c' & L' & E)].
  - exists []. split; [reflexivity|]. intro. rewrite !polynomial_nil. reflexivity.
  - exists (poly_add (k :: c') (poly_scale m c')). split.
    + assert (A : forall p q, (length q <= length p)%nat -> length (poly_add p q) = length p).
      { clear. induction p as [|x p IH]; intros [|y q]; cbn [poly_add length]; try lia. intro H. rewrite IH by lia. reflexivity. }
      rewrite A by (rewrite poly_scale_length; cbn [length]; lia). cbn [length]. lia.
    + intro x. rewrite poly_add_spec, poly_scale_spec, !polynomial_cons, E. lra.
Qed.
Lemma polynomial_integrates c d G : (length c <= 2 * d + 2)%nat -> (forall x, derivable_pt_lim G x (polynomial c x)) ->
  expands (rule (polynomial c)) d (G b - G a).
Proof.
  intros Lc DG. destruct (recentre mid c) as (c' & L' & E).
  destruct (integrates_ext (fun x => (x - mid) ^ 0 * polynomial c' (x - mid)) (polynomial c) d) as (P & DP & EP).
  - intro x. rewrite E. cbn [pow]. lra.
  - apply centred_integrates. lia.
  - replace (G b - G a) with (P b - P a); [exact EP|].
    assert (D0 : forall x, derivable_pt_lim (fun x => G x - P x) x 0).
    { intro x. replace 0 with (polynomial c x - polynomial c x) by lra. apply derivable_pt_lim_minus; [apply DG|apply DP]. }
    assert (Z : G a - P a = G b - P b).
    { assert (pr : derivable (fun x => G x - P x)) by (intro x; exists 0; apply D0).
      apply (null_derivative_1 (fun x => G x - P x) pr). intro x. apply derive_pt_eq_0. apply D0. }
    lra.
Qed.
End Rule.

Lemma midpoint_linear : linear_rule (fun F n => midpoint_sum F a b n).
Proof.
  unfold linear_rule, midpoint_sum. split; [|split].
  - intros F G H n. f_equal. apply sum_below_ext. intros; apply H.
  - intros F G n. rewrite sum_below_plus. lra.
  - intros k F n. rewrite sum_below_scale. lra.
Qed.
Lemma trapezoid_linear : linear_rule (fun F n => trapezoid_sum F a b n).
Proof.
  unfold linear_rule, trapezoid_sum. split; [|split].
  - intros F G H n. f_equal. apply sum_below_ext. intros; rewrite !H; reflexivity.
  - intros F G n. rewrite <- Rmult_plus_distr_l, <- sum_below_plus. f_equal. apply sum_below_ext. intros; lra.
  - intros k F n. set (H := (b - a) / INR n).
    replace (k * (H * sum_below n (fun j => (F (a + INR j * H) + F (a + (INR j + 1) * H)) / 2))) with
      (H * (k * sum_below n (fun j => (F (a + INR j * H) + F (a + (INR j + 1) * H)) / 2))) by ring.
    rewrite <- (sum_below_scale n k). f_equal. apply sum_below_ext. intros; lra.
Qed.
Lemma midpoint_moment i n : midpoint_sum (fun x => (x - mid) ^ i) a b n = moment i n.
Proof.
  unfold midpoint_sum, moment, u, h, L, mid. f_equal. apply sum_below_ext. intros j _. f_equal. lra.
Qed.
Lemma trapezoid_moment i n : trapezoid_sum (fun x => (x - mid) ^ i) a b n = corner_moment i n.
Proof.
  unfold trapezoid_sum, corner_moment, u, h, L, mid. f_equal. apply sum_below_ext. intros j _. f_equal. f_equal; f_equal; lra.
Qed.

Lemma midpoint_expansion c d G : (length c <= 2 * d + 2)%nat -> (forall x, derivable_pt_lim G x (polynomial c x)) ->
  expands (midpoint_sum (polynomial c) a b) d (G b - G a).
Proof.
  apply (polynomial_integrates (fun F n => midpoint_sum F a b n) midpoint_linear).
  - intros k n N. rewrite midpoint_moment. apply odd_moment. exact N.
  - intro k. apply (expands_ext (moment (2 * k))); [|apply even_moment_expands]. intros n _. symmetry. apply midpoint_moment.
Qed.
Lemma trapezoid_expansion c d G : (length c <= 2 * d + 2)%nat -> (forall x, derivable_pt_lim G x (polynomial c x)) ->
  expands (trapezoid_sum (polynomial c) a b) d (G b - G a).
Proof.
  apply (polynomial_integrates (fun F n => trapezoid_sum F a b n) trapezoid_linear).
  - intros k n N. rewrite trapezoid_moment. apply odd_corner. exact N.
  - intro k. apply (expands_ext (corner_moment (2 * k))); [|apply even_corner]. intros n _. symmetry. apply trapezoid_moment.
Qed.
End Moments.
