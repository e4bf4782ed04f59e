(** Where the tables begin. *)
From Verif Require Import Prelude PreludeFacts Math_Model Math_Proofs Cross_Model Axis_Model Axis_Spec.

Section Axis.
Variable a : axis.
Hypothesis Sane : sane a.
Local Notation step := (ln (a_up a / a_low a) / (IZR (a_nodes a) - 1)).
Local Notation n := (a_nodes a).

Lemma nodes_many : 2 <= IZR n.
Proof using Sane. apply IZR_le. apply Sane. Qed.
Lemma quotient_up : 1 < a_up a / a_low a.
Proof using Sane.
  destruct Sane as ((A & B) & _). apply (Rmult_lt_reg_r (a_low a)); [exact A|].
  unfold Rdiv. rewrite Rmult_assoc, Rinv_l by lra. lra.
Qed.
Lemma step_pos : 0 < step.
Proof using Sane.
  pose proof nodes_many. pose proof quotient_up. apply Rdiv_lt_0_compat; [|lra]. rewrite <- ln_1. apply ln_increasing; lra.
Qed.
Lemma node_increasing x y : x < y -> node a x < node a y.
Proof using Sane.
  intro L. pose proof step_pos. destruct Sane as ((A & B) & _). unfold node. apply Rmult_lt_compat_l; [exact A|].
  apply exp_increasing. apply Rmult_lt_compat_r; assumption.
Qed.
Lemma node_monotone x y : x <= y -> node a x <= node a y.
Proof using Sane. intros [L| ->]; [left; apply node_increasing; exact L|lra]. Qed.
Lemma node_inverse x y : node a x < node a y -> x < y.
Proof using Sane. intro L. destruct (Rlt_le_dec x y) as [|G]; [assumption|]. pose proof (node_monotone _ _ G). lra. Qed.
Lemma node_pos x : 0 < node a x.
Proof using Sane. unfold node. apply Rmult_lt_0_compat; [apply Sane|apply exp_pos]. Qed.
Lemma node_0 : node a 0 = a_low a.
Proof using. unfold node. rewrite Rmult_0_l, exp_0. ring. Qed.
Lemma node_last : node a (IZR n - 1) = a_up a.
Proof using Sane.
  pose proof nodes_many. pose proof quotient_up. destruct Sane as ((A & B) & _). unfold node.
  replace ((IZR n - 1) * step) with (ln (a_up a / a_low a)) by (field; lra). rewrite exp_ln by lra. field. lra.
Qed.
Lemma node_shift x y : node a (x + y) = node a x * ratio a y.
Proof using Sane.
  pose proof nodes_many. unfold node, ratio, Rpower. rewrite Rmult_plus_distr_r, exp_plus.
  replace (y / (IZR n - 1) * ln (a_up a / a_low a)) with (y * step) by (field; lra). ring.
Qed.
Lemma ratio_pos y : 0 < ratio a y.
Proof using. apply exp_pos. Qed.
Lemma ratio_large y : 0 < y -> 1 < ratio a y.
Proof using Sane.
  intro P. pose proof (node_increasing 0 (0 + y) ltac:(lra)) as L. rewrite node_shift in L.
  pose proof (node_pos 0). apply (Rmult_lt_reg_l (node a 0)); lra.
Qed.
(** Every energy has its number *)
Lemma node_onto E : 0 < E -> exists x, node a x = E.
Proof using Sane.
  intro P. pose proof step_pos. destruct Sane as ((A & B) & _). exists (ln (E / a_low a) / step). unfold node.
  replace (ln (E / a_low a) / step * step) with (ln (E / a_low a)).
  - rewrite exp_ln by (apply Rdiv_lt_0_compat; lra). field. lra.
  - remember step as s. field. lra.
Qed.
End Axis.

(** The search *)
Lemma first_node_spec value : forall rest i,
  let k := first_node value rest i in
  (i <= k <= i + Z.of_nat rest)%Z /\ (forall j, (i <= j < k)%Z -> ~ 0 < value (IZR j))
  /\ ((k < i + Z.of_nat rest)%Z -> 0 < value (IZR k)).
Proof.
  induction rest as [|rest IH]; intro i; cbn [first_node].
  - split; [lia|]. split; intros; lia.
  - destruct (Rltb_spec 0 (value (IZR i))) as [P|P].
    + split; [lia|]. split; [intros; lia|auto].
    + destruct (IH (i + 1)%Z) as (A & B & C). split; [lia|]. split.
      * intros j J. destruct (Z.eq_dec j i) as [->|]; [exact P|]. apply B. lia.
      * intro L. apply C. lia.
Qed.

(** Bisection keeps the sign of the left end *)
Lemma bisection_signs f acc : 0 < acc -> forall passes x1 x2, x1 <= x2 -> (x2 - x1) / 2 ^ passes < acc -> (0 < passes)%nat ->
  sgn (f x2) <> sgn (f x1) ->
  let '(u, v) := bisection_loop f acc passes x1 x2 in
  x1 <= u /\ u <= v /\ v <= x2 /\ v - u < acc /\ sgn (f u) = sgn (f x1) /\ sgn (f v) <> sgn (f x1).
Proof.
  intro A. induction passes as [|passes IH]; intros x1 x2 L W P Sg; [lia|]. cbn [bisection_loop].
  set (c := (x1 + x2) / 2).
  destruct (Z.eqb_spec (sgn (f c)) (sgn (f x1))) as [E|E].
  - destruct (Rltb_spec (Rabs (x2 - c)) acc) as [D|D].
    + rewrite Rabs_right in D by (unfold c; lra). unfold c in *. repeat split; try lra; assumption.
    + rewrite Rabs_right in D by (unfold c; lra).
      destruct passes as [|passes].
      { cbn in W. unfold c in D. lra. }
      assert (W' : (x2 - c) / 2 ^ S passes < acc).
      { replace ((x2 - c) / 2 ^ S passes) with ((x2 - x1) / 2 ^ S (S passes)); [exact W|].
        unfold c. cbn [pow]. field. apply pow_nonzero. lra. }
      specialize (IH c x2 ltac:(unfold c; lra) W' ltac:(lia) ltac:(congruence)).
      destruct (bisection_loop f acc (S passes) c x2) as (u & v). destruct IH as (I1 & I2 & I3 & I4 & I5 & I6).
      rewrite E in I5, I6. unfold c in *. repeat split; try lra; assumption.
  - destruct (Rltb_spec (Rabs (c - x1)) acc) as [D|D].
    + rewrite Rabs_right in D by (unfold c; lra). unfold c in *. repeat split; try lra; assumption.
    + rewrite Rabs_right in D by (unfold c; lra).
      destruct passes as [|passes].
      { cbn in W. unfold c in D. lra. }
      assert (W' : (c - x1) / 2 ^ S passes < acc).
      { replace ((c - x1) / 2 ^ S passes) with ((x2 - x1) / 2 ^ S (S passes)); [exact W|].
        unfold c. cbn [pow]. field. apply pow_nonzero. lra. }
      specialize (IH x1 c ltac:(unfold c; lra) W' ltac:(lia) E).
      destruct (bisection_loop f acc (S passes) x1 c) as (u & v). destruct IH as (I1 & I2 & I3 & I4 & I5 & I6).
      unfold c in *. repeat split; try lra; assumption.
Qed.
Lemma narrow x acc : 0 <= x <= 2 ^ 40 -> / 2 ^ 10 <= acc -> x / 2 ^ 101 < acc.
Proof.
  intros X A. apply Rlt_le_trans with (/ 2 ^ 10); [|exact A].
  apply Rle_lt_trans with (2 ^ 40 / 2 ^ 101).
  - apply Rmult_le_compat_r; [|lra]. left. apply Rinv_0_lt_compat. apply pow_lt. lra.
  - replace (2 ^ 101) with (2 ^ 40 * (2 ^ 50 * (2 * 2 ^ 10))) by ring.
    assert (forall k, 0 < 2 ^ k) as Q by (intro; apply pow_lt; lra). pose proof (Q 40%nat). pose proof (Q 50%nat). pose proof (Q 10%nat).
    replace (2 ^ 40 / (2 ^ 40 * (2 ^ 50 * (2 * 2 ^ 10)))) with (/ 2 ^ 50 * / 2 * / 2 ^ 10) by (field; repeat split; lra).
    assert (/ 2 ^ 50 < 1).
    { rewrite <- Rinv_1. apply Rinv_lt_contravar; [lra|]. assert (1 <= 2 ^ 49) by (apply pow_R1_Rle; lra). cbn [pow] in *. lra. }
    pose proof (Rinv_0_lt_compat _ (Q 10%nat)). pose proof (Rinv_0_lt_compat _ (Q 50%nat)). nra.
Qed.
Lemma sgn_pos x : 0 < x <-> sgn x = 1%Z.
Proof. destruct (sgn_cases x) as [[A B]|[[A B]|[A B]]]; split; intro; try lia; try lra; auto. Qed.

(** A function that is zero up to some number and positive above *)
Lemma refined_spec value t acc i : / 2 ^ 10 <= acc -> (1 <= i < 2 ^ 32)%Z ->
  (forall x, x <= t -> value x = 0) -> (forall x, t < x -> 0 < value x) -> IZR i - 1 <= t < IZR i ->
  exists u, refined value acc i = Ok (u + acc) /\ IZR i - 1 <= u <= t /\ t < u + acc.
Proof.
  intros Acc I Z P T. unfold refined, bisection. rewrite Z.mod_small by lia. rewrite minus_IZR.
  assert (0 < acc). { apply Rlt_le_trans with (2 := Acc). apply Rinv_0_lt_compat. apply pow_lt. lra. }
  assert (Z1 : value (IZR i - 1) = 0) by (apply Z; lra). rewrite Z1, Rmult_0_l.
  destruct (Rltb_spec 0 0) as [B|_]; [lra|]. destruct (Rltb_spec (IZR i) (IZR i - 1)) as [B|_]; [lra|].
  assert (S : sgn (value (IZR i)) <> sgn (value (IZR i - 1))).
  { pose proof (P (IZR i) ltac:(lra)) as Q. apply sgn_pos in Q. rewrite Q, Z1. unfold sgn.
    destruct (Rltb_spec 0 0); [lra|]. discriminate. }
  pose proof (bisection_signs value acc ltac:(assumption) 101 (IZR i - 1) (IZR i) ltac:(lra)) as L.
  specialize (L ltac:(apply narrow; [lra|exact Acc]) ltac:(lia) S).
  destruct (bisection_loop value acc 101 (IZR i - 1) (IZR i)) as (u & v). destruct L as (A & B & C & D & E & F).
  cbn [obind]. exists u. split; [reflexivity|].
  assert (u <= t).
  { destruct (Rle_lt_dec u t) as [|G]; [assumption|]. pose proof (P u G) as Q. apply sgn_pos in Q.
    rewrite Q, Z1 in E. unfold sgn in E. destruct (Rltb_spec 0 0); [lra|discriminate]. }
  assert (t < v).
  { destruct (Rle_lt_dec v t) as [G|]; [|assumption]. rewrite (Z v G), Z1 in F. congruence. }
  lra.
Qed.

Section Start.
Variables (f : R -> R) (a : axis) (T : R).
Hypothesis Sane : sane a.
Hypothesis In_ : sets_in f T.
Local Notation n := (a_nodes a).
Local Notation value := (fun x => f (node a x)).
Local Notation first := (first_node value (Z.to_nat n) 0).

Lemma first_late : a_up a <= T -> first = n.
Proof using Sane In_.
  intro U. destruct In_ as (Z & P). destruct (first_node_spec value (Z.to_nat n) 0) as (A & B & C).
  assert (0 <= n)%Z by (pose proof (proj2 Sane); lia). rewrite !Z2Nat.id in * by lia.
  destruct (Z.eq_dec first n) as [|D]; [assumption|].
  specialize (C ltac:(lia)). rewrite Z in C; [lra|].
  apply Rle_trans with (2 := U). rewrite <- (node_last a Sane). apply node_monotone; [exact Sane|].
  rewrite <- minus_IZR. apply IZR_le. lia.
Qed.
Lemma first_early : T < a_low a -> first = 0%Z.
Proof using Sane In_.
  intro L. destruct In_ as (Z & P). assert (0 < n)%Z by (pose proof (proj2 Sane); lia).
  destruct (Z.to_nat n) as [|k] eqn:K; [lia|]. cbn [first_node]. rewrite node_0.
  destruct (Rltb_spec 0 (f (a_low a))) as [|Q]; [reflexivity|]. pose proof (P _ L). lra.
Qed.
Lemma first_middle t : node a t = T -> a_low a <= T < a_up a ->
  (1 <= first < n)%Z /\ IZR first - 1 <= t < IZR first.
Proof using Sane In_.
  intros Et (L & U). destruct In_ as (Z & P). destruct (first_node_spec value (Z.to_nat n) 0) as (A & B & C).
  assert (2 <= n)%Z by (pose proof (proj2 Sane); lia). rewrite !Z2Nat.id in * by lia.
  assert (T0 : 0 <= t). { destruct (Rle_lt_dec 0 t) as [|G]; [assumption|]. apply (node_increasing a Sane) in G. rewrite node_0 in G. lra. }
  assert (first < n)%Z.
  { destruct (Z_lt_dec first n) as [|D]; [assumption|]. exfalso. apply (B (n - 1)%Z); [lia|]. apply P.
    rewrite minus_IZR, node_last by exact Sane. exact U. }
  specialize (C ltac:(lia)).
  assert (t < IZR first).
  { apply (node_inverse a Sane). rewrite Et. destruct (Rlt_le_dec T (node a (IZR first))) as [|G]; [assumption|]. rewrite Z in C by exact G. lra. }
  assert (1 <= first)%Z. { assert (0 < first)%Z; [|lia]. apply lt_IZR. lra. }
  split; [lia|]. split; [|assumption].
  assert (Q : ~ 0 < f (node a (IZR (first - 1)))) by (apply B; lia). rewrite minus_IZR in Q.
  destruct (Rle_lt_dec (IZR first - 1) t) as [|G]; [assumption|]. exfalso. apply Q. apply P. rewrite <- Et. apply node_increasing; assumption.
Qed.
(** The energy at which a table begins *)
Lemma start_spec acc : / 2 ^ 10 <= acc -> a_low a <= T < a_up a ->
  (1 <= first < n)%Z /\
  exists x, refined value acc first = Ok x /\ T < node a x <= T * ratio a acc /\ (T * ratio a 1 <= a_up a -> acc <= 1 -> node a x <= a_up a).
Proof using Sane In_.
  intros Acc Mid. destruct (node_onto a Sane T) as (t & Et); [pose proof (proj1 Sane); lra|].
  destruct (first_middle t Et Mid) as (A & B). split; [exact A|].
  assert (V0 : forall x, x <= t -> value x = 0).
  { intros x X. apply In_. rewrite <- Et. apply node_monotone; assumption. }
  assert (V1 : forall x, t < x -> 0 < value x).
  { intros x X. apply In_. rewrite <- Et. apply node_increasing; assumption. }
  destruct (refined_spec value t acc first Acc ltac:(pose proof (proj2 Sane); lia) V0 V1 B) as (u & R & U & W).
  exists (u + acc). split; [exact R|].
  assert (Hi : node a (u + acc) <= T * ratio a acc).
  { rewrite node_shift by exact Sane. apply Rmult_le_compat_r; [left; apply ratio_pos|]. rewrite <- Et. apply node_monotone; [exact Sane|lra]. }
  split; [split; [|exact Hi]|].
  - rewrite <- Et. apply node_increasing; assumption.
  - intros Q Acc1. apply Rle_trans with (1 := Hi). apply Rle_trans with (2 := Q). apply Rmult_le_compat_l; [pose proof (proj1 Sane); lra|].
    pose proof (node_monotone a Sane (0 + acc) (0 + 1) ltac:(lra)) as M. rewrite !node_shift in M by exact Sane.
    pose proof (node_pos a Sane 0). apply (Rmult_le_reg_l (node a 0)); lra.
Qed.

Definition begins (acc : R) (b : axis) : Prop :=
  a_up b = a_up a /\ a_nodes b = n /\
  (T < a_low a -> a_low b = a_low a) /\
  (a_low a <= T -> T < a_low b <= T * ratio a acc) /\
  (T * ratio a 1 <= a_up a -> a_low b <= a_up b).

Lemma early_ordered b : T < a_low a -> b = a -> begins (1 / 10) b.
Proof using Sane.
  intros L ->. repeat split; try lra. intros _. pose proof (proj1 Sane). lra.
Qed.
Lemma tenth_fine : / 2 ^ 10 <= 1 / 10.
Proof using. clear. cbn. lra. Qed.
Lemma half_fine : / 2 ^ 10 <= 1 / 2.
Proof using. clear. cbn. lra. Qed.
Lemma refine_dedx_spec : T < a_up a -> exists b, refine_dedx f a = Ok (Some b) /\ begins (1 / 10) b.
Proof using Sane In_.
  intro U. unfold refine_dedx. cbv zeta. assert (0 < n)%Z by (pose proof (proj2 Sane); lia).
  destruct (Rlt_le_dec T (a_low a)) as [L|L].
  - rewrite first_early by exact L. destruct (Z.eqb_spec 0 n); [lia|]. rewrite Z.eqb_refl. exists a. split; [reflexivity|]. apply early_ordered; auto.
  - destruct (start_spec (1 / 10) tenth_fine (conj L U)) as (A & x & R & X & Q). destruct (Z.eqb_spec first n); [lia|]. destruct (Z.eqb_spec first 0); [lia|].
    rewrite R. cbn [obind]. eexists. split; [reflexivity|]. unfold begins. cbn [a_low a_up a_nodes]. split; [reflexivity|]. split; [reflexivity|]. split; [lra|]. split; [lra|]. intro D. apply Q; lra.
Qed.
Lemma refine_dedx_none : a_up a <= T -> refine_dedx f a = Ok None.
Proof using Sane In_. intro U. unfold refine_dedx. cbv zeta. rewrite first_late by exact U. rewrite Z.eqb_refl. reflexivity. Qed.
Lemma refine_dndx_spec : T < a_up a -> exists b, refine_dndx f a = Ok b /\ begins (1 / 10) b.
Proof using Sane In_.
  intro U. unfold refine_dndx. cbv zeta. assert (0 < n)%Z by (pose proof (proj2 Sane); lia).
  destruct (Rlt_le_dec T (a_low a)) as [L|L].
  - rewrite first_early by exact L. destruct (Z.eqb_spec 0 n); [lia|]. rewrite Z.eqb_refl. rewrite node_0. exists a.
    split; [destruct a; reflexivity|]. apply early_ordered; auto.
  - destruct (start_spec (1 / 10) tenth_fine (conj L U)) as (A & x & R & X & Q). destruct (Z.eqb_spec first n); [lia|]. destruct (Z.eqb_spec first 0); [lia|].
    rewrite R. cbn [obind]. eexists. split; [reflexivity|]. unfold begins. cbn [a_low a_up a_nodes]. split; [reflexivity|]. split; [reflexivity|]. split; [lra|]. split; [lra|]. intro D. apply Q; lra.
Qed.
Lemma refine_dndx_none : a_up a <= T -> refine_dndx f a = Throw logic_error.
Proof using Sane In_. intro U. unfold refine_dndx. cbv zeta. rewrite first_late by exact U. rewrite Z.eqb_refl. reflexivity. Qed.
Lemma refine_de2dx_spec : a_low a <= T < a_up a -> exists b, refine_de2dx f a = Ok b /\ begins (1 / 2) b.
Proof using Sane In_.
  intros M. unfold refine_de2dx. cbv zeta.
  destruct (start_spec (1 / 2) half_fine M) as (A & x & R & X & Q). destruct (Z.eqb_spec first n); [lia|].
  rewrite R. cbn [obind]. eexists. split; [reflexivity|]. unfold begins. cbn [a_low a_up a_nodes]. split; [reflexivity|]. split; [reflexivity|]. split; [lra|]. split; [lra|]. intro D. apply Q; lra.
Qed.
Lemma refine_de2dx_none : a_up a <= T -> refine_de2dx f a = Throw logic_error.
Proof using Sane In_. intro U. unfold refine_de2dx. cbv zeta. rewrite first_late by exact U. rewrite Z.eqb_refl. reflexivity. Qed.

(** What is read from a table *)
Lemma read_spec spline b acc : exact_spline spline -> begins acc b -> forall E, a_low a <= E <= a_up a ->
  read_table spline f b E = f E \/ (T < E < T * ratio a acc /\ read_table spline f b E = 0).
Proof using In_.
  intros X (B1 & B2 & B3 & B4 & B5) E (L & U). unfold read_table. destruct (Rltb_spec E (a_low b)) as [S|S].
  - destruct (Rle_lt_dec E T) as [Q|Q].
    + left. symmetry. apply In_. exact Q.
    + right. split; [|reflexivity]. split; [exact Q|]. destruct (Rlt_le_dec T (a_low a)) as [W|W]; [rewrite B3 in S by exact W; lra|].
      specialize (B4 W). lra.
  - left. apply X; [|lra]. intros e Ee. apply In_. destruct (Rlt_le_dec T (a_low a)) as [W|W]; [rewrite B3 in Ee by exact W; lra|].
    specialize (B4 W). lra.
Qed.
End Start.

Lemma c72_losses spline f a T : exact_spline spline -> sane a -> sets_in f T -> T < a_up a ->
  exists calc, make_dedx spline f a = Ok (Some calc) /\
    forall E, a_low a <= E <= a_up a -> calc E = f E \/ (T < E < T * ratio a (1 / 10) /\ calc E = 0).
Proof.
  intros X S I U. destruct (refine_dedx_spec f a T S I U) as (b & R & B). unfold make_dedx. rewrite R. cbn [obind option_map].
  eexists. split; [reflexivity|]. intros E He. apply (read_spec f a T I spline b (1 / 10) X B E He).
Qed.
Lemma c72_no_losses spline f a T : sane a -> sets_in f T -> a_up a <= T ->
  make_dedx spline f a = Ok None /\ forall E, E <= a_up a -> f E = 0.
Proof.
  intros S I U. unfold make_dedx. rewrite (refine_dedx_none f a T S I U). split; [reflexivity|]. intros E He. apply I. lra.
Qed.
Lemma c72_rates spline f a T : exact_spline spline -> sane a -> sets_in f T -> T < a_up a ->
  exists low table, rate_table spline f a = Ok (low, table) /\
    (forall E, a_low a <= E < low -> f E = 0 \/ T < E < T * ratio a (1 / 10)) /\
    (forall E, low <= E <= a_up a -> table E = f E /\ 0 < f E).
Proof.
  intros X S I U. destruct (refine_dndx_spec f a T S I U) as (b & R & B). unfold rate_table. rewrite R. cbn [obind].
  exists (a_low b), (spline f b). split; [reflexivity|]. destruct B as (B1 & B2 & B3 & B4 & B5).
  assert (P : forall E, a_low b <= E -> T < E).
  { intros E He. destruct (Rlt_le_dec T (a_low a)) as [W|W]; [rewrite B3 in He by exact W; lra|]. specialize (B4 W). lra. }
  split.
  - intros E (L & H). destruct (Rle_lt_dec E T) as [Q|Q]; [left; apply I; exact Q|]. right.
    destruct (Rlt_le_dec T (a_low a)) as [W|W]; [rewrite B3 in H by exact W; lra|]. specialize (B4 W). lra.
  - intros E (L & H). split; [|apply I, P, L]. apply X; [|lra]. intros e He. apply I, P, He.
Qed.
Lemma c72_no_rates spline f a T : sane a -> sets_in f T -> a_up a <= T -> rate_table spline f a = Throw logic_error.
Proof. intros S I U. unfold rate_table. rewrite (refine_dndx_none f a T S I U). reflexivity. Qed.
Lemma c72_variance spline f a T : exact_spline spline -> sane a -> sets_in f T -> a_low a <= T < a_up a ->
  exists calc, make_de2dx spline f a = Ok calc /\
    forall E, a_low a <= E <= a_up a -> calc E = f E \/ (T < E < T * ratio a (1 / 2) /\ calc E = 0).
Proof.
  intros X S I U. destruct (refine_de2dx_spec f a T S I U) as (b & R & B). unfold make_de2dx. rewrite R. cbn [obind].
  eexists. split; [reflexivity|]. intros E He. apply (read_spec f a T I spline b (1 / 2) X B E He).
Qed.
Lemma c72_no_variance spline f a T : sane a -> sets_in f T -> a_up a <= T -> make_de2dx spline f a = Throw logic_error.
Proof. intros S I U. unfold make_de2dx. rewrite (refine_de2dx_none f a T S I U). reflexivity. Qed.

(** A function that is positive at the first node *)
Lemma first_zero f a : sane a -> 0 < f (a_low a) -> first_node (fun x => f (node a x)) (Z.to_nat (a_nodes a)) 0 = 0%Z.
Proof.
  intros S P. assert (0 < a_nodes a)%Z by (pose proof (proj2 S); lia). destruct (Z.to_nat (a_nodes a)) as [|k] eqn:K; [lia|].
  cbn [first_node]. rewrite node_0. destruct (Rltb_spec 0 (f (a_low a))); [reflexivity|contradiction].
Qed.
Lemma c72_variance_throws spline f a : sane a -> 0 < f (a_low a) -> 0 < f (far a) -> make_de2dx spline f a = Throw math_exception.
Proof.
  intros S P Q. unfold make_de2dx, refine_de2dx. cbv zeta. rewrite first_zero by assumption.
  destruct (Z.eqb_spec 0 (a_nodes a)) as [E|_]; [pose proof (proj2 S); lia|].
  unfold refined, bisection. change ((0 - 1) mod 2 ^ 32)%Z with (2 ^ 32 - 1)%Z. fold (far a). rewrite node_0.
  destruct (Rltb_spec 0 (f (far a) * f (a_low a))) as [|W]; [reflexivity|]. exfalso. apply W. apply Rmult_lt_0_compat; assumption.
Qed.
Lemma c72_variance_lost spline f a T : sane a -> (forall E, a_low a <= E <= T -> 0 < f E) -> (forall E, T < E -> f E = 0) ->
  a_low a <= T < far a ->
  exists calc, make_de2dx spline f a = Ok calc /\ forall E, a_low a <= E <= T -> calc E = 0 /\ 0 < f E.
Proof.
  intros S P Z (L & U). assert (P0 : 0 < f (a_low a)) by (apply P; lra).
  unfold make_de2dx, refine_de2dx. cbv zeta. rewrite first_zero by assumption.
  destruct (Z.eqb_spec 0 (a_nodes a)) as [E|_]; [pose proof (proj2 S); lia|].
  unfold refined, bisection. change ((0 - 1) mod 2 ^ 32)%Z with (2 ^ 32 - 1)%Z. fold (far a).
  assert (Z1 : f (far a) = 0) by (apply Z; exact U). rewrite Z1, Rmult_0_l.
  destruct (Rltb_spec 0 0) as [B|_]; [lra|]. set (m := IZR (2 ^ 32 - 1)) in *.
  assert (M : 0 <= m <= 2 ^ 40).
  { unfold m. split; [apply IZR_le; lia|]. rewrite pow_IZR. apply IZR_le. vm_compute. discriminate. }
  destruct (Rltb_spec 0 m) as [_|B]; [|unfold m in B; exfalso; apply B; apply IZR_lt; lia].
  set (value := fun x => f (node a x)).
  assert (V0 : value 0 = f (a_low a)) by (unfold value; rewrite node_0; reflexivity).
  assert (S0 : sgn (value 0) = 1%Z) by (apply sgn_pos; rewrite V0; exact P0).
  assert (Sm : sgn (value m) <> sgn (value 0)).
  { rewrite S0. intro H. apply sgn_pos in H. unfold value in H. fold (far a) in H. unfold far in Z1. fold m in Z1. rewrite Z1 in H. lra. }
  pose proof (bisection_signs value (1 / 2) ltac:(lra) 101 0 m ltac:(lra)) as B.
  specialize (B ltac:(apply narrow; [lra|exact half_fine]) ltac:(lia) Sm).
  destruct (bisection_loop value (1 / 2) 101 0 m) as (u & v). destruct B as (B1 & B2 & B3 & B4 & B5 & B6).
  cbn [obind]. eexists. split; [reflexivity|]. intros E (HL & HU). split; [|apply P; lra].
  unfold read_table. cbn [a_low]. destruct (Rltb_spec E (node a (u + 1 / 2))) as [|W]; [reflexivity|]. exfalso.
  assert (node a v <= T).
  { apply Rle_trans with E; [|exact HU]. apply Rle_trans with (node a (u + 1 / 2)); [|lra]. apply node_monotone; [exact S|lra]. }
  apply B6. rewrite S0. apply sgn_pos. unfold value. apply P. split; [|assumption]. rewrite <- (node_0 a). apply node_monotone; [exact S|lra].
Qed.

(** A process that sets in just below the upper energy: the table begins above it *)
Lemma c72_order_refuted a : sane a -> exists f T, a_low a < T < a_up a /\ sets_in f T /\
  exists b, refine_dedx f a = Ok (Some b) /\ refine_dndx f a = Ok b /\ a_up b < a_low b.
Proof.
  intros S. set (n := a_nodes a). pose proof (nodes_many a S) as N2. fold n in N2. set (t := IZR n - 1 - 1 / 100). set (T := node a t).
  set (f := fun E => if T <? E then E - T else 0).
  assert (F0 : forall E, E <= T -> f E = 0). { intros E L. unfold f. destruct (Rltb_spec T E); lra. }
  assert (F1 : forall E, T < E -> 0 < f E). { intros E L. unfold f. destruct (Rltb_spec T E); lra. }
  assert (LT : a_low a < T < a_up a).
  { unfold T. rewrite <- (node_last a S), <- (node_0 a). fold n. split; apply node_increasing; auto; unfold t; lra. }
  exists f, T. split; [exact LT|]. split; [split; assumption|].
  pose proof (first_middle f a T S (conj F0 F1) t eq_refl ltac:(lra)) as (A & B).
  set (value := fun x => f (node a x)) in *. unfold refine_dedx, refine_dndx. cbv zeta. fold value.
  set (i := first_node value (Z.to_nat (a_nodes a)) 0) in *. fold n. fold n in A.
  assert (I : i = (n - 1)%Z).
  { assert (i < n)%Z by lia. assert (n - 2 < i)%Z; [|lia]. apply lt_IZR. rewrite minus_IZR. unfold t in B. lra. }
  destruct (Z.eqb_spec i n); [lia|]. destruct (Z.eqb_spec i 0); [lia|].
  unfold refined, bisection. rewrite Z.mod_small by (pose proof (proj2 S); fold n in H; lia). rewrite minus_IZR.
  assert (Z1 : value (IZR i - 1) = 0). { unfold value. apply F0. unfold T. apply node_monotone; [exact S|lra]. }
  rewrite Z1, Rmult_0_l. destruct (Rltb_spec 0 0) as [W|_]; [lra|]. destruct (Rltb_spec (IZR i) (IZR i - 1)) as [W|_]; [lra|].
  assert (Pi : 0 < value (IZR i)). { unfold value. apply F1. unfold T. apply node_increasing; [exact S|lra]. }
  assert (Sg : sgn (value (IZR i)) <> sgn (value (IZR i - 1))).
  { apply sgn_pos in Pi. rewrite Pi, Z1. unfold sgn. destruct (Rltb_spec 0 0); [lra|]. discriminate. }
  pose proof (bisection_signs value (1 / 10) ltac:(lra) 101 (IZR i - 1) (IZR i) ltac:(lra)) as L.
  specialize (L ltac:(apply narrow; [lra|exact tenth_fine]) ltac:(lia) Sg).
  pose proof (bisection_loop_ok value (1 / 10) 101 (IZR i - 1) (IZR i) ltac:(lra) ltac:(rewrite Z1; lra)) as K.
  destruct (bisection_loop value (1 / 10) 101 (IZR i - 1) (IZR i)) as (u & v).
  destruct L as (L1 & L2 & L3 & L4 & L5 & L6). destruct K as (_ & _ & _ & _ & k & K1 & K2 & K3 & K4).
  replace (IZR i - (IZR i - 1)) with 1 in * by ring.
  assert (W : v - u <= 1 / 16).
  { destruct (Nat.le_gt_cases k 3) as [C|C].
    - exfalso. destruct k as [|[|[|[|k]]]]; cbn in K2; try lra. lia.
    - rewrite K2. unfold Rdiv. rewrite !Rmult_1_l. apply Rinv_le_contravar; [lra|]. replace 16 with (2 ^ 4) by (cbn; lra). apply Rle_pow; [lra|lia]. }
  assert (t < v).
  { destruct (Rle_lt_dec v t) as [G|]; [|assumption]. exfalso. apply L6. rewrite Z1. unfold value. rewrite F0; [reflexivity|]. apply node_monotone; assumption. }
  cbn [obind]. eexists. split; [reflexivity|]. split; [reflexivity|]. cbn [a_up a_low]. rewrite <- (node_last a S) at 1. apply node_increasing; [exact S|].
  fold n. unfold t in *. lra.
Qed.
Lemma c72_mean_free_path cross spline f a T : exact_spline spline -> sane a -> sets_in f T -> T < a_up a ->
  (forall E, a_low a <= E <= a_up a -> total_rate cross E = Ok (f E)) ->
  exists table, rate_table spline f a = Ok table /\
    forall E, a_low a <= E <= a_up a -> ~ T < E < T * ratio a (1 / 10) ->
      mean_free_path cross (Some table) E = mean_free_path cross None E.
Proof.
  intros X S I U Rate. destruct (c72_rates spline f a T X S I U) as (low & tab & R & A & B). exists (low, tab). split; [exact R|].
  intros E He G. cbn [mean_free_path]. rewrite Rate by exact He. cbn [obind]. destruct (Rltb_spec E low) as [L|L].
  - destruct (A E ltac:(lra)) as [Z|Z]; [|contradiction]. rewrite Z. rewrite (proj2 (Reqb_true 0 0) eq_refl). reflexivity.
  - destruct (B E ltac:(lra)) as (-> & P). destruct (Rltb_spec (f E) 0); [lra|]. reflexivity.
Qed.
Lemma c72_order f a T : sane a -> sets_in f T -> T * ratio a 1 <= a_up a ->
  exists b, refine_dedx f a = Ok (Some b) /\ refine_dndx f a = Ok b /\
    a_up b = a_up a /\ a_nodes b = a_nodes a /\ a_low a <= a_low b <= a_up b.
Proof.
  intros S I Q. pose proof (ratio_large a S 1 ltac:(lra)) as G.
  assert (U : T < a_up a). { destruct (Rle_lt_dec T 0) as [N|P]; [pose proof (proj1 S); lra|]. nra. }
  destruct (refine_dedx_spec f a T S I U) as (b & R & B1 & B2 & B3 & B4 & B5).
  destruct (refine_dndx_spec f a T S I U) as (b' & R' & _). exists b. split; [exact R|]. split.
  - rewrite R'. unfold refine_dedx in R. unfold refine_dndx in R'. cbv zeta in *.
    destruct (_ =? _)%Z; [discriminate|]. destruct (_ =? _)%Z.
    + rewrite node_0 in R'. destruct a. cbn in *. congruence.
    + destruct (refined _ _ _); cbn [obind] in *; congruence.
  - split; [exact B1|]. split; [exact B2|]. split; [|apply B5; exact Q].
    destruct (Rlt_le_dec T (a_low a)) as [W|W]; [rewrite B3 by exact W; lra|]. specialize (B4 W). lra.
Qed.
