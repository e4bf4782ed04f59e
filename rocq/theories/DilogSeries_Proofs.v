(** The dilogarithm between 0 and 1/2: its series and the rational function. *)
From Coquelicot Require Import Coquelicot.
From Verif Require Import Prelude PreludeFacts Cross_Model Dilog_Model Dilog_Spec DilogEquations_Proofs.

(** ** Polynomials with integer coefficients *)
Fixpoint ev (l : list Z) (x : R) : R := match l with [] => 0 | a :: l => IZR a + x * ev l x end.
Fixpoint add (l m : list Z) : list Z :=
  match l, m with
  | [], _ => m
  | _, [] => l
  | a :: l, b :: m => (a + b)%Z :: add l m
  end.
Definition times (a : Z) (l : list Z) : list Z := map (Z.mul a) l.
Fixpoint mul (l m : list Z) : list Z := match l with [] => [] | a :: l => add (times a m) (0%Z :: mul l m) end.
Fixpoint stretch (w : Z) (l : list Z) : list Z := match l with [] => [] | a :: l => (a * w ^ Z.of_nat (length l))%Z :: stretch w l end.
Fixpoint shift (a : Z) (l : list Z) : list Z :=
  match l with
  | [] => []
  | c :: l => let s := shift a l in add [c] (add (times a s) (0%Z :: s))
  end.
Fixpoint sizes (l : list Z) : Z := match l with [] => 0%Z | a :: l => (Z.abs a + sizes l)%Z end.
Fixpoint total (l : list Z) : Z := match l with [] => 0%Z | a :: l => (a + total l)%Z end.

Lemma ev_add l : forall m x, ev (add l m) x = ev l x + ev m x.
Proof.
  induction l as [|a l IH]; intros [|b m] x; cbn [add ev]; try ring. rewrite IH, plus_IZR. ring.
Qed.
Lemma ev_times a l x : ev (times a l) x = IZR a * ev l x.
Proof. induction l as [|b l IH]; cbn [times map ev]; [ring|]. fold (times a l). rewrite IH, mult_IZR. ring. Qed.
Lemma ev_mul l : forall m x, ev (mul l m) x = ev l x * ev m x.
Proof.
  induction l as [|a l IH]; intros m x; cbn [mul ev]; [ring|]. rewrite ev_add, ev_times. cbn [ev]. rewrite IH. ring.
Qed.
Lemma ev_stretch w l x : ev (stretch w l) (IZR w * x) * IZR w = IZR w ^ length l * ev l x.
Proof.
  induction l as [|a l IH]; cbn [stretch ev length pow]; [ring|].
  rewrite mult_IZR, <- pow_IZR. 
  replace ((IZR a * IZR w ^ length l + IZR w * x * ev (stretch w l) (IZR w * x)) * IZR w)
    with (IZR a * IZR w ^ length l * IZR w + IZR w * x * (ev (stretch w l) (IZR w * x) * IZR w)) by ring.
  rewrite IH. ring.
Qed.
Lemma ev_shift a l x : ev (shift a l) x = ev l (IZR a + x).
Proof.
  induction l as [|c l IH]; cbn [shift ev]; [ring|]. rewrite ev_add. cbn [ev]. rewrite ev_add, ev_times. cbn [ev]. rewrite IH. ring.
Qed.
Lemma ev_size l x : Rabs x <= 1 -> Rabs (ev l x) <= IZR (sizes l).
Proof.
  intro X. induction l as [|a l IH]; cbn [ev sizes]; [rewrite Rabs_R0; lra|].
  eapply Rle_trans; [apply Rabs_triang|]. rewrite plus_IZR, abs_IZR, Rabs_mult. apply Rplus_le_compat_l.
  pose proof (Rabs_pos x). pose proof (Rabs_pos (ev l x)). nra.
Qed.
Lemma ev_one l : ev l 1 = IZR (total l).
Proof. induction l as [|a l IH]; cbn [ev total]; [reflexivity|]. rewrite IH, plus_IZR. ring. Qed.
Lemma ev_app l a x : ev (l ++ [a]) x = ev l x + IZR a * x ^ length l.
Proof. induction l as [|b l IH]; cbn [ev app length pow]; [ring|]. rewrite IH. ring. Qed.

(** A polynomial on [0, 1/2] from four pieces *)
Lemma piece y : 0 <= y <= 1 / 2 -> exists i, In i [1; 3; 5; 7]%Z /\ Rabs (16 * y - IZR i) <= 1.
Proof.
  intro H. destruct (Rle_lt_dec (16 * y) 2); [exists 1%Z; split; [cbn; tauto|apply Rabs_le; lra]|].
  destruct (Rle_lt_dec (16 * y) 4); [exists 3%Z; split; [cbn; tauto|apply Rabs_le; lra]|].
  destruct (Rle_lt_dec (16 * y) 6); [exists 5%Z; split; [cbn; tauto|apply Rabs_le; lra]|].
  exists 7%Z; split; [cbn; tauto|apply Rabs_le; lra].
Qed.
Lemma ev_pieces l y : ev l y * 16 ^ length l = ev (stretch 16 l) (16 * y) * 16.
Proof. pose proof (ev_stretch 16 l y). lra. Qed.
Definition small_on (l : list Z) (b : Z) : bool :=
  let s := stretch 16 l in forallb (fun i => (sizes (shift i s) <=? b)%Z) [1; 3; 5; 7]%Z.
Lemma small_spec l b y : small_on l b = true -> 0 <= y <= 1 / 2 -> Rabs (ev l y) * 16 ^ length l <= IZR b * 16.
Proof.
  intros S H. destruct (piece y H) as (i & I & X). unfold small_on in S. rewrite forallb_forall in S. specialize (S i I).
  apply Z.leb_le, IZR_le in S. pose proof (ev_size (shift i (stretch 16 l)) _ X) as Z. rewrite ev_shift in Z.
  replace (IZR i + (16 * y - IZR i)) with (16 * y) in Z by ring.
  pose proof (ev_pieces l y) as E. apply (f_equal Rabs) in E. rewrite !Rabs_mult in E.
  assert (P : 0 < 16 ^ length l) by (apply pow_lt; lra).
  rewrite (Rabs_right (16 ^ length l)) in E by lra. rewrite (Rabs_right 16) in E by lra. rewrite E. nra.
Qed.
Definition large_on (l : list Z) (b : Z) : bool :=
  let s := stretch 16 l in
  forallb (fun i => match shift i s with [] => false | a :: t => (b <=? a - sizes t)%Z end) [1; 3; 5; 7]%Z.
Lemma large_spec l b y : large_on l b = true -> 0 <= y <= 1 / 2 -> IZR b * 16 <= ev l y * 16 ^ length l.
Proof.
  intros S H. destruct (piece y H) as (i & I & X). unfold large_on in S. rewrite forallb_forall in S. specialize (S i I). cbn beta in S.
  pose proof (ev_shift i (stretch 16 l) (16 * y - IZR i)) as E.
  replace (IZR i + (16 * y - IZR i)) with (16 * y) in E by ring. rewrite ev_pieces, <- E.
  destruct (shift i (stretch 16 l)) as [|a t]; [discriminate|]. apply Z.leb_le, IZR_le in S. rewrite minus_IZR in S. cbn [ev].
  pose proof (ev_size t _ X) as Z. assert (Rabs ((16 * y - IZR i) * ev t (16 * y - IZR i)) <= IZR (sizes t)) as W.
  { rewrite Rabs_mult. pose proof (Rabs_pos (16 * y - IZR i)). pose proof (Rabs_pos (ev t (16 * y - IZR i))). nra. }
  apply Rabs_le_between in W. lra.
Qed.

(** ** The series *)
Fixpoint geo (n : nat) (y : R) : R := match n with O => 0 | S n => geo n y + y ^ n end.
Fixpoint logs (n : nat) (y : R) : R := match n with O => 0 | S n => logs n y + y ^ n / INR (S n) end.
Fixpoint squares (n : nat) (y : R) : R := match n with O => 0 | S n => squares n y + y ^ S n / (INR (S n) * INR (S n)) end.
Lemma geo_value n y : geo n y * (1 - y) = 1 - y ^ n.
Proof. induction n as [|n IH]; cbn [geo pow]; [ring|]. rewrite Rmult_plus_distr_r, IH. ring. Qed.
Lemma INR_S_neq n : INR (S n) <> 0.
Proof. apply not_0_INR. lia. Qed.
Lemma logs_derive n y : is_derive (fun y => y * logs n y) y (geo n y).
Proof.
  induction n as [|n IH].
  - cbn [logs geo]. auto_derive; [trivial|ring].
  - assert (E : forall y, y * logs (S n) y = y * logs n y + y ^ S n / INR (S n)) by (intro; cbn [logs pow]; field; apply INR_S_neq).
    apply (is_derive_ext (fun y => y * logs n y + y ^ S n / INR (S n))); [intro; symmetry; apply E|].
    cbn [geo]. apply (is_derive_plus (fun y => y * logs n y) (fun y => y ^ S n / INR (S n))); [exact IH|].
    auto_derive; [trivial|]. change (Init.Nat.pred (S n)) with n.
    change (match n with 0%nat => 1 | S _ => INR n + 1 end) with (INR (S n)). field. apply INR_S_neq.
Qed.
Lemma squares_derive n y : is_derive (squares n) y (logs n y).
Proof.
  induction n as [|n IH].
  - apply (is_derive_ext (fun _ : R => 0)); [reflexivity|]. cbn [logs]. auto_derive; [trivial|ring].
  - cbn [logs]. apply (is_derive_plus (squares n) (fun y => y ^ S n / (INR (S n) * INR (S n)))); [exact IH|].
    auto_derive; [trivial|]. change (Init.Nat.pred (S n)) with n.
    change (match n with 0%nat => 1 | S _ => INR n + 1 end) with (INR (S n)). field. apply INR_S_neq.
Qed.

(** A function that vanishes at 0 and whose derivative is not negative *)
Lemma rises (g dg : R -> R) y : 0 <= y -> g 0 = 0 -> (forall t, 0 < t < y -> is_derive g t (dg t)) -> (forall t, 0 <= t <= y -> continuous g t) ->
  (forall t, 0 < t < y -> 0 <= dg t) -> 0 <= g y.
Proof.
  intros Y Z D K P.
  destruct (MVT_gen g 0 y (fun t => if Rlt_dec 0 t then if Rlt_dec t y then dg t else 0 else 0)) as (c & _ & E).
  - intros t T. rewrite Rmin_left, Rmax_right in T by assumption. destruct (Rlt_dec 0 t); [|lra]. destruct (Rlt_dec t y); [|lra]. apply D; lra.
  - intros t T. rewrite Rmin_left, Rmax_right in T by assumption. apply cont_pt, K. assumption.
  - destruct (Rlt_dec 0 c); [|lra]. destruct (Rlt_dec c y); [|lra]. pose proof (P c ltac:(lra)). nra.
Qed.

(** Remainder of the logarithm *)
Lemma power_derive n y : is_derive (fun y => 2 * y ^ S n / INR (S n)) y (2 * y ^ n).
Proof.
  auto_derive; [trivial|]. change (Init.Nat.pred (S n)) with n.
  change (match n with 0%nat => 1 | S _ => INR n + 1 end) with (INR (S n)). field. apply INR_S_neq.
Qed.
Lemma ln_derive y : y < 1 -> is_derive (fun y => ln (1 - y)) y (- / (1 - y)).
Proof. intro H. auto_derive; [lra|]. change (1 + - y) with (1 - y). field. lra. Qed.
Lemma logs_remainder n y : 0 <= y <= 1 / 2 -> 0 <= - ln (1 - y) - y * logs n y <= 2 * y ^ S n / INR (S n).
Proof.
  intro H.
  assert (D : forall t, t < 1 -> is_derive (fun t => - ln (1 - t) - t * logs n t) t (t ^ n / (1 - t))).
  { intros t T. pose proof (is_derive_opp _ _ _ (ln_derive t T)) as A. pose proof (is_derive_minus _ _ _ _ _ A (logs_derive n t)) as B.
    cbv [minus plus opp] in B; cbn in B.
    match type of B with is_derive _ _ ?v => replace (t ^ n / (1 - t)) with v end; [exact B|].
    pose proof (geo_value n t) as G. replace (t ^ n) with (1 - geo n t * (1 - t)) by lra. field. lra. }
  split.
  - apply (rises (fun t => - ln (1 - t) - t * logs n t) (fun t => t ^ n / (1 - t))); [lra| | | |].
    + rewrite Rminus_0_r, ln_1. ring.
    + intros t T. apply D. lra.
    + intros t T. apply (ex_derive_continuous (fun t => - ln (1 - t) - t * logs n t)). eexists. apply D. lra.
    + intros t T. apply Rdiv_le_0_compat; [apply pow_le; lra|lra].
  - pose proof (rises (fun t => 2 * t ^ S n / INR (S n) - (- ln (1 - t) - t * logs n t)) (fun t => 2 * t ^ n - t ^ n / (1 - t)) y) as X.
    cbv beta in X. enough (0 <= 2 * y ^ S n / INR (S n) - (- ln (1 - y) - y * logs n y)) by lra.
    assert (D' : forall t, t < 1 -> is_derive (fun t => 2 * t ^ S n / INR (S n) - (- ln (1 - t) - t * logs n t)) t (2 * t ^ n - t ^ n / (1 - t))).
    { intros t T. exact (is_derive_minus _ _ _ _ _ (power_derive n t) (D t T)). }
    apply X; [lra| | | |].
    + rewrite Rminus_0_r, ln_1. cbn [pow]. unfold Rdiv. ring.
    + intros t T. apply D'. lra.
    + intros t T. apply (ex_derive_continuous (fun t => 2 * t ^ S n / INR (S n) - (- ln (1 - t) - t * logs n t))). eexists. apply D'. lra.
    + intros t T. assert (0 <= t ^ n) by (apply pow_le; lra). assert (/ (1 - t) <= 2).
      { replace 2 with (/ (1 / 2)) by field. apply Rinv_le_contravar; lra. }
      unfold Rdiv. nra.
Qed.

(** Remainder of the dilogarithm *)
Lemma square_derive n y : is_derive (fun y => 2 * y ^ S n / (INR (S n) * INR (S n))) y (2 * y ^ n / INR (S n)).
Proof.
  auto_derive; [trivial|]. change (Init.Nat.pred (S n)) with n.
  change (match n with 0%nat => 1 | S _ => INR n + 1 end) with (INR (S n)). field. apply INR_S_neq.
Qed.
Lemma squares_zero n : squares n 0 = 0.
Proof. induction n as [|n IH]; cbn [squares pow]; [reflexivity|]. rewrite IH. unfold Rdiv. ring. Qed.
Lemma dilog_remainder f n y : dilogarithm f -> 0 <= y <= 1 / 2 -> 0 <= f y - squares n y <= 2 * y ^ S n / (INR (S n) * INR (S n)).
Proof.
  intros F H.
  assert (D : forall t, 0 < t < 1 -> is_derive (fun t => f t - squares n t) t (- ln (1 - t) / t - logs n t)).
  { intros t T. exact (is_derive_minus _ _ _ _ _ (derivative_below f F t ltac:(lra) ltac:(lra)) (squares_derive n t)). }
  assert (K : forall t, continuous (fun t => f t - squares n t) t).
  { intro t. apply (continuous_minus f (squares n)); [apply (dl_continuous f F)|]. apply (ex_derive_continuous (squares n)). eexists. apply squares_derive. }
  assert (B : forall t, 0 < t < y -> 0 <= - ln (1 - t) / t - logs n t <= 2 * t ^ n / INR (S n)).
  { intros t T. pose proof (logs_remainder n t ltac:(lra)) as L. replace (- ln (1 - t) / t - logs n t) with ((- ln (1 - t) - t * logs n t) * / t) by (field; lra).
    assert (I : 0 < / t) by (apply Rinv_0_lt_compat; lra). split; [nra|].
    replace (2 * t ^ n / INR (S n)) with (2 * t ^ S n / INR (S n) * / t) by (cbn [pow]; field; split; [apply INR_S_neq|lra]). nra. }
  split.
  - apply (rises (fun t => f t - squares n t) (fun t => - ln (1 - t) / t - logs n t)); [lra| | | |].
    + rewrite squares_zero, (dl_zero f F). ring.
    + intros t T. apply D. lra.
    + intros t T. apply K.
    + intros t T. apply B. assumption.
  - enough (0 <= 2 * y ^ S n / (INR (S n) * INR (S n)) - (f y - squares n y)) by lra.
    apply (rises (fun y => 2 * y ^ S n / (INR (S n) * INR (S n)) - (f y - squares n y)) (fun t => 2 * t ^ n / INR (S n) - (- ln (1 - t) / t - logs n t))); [lra| | | |].
    + rewrite squares_zero, (dl_zero f F). cbn [pow]. unfold Rdiv. ring.
    + intros t T. exact (is_derive_minus _ _ _ _ _ (square_derive n t) (D t ltac:(lra))).
    + intros t T. apply (continuous_minus (fun y => 2 * y ^ S n / (INR (S n) * INR (S n))) (fun y => f y - squares n y)); [|apply K].
      apply (ex_derive_continuous (fun y => 2 * y ^ S n / (INR (S n) * INR (S n)))). eexists. apply square_derive.
    + intros t T. pose proof (B t T). lra.
Qed.
