(** Proofs about Polynom. *)
From Verif Require Import Prelude PreludeFacts Geometry_Model Shapes_Proofs Function_Model Function_Spec.

(** ** Horner form of the specification *)
Definition rsum (f : nat -> R) (l : list nat) : R := fold_right Rplus 0 (map f l).

Lemma rsum_ext f g l : (forall i, In i l -> f i = g i) -> rsum f l = rsum g l.
Proof. intros H. unfold rsum. f_equal. apply map_ext_in; auto. Qed.
Lemma rsum_app f l l' : rsum f (l ++ l') = rsum f l + rsum f l'.
Proof. unfold rsum. rewrite map_app. induction (map f l); cbn; lra. Qed.
Lemma rsum_scale k f l : k * rsum f l = rsum (fun i => k * f i) l.
Proof. unfold rsum. induction l as [|i l IH]; cbn; [ring|]. rewrite <- IH. ring. Qed.
Lemma rsum_plus f g l : rsum f l + rsum g l = rsum (fun i => f i + g i) l.
Proof. unfold rsum. induction l as [|i l IH]; cbn; [ring|]. rewrite <- IH. ring. Qed.
Lemma rsum_0 f l : (forall i, In i l -> f i = 0) -> rsum f l = 0.
Proof.
  unfold rsum. induction l as [|i l IH]; intros H; cbn; [auto|].
  rewrite H by (left; auto). rewrite IH by (intros; apply H; right; auto). ring.
Qed.
Lemma rsum_shift f a n : rsum f (seq (S a) n) = rsum (fun i => f (S i)) (seq a n).
Proof. unfold rsum. rewrite <- seq_shift, map_map. auto. Qed.
Lemma rsum_swap (f : nat -> nat -> R) l l' :
  rsum (fun i => rsum (fun j => f i j) l') l = rsum (fun j => rsum (fun i => f i j) l) l'.
Proof.
  induction l as [|i l IH]; cbn.
  - symmetry. apply rsum_0. intros; auto.
  - change (rsum (fun j => f i j) l' + rsum (fun i0 => rsum (fun j => f i0 j) l') l =
            rsum (fun j => f i j + rsum (fun i0 => f i0 j) l) l').
    rewrite IH, rsum_plus. auto.
Qed.
Lemma rsum_S f a n : rsum f (seq a (S n)) = rsum f (seq a n) + f (a + n)%nat.
Proof. rewrite seq_S, rsum_app. unfold rsum at 2. cbn. ring. Qed.
Lemma rsum_cons f a l : rsum f (a :: l) = f a + rsum f l.
Proof. reflexivity. Qed.
Lemma rsum_rev f n : rsum f (seq 0 n) = rsum (fun s => f (n - 1 - s)%nat) (seq 0 n).
Proof.
  induction n as [|n IH]; [auto|]. rewrite rsum_S. cbn [seq]. rewrite rsum_cons, rsum_shift.
  rewrite IH. rewrite Rplus_comm. f_equal; [f_equal; lia|].
  apply rsum_ext. intros i Hi. f_equal. lia.
Qed.

Lemma polynomial_rsum c x : polynomial c x = rsum (fun i => nth i c 0 * x ^ i) (seq 0 (length c)).
Proof. reflexivity. Qed.
Lemma polynomial_cons a c x : polynomial (a :: c) x = a + x * polynomial c x.
Proof.
  rewrite !polynomial_rsum. cbn [length seq]. rewrite rsum_cons, rsum_shift, rsum_scale.
  cbn [nth pow]. rewrite Rmult_1_r. f_equal. apply rsum_ext. intros; ring.
Qed.
Lemma polynomial_nil x : polynomial [] x = 0.
Proof. reflexivity. Qed.
Lemma polynomial_snoc c a x : polynomial (c ++ [a]) x = polynomial c x + a * x ^ length c.
Proof.
  induction c as [|b c IH]; cbn [app length pow]; rewrite !polynomial_cons, ?polynomial_nil; [cbn; ring|].
  rewrite IH. ring.
Qed.

Lemma horner c x aux :
  fold_left (fun aux ci => aux * x + ci) (rev c) aux = aux * x ^ length c + polynomial c x.
Proof.
  revert aux; induction c as [|a c IH]; intros aux; cbn [rev length pow].
  - cbn [fold_left]. rewrite polynomial_nil. ring.
  - rewrite fold_left_app, IH, polynomial_cons. cbn. ring.
Qed.
Lemma c24_evaluate c x : c <> [] -> poly_evaluate c x = Ok (polynomial c x).
Proof.
  intros H. unfold poly_evaluate. destruct (rev c) as [|a l] eqn:E.
  - destruct c; [congruence|]. apply (f_equal (@length _)) in E. rewrite rev_length in E. discriminate.
  - f_equal. assert (Hc : c = rev l ++ [a]).
    { rewrite <- (rev_involutive c), E. reflexivity. }
    rewrite Hc, polynomial_snoc, <- (rev_involutive l), horner, rev_length, rev_involutive, rev_length. ring.
Qed.

(** ** Derivative and antiderivative *)
Lemma polynomial_derivable c x : derivable_pt_lim (polynomial c) x
  (rsum (fun i => nth i c 0 * INR i * x ^ (i - 1)) (seq 1 (length c - 1))).
Proof.
  induction c as [|a c IH].
  - cbn. apply derivable_pt_lim_const.
  - apply (derivable_pt_lim_ext (fun y => a + y * polynomial c y)).
    { intros; rewrite polynomial_cons; auto. }
    replace (rsum _ _) with (0 + (1 * polynomial c x + x *
       rsum (fun i => nth i c 0 * INR i * x ^ (i - 1)) (seq 1 (length c - 1)))).
    + apply (derivable_pt_lim_plus (fun _ => a) (fun y => y * polynomial c y)).
      * apply derivable_pt_lim_const.
      * apply (derivable_pt_lim_mult (fun y => y) (polynomial c)); [apply derivable_pt_lim_id|exact IH].
    + replace (length (a :: c) - 1)%nat with (length c) by (cbn; lia). rewrite (rsum_shift _ 0 (length c)).
      rewrite polynomial_rsum, Rplus_0_l, Rmult_1_l.
      assert (E : x * rsum (fun i => nth i c 0 * INR i * x ^ (i - 1)) (seq 1 (length c - 1)) =
                  rsum (fun i => nth i c 0 * INR i * x ^ i) (seq 0 (length c))).
      { destruct c as [|b c]; [cbn; ring|]. replace (length (b :: c) - 1)%nat with (length c) by (cbn; lia).
        change (seq 0 (length (b :: c))) with (0%nat :: seq 1 (length c)).
        rewrite rsum_cons, rsum_scale. cbn [INR]. rewrite Rmult_0_r, Rmult_0_l, Rplus_0_l.
        apply rsum_ext. intros i Hi. apply in_seq in Hi.
        replace (x ^ i) with (x * x ^ (i - 1)); [ring|]. destruct i; [lia|]. cbn [pow Nat.sub]. rewrite Nat.sub_0_r. auto. }
      rewrite E, rsum_plus. apply rsum_ext. intros i _.
      cbn [nth]. rewrite S_INR. replace (S i - 1)%nat with i by lia. ring.
Qed.
Lemma derivative_length c : length (poly_derivative c) = (length c - 1)%nat.
Proof. unfold poly_derivative. rewrite map_length, seq_length; auto. Qed.
Lemma nth_map_seq {A} (f : nat -> A) a n i d : (i < n)%nat -> nth i (map f (seq a n)) d = f (a + i)%nat.
Proof.
  intros H. rewrite nth_indep with (d' := f 0%nat) by (rewrite map_length, seq_length; auto).
  rewrite map_nth, seq_nth by auto. auto.
Qed.
Lemma derivative_sum c x : polynomial (poly_derivative c) x =
  rsum (fun i => nth i c 0 * INR i * x ^ (i - 1)) (seq 1 (length c - 1)).
Proof.
  rewrite polynomial_rsum, derivative_length, (rsum_shift _ 0). apply rsum_ext. intros i Hi.
  apply in_seq in Hi. unfold poly_derivative. rewrite nth_map_seq by lia.
  replace (1 + i)%nat with (S i) by lia. replace (S i - 1)%nat with i by lia. auto.
Qed.
Lemma c24_derivative c x : derivable_pt_lim (polynomial c) x (polynomial (poly_derivative c) x).
Proof. rewrite derivative_sum. apply polynomial_derivable. Qed.

Lemma antiderivative_inverse c k : poly_derivative (poly_antiderivative c k) = c.
Proof.
  unfold poly_derivative, poly_antiderivative. cbn [length]. rewrite map_length, seq_length.
  rewrite Nat.sub_1_r; cbn [Nat.pred].
  apply nth_ext with (d := 0) (d' := 0); rewrite map_length, seq_length; auto.
  intros i Hi. rewrite nth_map_seq by auto. cbn [nth Nat.add].
  rewrite nth_map_seq by auto. cbn [Nat.add].
  rewrite Nat.add_1_r. field. apply not_0_INR. lia.
Qed.
Lemma c24_antiderivative c k x :
  derivable_pt_lim (polynomial (poly_antiderivative c k)) x (polynomial c x) /\
  polynomial (poly_antiderivative c k) 0 = k.
Proof.
  split.
  - pose proof (c24_derivative (poly_antiderivative c k) x) as H. rewrite antiderivative_inverse in H. auto.
  - unfold poly_antiderivative. rewrite polynomial_cons. ring.
Qed.

(** ** Taylor shift *)
Fixpoint binom (n k : nat) : R :=
  match n, k with
  | _, O => 1
  | O, S _ => 0
  | S n', S k' => binom n' k' + binom n' (S k')
  end.
Lemma binom_0 n : binom n 0 = 1.
Proof. destruct n; auto. Qed.
Lemma binom_gt n k : (n < k)%nat -> binom n k = 0.
Proof.
  revert k; induction n as [|n IH]; intros k H; destruct k; try lia; cbn; auto.
  rewrite !IH by lia. ring.
Qed.
Lemma binom_diag n : binom n n = 1.
Proof. induction n; cbn; auto. rewrite IHn, binom_gt by lia. ring. Qed.

Lemma binomial_theorem x y n m : (n < m)%nat ->
  (y + x) ^ n = rsum (fun j => binom n j * x ^ (n - j) * y ^ j) (seq 0 m).
Proof.
  revert m; induction n as [|n IH]; intros m Hm.
  - destruct m; [lia|]. cbn [seq]. rewrite rsum_cons, rsum_0; [cbn; ring|].
    intros i Hi. apply in_seq in Hi. rewrite binom_gt by lia. ring.
  - cbn [pow]. destruct m as [|m]; [lia|]. cbn [seq]. rewrite rsum_cons, rsum_shift.
    rewrite Rmult_plus_distr_r. rewrite (IH m) at 1 by lia. rewrite (IH (S m)) by lia.
    cbn [seq]. rewrite rsum_cons, rsum_shift. rewrite !rsum_scale, Rmult_plus_distr_l, !rsum_scale.
    rewrite Nat.sub_0_r, binom_0. cbn [Nat.sub binom pow].
    rewrite (Rplus_comm (rsum _ _)), Rplus_assoc, rsum_plus.
    f_equal; [ring|]. apply rsum_ext. intros i Hi. apply in_seq in Hi.
    destruct (Nat.lt_ge_cases i n).
    + replace (n - i)%nat with (S (n - S i)) by lia. cbn [pow]. ring.
    + rewrite (binom_gt n (S i)) by lia. ring.
Qed.

(** The value of t[i][j+1] (and, shifted, of t[i][0]). *)
Section Shift.
Variables (a : nat -> R) (n : nat).
Definition T1 (i j : nat) : R := rsum (fun s => binom (i - s) j * a (n - s)%nat) (seq 0 (i - j + 1)).
Lemma T1_diag j : T1 j j = a n.
Proof. unfold T1. rewrite Nat.sub_diag. cbn. rewrite !Nat.sub_0_r, binom_diag. ring. Qed.
Lemma T1_first i : (S i <= n)%nat -> T1 (S i) 0 = a (n - i - 1)%nat + T1 i 0.
Proof.
  intros H. unfold T1. rewrite !Nat.sub_0_r. rewrite !Nat.add_1_r. rewrite (rsum_S _ 0 (S i)).
  rewrite Rplus_comm. f_equal.
  - rewrite binom_0. cbn [Nat.add]. replace (n - S i)%nat with (n - i - 1)%nat by lia. ring.
  - apply rsum_ext. intros s _. rewrite !binom_0. auto.
Qed.
Lemma T1_step i j : (S j <= i)%nat -> T1 (S i) (S j) = T1 i j + T1 i (S j).
Proof.
  intros H. unfold T1. replace (S i - S j + 1)%nat with (i - j + 1)%nat by lia.
  replace (i - j + 1)%nat with (S (i - S j + 1)) by lia. rewrite !rsum_S. cbn [Nat.add].
  rewrite Rplus_assoc, (Rplus_comm _ (rsum _ (seq 0 (i - S j + 1)))), <- Rplus_assoc, rsum_plus.
  f_equal.
  - apply rsum_ext. intros s Hs. apply in_seq in Hs. replace (S i - s)%nat with (S (i - s)) by lia. cbn [binom]. ring.
  - replace (S i - (i - S j + 1))%nat with (S j) by lia. replace (i - (i - S j + 1))%nat with j by lia.
    rewrite !binom_diag. auto.
Qed.
End Shift.

(** *** Arrays *)
Lemma arr_set_ok {A} (l : list A) i v : (i < length l)%nat ->
  exists l', arr_set l i v = Ok l' /\ length l' = length l /\
    forall k, nth_error l' k = if Nat.eqb k i then Some v else nth_error l k.
Proof.
  revert i; induction l as [|x l IH]; intros i H; cbn in H; [lia|].
  destruct i as [|i]; cbn [arr_set].
  - eexists; split; [reflexivity|]. split; [auto|]. intros [|k]; auto.
  - destruct (IH i ltac:(lia)) as (l' & -> & HL & HN). cbn [obind].
    eexists; split; [reflexivity|]. split; [cbn; auto|]. intros [|k]; cbn; auto.
Qed.
Lemma arr_get_ok {A} (l : list A) i a : nth_error l i = Some a -> arr_get l i = Ok a.
Proof. unfold arr_get. intros ->; auto. Qed.

(** A table of size N x N. *)
Definition square (N : nat) (t : table) : Prop :=
  length t = N /\ forall row, In row t -> length row = N.
Definition cell (t : table) (i j : nat) (v : R) : Prop :=
  exists row, nth_error t i = Some row /\ nth_error row j = Some (Some v).
Lemma t_get_ok t i j v : cell t i j v -> t_get t i j = Ok v.
Proof. intros (row & H1 & H2). unfold t_get. rewrite (arr_get_ok _ _ _ H1). cbn. rewrite (arr_get_ok _ _ _ H2). auto. Qed.
Lemma t_set_ok N t i j v : square N t -> (i < N)%nat -> (j < N)%nat ->
  exists t', t_set t i j v = Ok t' /\ square N t' /\ cell t' i j v /\
    forall i' j' w, (i' <> i \/ j' <> j) -> cell t i' j' w -> cell t' i' j' w.
Proof.
  intros (S1 & S2) Hi Hj. unfold t_set.
  destruct (nth_error t i) as [row|] eqn:Er.
  2:{ apply nth_error_None in Er. lia. }
  rewrite (arr_get_ok _ _ _ Er). cbn [obind].
  pose proof (S2 row (nth_error_In _ _ Er)) as Hrow.
  destruct (arr_set_ok row j (Some v)) as (row' & -> & HL & HN); [lia|]. cbn [obind].
  destruct (arr_set_ok t i row') as (t' & -> & HL' & HN'); [lia|].
  exists t'. split; [auto|]. split; [|split].
  - split; [lia|]. intros r Hr. apply In_nth_error in Hr. destruct Hr as (k & Hk). rewrite HN' in Hk.
    destruct (Nat.eqb k i); [injection Hk as <-; lia|]. apply S2. eapply nth_error_In; eauto.
  - exists row'. rewrite HN', Nat.eqb_refl. split; auto. rewrite HN, Nat.eqb_refl. auto.
  - intros i' j' w Hne (r & R1 & R2).
    destruct (Nat.eqb_spec i' i) as [->|Hn].
    + exists row'. rewrite HN', Nat.eqb_refl. split; auto. rewrite HN.
      destruct (Nat.eqb_spec j' j); [destruct Hne; contradiction|].
      rewrite Er in R1. injection R1 as <-. auto.
    + exists r. rewrite HN'. apply Nat.eqb_neq in Hn. rewrite Hn. auto.
Qed.

(** A loop over consecutive indices with an invariant. *)
Lemma loop_seq {S} (body : S -> nat -> outcome S) (I : nat -> S -> Prop) b m s :
  I b s -> (forall i s, (b <= i < b + m)%nat -> I i s -> exists s', body s i = Ok s' /\ I (Datatypes.S i) s') ->
  exists s', loop body (seq b m) s = Ok s' /\ I (b + m)%nat s'.
Proof.
  revert b s; induction m as [|m IH]; intros b s H0 HS; cbn [seq loop].
  - exists s. rewrite Nat.add_0_r. auto.
  - destruct (HS b s ltac:(lia) H0) as (s1 & -> & H1). cbn [obind].
    destruct (IH (Datatypes.S b) s1 H1) as (s2 & E & H2).
    { intros i s' Hi. apply HS. lia. }
    exists s2. split; auto. replace (b + Datatypes.S m)%nat with (Datatypes.S b + m)%nat by lia. auto.
Qed.

Lemma nth_error_nth_Some (c : list R) i : (i < length c)%nat -> nth_error c i = Some (nth i c 0).
Proof. intros H. apply nth_error_nth' with (d := 0) in H. auto. Qed.

Section ShiftRun.
Variables (c : list R) (x : R) (n : nat).
Hypothesis (Hn : length c = S n) (Hx : x <> 0).
Let a k := nth k c 0 * x ^ k.

Lemma run_init t0 : square (S n) t0 ->
  exists t, loop (shift_init c x n) (seq 0 n) t0 = Ok t /\ square (S n) t /\
    forall i, (i < n)%nat -> cell t i 0 (a (n - i - 1)) /\ cell t i (i + 1) (a n).
Proof.
  intros H0.
  destruct (loop_seq (shift_init c x n)
    (fun m t => square (S n) t /\ forall i, (i < m)%nat -> cell t i 0 (a (n - i - 1)) /\ cell t i (i + 1) (a n))
    0 n t0) as (t & E & HI).
  - split; auto. intros i Hi; lia.
  - intros i t Hi (Hs & HI). unfold shift_init.
    rewrite (arr_get_ok c (n - i - 1) (nth (n - i - 1) c 0)) by (apply nth_error_nth_Some; lia). cbn [obind].
    destruct (t_set_ok (S n) t i 0 (nth (n - i - 1) c 0 * x ^ (n - i - 1)) Hs) as (t1 & -> & Hs1 & C1 & P1); try lia.
    cbn [obind]. rewrite (arr_get_ok c n (nth n c 0)) by (apply nth_error_nth_Some; lia). cbn [obind].
    destruct (t_set_ok (S n) t1 i (i + 1) (nth n c 0 * x ^ n) Hs1) as (t2 & -> & Hs2 & C2 & P2); try lia.
    exists t2. split; auto. split; auto. intros k Hk.
    destruct (Nat.eq_dec k i) as [->|Hne].
    + split; auto. apply P2; auto. right; lia.
    + destruct (HI k ltac:(lia)) as (A1 & A2). split; apply P2; auto; apply P1; auto.
  - exists t. tauto.
Qed.

Lemma run_column t j : (j < n)%nat -> square (S n) t ->
  (forall i, (j <= i < n)%nat -> exists v, cell t i j v /\
      (j = 0%nat -> v = a (n - i - 1)) /\ (forall k, j = S k -> v = T1 a n i k)) ->
  cell t j (j + 1) (a n) ->
  exists t', shift_column n t j = Ok t' /\ square (S n) t' /\
    (forall i, (j <= i <= n)%nat -> cell t' i (j + 1) (T1 a n i j)) /\
    (forall i' j' w, j' <> (j + 1)%nat -> cell t i' j' w -> cell t' i' j' w) /\
    (forall i' w, (i' <= j)%nat -> cell t i' (j + 1) w -> cell t' i' (j + 1) w).
Proof.
  intros Hj Hs Hprev Hdiag. unfold shift_column.
  destruct (loop_seq (shift_cell j)
    (fun m t' => square (S n) t' /\ (forall i, (j <= i < m)%nat -> cell t' i (j + 1) (T1 a n i j)) /\
       (forall i' j' w, j' <> (j + 1)%nat -> cell t i' j' w -> cell t' i' j' w) /\
       (forall i' w, (i' <= j)%nat -> cell t i' (j + 1) w -> cell t' i' (j + 1) w))
    (j + 1) (n - j) t) as (t' & E & HI).
  - split; auto. split; auto. intros i Hi. replace i with j by lia. rewrite T1_diag. auto.
  - intros i t1 Hi (Hs1 & H1 & H2 & H3). unfold shift_cell.
    destruct (Hprev (i - 1)%nat ltac:(lia)) as (v & Cv & V0 & V1).
    rewrite (t_get_ok t1 (i - 1) j v) by (apply H2; auto; lia). cbn [obind].
    rewrite (t_get_ok t1 (i - 1) (j + 1) (T1 a n (i - 1) j)) by (apply H1; lia). cbn [obind].
    destruct (t_set_ok (S n) t1 i (j + 1) (v + T1 a n (i - 1) j) Hs1) as (t2 & E2 & Hs2 & C2 & P2); try lia.
    exists t2. split; auto. split; auto.
    assert (Ev : v + T1 a n (i - 1) j = T1 a n i j).
    { destruct i as [|i]; [lia|]. rewrite Nat.sub_1_r in *; cbn [Nat.pred] in *.
      destruct j as [|k].
      - rewrite V0 by auto. rewrite T1_first by lia. f_equal. f_equal. lia.
      - rewrite (V1 k) by auto. rewrite T1_step by lia. auto. }
    split; [|split].
    + intros k Hk. destruct (Nat.eq_dec k i) as [->|Hne]; [rewrite <- Ev; auto|].
      apply P2; [left; auto|]. apply H1; lia.
    + intros i' j' w Hne Hc. apply P2; auto.
    + intros i' w Hle Hc. apply P2; auto. left; lia.
  - exists t'. split; auto. destruct HI as (A1 & A2 & A3 & A4). split; auto. split; auto.
    intros i Hi. apply A2. lia.
Qed.

Lemma run_columns t0 : square (S n) t0 ->
  (forall i, (i < n)%nat -> cell t0 i 0 (a (n - i - 1)) /\ cell t0 i (i + 1) (a n)) ->
  exists t, loop (shift_column n) (seq 0 n) t0 = Ok t /\
    forall j, (j < n)%nat -> cell t n (j + 1) (T1 a n n j).
Proof.
  intros Hs H0.
  destruct (loop_seq (shift_column n)
    (fun m t => square (S n) t /\ (forall i, (i < n)%nat -> cell t i 0 (a (n - i - 1))) /\
       (forall i, (m <= i < n)%nat -> cell t i (i + 1) (a n)) /\
       (forall i j, (j < m)%nat -> (j <= i <= n)%nat -> cell t i (j + 1) (T1 a n i j)))
    0 n t0) as (t & E & HI).
  - split; auto. split; [intros; apply H0; auto|]. split; [intros; apply H0; lia|]. intros i j Hj. lia.
  - intros j t Hj (Hs1 & H1 & H2 & H3).
    destruct (run_column t j) as (t' & E & Hs' & C1 & C2 & C3); auto; try lia.
    + intros i Hi. destruct j as [|k].
      * exists (a (n - i - 1)). split; [apply H1; lia|]. split; auto. intros k' Hk'; discriminate.
      * exists (T1 a n i k). rewrite <- Nat.add_1_r. split; [apply H3; lia|]. split; [lia|].
        intros k' Hk'. f_equal. lia.
    + apply H2; lia.
    + exists t'. split; auto. split; auto. split; [|split].
      * intros i Hi. apply C2; [lia|]. auto.
      * intros i Hi. apply C2; [lia|]. apply H2; lia.
      * intros i k Hk Hi. destruct (Nat.eq_dec k j) as [->|Hne]; auto. apply C2; [lia|]. apply H3; lia.
  - exists t. split; auto. intros j Hj. apply HI; lia.
Qed.

Lemma run_result t : (forall j, (j < n)%nat -> cell t n (j + 1) (T1 a n n j)) ->
  exists c', loop (shift_result x n t) (seq 0 n) c = Ok c' /\ length c' = S n /\
    (forall j, (j < n)%nat -> nth j c' 0 = T1 a n n j / x ^ j) /\ nth n c' 0 = nth n c 0.
Proof.
  intros Ht.
  destruct (loop_seq (shift_result x n t)
    (fun m c' => length c' = S n /\ (forall j, (j < m)%nat -> nth_error c' j = Some (T1 a n n j / x ^ j)) /\
       forall j, (m <= j)%nat -> nth_error c' j = nth_error c j) 0 n c) as (c' & E & H1 & H2 & H3).
  - split; auto. split; auto. intros j Hj; lia.
  - intros i c1 Hi (L1 & H1 & H2). unfold shift_result. rewrite (t_get_ok t n (i + 1) _ (Ht i ltac:(lia))). cbn [obind].
    destruct (arr_set_ok c1 i (T1 a n n i / x ^ i)) as (c2 & -> & L2 & N2); [lia|].
    exists c2. split; auto. split; [lia|]. split.
    + intros j Hj. rewrite N2. destruct (Nat.eqb_spec j i) as [->|Hne]; auto. apply H1; lia.
    + intros j Hj. rewrite N2. destruct (Nat.eqb_spec j i) as [->|Hne]; [lia|]. apply H2; lia.
  - exists c'. split; auto. split; auto. split.
    + intros j Hj. specialize (H2 j Hj). apply nth_error_nth with (d := 0) in H2; auto.
    + specialize (H3 n ltac:(lia)). rewrite (nth_error_nth_Some c n) in H3 by lia.
      apply nth_error_nth with (d := 0) in H3. auto.
Qed.

Lemma taylor y c' : length c' = S n -> (forall j, (j < n)%nat -> nth j c' 0 = T1 a n n j / x ^ j) ->
  nth n c' 0 = nth n c 0 -> polynomial c' y = polynomial c (y + x).
Proof.
  intros HL H1 H2. rewrite !polynomial_rsum, HL, Hn.
  assert (HC : forall j, (j <= n)%nat -> nth j c' 0 =
     rsum (fun k => nth k c 0 * (binom k j * x ^ (k - j))) (seq 0 (S n))).
  { intros j Hj.
    assert (E : nth j c' 0 = T1 a n n j / x ^ j).
    { destruct (Nat.eq_dec j n) as [->|Hne]; [|apply H1; lia].
      rewrite H2, T1_diag. unfold a. field. apply pow_nonzero; auto. }
    rewrite E. unfold T1, Rdiv. rewrite Rmult_comm, rsum_scale.
    rewrite (rsum_rev _ (S n)).
    replace (S n) with ((n - j + 1) + j)%nat by lia. rewrite (seq_app (n - j + 1) j), rsum_app.
    rewrite (rsum_0 _ (seq (0 + _) j)).
    - rewrite Rplus_0_r. apply rsum_ext. intros s Hs. apply in_seq in Hs.
      replace (n - j + 1 + j - 1 - s)%nat with (n - s)%nat by lia. unfold a.
      replace (x ^ (n - s)) with (x ^ j * x ^ (n - s - j)) by (rewrite <- pow_add; f_equal; lia).
      field. apply pow_nonzero; auto.
    - intros s Hs. apply in_seq in Hs. rewrite binom_gt by lia. ring. }
  transitivity (rsum (fun j => rsum (fun k => nth k c 0 * (binom k j * x ^ (k - j)) * y ^ j) (seq 0 (S n))) (seq 0 (S n))).
  - apply rsum_ext. intros j Hj. apply in_seq in Hj. rewrite HC by lia.
    rewrite Rmult_comm, rsum_scale. apply rsum_ext. intros; ring.
  - rewrite rsum_swap. apply rsum_ext. intros k Hk. apply in_seq in Hk.
    rewrite (binomial_theorem x y k (S n)) by lia. rewrite rsum_scale. apply rsum_ext. intros; ring.
Qed.
End ShiftRun.

Lemma square_repeat N : square N (repeat (repeat None N) N).
Proof.
  split; [apply repeat_length|]. intros row H. apply repeat_spec in H. subst. apply repeat_length.
Qed.

Lemma c24_shift c x : c <> [] -> GEOMETRY_PRECISION < Rabs x ->
  exists c', poly_shift c x = Ok c' /\ length c' = length c /\ forall y, polynomial c' y = polynomial c (y + x).
Proof.
  intros Hc Hx. unfold poly_shift.
  destruct (Rltb_spec GEOMETRY_PRECISION (Rabs x)); [|lra].
  assert (Hx0 : x <> 0). { intros ->. rewrite Rabs_R0 in Hx. pose proof eps_pos. lra. }
  destruct c as [|c0 cs] eqn:Ec; [congruence|]. rewrite <- Ec in *.
  assert (Hn : length c = S (length c - 1)) by (rewrite Ec; cbn; lia).
  set (n := (length c - 1)%nat) in *.
  destruct (run_init c x n Hn (repeat (repeat None (length c)) (length c))) as (t1 & E1 & Hs & H1).
  { rewrite Hn. apply square_repeat. }
  cbv zeta. rewrite E1. cbn [obind].
  destruct (run_columns c x n Hn t1 Hs H1) as (t2 & E2 & H2). rewrite E2. cbn [obind].
  destruct (run_result c x n Hn t2 H2) as (c' & E3 & L3 & H3 & H4).
  exists c'. split; auto. split; [lia|]. intros y. eapply taylor; eauto.
Qed.
Lemma c24_small_shift c x : Rabs x <= GEOMETRY_PRECISION -> poly_shift c x = Ok c.
Proof. intros H. unfold poly_shift. destruct (Rltb_spec GEOMETRY_PRECISION (Rabs x)); [lra|]. auto. Qed.
Lemma c24_shift_refuted : exists c x c' y, c <> [] /\ poly_shift c x = Ok c' /\
  polynomial c' y <> polynomial c (y + x).
Proof.
  pose proof eps_pos. exists [0; 1], GEOMETRY_PRECISION, [0; 1], 0. split; [discriminate|]. split.
  - apply c24_small_shift. rewrite Rabs_right; lra.
  - cbn. lra.
Qed.
