(** Proofs about splines. *)
From Verif Require Import Prelude PreludeFacts Geometry_Model Shapes_Proofs Function_Model Function_Spec Function_Proofs
  Spline_Model Spline_Spec.
From Coq Require Import Sorted.

(** ** Nodes *)
Lemma sorted_nth xs i j : StronglySorted Rlt xs -> (i < j < length xs)%nat -> node xs i < node xs j.
Proof.
  intros H. revert i j; induction H as [|a l H IH HF]; intros i j Hij; cbn in Hij; [lia|].
  unfold node in *. destruct j; [lia|]. destruct i; cbn [nth].
  - rewrite Forall_forall in HF. apply HF. apply nth_In. lia.
  - apply IH. lia.
Qed.
Lemma sorted_le xs i j : StronglySorted Rlt xs -> (i <= j < length xs)%nat -> node xs i <= node xs j.
Proof.
  intros H Hij. destruct (Nat.eq_dec i j) as [->|]; [lra|]. apply Rlt_le, sorted_nth; auto. lia.
Qed.
Lemma arr_node xs i : (i < length xs)%nat -> arr_get xs i = Ok (node xs i).
Proof. intros H. apply arr_get_ok, nth_error_nth_Some; auto. Qed.

(** ** A loop that appends *)
Lemma loop_append {A} (mk : nat -> outcome A) (P : nat -> A -> Prop) m :
  (forall i, (i < m)%nat -> exists a, mk i = Ok a /\ P i a) ->
  exists l, loop (fun ps i => olet p := mk i in Ok (ps ++ [p])) (seq 0 m) [] = Ok l /\
    length l = m /\ forall i a, nth_error l i = Some a -> P i a.
Proof.
  intros H.
  destruct (loop_seq (fun ps i => olet p := mk i in Ok (ps ++ [p]))
    (fun k l => length l = k /\ forall i a, nth_error l i = Some a -> P i a) 0 m []) as (l & E & H1 & H2).
  - split; auto. intros i a Hi. destruct i; discriminate.
  - intros i l Hi (H1 & H2). destruct (H i ltac:(lia)) as (a & -> & Ha). cbn [obind].
    eexists; split; [reflexivity|]. split; [rewrite app_length; cbn; lia|].
    intros k b Hk. destruct (Nat.lt_ge_cases k (length l)).
    + rewrite nth_error_app1 in Hk by auto. auto.
    + rewrite nth_error_app2 in Hk by auto. destruct (k - length l)%nat eqn:Ek; cbn in Hk.
      * injection Hk as <-. replace k with i by lia. auto.
      * destruct n; discriminate.
  - exists l. split; auto.
Qed.

(** ** Evaluation *)
(** A well-formed spline: one polynomial per interval. *)
Definition well_formed (s : spline) : Prop :=
  (1 <= sp_n s)%nat /\ length (sp_polys s) = sp_n s /\ length (sp_sub s) = S (sp_n s) /\
  StronglySorted Rlt (sp_sub s) /\ forall p, In p (sp_polys s) -> p <> [].

Lemma search_skip s x is : (forall i, In i is -> (i + 1 < length (sp_sub s))%nat /\
    (x < node (sp_sub s) i \/ node (sp_sub s) (i + 1) < x)) -> spline_search s x is = Ok None.
Proof.
  induction is as [|i is IH]; intros H; cbn [spline_search]; [auto|].
  destruct (H i) as (Hi & Hx); [left; auto|].
  rewrite arr_node by lia. cbn [obind].
  rewrite arr_node by lia. cbn [obind]. rewrite IH by (intros; apply H; right; auto).
  destruct (Rleb_spec (node (sp_sub s) i) x); auto.
  destruct (Rleb_spec x (node (sp_sub s) (i + 1))); auto. lra.
Qed.
Lemma search_app s x l l' : spline_search s x l = Ok None -> spline_search s x (l ++ l') = spline_search s x l'.
Proof.
  induction l as [|i l IH]; cbn [spline_search app]; auto. intros H.
  destruct (arr_get (sp_sub s) i); cbn in *; try discriminate.
  destruct (_ <=? _); auto.
  destruct (arr_get (sp_sub s) (i + 1)); cbn in *; try discriminate.
  destruct (_ <=? _); auto.
  destruct (arr_get (sp_polys s) i); cbn in *; try discriminate.
  destruct (poly_evaluate _ _); cbn in *; discriminate.
Qed.

(** At a point of the half-open interval (x_i, x_{i+1}], or at x_0, piece i is
    evaluated; at an inner node the left piece is. *)
Lemma evaluate_piece s i p x : well_formed s -> nth_error (sp_polys s) i = Some p ->
  node (sp_sub s) i <= x <= node (sp_sub s) (i + 1) -> (i = 0%nat \/ node (sp_sub s) i < x) ->
  spline_evaluate s x = Ok (polynomial p x).
Proof.
  intros (W1 & W2 & W3 & W4 & W5) Hp Hx Hl.
  assert (Hi : (i < sp_n s)%nat).
  { rewrite <- W2. apply nth_error_Some. congruence. }
  unfold spline_evaluate.
  replace (seq 0 (sp_n s)) with (seq 0 i ++ i :: seq (S i) (sp_n s - i - 1)).
  2:{ replace (sp_n s) with (i + (1 + (sp_n s - i - 1)))%nat at 2 by lia. rewrite !seq_app. cbn.
      rewrite Nat.add_1_r. auto. }
  rewrite search_app.
  2:{ apply search_skip. intros k Hk. apply in_seq in Hk. split; [lia|]. right.
      destruct Hl as [->|Hl]; [lia|].
      pose proof (sorted_le (sp_sub s) (k + 1) i W4 ltac:(lia)). lra. }
  cbn [spline_search]. rewrite !arr_node by lia. cbn [obind].
  destruct (Rleb_spec (node (sp_sub s) i) x); [|lra]. cbn [obind].
  destruct (Rleb_spec x (node (sp_sub s) (i + 1))); [|lra].
  rewrite (arr_get_ok _ _ _ Hp). cbn [obind].
  rewrite c24_evaluate by (apply W5; eapply nth_error_In; eauto). reflexivity.
Qed.
(** Outside of the domain the first or last piece is continued. *)
Lemma evaluate_outside s x : well_formed s ->
  (x < node (sp_sub s) 0 -> exists p, nth_error (sp_polys s) 0 = Some p /\ spline_evaluate s x = Ok (polynomial p x)) /\
  (node (sp_sub s) (sp_n s) < x -> exists p, nth_error (sp_polys s) (sp_n s - 1) = Some p /\
     spline_evaluate s x = Ok (polynomial p x)).
Proof.
  intros (W1 & W2 & W3 & W4 & W5).
  assert (HB : arr_get (rev (sp_sub s)) 0 = Ok (node (sp_sub s) (sp_n s))).
  { apply arr_get_ok. rewrite nth_error_nth' with (d := 0) by (rewrite rev_length; lia).
    rewrite rev_nth by lia. unfold node. do 2 f_equal. lia. }
  pose proof (sorted_le (sp_sub s) 0 (sp_n s) W4 ltac:(lia)).
  split; intros Hx; unfold spline_evaluate; rewrite search_skip.
  - cbn [obind]. rewrite HB. cbn [obind]. destruct (Rltb_spec (node (sp_sub s) (sp_n s)) x); [lra|].
    destruct (nth_error (sp_polys s) 0) as [p|] eqn:Hp; [|apply nth_error_None in Hp; lia].
    rewrite (arr_get_ok _ _ _ Hp). cbn [obind]. exists p. split; auto.
    apply c24_evaluate. apply W5. eapply nth_error_In; eauto.
  - intros i Hi. apply in_seq in Hi. split; [lia|]. left.
    pose proof (sorted_le (sp_sub s) 0 i W4 ltac:(lia)). lra.
  - cbn [obind]. rewrite HB. cbn [obind]. destruct (Rltb_spec (node (sp_sub s) (sp_n s)) x); [|lra].
    destruct (nth_error (sp_polys s) (sp_n s - 1)) as [p|] eqn:Hp; [|apply nth_error_None in Hp; lia].
    rewrite (arr_get_ok _ _ _ Hp). cbn [obind]. exists p. split; auto.
    apply c24_evaluate. apply W5. eapply nth_error_In; eauto.
  - intros i Hi. apply in_seq in Hi. split; [lia|]. right.
    pose proof (sorted_le (sp_sub s) (i + 1) (sp_n s) W4 ltac:(lia)). lra.
Qed.

(** ** Linear splines *)
Lemma polynomial2 a b x : polynomial [a; b] x = a + b * x.
Proof. cbn. ring. Qed.

Lemma linear_ok nan xs ys : nodes xs ys ->
  exists s, linear_spline nan xs ys = Ok s /\ well_formed s /\ sp_sub s = xs /\ sp_n s = (length xs - 1)%nat /\
    forall i p t, nth_error (sp_polys s) i = Some p ->
      polynomial p t = node ys i + (node ys (i + 1) - node ys i) / (node xs (i + 1) - node xs i) * (t - node xs i).
Proof.
  intros (HL & HE & HS). unfold linear_spline.
  assert (Hx : xs <> []) by (intros ->; cbn in HL; lia).
  destruct (loop_append (linear_piece nan xs ys) (fun i p => p <> [] /\ forall t,
      polynomial p t = node ys i + (node ys (i + 1) - node ys i) / (node xs (i + 1) - node xs i) * (t - node xs i))
      (length xs - 1)) as (l & El & L1 & L2).
  - intros i Hi. unfold linear_piece. rewrite !arr_node by lia. cbn [obind].
    pose proof (sorted_nth xs i (i + 1) HS ltac:(lia)).
    destruct (Reqb_spec (node xs (i + 1) - node xs i) 0); [lra|].
    eexists; split; [reflexivity|]. split; [discriminate|]. intros t. rewrite polynomial2. ring.
  - destruct xs as [|x0 xs']; [congruence|]. rewrite El. cbn [obind].
    eexists; split; [reflexivity|]. split; [|split; [auto|split; [auto|]]].
    + split; [cbn in *; lia|]. split; [auto|]. split; [cbn in *; lia|]. split; [auto|].
      intros p Hp. apply In_nth_error in Hp. destruct Hp as (k & Hk). apply L2 in Hk. tauto.
    + intros i p t Hp. cbn [sp_polys] in Hp. apply L2 in Hp. apply Hp.
Qed.

Lemma c26_linear nan xs ys : nodes xs ys ->
  exists s, linear_spline nan xs ys = Ok s /\
    (forall i, (i < length xs)%nat -> spline_evaluate s (node xs i) = Ok (node ys i)) /\
    (forall i t, (i + 1 < length xs)%nat -> node xs i <= t <= node xs (i + 1) ->
       spline_evaluate s t =
         Ok (node ys i + (node ys (i + 1) - node ys i) * ((t - node xs i) / (node xs (i + 1) - node xs i)))).
Proof.
  intros HN. destruct (linear_ok nan xs ys HN) as (s & Es & W & S1 & S2 & HP).
  exists s. split; auto. destruct HN as (HL & HE & HS). pose proof W as (W1 & W2 & W3 & W4 & W5).
  assert (HI : forall i t, (i + 1 < length xs)%nat -> node xs i <= t <= node xs (i + 1) ->
       spline_evaluate s t =
         Ok (node ys i + (node ys (i + 1) - node ys i) * ((t - node xs i) / (node xs (i + 1) - node xs i)))).
  { intros i t Hi Ht.
    pose proof (sorted_nth xs i (i + 1) HS ltac:(lia)) as Hlt.
    destruct (nth_error (sp_polys s) i) as [p|] eqn:Hp; [|apply nth_error_None in Hp; lia].
    assert (Hcase : (i = 0%nat \/ node xs i < t) \/ (exists k, i = S k) /\ t = node xs i).
    { destruct i; [auto|]. destruct (proj1 Ht); [auto|]. right. split; eauto. }
    destruct Hcase as [Hc|((k & ->) & ->)].
    - rewrite (evaluate_piece s i p) by (rewrite ?S1; auto). f_equal. rewrite (HP _ _ _ Hp). field. lra.
    - destruct (nth_error (sp_polys s) k) as [q|] eqn:Hq; [|apply nth_error_None in Hq; lia].
      pose proof (sorted_nth xs k (S k) HS ltac:(lia)) as Hlt'.
      replace (k + 1)%nat with (S k) in * by lia.
      rewrite (evaluate_piece s k q).
      + f_equal. rewrite (HP _ _ _ Hq). replace (k + 1)%nat with (S k) by lia. field. lra.
      + auto.
      + auto.
      + rewrite S1. replace (k + 1)%nat with (S k) by lia. lra.
      + rewrite S1. right. auto. }
  split; auto. intros i Hi. destruct (Nat.eq_dec i (length xs - 1)) as [->|Hne].
  - pose proof (sorted_nth xs (length xs - 2) (length xs - 1) HS ltac:(lia)) as Hlt.
    rewrite (HI (length xs - 2)%nat); replace (length xs - 2 + 1)%nat with (length xs - 1)%nat by lia; [|lia|lra].
    f_equal. field. lra.
  - pose proof (sorted_nth xs i (i + 1) HS ltac:(lia)) as Hlt. rewrite (HI i) by (lia || lra). f_equal. field. lra.
Qed.

(** ** Antiderivative *)
Lemma c26_antiderivative s c : well_formed s ->
  exists s', spline_antiderivative s c = Ok s' /\ well_formed s' /\ sp_sub s' = sp_sub s /\ sp_n s' = sp_n s /\
    (forall i p q t, nth_error (sp_polys s) i = Some p -> nth_error (sp_polys s') i = Some q ->
       derivable_pt_lim (polynomial q) t (polynomial p t)) /\
    (forall q, nth_error (sp_polys s') 0 = Some q -> polynomial q (node (sp_sub s) 0) = c) /\
    (forall i q r, nth_error (sp_polys s') i = Some q -> nth_error (sp_polys s') (i + 1) = Some r ->
       polynomial q (node (sp_sub s) (i + 1)) = polynomial r (node (sp_sub s) (i + 1))).
Proof.
  intros (W1 & W2 & W3 & W4 & W5). unfold spline_antiderivative.
  destruct (loop_seq (antiderivative_pass (sp_sub s))
    (fun k '(ps, aux) => length ps = sp_n s /\
       (forall i, (k <= i)%nat -> nth_error ps i = nth_error (sp_polys s) i) /\
       (forall i, (i < k)%nat -> exists p q, nth_error (sp_polys s) i = Some p /\ nth_error ps i = Some q /\ q <> [] /\
          forall t, derivable_pt_lim (polynomial q) t (polynomial p t)) /\
       (k = 0%nat -> aux = c) /\
       (forall i q, S i = k -> nth_error ps i = Some q -> polynomial q (node (sp_sub s) k) = aux) /\
       (forall q, (0 < k)%nat -> nth_error ps 0 = Some q -> polynomial q (node (sp_sub s) 0) = c) /\
       (forall i q r, (i + 1 < k)%nat -> nth_error ps i = Some q -> nth_error ps (i + 1) = Some r ->
          polynomial q (node (sp_sub s) (i + 1)) = polynomial r (node (sp_sub s) (i + 1))))
    0 (sp_n s) (sp_polys s, c)) as ((ps & aux) & E & I1 & I2 & I3 & I4 & I5 & I6 & I7).
  - split; auto. split; auto. split; [intros; lia|]. split; auto. split; [intros; lia|].
    split; [intros; lia|]. intros; lia.
  - intros i (ps & aux) Hi (I1 & I2 & I3 & I4 & I5 & I6 & I7). unfold antiderivative_pass.
    destruct (nth_error (sp_polys s) i) as [p|] eqn:Hp; [|apply nth_error_None in Hp; lia].
    rewrite (arr_get_ok ps i p) by (rewrite I2 by lia; auto). cbn [obind].
    rewrite !arr_node by lia. cbn [obind].
    rewrite c24_evaluate by discriminate. cbn [obind].
    set (q := poly_antiderivative p (aux - polynomial (poly_antiderivative p 0) (node (sp_sub s) i))).
    destruct (arr_set_ok ps i q) as (ps' & -> & L' & N'); [lia|]. cbn [obind].
    rewrite !c24_evaluate by discriminate. cbn [obind].
    eexists; split; [reflexivity|]. cbv beta iota.
    assert (Hq : polynomial q (node (sp_sub s) i) = aux).
    { unfold q, poly_antiderivative. rewrite !polynomial_cons. ring. }
    split; [lia|]. split; [|split; [|split; [|split; [|split]]]].
    + intros k Hk. rewrite N'. destruct (Nat.eqb_spec k i); [lia|]. apply I2. lia.
    + intros k Hk. rewrite N'. destruct (Nat.eqb_spec k i) as [->|Hne].
      * exists p, q. split; auto. split; auto. split; [discriminate|]. intros t. apply c24_antiderivative.
      * apply I3. lia.
    + intros; lia.
    + intros k r Hk. rewrite N'. destruct (Nat.eqb_spec k i) as [->|Hne]; [|lia].
      intros [= <-]. rewrite Hq. replace (i + 1)%nat with (S i) by lia. ring.
    + intros r _. rewrite N'. destruct (Nat.eqb_spec 0 i) as [<-|Hne].
      * intros [= <-]. rewrite Hq. auto.
      * apply I6. lia.
    + intros k r1 r2 Hk. rewrite !N'. destruct (Nat.eqb_spec k i) as [->|Hne]; [lia|].
      destruct (Nat.eqb_spec (k + 1) i) as [<-|Hne'].
      * intros Hr1 [= <-]. rewrite Hq. replace (k + 1)%nat with (S k) in * by lia. eapply I5; eauto.
      * apply I7. lia.
  - rewrite E. cbn [obind fst Nat.add] in *. eexists; split; [reflexivity|].
    cbn [sp_polys sp_sub sp_n]. split; [|split; [auto|split; [auto|split; [|split]]]].
    + split; auto. split; auto. split; auto. split; auto. intros q Hq. apply In_nth_error in Hq.
      destruct Hq as (k & Hk). cbn [sp_polys] in Hk. destruct (I3 k) as (p & q' & _ & Q2 & Q3 & _).
      { rewrite <- I1. apply nth_error_Some. congruence. }
      congruence.
    + intros i p q t Hp Hq. destruct (I3 i) as (p' & q' & P1 & P2 & _ & P3).
      { rewrite <- I1. apply nth_error_Some. congruence. }
      replace q with q' by congruence. replace p with p' by congruence. auto.
    + intros q Hq. apply I6; auto.
    + intros i q r Hq Hr. apply I7; auto. rewrite <- I1. apply nth_error_Some. congruence.
Qed.

(** ** Cubic splines *)
Section Cubic.
Variables (x y : nat -> R) (n : nat).
Hypothesis (Hn : (1 <= n)%nat) (Hx : forall i, (i < n)%nat -> x i < x (i + 1)%nat).
Notation h := (cs_h x).
Notation mu := (cs_mu x y).
Notation z := (cs_z x y).
Notation l := (cs_l x y).
Notation c := (cs_c x y n).
Notation b := (cs_b x y n).
Notation d := (cs_d x y n).

Lemma h_pos i : (i < n)%nat -> 0 < h i.
Proof. intros H. unfold cs_h. pose proof (Hx i H). lra. Qed.
Lemma l_S k : l (S k) = 2 * (x (S k + 1)%nat - x k) - h k * mu k.
Proof.
  unfold cs_l, cs_mu. cbn [cs_mzl]. destruct (cs_mzl x y k) as [[m zz] ll]. cbn [fst snd].
  replace (S k - 1)%nat with k by lia. auto.
Qed.
Lemma mu_S k : mu (S k) = h (S k) / l (S k).
Proof.
  unfold cs_l, cs_mu. cbn [cs_mzl]. destruct (cs_mzl x y k) as [[m zz] ll]. cbn [fst snd]. auto.
Qed.
Lemma z_S k : z (S k) = (cs_alpha x y (S k) - h k * z k) / l (S k).
Proof.
  unfold cs_l, cs_z. cbn [cs_mzl]. destruct (cs_mzl x y k) as [[m zz] ll]. cbn [fst snd].
  replace (S k - 1)%nat with k by lia. auto.
Qed.
Lemma mu_bounds k : (k < n)%nat -> 0 <= mu k < 1.
Proof.
  induction k as [|k IH]; intros Hk; [cbn; lra|].
  specialize (IH ltac:(lia)). pose proof (h_pos k ltac:(lia)). pose proof (h_pos (S k) ltac:(lia)).
  assert (HL : h (S k) < l (S k)).
  { rewrite l_S. replace (x (S k + 1)%nat - x k) with (h (S k) + h k) by (unfold cs_h; rewrite !Nat.add_1_r; ring).
    assert (h k * mu k <= h k * 1) by (apply Rmult_le_compat_l; lra). lra. }
  rewrite mu_S. split.
  - apply Rmult_le_pos; [lra|]. left. apply Rinv_0_lt_compat. lra.
  - apply Rmult_lt_reg_r with (l (S k)); [lra|]. unfold Rdiv. rewrite Rmult_assoc, Rinv_l by lra. lra.
Qed.
Lemma l_pos k : (S k < n)%nat -> 0 < l (S k).
Proof.
  intros Hk. pose proof (mu_bounds k ltac:(lia)). pose proof (h_pos k ltac:(lia)). pose proof (h_pos (S k) ltac:(lia)).
  rewrite l_S. replace (x (S k + 1)%nat - x k) with (h (S k) + h k) by (unfold cs_h; rewrite !Nat.add_1_r; ring).
  assert (h k * mu k <= h k * 1) by (apply Rmult_le_compat_l; lra). lra.
Qed.
Lemma regular : cs_regular x y n = true.
Proof.
  unfold cs_regular. apply andb_true_intro. split; apply forallb_forall; intros i Hi; apply in_seq in Hi;
    apply negb_true_iff, Reqb_false.
  - pose proof (h_pos i ltac:(lia)). lra.
  - destruct i; [lia|]. pose proof (l_pos i ltac:(lia)). lra.
Qed.
Lemma c_n : c n = 0.
Proof. unfold cs_c. rewrite Nat.sub_diag. auto. Qed.
Lemma c_rec j : (j < n)%nat -> c j = z j - mu j * c (j + 1).
Proof.
  intros Hj. unfold cs_c. replace (n - j)%nat with (S (n - (j + 1))) by lia. cbn [cs_c_back].
  replace (n - S (n - (j + 1)))%nat with j by lia. auto.
Qed.
Lemma c_0 : c 0 = 0.
Proof. rewrite c_rec by lia. cbn. ring. Qed.

(** The tridiagonal system of the natural spline *)
Lemma tridiagonal k : (S k < n)%nat ->
  h k * c k + 2 * (h k + h (S k)) * c (S k) + h (S k) * c (S k + 1) = cs_alpha x y (S k).
Proof.
  intros Hk. pose proof (l_pos k Hk) as HL.
  assert (E : l (S k) * c (S k) + h (S k) * c (S k + 1) = cs_alpha x y (S k) - h k * z k).
  { rewrite (c_rec (S k)) by lia. rewrite z_S, mu_S. field. lra. }
  assert (E2 : c k = z k - mu k * c (S k)). { rewrite (c_rec k) by lia. rewrite Nat.add_1_r. auto. }
  assert (E3 : l (S k) = 2 * (h k + h (S k)) - h k * mu k).
  { rewrite l_S. unfold cs_h. rewrite !Nat.add_1_r. ring. }
  rewrite E2. rewrite E3 in E. lra.
Qed.

(** Piece i in local form and its derivatives *)
Definition q0 i t := y i + b i * (t - x i) + c i * (t - x i) ^ 2 + d i * (t - x i) ^ 3.
Definition q1 i t := b i + 2 * c i * (t - x i) + 3 * d i * (t - x i) ^ 2.
Definition q2 i t := 2 * c i + 6 * d i * (t - x i).
Lemma q1_derives i t : derivable_pt_lim (q1 i) t (q2 i t).
Proof.
  set (u := (id - fct_cte (x i))%F).
  assert (Hu : derivable_pt_lim u t (1 - 0)).
  { apply derivable_pt_lim_minus; [apply derivable_pt_lim_id|apply derivable_pt_lim_const]. }
  apply derivable_pt_lim_ext with (f := (fct_cte (b i) + (mult_real_fct (2 * c i) u +
    mult_real_fct (3 * d i) (u * u)))%F).
  - intros w. unfold q1, u, plus_fct, mult_real_fct, minus_fct, mult_fct, id, fct_cte. cbn. ring.
  - replace (q2 i t) with (0 + ((2 * c i) * (1 - 0) + (3 * d i) * ((1 - 0) * u t + u t * (1 - 0))))
      by (unfold q2, u, minus_fct, id, fct_cte; ring).
    apply derivable_pt_lim_plus; [apply derivable_pt_lim_const|].
    apply derivable_pt_lim_plus; apply derivable_pt_lim_scal; [exact Hu|].
    apply derivable_pt_lim_mult; exact Hu.
Qed.
Lemma q0_derives i t : derivable_pt_lim (q0 i) t (q1 i t).
Proof.
  set (u := (id - fct_cte (x i))%F).
  assert (Hu : derivable_pt_lim u t (1 - 0)).
  { apply derivable_pt_lim_minus; [apply derivable_pt_lim_id|apply derivable_pt_lim_const]. }
  apply derivable_pt_lim_ext with (f := (fct_cte (y i) + (mult_real_fct (b i) u + (mult_real_fct (c i) (u * u) +
    mult_real_fct (d i) (u * (u * u)))))%F).
  - intros w. unfold q0, u, plus_fct, mult_real_fct, minus_fct, mult_fct, id, fct_cte. cbn. ring.
  - replace (q1 i t) with (0 + (b i * (1 - 0) + (c i * ((1 - 0) * u t + u t * (1 - 0)) +
       d i * ((1 - 0) * (u * u)%F t + u t * ((1 - 0) * u t + u t * (1 - 0))))))
      by (unfold q1, u, mult_fct, minus_fct, id, fct_cte; ring).
    apply derivable_pt_lim_plus; [apply derivable_pt_lim_const|].
    apply derivable_pt_lim_plus; [apply derivable_pt_lim_scal; exact Hu|].
    apply derivable_pt_lim_plus; apply derivable_pt_lim_scal.
    + apply derivable_pt_lim_mult; exact Hu.
    + apply derivable_pt_lim_mult; [exact Hu|]. apply derivable_pt_lim_mult; exact Hu.
Qed.
Lemma q0_left i : q0 i (x i) = y i.
Proof. unfold q0. ring. Qed.
Lemma q0_right i : (i < n)%nat -> q0 i (x (i + 1)%nat) = y (i + 1)%nat.
Proof.
  intros Hi. pose proof (h_pos i Hi). unfold q0. change (x (i + 1)%nat - x i) with (h i).
  unfold cs_b, cs_d. field. lra.
Qed.
Lemma q2_cont i : (i < n)%nat -> q2 i (x (i + 1)%nat) = 2 * c (i + 1).
Proof.
  intros Hi. pose proof (h_pos i Hi). unfold q2. change (x (i + 1)%nat - x i) with (h i). unfold cs_d. field. lra.
Qed.
Lemma q1_cont i : (S i < n)%nat -> q1 i (x (i + 1)%nat) = q1 (i + 1) (x (i + 1)%nat).
Proof.
  intros Hi. pose proof (h_pos i ltac:(lia)) as H0. pose proof (h_pos (S i) ltac:(lia)) as H1. unfold q1.
  change (x (i + 1)%nat - x i) with (h i). replace (x (i + 1)%nat - x (i + 1)%nat) with 0 by ring.
  pose proof (tridiagonal i Hi) as HT. unfold cs_alpha in HT.
  replace (S i - 1)%nat with i in HT by lia. unfold cs_b, cs_d. rewrite !Nat.add_1_r in *.
  match goal with |- ?L = ?R => assert (E : 3 * (L - R) =
    h i * c i + 2 * (h i + h (S i)) * c (S i) + h (S i) * c (S (S i)) -
    (3 / h (S i) * (y (S (S i)) - y (S i)) - 3 / h i * (y (S i) - y i))) by (field; lra) end.
  rewrite HT in E. lra.
Qed.
End Cubic.

Lemma polynomial4 a b c d x : polynomial [a; b; c; d] x = a + b * x + c * x ^ 2 + d * x ^ 3.
Proof. cbn. ring. Qed.

Lemma cubic_piece xs ys i : (i + 1 < length xs)%nat -> resolved xs ->
  let x k := nth k xs 0 in let y k := nth k ys 0 in
  exists p, poly_shift (cs_coeff x y (length xs - 1) i) (- x i) = Ok p /\ length p = 4%nat /\
    forall t, polynomial p t = q0 x y (length xs - 1) i t.
Proof.
  intros Hi HR x y. set (n := (length xs - 1)%nat).
  destruct (HR i Hi) as [H0|H0]; unfold node in H0; fold (x i) in H0.
  - rewrite c24_small_shift.
    + eexists; split; [reflexivity|]. split; [reflexivity|]. intros t. unfold cs_coeff, q0.
      rewrite polynomial4, H0. ring.
    + rewrite H0, Ropp_0, Rabs_R0. pose proof eps_pos. lra.
  - destruct (c24_shift (cs_coeff x y n i) (- x i)) as (p & E & L & HP).
    + discriminate.
    + rewrite Rabs_Ropp. auto.
    + exists p. split; auto. split; [rewrite L; auto|]. intros t. rewrite HP. unfold cs_coeff, q0.
      rewrite polynomial4. ring.
Qed.

Lemma cubic_unfold nan xs ys : xs <> [] -> cubic_spline nan xs ys =
  if (length ys <? length xs)%nat then UB out_of_bounds
  else
    let n := (length xs - 1)%nat in
    let x i := nth i xs 0 in
    let y i := nth i ys 0 in
    if negb (cs_regular x y n) then nan
    else
      olet ps := loop (fun ps i => olet p := poly_shift (cs_coeff x y n i) (- x i) in Ok (ps ++ [p])) (seq 0 n) [] in
      Ok (mkspline ps xs n).
Proof. destruct xs; [congruence|auto]. Qed.

Lemma c26_cubic nan xs ys : nodes xs ys -> resolved xs ->
  exists s, cubic_spline nan xs ys = Ok s /\ well_formed s /\ sp_sub s = xs /\ sp_n s = (length xs - 1)%nat /\
    natural_cubic xs ys (sp_polys s).
Proof.
  intros (HL & HE & HS) HR.
  assert (Hx0 : xs <> []) by (intros ->; cbn in HL; lia).
  rewrite cubic_unfold by auto.
  set (n := (length xs - 1)%nat). set (x k := nth k xs 0). set (y k := nth k ys 0).
  assert (Hx : forall i, (i < n)%nat -> x i < x (i + 1)%nat).
  { intros i Hi. apply (sorted_nth xs); auto. lia. }
  assert (Hn : (1 <= n)%nat) by lia.
  destruct (loop_append (fun i => poly_shift (cs_coeff x y n i) (- x i))
     (fun i p => length p = 4%nat /\ forall t, polynomial p t = q0 x y n i t) n) as (ps & Eps & L1 & L2).
  { intros i Hi. apply cubic_piece; auto. lia. }
  destruct (Nat.ltb_spec (length ys) (length xs)) as [Hlt|_]; [lia|].
  cbv zeta. fold n. fold x. fold y. rewrite (regular x y n) by auto. cbn [negb]. rewrite Eps. cbn [obind].
  eexists; split; [reflexivity|]. cbn [sp_polys sp_sub sp_n]. split; [|split; [auto|split; [auto|]]].
  - split; [auto|]. split; [auto|]. cbn [sp_sub sp_n sp_polys]. split; [lia|]. split; auto.
    intros p Hp. apply In_nth_error in Hp. destruct Hp as (k & Hk). apply L2 in Hk.
    intros ->. destruct Hk. discriminate.
  - split; [auto|]. exists (q1 x y n), (q2 x y n). split; [|split; [|split; [|split]]].
    + intros i p t Hp. apply L2 in Hp. destruct Hp as (P1 & P2). split; auto. split.
      * apply derivable_pt_lim_ext with (f := q0 x y n i); [auto|apply q0_derives].
      * apply q1_derives.
    + intros i p Hp. assert (Hi : (i < n)%nat) by (rewrite <- L1; apply nth_error_Some; congruence).
      apply L2 in Hp. destruct Hp as (_ & P2). rewrite !P2. split.
      * apply q0_left.
      * apply (q0_right x y n); auto.
    + intros i Hi. change (node xs (i + 1)) with (x (i + 1)%nat). split.
      * apply (q1_cont x y n); auto; lia.
      * rewrite (q2_cont x y n) by (auto; lia). unfold q2. ring.
    + unfold q2. change (node xs 0) with (x 0%nat). rewrite (c_0 x y n) by auto. ring.
    + replace (length xs - 2)%nat with (n - 1)%nat by lia. change (length xs - 1)%nat with n.
      change (node xs n) with (x n). replace (x n) with (x (n - 1 + 1)%nat) by (f_equal; lia).
      rewrite (q2_cont x y n) by (auto; lia). replace (n - 1 + 1)%nat with n by lia. rewrite c_n. ring.
Qed.

(** Any well-formed spline whose pieces interpolate their nodes does so when
    evaluated. *)
Lemma interpolates s xs ys : well_formed s -> sp_sub s = xs -> length xs = S (sp_n s) ->
  (forall i p, nth_error (sp_polys s) i = Some p ->
     polynomial p (node xs i) = node ys i /\ polynomial p (node xs (i + 1)) = node ys (i + 1)) ->
  forall i, (i < length xs)%nat -> spline_evaluate s (node xs i) = Ok (node ys i).
Proof.
  intros W S1 HL HP i Hi. pose proof W as (W1 & W2 & W3 & W4 & W5). rewrite S1 in *.
  destruct i as [|k].
  - destruct (nth_error (sp_polys s) 0) as [p|] eqn:Hp; [|apply nth_error_None in Hp; lia].
    rewrite (evaluate_piece s 0 p); auto; rewrite ?S1.
    + f_equal. apply HP; auto.
    + pose proof (sorted_nth xs 0 (0 + 1) W4 ltac:(lia)). lra.
  - destruct (nth_error (sp_polys s) k) as [p|] eqn:Hp; [|apply nth_error_None in Hp; lia].
    pose proof (sorted_nth xs k (S k) W4 ltac:(lia)).
    rewrite (evaluate_piece s k p); auto; rewrite ?S1.
    + f_equal. destruct (HP k p Hp) as [_ E]. rewrite Nat.add_1_r in E. auto.
    + rewrite Nat.add_1_r. unfold node in *. lra.
    + right. unfold node in *. lra.
Qed.
Lemma c26_cubic_interpolates nan xs ys : nodes xs ys -> resolved xs ->
  exists s, cubic_spline nan xs ys = Ok s /\ natural_cubic xs ys (sp_polys s) /\
    (forall i, (i < length xs)%nat -> spline_evaluate s (node xs i) = Ok (node ys i)) /\
    (forall i p t, nth_error (sp_polys s) i = Some p -> node xs i < t <= node xs (i + 1) ->
       spline_evaluate s t = Ok (polynomial p t)).
Proof.
  intros HN HR. destruct (c26_cubic nan xs ys HN HR) as (s & E & W & S1 & S2 & NC).
  exists s. split; auto. split; auto. destruct HN as (HL & HE & HS). split.
  - apply interpolates; auto; [lia|]. destruct NC as (_ & d1 & d2 & _ & H & _). auto.
  - intros i p t Hp Ht. eapply evaluate_piece; eauto; rewrite S1; [lra|]. right; lra.
Qed.

(** ** Findings *)
(** A node within the geometry precision of zero (but not zero) is missed. *)
Lemma c26_tiny_refuted nan :
  exists xs ys s, nodes xs ys /\ cubic_spline nan xs ys = Ok s /\
    spline_evaluate s (node xs 0) <> Ok (node ys 0).
Proof.
  pose proof eps_pos as HE. assert (HE1 : GEOMETRY_PRECISION < 1) by (unfold GEOMETRY_PRECISION; lra).
  set (e := GEOMETRY_PRECISION / 2). assert (He : 0 < e < 1) by (unfold e; lra).
  set (xs := [e; 1]). set (ys := [0; 1]).
  assert (HS : StronglySorted Rlt xs). { repeat constructor. lra. }
  exists xs, ys. eexists. split; [|split].
  - split; [cbn; lia|]. split; auto.
  - unfold cubic_spline, xs at 1. change (length ys <? length xs)%nat with false. cbv iota.
    change (length xs - 1)%nat with 1%nat. cbv zeta.
    rewrite regular; [|lia|intros i Hi; replace i with 0%nat by lia; cbn; lra].
    cbn [negb seq loop nth xs]. rewrite c24_small_shift.
    + cbn [obind app]. reflexivity.
    + unfold xs. cbn [nth]. rewrite Rabs_Ropp, Rabs_right by lra. unfold e. lra.
  - rewrite (evaluate_piece _ 0 (cs_coeff (fun i => nth i xs 0) (fun i => nth i ys 0) 1 0)).
    + intros H. injection H as H. unfold cs_coeff in H. rewrite polynomial4 in H.
      rewrite (c_0 _ _ 1) in H by lia. unfold cs_b, cs_d in H. cbn [Nat.add] in H.
      rewrite c_n, (c_0 _ _ 1) in H by lia.
      unfold node, xs, ys, cs_h in H. cbn [nth Nat.add] in H.
      assert (H2 : e * / (1 - e) = 0).
      { rewrite <- H. field. lra. }
      apply Rmult_integral in H2. destruct H2 as [H2|H2]; [lra|].
      pose proof (Rinv_0_lt_compat (1 - e) ltac:(lra)). lra.
    + split; [cbn; lia|]. split; [auto|]. split; [auto|]. split; [auto|]. intros p [<-|[]]. discriminate.
    + reflexivity.
    + cbn [sp_sub]. unfold node, xs; cbn. lra.
    + auto.
Qed.

(** Derivative() does nothing. *)
Lemma c26_derivative_refuted nan :
  exists xs ys s, nodes xs ys /\ linear_spline nan xs ys = Ok s /\
    exists i p, nth_error (sp_polys s) i = Some p /\
      spline_derivative s = s /\ ~ derivable_pt_lim (polynomial p) 0 (polynomial p 0).
Proof.
  exists [0; 1], [0; 1]. unfold linear_spline, linear_piece. cbn. destruct (Reqb_spec (1 - 0) 0); [lra|].
  eexists. split; [|split; [reflexivity|]].
  - split; [cbn; lia|]. split; auto. repeat constructor. lra.
  - exists 0%nat. eexists. split; [reflexivity|]. split; [reflexivity|]. intros H.
    pose proof (c24_derivative [0 - (1 - 0) / (1 - 0) * 0; (1 - 0) / (1 - 0)] 0) as H2.
    pose proof (uniqueness_limite _ _ _ _ H H2) as E. cbn in E. field_simplify in E. lra.
Qed.

(** A spline built from polynomials counts one interval too many. *)
Lemma c26_from_refuted :
  exists polys sub, length polys = (length sub - 1)%nat /\ StronglySorted Rlt sub /\
    (exists x, spline_evaluate (spline_from polys sub) x = UB out_of_bounds) /\
    (forall c, spline_antiderivative (spline_from polys sub) c = UB out_of_bounds).
Proof.
  exists [[0; 1]], [0; 1]. split; [auto|]. split; [repeat constructor; lra|]. split.
  - exists 2. unfold spline_evaluate, spline_from. cbn [sp_n length seq spline_search sp_sub arr_get nth_error obind Nat.add].
    unfold arr_get; cbn [nth_error obind].
    destruct (Rleb_spec 0 2); [|lra]. cbn [obind]. destruct (Rleb_spec 2 1); [lra|].
    destruct (Rleb_spec 1 2); [|lra]. reflexivity.
  - intros c. reflexivity.
Qed.

(** ** The antiderivative as a function on the whole line *)
(** Piece i answers for its half-open interval, the first and the last one also
    for everything outside. *)
Definition region (s : spline) (i : nat) (y : R) : Prop :=
  (i = 0%nat \/ node (sp_sub s) i < y) /\ ((i + 1)%nat = sp_n s \/ y <= node (sp_sub s) (i + 1)).
Lemma evaluate_region s i p y : well_formed s -> nth_error (sp_polys s) i = Some p -> region s i y ->
  spline_evaluate s y = Ok (polynomial p y).
Proof.
  intros W Hp [R1 R2]. pose proof W as (W1 & W2 & W3 & W4 & W5).
  assert (Hi : (i < sp_n s)%nat) by (rewrite <- W2; apply nth_error_Some; congruence).
  destruct (Rlt_dec y (node (sp_sub s) i)) as [H1|H1].
  { destruct R1 as [->|R1]; [|lra]. destruct (proj1 (evaluate_outside s y W) H1) as (p' & E1 & E2). congruence. }
  destruct (Rlt_dec (node (sp_sub s) (i + 1)) y) as [H2|H2].
  { destruct R2 as [R2|R2]; [|lra]. rewrite R2 in H2.
    destruct (proj2 (evaluate_outside s y W) H2) as (p' & E1 & E2).
    replace (sp_n s - 1)%nat with i in E1 by lia. congruence. }
  apply (evaluate_piece s i p y); auto; lra.
Qed.
Lemma find_region s y : well_formed s -> exists i, (i < sp_n s)%nat /\ region s i y.
Proof.
  intros (W1 & W2 & W3 & W4 & W5).
  assert (H : forall k, (k < sp_n s)%nat -> (exists i, (i <= k)%nat /\ region s i y) \/ node (sp_sub s) (k + 1) < y).
  { induction k as [|k IH]; intros Hk.
    - destruct (Rlt_dec (node (sp_sub s) (0 + 1)) y); [right; auto|left]. exists 0%nat. split; auto.
      split; [auto|right; lra].
    - destruct (IH ltac:(lia)) as [(i & I1 & I2)|H]; [left; exists i; split; auto; lia|].
      destruct (Rlt_dec (node (sp_sub s) (S k + 1)) y); [right; auto|left]. exists (S k). split; auto.
      split; [right; replace (S k) with (k + 1)%nat by lia; auto|right; lra]. }
  destruct (H (sp_n s - 1)%nat ltac:(lia)) as [(i & I1 & I2)|H1].
  - exists i. split; auto. lia.
  - exists (sp_n s - 1)%nat. split; [lia|]. split; [|left; lia].
    right. pose proof (sorted_nth (sp_sub s) (sp_n s - 1) (sp_n s - 1 + 1) W4 ltac:(lia)). unfold node in *. lra.
Qed.

(** Two differentiable halves which agree at the seam *)
Lemma derivable_glue f q r x d eta : 0 < eta ->
  (forall y, x - eta < y <= x -> f y = q y) -> (forall y, x <= y < x + eta -> f y = r y) ->
  derivable_pt_lim q x d -> derivable_pt_lim r x d -> derivable_pt_lim f x d.
Proof.
  intros He HL HR Dq Dr eps Heps. destruct (Dq eps Heps) as (d1 & H1). destruct (Dr eps Heps) as (d2 & H2).
  assert (Hd : 0 < Rmin eta (Rmin d1 d2)).
  { apply Rmin_pos; auto. apply Rmin_pos; [apply (cond_pos d1)|apply (cond_pos d2)]. }
  exists (mkposreal _ Hd). intros h Hh Hab. cbn [pos] in Hab.
  assert (A1 : Rabs h < eta) by (eapply Rlt_le_trans; [exact Hab|apply Rmin_l]).
  assert (A2 : Rabs h < d1).
  { eapply Rlt_le_trans; [exact Hab|]. eapply Rle_trans; [apply Rmin_r|apply Rmin_l]. }
  assert (A3 : Rabs h < d2).
  { eapply Rlt_le_trans; [exact Hab|]. eapply Rle_trans; [apply Rmin_r|apply Rmin_r]. }
  assert (A4 : - eta < h < eta) by (unfold Rabs in A1; destruct (Rcase_abs h); lra).
  destruct (Rle_dec h 0).
  - rewrite (HL (x + h)), (HL x) by lra. apply H1; auto.
  - rewrite (HR (x + h)), (HR x) by lra. apply H2; auto.
Qed.

(** The pieces meet at the inner nodes. *)
Definition joined (s : spline) : Prop :=
  forall i p r, nth_error (sp_polys s) i = Some p -> nth_error (sp_polys s) (i + 1) = Some r ->
    polynomial p (node (sp_sub s) (i + 1)) = polynomial r (node (sp_sub s) (i + 1)).

Lemma antiderivative_everywhere s c : well_formed s -> joined s ->
  exists s' F, spline_antiderivative s c = Ok s' /\ F (node (sp_sub s) 0) = c /\
    (forall x, spline_evaluate s' x = Ok (F x)) /\
    (forall x, exists y, spline_evaluate s x = Ok y /\ derivable_pt_lim F x y).
Proof.
  intros W J. destruct (c26_antiderivative s c W) as (s' & E & W' & S1 & S2 & D & V & C).
  pose proof W as (W1 & W2 & W3 & W4 & W5). pose proof W' as (X1 & X2 & X3 & X4 & X5).
  set (F x := match spline_evaluate s' x with Ok v => v | _ => 0 end).
  assert (HR : forall i y, region s i y <-> region s' i y).
  { intros i y. unfold region. rewrite S1, S2. tauto. }
  assert (HF : forall i q y, nth_error (sp_polys s') i = Some q -> region s i y -> F y = polynomial q y).
  { intros i q y Hq Hy. apply HR in Hy. unfold F. rewrite (evaluate_region s' i q); auto. }
  exists s', F. split; auto.
  assert (HP : forall i, (i < sp_n s)%nat -> exists p q, nth_error (sp_polys s) i = Some p /\ nth_error (sp_polys s') i = Some q).
  { intros i Hi. destruct (nth_error (sp_polys s) i) as [p|] eqn:Ep; [|apply nth_error_None in Ep; lia].
    destruct (nth_error (sp_polys s') i) as [q|] eqn:Eq; [|apply nth_error_None in Eq; lia]. eauto. }
  split; [|split].
  - destruct (HP 0%nat ltac:(lia)) as (p & q & Hp & Hq). rewrite (HF 0%nat q); auto.
    split; [auto|right]. pose proof (sorted_nth (sp_sub s) 0 (0 + 1) W4 ltac:(lia)). unfold node in *. lra.
  - intros x. destruct (find_region s' x W') as (i & Hi & Hr). rewrite S2 in Hi.
    destruct (HP i Hi) as (p & q & Hp & Hq). unfold F. rewrite (evaluate_region s' i q x); auto.
  - intros x. destruct (find_region s x W) as (i & Hi & Hr).
    destruct (HP i Hi) as (p & q & Hp & Hq).
    exists (polynomial p x). split; [apply (evaluate_region s i p); auto|].
    (* left *)
    assert (HL : exists e, 0 < e /\ forall y, x - e < y <= x -> F y = polynomial q y).
    { destruct Hr as [[Hr1|Hr1] Hr2].
      - exists 1. split; [lra|]. intros y Hy. apply (HF i q); auto. split; [auto|]. destruct Hr2; [auto|right; lra].
      - exists (x - node (sp_sub s) i). split; [lra|]. intros y Hy. apply (HF i q); auto.
        split; [right; lra|]. destruct Hr2; [auto|right; lra]. }
    destruct HL as (e1 & He1 & HL).
    assert (HRt : exists e r, 0 < e /\ (forall y, x <= y < x + e -> F y = polynomial r y) /\
        derivable_pt_lim (polynomial r) x (polynomial p x)).
    { pose proof Hr as [Hr1 Hr2]. destruct Hr2 as [Hr2|Hr2].
      - exists 1, q. split; [lra|]. split; [|eauto]. intros y Hy. apply (HF i q); auto. 
        split; [destruct Hr1; [auto|right; lra]|auto].
      - destruct (Rle_lt_or_eq_dec _ _ Hr2) as [Hlt|Heq].
        + exists (node (sp_sub s) (i + 1) - x), q. split; [lra|]. split; [|eauto]. intros y Hy.
          apply (HF i q); auto. split; [destruct Hr1; [auto|right; lra]|right; lra].
        + destruct (Nat.eq_dec (i + 1) (sp_n s)) as [En|En].
          * exists 1, q. split; [lra|]. split; [|eauto]. intros y Hy. apply (HF i q); auto. 
            split; [destruct Hr1; [auto|right; lra]|auto].
          * destruct (HP (i + 1)%nat ltac:(lia)) as (p' & q' & Hp' & Hq').
            pose proof (sorted_nth (sp_sub s) (i + 1) (i + 1 + 1) W4 ltac:(lia)) as Hs.
            exists (node (sp_sub s) (i + 1 + 1) - x), q'. unfold node in *. split; [lra|]. split.
            -- intros y [Hy1 Hy2]. destruct Hy1 as [Hy1|Hy1].
               ++ apply (HF (i + 1)%nat q'); auto. unfold region, node. split; right; lra.
               ++ subst y. rewrite (HF i q); auto. rewrite Heq. apply (C i); auto.
            -- replace (polynomial p x) with (polynomial p' x); [eapply D; eauto|]. rewrite Heq. symmetry. apply (J i p p'); auto. }
    destruct HRt as (e2 & r & He2 & HRt & Dr).
    apply (derivable_glue F (polynomial q) (polynomial r) x _ (Rmin e1 e2)).
    + apply Rmin_pos; auto.
    + intros y Hy. apply HL. pose proof (Rmin_l e1 e2). lra.
    + intros y Hy. apply HRt. pose proof (Rmin_r e1 e2). lra.
    + eapply D; eauto.
    + auto.
Qed.

(** Continuity *)
Lemma continuity_glue f q r x eta : 0 < eta ->
  (forall y, x - eta < y <= x -> f y = q y) -> (forall y, x <= y < x + eta -> f y = r y) ->
  continuity_pt q x -> continuity_pt r x -> continuity_pt f x.
Proof.
  intros He HL HR Dq Dr eps Heps. destruct (Dq eps Heps) as (d1 & P1 & H1). destruct (Dr eps Heps) as (d2 & P2 & H2).
  exists (Rmin eta (Rmin d1 d2)). split.
  { apply Rmin_pos; auto. apply Rmin_pos; auto. }
  intros y [HD Hab]. cbn in *. unfold R_dist in *.
  pose proof (Rmin_l eta (Rmin d1 d2)). pose proof (Rmin_r eta (Rmin d1 d2)).
  pose proof (Rmin_l d1 d2). pose proof (Rmin_r d1 d2).
  assert (A4 : - eta < y - x < eta) by (unfold Rabs in Hab; destruct (Rcase_abs (y - x)); lra).
  destruct (Rle_dec y x).
  - rewrite (HL y), (HL x) by lra. apply H1. split; auto. lra.
  - rewrite (HR y), (HR x) by lra. apply H2. split; auto. lra.
Qed.
Lemma polynomial_continuity p x : continuity_pt (polynomial p) x.
Proof. apply derivable_continuous_pt. exists (polynomial (poly_derivative p) x). apply c24_derivative. Qed.
Lemma spline_continuity s : well_formed s -> joined s ->
  forall f, (forall x, spline_evaluate s x = Ok (f x)) -> forall x, continuity_pt f x.
Proof.
  intros W J f Hf x. pose proof W as (W1 & W2 & W3 & W4 & W5).
  assert (HF : forall i q y, nth_error (sp_polys s) i = Some q -> region s i y -> f y = polynomial q y).
  { intros i q y Hq Hy. pose proof (evaluate_region s i q y W Hq Hy) as E. rewrite Hf in E. congruence. }
  assert (HP : forall i, (i < sp_n s)%nat -> exists p, nth_error (sp_polys s) i = Some p).
  { intros i Hi. destruct (nth_error (sp_polys s) i) as [p|] eqn:Ep; [|apply nth_error_None in Ep; lia]. eauto. }
  destruct (find_region s x W) as (i & Hi & Hr). destruct (HP i Hi) as (q & Hq).
  assert (HL : exists e, 0 < e /\ forall y, x - e < y <= x -> f y = polynomial q y).
  { destruct Hr as [[Hr1|Hr1] Hr2].
    - exists 1. split; [lra|]. intros y Hy. apply (HF i q); auto. split; [auto|]. destruct Hr2; [auto|right; lra].
    - exists (x - node (sp_sub s) i). split; [lra|]. intros y Hy. apply (HF i q); auto.
      split; [right; lra|]. destruct Hr2; [auto|right; lra]. }
  destruct HL as (e1 & He1 & HL).
  assert (HRt : exists e r, 0 < e /\ (forall y, x <= y < x + e -> f y = polynomial r y)).
  { pose proof Hr as [Hr1 Hr2]. destruct Hr2 as [Hr2|Hr2].
    - exists 1, q. split; [lra|]. intros y Hy. apply (HF i q); auto. 
      split; [destruct Hr1; [auto|right; lra]|auto].
    - destruct (Rle_lt_or_eq_dec _ _ Hr2) as [Hlt|Heq].
      + exists (node (sp_sub s) (i + 1) - x), q. split; [lra|]. intros y Hy.
        apply (HF i q); auto. split; [destruct Hr1; [auto|right; lra]|right; lra].
      + destruct (Nat.eq_dec (i + 1) (sp_n s)) as [En|En].
        * exists 1, q. split; [lra|]. intros y Hy. apply (HF i q); auto. 
          split; [destruct Hr1; [auto|right; lra]|auto].
        * destruct (HP (i + 1)%nat ltac:(lia)) as (q' & Hq').
          pose proof (sorted_nth (sp_sub s) (i + 1) (i + 1 + 1) W4 ltac:(lia)) as Hs.
          exists (node (sp_sub s) (i + 1 + 1) - x), q'. unfold node in *. split; [lra|].
          intros y [Hy1 Hy2]. destruct Hy1 as [Hy1|Hy1].
          -- apply (HF (i + 1)%nat q'); auto. unfold region, node. split; right; lra.
          -- subst y. rewrite (HF i q); auto. rewrite Heq. apply (J i); auto. }
  destruct HRt as (e2 & r & He2 & HRt).
  apply (continuity_glue f (polynomial q) (polynomial r) x (Rmin e1 e2)).
  - apply Rmin_pos; auto.
  - intros y Hy. apply HL. pose proof (Rmin_l e1 e2). lra.
  - intros y Hy. apply HRt. pose proof (Rmin_r e1 e2). lra.
  - apply polynomial_continuity.
  - apply polynomial_continuity.
Qed.

Lemma built_spline nan nan' xs ys s : nodes xs ys ->
  linear_spline nan xs ys = Ok s \/ (cubic_spline nan' xs ys = Ok s /\ resolved xs) ->
  well_formed s /\ joined s /\ sp_sub s = xs.
Proof.
  intros HN [H|[H HR]].
  - destruct (linear_ok nan xs ys HN) as (s1 & E & W & S1 & S2 & HP). assert (s1 = s) by congruence. subst s1.
    split; auto. split; auto.
    intros i p r Hp Hr. rewrite (HP i p), (HP (i + 1)%nat r) by auto. rewrite S1.
    destruct HN as (HL & HE & HS). pose proof W as (W1 & W2 & W3 & W4 & W5).
    assert ((i < sp_n s)%nat) by (rewrite <- W2; apply nth_error_Some; congruence).
    pose proof (sorted_nth xs i (i + 1) HS ltac:(lia)). unfold node in *.
    assert (nth (i + 1) xs 0 - nth i xs 0 <> 0) by lra. 
    set (u := nth (i + 1) xs 0) in *. set (v := nth i xs 0) in *. replace (u - u) with 0 by ring. rewrite Rmult_0_r. field. auto.
  - destruct (c26_cubic nan' xs ys HN HR) as (s1 & E & W & S1 & S2 & NC). assert (s1 = s) by congruence. subst s1.
    split; auto. split; auto.
    destruct NC as (_ & d1 & d2 & _ & H1 & _). intros i p r Hp Hr. rewrite S1.
    destruct (H1 i p Hp) as [_ ->]. destruct (H1 (i + 1)%nat r Hr) as [-> _]. auto.
Qed.

Lemma c26_antiderivative_full nan nan' xs ys s (c : R) : nodes xs ys ->
  linear_spline nan xs ys = Ok s \/ (cubic_spline nan' xs ys = Ok s /\ resolved xs) ->
  exists s' F, spline_antiderivative s c = Ok s' /\ F (node xs 0) = c /\
    (forall x, spline_evaluate s' x = Ok (F x)) /\
    (forall x, exists y, spline_evaluate s x = Ok y /\ derivable_pt_lim F x y).
Proof.
  intros HN HS. destruct (built_spline nan nan' xs ys s HN HS) as (W & J & <-).
  apply antiderivative_everywhere; auto.
Qed.
