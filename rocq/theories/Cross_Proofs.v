(** Energy cuts, rates, sampling of interactions, sums over components. *)
From Verif Require Import Prelude PreludeFacts Propagator_Model Limits_Model Math_Model Cross_Model Cross_Spec.
From Coq Require Import Permutation.

(** * Sums and slots *)
Lemma rsum_app l1 l2 : rsum (l1 ++ l2) = rsum l1 + rsum l2.
Proof. unfold rsum; induction l1; cbn; lra. Qed.
Lemma rsum_perm l1 l2 : Permutation l1 l2 -> rsum l1 = rsum l2.
Proof. unfold rsum; induction 1; cbn in *; lra. Qed.
Lemma rsum_scale k l : rsum (map (Rmult k) l) = k * rsum l.
Proof. unfold rsum; induction l; cbn in *; lra. Qed.
Lemma rsum_nonneg l : Forall (Rle 0) l -> 0 <= rsum l.
Proof. unfold rsum; induction 1; cbn; lra. Qed.
Lemma fold_rsum {A} (f : A -> R) l a : fold_left (fun a x => a + f x) l a = a + rsum (map f l).
Proof. revert a; unfold rsum; induction l as [|x l IH]; intros a; cbn; [lra|rewrite IH; cbn; lra]. Qed.

Lemma below_0 l : below l 0 = 0.
Proof. reflexivity. Qed.
Lemma below_all l : below l (length l) = rsum l.
Proof. unfold below; now rewrite firstn_all. Qed.
Lemma below_cons x l k : below (x :: l) (S k) = x + below l k.
Proof. reflexivity. Qed.
Lemma below_S l k x : nth_error l k = Some x -> below l (S k) = below l k + x.
Proof.
  revert k; induction l as [|y l IH]; intros [|k] H; try discriminate.
  - injection H as ->. rewrite below_cons, !below_0; lra.
  - cbn in H. rewrite !below_cons, (IH _ H); lra.
Qed.
Lemma below_mono l i j : Forall (Rle 0) l -> (i <= j)%nat -> below l i <= below l j.
Proof.
  intros H; revert i j; induction H as [|x l Hx H IH]; intros [|i] [|j] L; try (lia || (unfold below; cbn; lra)).
  - rewrite below_0, below_cons. specialize (IH 0%nat j ltac:(lia)). rewrite below_0 in IH. lra.
  - rewrite !below_cons. specialize (IH i j ltac:(lia)). lra.
Qed.

Lemma slot_exists l y : Forall (Rle 0) l -> 0 <= y < rsum l -> exists k, in_slot l k y.
Proof.
  intros H; revert y; induction H as [|x l Hx H IH]; intros y Hy; [unfold rsum in Hy; cbn in Hy; lra|].
  destruct (Rlt_le_dec y x).
  - exists 0%nat. split; [cbn; lia|]. rewrite below_cons, !below_0; lra.
  - destruct (IH (y - x)) as (k & L & K); [unfold rsum in *; cbn in Hy; lra|].
    exists (S k). split; [cbn; lia|]. rewrite !below_cons; rewrite ?below_cons in K. lra.
Qed.
Lemma slot_unique l y i j : Forall (Rle 0) l -> in_slot l i y -> in_slot l j y -> i = j.
Proof.
  intros H (Li & Hi) (Lj & Hj).
  destruct (Nat.lt_trichotomy i j) as [C|[C|C]]; auto; exfalso.
  - pose proof (below_mono l (S i) j H C); lra.
  - pose proof (below_mono l (S j) i H C); lra.
Qed.

(** * C10: sampling *)
Lemma overall_sum l : fold_left (fun a r => a + r_rate r) l 0 = rsum (map r_rate l).
Proof. rewrite (fold_rsum r_rate). lra. Qed.

Lemma sample_loop_slot E l k y r : Forall (Rle 0) (map r_rate l) -> in_slot (map r_rate l) k y ->
  nth_error l k = Some r ->
  sample_loop E l y = Some (olet v := x_loss (r_cross r) (r_hash r) E (below (map r_rate l) (S k) - y) in
                            Ok (mkloss (x_type (r_cross r)) (r_hash r) v)).
Proof.
  revert k y; induction l as [|q l IH]; intros [|k] y F S N; try discriminate.
  - injection N as ->. destruct S as (_ & S). cbn [map] in *. rewrite below_cons, !below_0 in *.
    cbn [sample_loop]. cbv zeta. rewrite (proj2 (Rltb_true _ _)) by lra.
    replace (r_rate r + 0 - y) with (- (y - r_rate r)) by lra. reflexivity.
  - cbn in N. destruct S as (L & S). cbn [map length] in *. rewrite !below_cons in *.
    inversion F as [|? ? Fq Fl]; subst.
    cbn [sample_loop]. cbv zeta.
    assert (0 <= below (map r_rate l) k).
    { rewrite <- (below_0 (map r_rate l)). apply below_mono; auto; lia. }
    rewrite (proj2 (Rltb_false _ _)) by lra.
    rewrite (IH k (y - r_rate q)); auto.
    + replace (r_rate q + below (map r_rate l) (Datatypes.S k) - y) with
        (below (map r_rate l) (Datatypes.S k) - (y - r_rate q)) by lra. reflexivity.
    + split; [lia|]. lra.
Qed.

Lemma sample_loop_none E l y : Forall (Rle 0) (map r_rate l) -> rsum (map r_rate l) <= y -> sample_loop E l y = None.
Proof.
  revert y; induction l as [|q l IH]; intros y F S; [reflexivity|].
  inversion F as [|? ? Fq Fl]; subst. cbn [sample_loop]. cbv zeta.
  cbn in S. pose proof (rsum_nonneg _ Fl). unfold rsum in *.
  rewrite (proj2 (Rltb_false _ _)) by lra. apply IH; auto. lra.
Qed.

Theorem c10_slot E l rnd k r : Forall (Rle 0) (map r_rate l) -> nth_error l k = Some r ->
  in_slot (map r_rate l) k (rnd * rsum (map r_rate l)) ->
  let y := below (map r_rate l) (S k) - rnd * rsum (map r_rate l) in
  0 < y <= r_rate r /\
  sample_loss E l rnd = olet v := x_loss (r_cross r) (r_hash r) E y in Ok (mkloss (x_type (r_cross r)) (r_hash r) v).
Proof.
  intros F N S. cbv zeta. split.
  - destruct S as (_ & S). rewrite (below_S _ _ (r_rate r)) in *; [lra| |]; now rewrite nth_error_map, N.
  - unfold sample_loss. rewrite overall_sum. now rewrite (sample_loop_slot _ _ k _ r).
Qed.

Theorem c10_covered l rnd : Forall (Rle 0) l -> 0 < rsum l -> 0 <= rnd < 1 ->
  exists k, in_slot l k (rnd * rsum l) /\ (forall j, in_slot l j (rnd * rsum l) -> j = k).
Proof.
  intros F P H. destruct (slot_exists l (rnd * rsum l) F) as (k & K); [split; nra|].
  exists k. split; auto. intros j J. eapply slot_unique; eauto.
Qed.

Theorem c10_none E l rnd : Forall (Rle 0) (map r_rate l) -> rsum (map r_rate l) = 0 ->
  sample_loss E l rnd = Ok (mkloss Undefined 0%N 0).
Proof.
  intros F Z. unfold sample_loss. rewrite overall_sum, Z.
  rewrite sample_loop_none; auto; [|lra]. now rewrite (proj2 (Reqb_true _ _)).
Qed.

Theorem c10_one E l : Forall (Rle 0) (map r_rate l) -> 0 < rsum (map r_rate l) ->
  sample_loss E l 1 = Throw logic_error.
Proof.
  intros F Z. unfold sample_loss. rewrite overall_sum.
  rewrite sample_loop_none; auto; [|lra]. now rewrite (proj2 (Reqb_false _ _)) by lra.
Qed.

Theorem c10_distribution E l rnd k r a b v0 y0 : Forall (Rle 0) (map r_rate l) -> nth_error l k = Some r ->
  in_slot (map r_rate l) k (rnd * rsum (map r_rate l)) ->
  inverts (x_loss (r_cross r) (r_hash r) E) (x_cumulative (r_cross r) E (r_hash r)) a b (r_rate r) ->
  a <= v0 <= b -> x_cumulative (r_cross r) E (r_hash r) v0 = Ok y0 ->
  exists v, sample_loss E l rnd = Ok (mkloss (x_type (r_cross r)) (r_hash r) v) /\ a <= v <= b /\
    (v <= v0 <-> below (map r_rate l) (S k) - y0 <= rnd * rsum (map r_rate l)).
Proof.
  intros F N S (I1 & I2 & I3) H0 C0.
  destruct (c10_slot E l rnd k r F N S) as (Y & ->).
  set (y := below (map r_rate l) (Datatypes.S k) - rnd * rsum (map r_rate l)) in *.
  destruct (I1 y Y) as (v & -> & Hv & Cv).
  exists v. split; [reflexivity|]. split; [auto|].
  assert (v <= v0 <-> y <= y0).
  { split; intros L.
    - destruct (Req_dec v v0) as [->|]; [assert (y0 = y) by congruence; lra|].
      assert (y < y0) by (apply (I3 v v0); auto; lra). lra.
    - destruct (Rle_lt_dec v v0); auto. assert (y0 < y) by (apply (I3 v0 v); auto; lra). lra. }
  unfold y in *. lra.
Qed.

(** * C11: the mean free path *)
Lemma total_rate_loop_acc cross E a : total_rate_loop cross E a = olet t := total_rate_loop cross E 0 in Ok (a + t).
Proof.
  revert a; induction cross as [|x l IH]; intros a; cbn [total_rate_loop obind]; [f_equal; lra|].
  destruct (x_dNdx x E) as [r| |]; cbn [obind]; auto.
  rewrite (IH (a + r)), (IH (0 + r)). destruct (total_rate_loop l E 0); cbn [obind]; auto. f_equal; lra.
Qed.

Theorem rates_total cross E l : (forall x, In x cross -> additive x E) -> rates cross E = Ok l ->
  total_rate cross E = Ok (rsum (map r_rate l)).
Proof.
  unfold total_rate. revert l; induction cross as [|x cs IH]; intros l A H; cbn [rates total_rate_loop] in *.
  - inv_ok. reflexivity.
  - inv_ok. rewrite (A x (or_introl eq_refl) _ Ha). cbn [obind].
    rewrite total_rate_loop_acc, (IH a0); auto; [|intros; apply A; now right].
    cbn [obind]. rewrite map_app, rsum_app, map_map. cbn [r_rate]. rewrite Rplus_0_l. reflexivity.
Qed.

Theorem c11_mean_free_path cross E l : (forall x, In x cross -> additive x E) -> rates cross E = Ok l ->
  let total := rsum (map r_rate l) in
  (total <> 0 -> exists d, mean_free_path cross None E = Ok (Fin d) /\ d * total = 1) /\
  (total = 0 -> mean_free_path cross None E = Ok PInf).
Proof.
  intros A H. pose proof (rates_total _ _ _ A H) as T. cbv zeta. unfold mean_free_path. rewrite T. cbn [obind].
  split; intros Z.
  - rewrite (proj2 (Reqb_false _ _)) by auto. eexists; split; eauto. field; auto.
  - now rewrite (proj2 (Reqb_true _ _)).
Qed.

Theorem c11_table cross low f E :
  mean_free_path cross (Some (low, f)) E = Ok PInf /\ (E < low \/ f E <= 0) \/
  low <= E /\ exists d, mean_free_path cross (Some (low, f)) E = Ok (Fin d) /\ 0 < d /\ d * f E = 1.
Proof.
  unfold mean_free_path. rcases; try (left; split; [reflexivity|lra]).
  right. split; [lra|]. eexists; split; [reflexivity|]. split.
  - apply Rdiv_lt_0_compat; lra.
  - field; lra.
Qed.

(** * C12: cuts *)
Theorem c12_accepts e v cr : (exists c, new_energy_cut e v cr = Ok c) <-> valid_cut e v.
Proof.
  unfold new_energy_cut, valid_cut. destruct e as [x|]; rcases;
    (split; [intros (c & K); try discriminate; repeat split; lra | intros K; try (exfalso; lra); eexists; reflexivity]).
Qed.
Theorem c12_rejects e v cr : ~ valid_cut e v -> new_energy_cut e v cr = Throw invalid_argument.
Proof.
  unfold new_energy_cut, valid_cut. intros H; destruct e as [x|]; rcases; auto; exfalso; apply H; repeat split; lra.
Qed.
Theorem c12_keeps e v cr c : new_energy_cut e v cr = Ok c -> c = mkcut e v cr.
Proof. unfold new_energy_cut. intros H. destruct (match e with Fin x => x <=? 0 | PInf => false end); [discriminate|].
  destruct (_ || _); [discriminate|congruence]. Qed.

Theorem c12_small c E v : 0 < E -> v <= get_cut c E <-> small c E v.
Proof.
  intros HE. unfold get_cut, small. destruct (ecut c) as [e|]; [|tauto].
  assert (v <= e / E <-> v * E <= e).
  { split; intros H.
    - apply (Rmult_le_compat_r E) in H; [|lra]. replace (e / E * E) with e in H by (field; lra). lra.
    - apply (Rmult_le_reg_r E); auto. replace (e / E * E) with e by (field; lra). lra. }
  unfold Rmin. destruct (Rle_dec (e / E) (vcut c)); split; intros; intuition lra.
Qed.

Theorem c12_within c lim E : 0 < E -> v_min lim <= v_max lim ->
  let k := get_cut_within c lim E in
  v_min lim <= k <= v_max lim /\
  (forall v, v_min lim < v <= v_max lim -> v <= k <-> small c E v).
Proof.
  intros HE L. cbv zeta.
  assert (R : v_min lim <= get_cut_within c lim E <= v_max lim).
  { unfold get_cut_within, Rmin, Rmax. destruct (Rle_dec _ _); destruct (Rle_dec _ _); lra. }
  split; auto. intros v Hv. rewrite <- c12_small by auto.
  unfold get_cut_within, Rmin, Rmax. destruct (Rle_dec _ _); destruct (Rle_dec _ _); lra.
Qed.

Theorem c12_ranges kin c E : 0 < E -> v_min (kin E) <= v_max (kin E) ->
  let s := integration_limits kin (Some c) E in
  v_min s = get_cut_within c (kin E) E /\ v_max s = v_max (kin E) /\
  (forall v, v_min (kin E) < v <= v_max (kin E) -> v_min s < v <-> ~ small c E v).
Proof.
  intros HE L. destruct (c12_within c (kin E) E HE L) as (R & S). cbv zeta in *. unfold integration_limits. cbn [v_min v_max].
  assert (M : Rmax (get_cut_within c (kin E) E) (v_min (kin E)) = get_cut_within c (kin E) E) by (apply Rmax_left; lra).
  rewrite M. repeat split; auto; intros H'.
  - intros K. apply S in K; auto; lra.
  - destruct (Rle_lt_dec v (get_cut_within c (kin E) E)); auto. exfalso. apply H'. apply S; auto.
Qed.

Theorem c12_monotone c c' lim E : 0 < E -> ext_le (ecut c) (ecut c') -> vcut c <= vcut c' ->
  get_cut_within c lim E <= get_cut_within c' lim E.
Proof.
  intros HE L V. assert (G : get_cut c E <= get_cut c' E).
  { apply c12_small; auto. assert (K : get_cut c E <= get_cut c E) by lra. apply c12_small in K; auto.
    destruct K as (K1 & K2). split; [lra|]. unfold ext_le in L. destruct (ecut c), (ecut c'); auto; try lra; tauto. }
  unfold get_cut_within, Rmin, Rmax. repeat destruct (Rle_dec _ _); lra.
Qed.
Theorem c12_energy c E E' : 0 < E <= E' -> match ecut c with Fin e => 0 <= e | PInf => True end ->
  get_cut c E' <= get_cut c E.
Proof.
  intros H P. apply c12_small; [lra|]. assert (K : get_cut c E' <= get_cut c E') by lra.
  apply c12_small in K; [|lra]. destruct K as (K1 & K2). split; auto.
  destruct (ecut c) as [e|]; auto.
  destruct (Rle_lt_dec (get_cut c E') 0); nra.
Qed.
