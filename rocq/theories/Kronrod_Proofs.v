(** The Gauss-Kronrod rule integrates polynomials. *)
From Coq Require Import List.
From Coquelicot Require Import Coquelicot.
From Verif Require Import Prelude PreludeFacts Catalogue_Proofs Kronrod_Model Kronrod_Spec.
Import ListNotations.
Local Open Scope R_scope.

(** * Weighted sums over the nodes *)
Definition rsum (h : R -> R) (L : list (Z * Z)) : R := fold_right (fun p s => digits (fst p) * h (digits (snd p)) + s) 0 L.
Definition K_nodes : list (Z * Z) := map (fun i => (nth i kronrod_digits 0%Z, nth i abscissa_digits 0%Z)) (odd_indices ++ even_indices).
Definition G_nodes : list (Z * Z) := map (fun i => (nth ((i - 1) / 2) gauss_digits 0%Z, nth i abscissa_digits 0%Z)) odd_indices.
Definition fit_node (p : Z * Z) : bool := ((0 <=? fst p) && (0 <=? snd p) && (snd p <=? 10 ^ 33))%Z.
Lemma K_fit : forallb fit_node K_nodes = true. Proof. vm_compute. reflexivity. Qed.
Lemma G_fit : forallb fit_node G_nodes = true. Proof. vm_compute. reflexivity. Qed.
Lemma scale_pos : 0 < 10 ^ 33. Proof. apply pow_lt. lra. Qed.
Lemma scale_IZR : 10 ^ 33 = IZR (10 ^ 33). Proof. rewrite (pow_IZR 10 33). reflexivity. Qed.
Lemma digits_range p : fit_node p = true -> 0 <= digits (fst p) /\ 0 <= digits (snd p) <= 1.
Proof.
  unfold fit_node. rewrite !andb_true_iff, !Z.leb_le. intros [[A B] C]. apply IZR_le in A, B, C. pose proof scale_pos as S. rewrite <- scale_IZR in C. unfold digits.
  split; [apply Rdiv_le_0_compat; assumption|]. split; [apply Rdiv_le_0_compat; assumption|]. apply (Rmult_le_reg_r (10 ^ 33)); [assumption|].
  unfold Rdiv. rewrite Rmult_assoc, Rinv_l by lra. lra.
Qed.
Lemma rsum_ext L g h : forallb fit_node L = true -> (forall x, 0 <= x <= 1 -> g x = h x) -> rsum g L = rsum h L.
Proof.
  intros F E. induction L as [|p L IH]; [reflexivity|]. cbn [forallb] in F. apply andb_true_iff in F as [F1 F2]. cbn. rewrite E by apply (digits_range p F1).
  unfold rsum in IH. now rewrite IH.
Qed.
Lemma rsum_le L g h : forallb fit_node L = true -> (forall x, 0 <= x <= 1 -> g x <= h x) -> rsum g L <= rsum h L.
Proof.
  intros F E. induction L as [|p L IH]; [apply Rle_refl|]. cbn [forallb] in F. apply andb_true_iff in F as [F1 F2]. cbn. destruct (digits_range p F1) as [W X].
  apply Rplus_le_compat; [|apply IH, F2]. apply Rmult_le_compat_l; [exact W|]. apply E, X.
Qed.
Lemma rsum_add L g h : rsum (fun x => g x + h x) L = rsum g L + rsum h L.
Proof. induction L as [|p L IH]; cbn; [ring|]. unfold rsum in IH. rewrite IH. ring. Qed.
Lemma rsum_scale L c g : rsum (fun x => c * g x) L = c * rsum g L.
Proof. induction L as [|p L IH]; cbn; [ring|]. unfold rsum in IH. rewrite IH. ring. Qed.
Lemma rsum_abs L g : forallb fit_node L = true -> Rabs (rsum g L) <= rsum (fun x => Rabs (g x)) L.
Proof.
  intro F. induction L as [|p L IH]; [cbn; rewrite Rabs_R0; lra|]. cbn [forallb] in F. apply andb_true_iff in F as [F1 F2]. destruct (digits_range p F1) as [W X].
  cbn. eapply Rle_trans; [apply Rabs_triang|]. rewrite Rabs_mult, (Rabs_pos_eq (digits (fst p))) by exact W. apply Rplus_le_compat_l, IH, F2.
Qed.

(** * Powers of the nodes, rounded *)
Definition U : Z := (10 ^ 18)%Z.
Definition zlow (k : positive) (L : list (Z * Z)) : Z := fold_right (fun p s => fst p * low_power U (snd p / 10 ^ 15) k + s)%Z 0%Z L.
Definition zhigh (k : positive) (L : list (Z * Z)) : Z := fold_right (fun p s => fst p * high_power U (snd p / 10 ^ 15 + 1) k + s)%Z 0%Z L.
Definition BIG : Z := (10 ^ 18 * 10 ^ 33)%Z.
Definition moment_ok (L : list (Z * Z)) (k : positive) : bool :=
  (2 * BIG * 10 ^ 15 <=? 2 * (Zpos k + 1) * zlow k L * 10 ^ 15 + (Zpos k + 1) * BIG)%Z &&
  (2 * (Zpos k + 1) * zhigh k L * 10 ^ 15 <=? 2 * BIG * 10 ^ 15 + (Zpos k + 1) * BIG)%Z.
Lemma K_moments : forallb (moment_ok K_nodes) [2; 4; 6; 8; 10; 12; 14; 16; 18; 20; 22; 24; 26; 28; 30]%positive = true.
Proof. vm_compute. reflexivity. Qed.
Lemma G_moments : forallb (moment_ok G_nodes) [2; 4; 6; 8; 10; 12; 14; 16; 18]%positive = true.
Proof. vm_compute. reflexivity. Qed.
Lemma U_pos : (0 < U)%Z. Proof. reflexivity. Qed.
Lemma parts : 10 ^ 33 = IZR U * IZR (10 ^ 15).
Proof. rewrite scale_IZR, <- mult_IZR. reflexivity. Qed.
Lemma node_low z : (0 <= z)%Z -> IZR (z / 10 ^ 15) / IZR U <= digits z.
Proof.
  intro Z0. destruct (div_low z (10 ^ 15) ltac:(reflexivity) Z0) as [_ H]. pose proof (IZR_lt _ _ U_pos) as P.
  assert (Q : 0 < IZR (10 ^ 15)) by (apply IZR_lt; reflexivity). unfold digits. rewrite parts.
  replace (IZR z / (IZR U * IZR (10 ^ 15))) with (IZR z / IZR (10 ^ 15) / IZR U) by (field; lra).
  unfold Rdiv at 1 2. apply Rmult_le_compat_r; [left; now apply Rinv_0_lt_compat|exact H].
Qed.
Lemma node_high z : (0 <= z)%Z -> digits z <= IZR (z / 10 ^ 15 + 1) / IZR U.
Proof.
  intro Z0. pose proof (IZR_lt _ _ U_pos) as P. assert (Q : 0 < IZR (10 ^ 15)) by (apply IZR_lt; reflexivity). unfold digits. rewrite parts.
  replace (IZR z / (IZR U * IZR (10 ^ 15))) with (IZR z / IZR (10 ^ 15) / IZR U) by (field; lra).
  unfold Rdiv at 1 3. apply Rmult_le_compat_r; [left; now apply Rinv_0_lt_compat|].
  apply (Rmult_le_reg_r (IZR (10 ^ 15))); [exact Q|]. unfold Rdiv. rewrite Rmult_assoc, Rinv_l, Rmult_1_r, <- mult_IZR by lra. apply IZR_le.
  pose proof (Z.mul_succ_div_gt z (10 ^ 15) ltac:(reflexivity)). lia.
Qed.
Lemma regroup w l u t : 0 < u -> 0 < t -> w / t * (l / u) = w * l / (u * t).
Proof. intros. field. lra. Qed.
Lemma sum_low k L : forallb fit_node L = true -> IZR (zlow k L) / IZR BIG <= rsum (fun x => x ^ Pos.to_nat k) L.
Proof.
  pose proof (IZR_lt _ _ U_pos) as P. pose proof scale_pos as S. assert (B : IZR BIG = IZR U * 10 ^ 33) by (rewrite scale_IZR, <- mult_IZR; reflexivity).
  intro F. induction L as [|p L IH]; [unfold zlow, zhigh, rsum, Rdiv; cbn [fold_right]; rewrite Rmult_0_l; apply Rle_refl|]. cbn [forallb] in F. apply andb_true_iff in F as [F1 F2].
  pose proof (digits_range p F1) as [W X]. unfold fit_node in F1. rewrite !andb_true_iff, !Z.leb_le in F1. destruct F1 as [[A1 A2] A3]. specialize (IH F2).
  unfold zlow in *. cbn [fold_right]. fold (zlow k L) in *. cbn [rsum fold_right]. fold (rsum (fun x => x ^ Pos.to_nat k) L).
  rewrite plus_IZR, mult_IZR, Rdiv_plus_distr. apply Rplus_le_compat; [|exact IH].
  assert (D : (0 <= snd p / 10 ^ 15)%Z) by (apply Z.div_pos; [exact A2|reflexivity]).
  destruct (low_power_spec U (snd p / 10 ^ 15) k U_pos D) as [_ H]. rewrite B.
  replace (IZR (fst p) * IZR (low_power U (snd p / 10 ^ 15) k) / (IZR U * 10 ^ 33)) with (digits (fst p) * (IZR (low_power U (snd p / 10 ^ 15) k) / IZR U))
    by (apply (regroup (IZR (fst p)) _ (IZR U) (10 ^ 33)); assumption).
  apply Rmult_le_compat_l; [exact W|]. eapply Rle_trans; [exact H|]. apply pow_incr. split; [|apply node_low, A2].
  apply Rdiv_le_0_compat; [apply (IZR_le 0), D|exact P].
Qed.
Lemma sum_high k L : forallb fit_node L = true -> rsum (fun x => x ^ Pos.to_nat k) L <= IZR (zhigh k L) / IZR BIG.
Proof.
  pose proof (IZR_lt _ _ U_pos) as P. pose proof scale_pos as S. assert (B : IZR BIG = IZR U * 10 ^ 33) by (rewrite scale_IZR, <- mult_IZR; reflexivity).
  intro F. induction L as [|p L IH]; [unfold zlow, zhigh, rsum, Rdiv; cbn [fold_right]; rewrite Rmult_0_l; apply Rle_refl|]. cbn [forallb] in F. apply andb_true_iff in F as [F1 F2].
  pose proof (digits_range p F1) as [W X]. unfold fit_node in F1. rewrite !andb_true_iff, !Z.leb_le in F1. destruct F1 as [[A1 A2] A3]. specialize (IH F2).
  unfold zhigh in *. cbn [fold_right]. fold (zhigh k L) in *. cbn [rsum fold_right]. fold (rsum (fun x => x ^ Pos.to_nat k) L).
  rewrite plus_IZR, mult_IZR, Rdiv_plus_distr. apply Rplus_le_compat; [|exact IH].
  assert (D : (0 <= snd p / 10 ^ 15 + 1)%Z) by (pose proof (Z.div_pos (snd p) (10 ^ 15) A2 ltac:(reflexivity)); lia).
  destruct (high_power_spec U (snd p / 10 ^ 15 + 1) k U_pos D) as [_ H]. rewrite B.
  replace (IZR (fst p) * IZR (high_power U (snd p / 10 ^ 15 + 1) k) / (IZR U * 10 ^ 33)) with (digits (fst p) * (IZR (high_power U (snd p / 10 ^ 15 + 1) k) / IZR U))
    by (apply (regroup (IZR (fst p)) _ (IZR U) (10 ^ 33)); assumption).
  apply Rmult_le_compat_l; [exact W|]. eapply Rle_trans; [|exact H]. apply pow_incr. split; [apply X|apply node_high, A2].
Qed.
Lemma scaled_low z D T k : 0 < D -> 0 < T -> 0 < k -> 2 * D * T <= 2 * k * z * T + k * D -> 2 / k - 1 / T <= 2 * (z / D).
Proof.
  intros HD HT Hk H. apply (Rmult_le_reg_r (k * D * T)); [repeat apply Rmult_lt_0_compat; assumption|].
  replace ((2 / k - 1 / T) * (k * D * T)) with (2 * D * T - k * D) by (field; lra). replace (2 * (z / D) * (k * D * T)) with (2 * k * z * T) by (field; lra). lra.
Qed.
Lemma scaled_high z D T k : 0 < D -> 0 < T -> 0 < k -> 2 * k * z * T <= 2 * D * T + k * D -> 2 * (z / D) <= 2 / k + 1 / T.
Proof.
  intros HD HT Hk H. apply (Rmult_le_reg_r (k * D * T)); [repeat apply Rmult_lt_0_compat; assumption|].
  replace ((2 / k + 1 / T) * (k * D * T)) with (2 * D * T + k * D) by (field; lra). replace (2 * (z / D) * (k * D * T)) with (2 * k * z * T) by (field; lra). lra.
Qed.
Lemma BIG_pos : 0 < IZR BIG. Proof. apply IZR_lt. reflexivity. Qed.
Lemma tenth : 1 / 10 ^ 15 = 1 / IZR (10 ^ 15). Proof. rewrite (pow_IZR 10 15). reflexivity. Qed.
Lemma moment L k : forallb fit_node L = true -> moment_ok L k = true ->
  Rabs (2 * rsum (fun x => x ^ Pos.to_nat k) L - 2 / (IZR (Zpos k) + 1)) <= 1 / 10 ^ 15.
Proof.
  intros F M. unfold moment_ok in M. rewrite andb_true_iff, !Z.leb_le in M. destruct M as [A B]. apply IZR_le in A, B.
  rewrite !plus_IZR, !mult_IZR, !plus_IZR in A, B. pose proof (sum_low k L F) as Lo. pose proof (sum_high k L F) as Hi. rewrite tenth.
  pose proof BIG_pos as D. assert (T : 0 < IZR (10 ^ 15)) by (apply IZR_lt; reflexivity). assert (Kp : 0 < IZR (Zpos k)) by (apply IZR_lt; reflexivity).
  generalize dependent (IZR (zlow k L)). generalize dependent (IZR (zhigh k L)). generalize dependent (IZR BIG). generalize dependent (IZR (10 ^ 15)).
  intros TT HT DD HD zh B Hi zl A Lo. pose proof (scaled_low zl DD TT (IZR (Zpos k) + 1) HD HT ltac:(lra) A). pose proof (scaled_high zh DD TT (IZR (Zpos k) + 1) HD HT ltac:(lra) B). apply Rabs_le. lra.
Qed.

(** * The rules on polynomials *)
Definition rule (w : R) (L : list (Z * Z)) (g : R -> R) : R := w * g 0 + rsum (fun x => g (- x) + g x) L.
(** The integral of the k-th power from -1 to 1 *)
Definition area (k : nat) : R := (1 - (-1) ^ S k) / INR (S k).
Definition good (w : R) (L : list (Z * Z)) (n : nat) : Prop :=
  forallb fit_node L = true /\ 0 <= w /\ forall k, (k < n)%nat -> Rabs (rule w L (fun u => u ^ k) - area k) <= 1 / 10 ^ 15.
Lemma parity (k : nat) : (exists m, k = 2 * m)%nat \/ (exists m, k = S (2 * m))%nat.
Proof. induction k as [|k [[m ->]|[m ->]]]; [left; exists 0%nat; lia|right; exists m; lia|left; exists (S m); lia]. Qed.
Lemma neg_even m x : (- x) ^ (2 * m) = x ^ (2 * m).
Proof. rewrite !pow_mult. f_equal. ring. Qed.
Lemma good_rule w L n top : forallb fit_node L = true -> 0 <= w ->
  Rabs (w + 2 * rsum (fun _ => 1) L - 2) <= 1 / 10 ^ 15 ->
  forallb (moment_ok L) (map (fun j => Pos.of_nat (2 * S j)) (seq 0 top)) = true -> (n <= 2 * S top)%nat -> good w L n.
Proof.
  intros F W Z M N. split; [exact F|]. split; [exact W|]. intros k Hk. unfold rule, area. destruct (parity k) as [[m ->]|[m ->]].
  - rewrite (rsum_ext L _ (fun x => 2 * x ^ (2 * m)) F) by (intros; rewrite neg_even; ring). rewrite rsum_scale.
    replace (1 - (-1) ^ S (2 * m)) with 2 by (change ((-1) ^ S (2 * m)) with (-1 * (-1) ^ (2 * m)); rewrite pow_1_even; ring).
    destruct m as [|m].
    { change (INR (S (2 * 0))) with 1. change (0 ^ (2 * 0)) with 1. change (rsum (fun x => x ^ (2 * 0)) L) with (rsum (fun _ => 1) L). replace (2 / 1) with 2 by field. rewrite Rmult_1_r. exact Z. }
    rewrite pow_i, Rmult_0_r, Rplus_0_l by lia.
    assert (I : In (Pos.of_nat (2 * S m)) (map (fun j => Pos.of_nat (2 * S j)) (seq 0 top))).
    { apply in_map_iff. exists m. split; [reflexivity|]. apply in_seq. lia. }
    pose proof (moment L _ F (proj1 (forallb_forall _ _) M _ I)) as H. rewrite <- (positive_nat_Z (Pos.of_nat (2 * S m))), Nat2Pos.id, <- INR_IZR_INZ in H by lia.
    rewrite S_INR. exact H.
  - rewrite (rsum_ext L _ (fun x => 0 * 1) F).
    2: { intros. change ((- x) ^ S (2 * m)) with (- x * (- x) ^ (2 * m)). change (x ^ S (2 * m)) with (x * x ^ (2 * m)). rewrite neg_even. ring. }
    rewrite rsum_scale, pow_i by lia. replace ((-1) ^ S (S (2 * m))) with 1 by (change ((-1) ^ S (S (2 * m))) with (-1 * (-1 * (-1) ^ (2 * m))); rewrite pow_1_even; ring).
    replace (w * 0 + 0 * rsum (fun _ => 1) L - (1 - 1) / INR (S (S (2 * m)))) with 0 by (unfold Rdiv; ring).
    rewrite Rabs_R0. apply Rdiv_le_0_compat; [lra|apply pow_lt; lra].
Qed.
Lemma weights_sum w L : forall s, fold_right (fun p t => fst p + t)%Z 0%Z L = s -> w + 2 * rsum (fun _ => 1) L = w + 2 * digits s.
Proof.
  intros s <-. do 2 f_equal. induction L as [|p L IH]; [cbn [fold_right rsum]; unfold rsum, digits, Rdiv; cbn [fold_right]; ring|].
  unfold rsum in *. cbn [fold_right]. rewrite IH. unfold digits, Rdiv. rewrite plus_IZR. ring.
Qed.
Lemma close_digits a b : (Z.abs (a + 2 * b - 2 * 10 ^ 33) <=? 10 ^ 18)%Z = true -> Rabs (digits a + 2 * digits b - 2) <= 1 / 10 ^ 15.
Proof.
  intro H. apply Z.leb_le, IZR_le in H. rewrite abs_IZR, minus_IZR, plus_IZR, !mult_IZR, <- scale_IZR in H. pose proof scale_pos as S.
  assert (P : 1 / 10 ^ 15 = IZR (10 ^ 18) / 10 ^ 33).
  { assert (E : 10 ^ 33 = 10 ^ 18 * 10 ^ 15) by (rewrite <- pow_add; reflexivity). rewrite E. rewrite (pow_IZR 10 18). change (Z.of_nat 18) with 18%Z.
    assert (IZR (10 ^ 18) <> 0) by (apply IZR_neq; discriminate). assert (10 ^ 15 <> 0) by (apply pow_nonzero; lra). assert (G : forall u v, u <> 0 -> v <> 0 -> 1 / v = u / (u * v)) by (intros; field; auto). apply G; assumption. }
  rewrite P. unfold digits. generalize dependent (10 ^ 33). intros t H S _.
  replace (IZR a / t + 2 * (IZR b / t) - 2) with ((IZR a + 2 * IZR b - 2 * t) / t) by (field; lra).
  unfold Rdiv. rewrite Rabs_mult, (Rabs_pos_eq (/ t)) by (left; now apply Rinv_0_lt_compat). apply Rmult_le_compat_r; [left; now apply Rinv_0_lt_compat|exact H].
Qed.
Lemma K_good : good (kronrod_weight 10) K_nodes 32.
Proof.
  apply (good_rule _ _ _ 15); [exact K_fit| | |exact K_moments|lia].
  - unfold kronrod_weight. apply (digits_range (nth 10 kronrod_digits 0%Z, 0%Z)). vm_compute. reflexivity.
  - rewrite (weights_sum _ _ _ eq_refl). unfold kronrod_weight. apply close_digits. vm_compute. reflexivity.
Qed.
Lemma digits_0 : digits 0 = 0. Proof. unfold digits, Rdiv. ring. Qed.
Lemma G_good : good 0 G_nodes 20.
Proof.
  apply (good_rule _ _ _ 9); [exact G_fit|lra| |exact G_moments|lia].
  rewrite (weights_sum _ _ _ eq_refl), <- digits_0. apply close_digits. vm_compute. reflexivity.
Qed.
Lemma rule_ext w L g h : forallb fit_node L = true -> (forall u, -1 <= u <= 1 -> g u = h u) -> rule w L g = rule w L h.
Proof.
  intros F E. unfold rule. rewrite (E 0) by lra. f_equal. apply rsum_ext; [exact F|]. intros x X. rewrite !E by lra. reflexivity.
Qed.
Lemma rule_comb w L c g h : rule w L (fun u => c * g u + h u) = c * rule w L g + rule w L h.
Proof.
  unfold rule. replace (rsum (fun x => c * g (- x) + h (- x) + (c * g x + h x)) L) with (c * rsum (fun x => g (- x) + g x) L + rsum (fun x => h (- x) + h x) L); [ring|].
  rewrite <- rsum_scale, <- rsum_add. unfold rsum. clear. induction L as [|p L IH]; [reflexivity|]. cbn [fold_right]. rewrite IH. ring.
Qed.
Fixpoint areas (cs : list R) (k : nat) : R := match cs with [] => 0 | c :: cs => c * area k + areas cs (S k) end.
Lemma magnitudes_pos cs : 0 <= magnitudes cs.
Proof. induction cs as [|c cs IH]; cbn [magnitudes]; [lra|]. pose proof (Rabs_pos c). lra. Qed.
Lemma tiny_pos : 0 < 1 / 10 ^ 15. Proof. apply Rdiv_lt_0_compat; [lra|apply pow_lt; lra]. Qed.
Lemma rule_poly w L n : good w L n -> forall cs k, (k + length cs <= n)%nat ->
  Rabs (rule w L (fun u => u ^ k * polynomial cs u) - areas cs k) <= 1 / 10 ^ 15 * magnitudes cs.
Proof.
  intros (F & W & M). pose proof tiny_pos as T. induction cs as [|c cs IH]; intros k Hk; cbn [areas magnitudes].
  - rewrite (rule_ext w L _ (fun u => 0 * u + 0) F) by (intros; cbn [polynomial]; ring). rewrite rule_comb.
    assert (Z : rule w L (fun _ => 0) = 0).
    { unfold rule. rewrite (rsum_ext L _ (fun _ => 0 * 1) F) by (intros; ring). rewrite rsum_scale. ring. }
    rewrite Z. replace (0 * rule w L (fun u => u) + 0 - 0) with 0 by ring. rewrite Rabs_R0. lra.
  - rewrite (rule_ext w L _ (fun u => c * u ^ k + u ^ S k * polynomial cs u) F) by (intros; cbn [polynomial pow]; ring).
    rewrite rule_comb. cbn [length] in Hk. specialize (IH (S k) ltac:(lia)). specialize (M k ltac:(lia)).
    replace (c * rule w L (fun u => u ^ k) + rule w L (fun u => u ^ S k * polynomial cs u) - (c * area k + areas cs (S k)))
      with (c * (rule w L (fun u => u ^ k) - area k) + (rule w L (fun u => u ^ S k * polynomial cs u) - areas cs (S k))) by ring.
    eapply Rle_trans; [apply Rabs_triang|]. rewrite Rabs_mult. pose proof (Rabs_pos c) as C.
    apply (Rmult_le_compat_l _ _ _ C) in M. lra.
Qed.
Lemma area_int k : is_RInt (fun u => u ^ k) (-1) 1 (area k).
Proof.
  assert (N : INR (S k) <> 0) by (apply not_0_INR; lia).
  replace (area k) with (minus ((fun u => u ^ S k / INR (S k)) 1) ((fun u => u ^ S k / INR (S k)) (-1))).
  2: { unfold area, minus, plus, opp; cbn [AbelianGroup.plus AbelianGroup.opp]; cbn -[INR pow]. rewrite pow1. field. exact N. }
  apply (is_RInt_derive (fun u => u ^ S k / INR (S k)) (fun u => u ^ k)).
  - intros x _. auto_derive; [exact I|]. cbn [Nat.pred]. rewrite S_INR in *. destruct k; cbn [pow] in *; field; exact N.
  - intros x _. apply (ex_derive_continuous (fun u => u ^ k)). auto_derive. exact I.
Qed.
Lemma areas_int cs : forall k, is_RInt (fun u => u ^ k * polynomial cs u) (-1) 1 (areas cs k).
Proof.
  induction cs as [|c cs IH]; intro k; cbn [areas].
  - apply (is_RInt_ext (fun _ => 0)). { intros. cbn [polynomial]. now rewrite Rmult_0_r. }
    pose proof (is_RInt_const (V := R_NormedModule) (-1) 1 0) as H. change (is_RInt (fun _ => 0) (-1) 1 ((1 - -1) * 0)) in H. rewrite Rmult_0_r in H. exact H.
  - apply (is_RInt_ext (fun u => plus (scal c (u ^ k)) (u ^ S k * polynomial cs u))).
    { intros x _. change (c * x ^ k + x ^ S k * polynomial cs x = x ^ k * (c + x * polynomial cs x) :> R). cbn [pow]. ring. }
    apply @is_RInt_plus; [|apply IH]. apply @is_RInt_scal. apply area_int.
Qed.
Lemma integral_is f a b cs I : polynomial_between a b f cs -> is_RInt f a b I -> I = (b - a) / 2 * areas cs 0.
Proof.
  intros P H. assert (E1 : (b - a) / 2 * -1 + (a + b) / 2 = a) by field. assert (E2 : (b - a) / 2 * 1 + (a + b) / 2 = b) by field.
  assert (H' : is_RInt f ((b - a) / 2 * -1 + (a + b) / 2) ((b - a) / 2 * 1 + (a + b) / 2) I) by (rewrite E1, E2; exact H). clear H E1 E2. rename H' into H.
  apply (is_RInt_comp_lin f ((b - a) / 2) ((a + b) / 2) (-1) 1) in H. pose proof (is_RInt_scal _ _ _ ((b - a) / 2) _ (areas_int cs 0)) as J.
  assert (J' : is_RInt (fun y => scal ((b - a) / 2) (f ((b - a) / 2 * y + (a + b) / 2))) (-1) 1 (scal ((b - a) / 2) (areas cs 0))).
  { eapply is_RInt_ext; [|exact J]. intros x X. rewrite Rmin_left, Rmax_right in X by lra. cbn [pow]. rewrite Rmult_1_l, Rplus_comm. rewrite P by lra. reflexivity. }
  apply (is_RInt_unique (V := R_CompleteNormedModule)) in H. apply (is_RInt_unique (V := R_CompleteNormedModule)) in J'. exact (eq_trans (eq_sym H) J').
Qed.

(** * The rule in the code *)
Definition body (f1 f2 : nat -> R) (fc h : R) : kronrod :=
  let resg := fold_left (fun s i => s + gauss_weight ((i - 1) / 2) * (f1 i + f2 i)) odd_indices 0 in
  let resk := fold_left (fun s i => s + kronrod_weight i * (f1 i + f2 i)) (odd_indices ++ even_indices) (kronrod_weight 10 * fc) in
  let resabs := fold_left (fun s i => s + kronrod_weight i * (Rabs (f1 i) + Rabs (f2 i))) (odd_indices ++ even_indices)
                  (Rabs (kronrod_weight 10 * fc)) * Rabs h in
  let reskh := resk * (1 / 2) in
  let resasc := fold_left (fun s i => s + kronrod_weight i * (Rabs (f1 i - reskh) + Rabs (f2 i - reskh))) (seq 0 10)
                  (kronrod_weight 10 * Rabs (fc - reskh)) * Rabs h in
  let abserr := Rabs ((resk - resg) * h) in
  let abserr := if negb (resasc =? 0) && negb (abserr =? 0)
                then resasc * Rmin 1 (Rpower (200 * abserr / resasc) (3 / 2)) else abserr in
  let abserr := if UFLOW / (50 * EPMACH) <? resabs then Rmax (EPMACH * 50 * resabs) abserr else abserr in
  mkkronrod (resk * h) abserr resabs resasc.
Definition gk (g : R -> R) (h : R) : kronrod := body (fun i => g (- abscissa i)) (fun i => g (abscissa i)) (g 0) h.
Definition onto (f : R -> R) (a b u : R) : R := f ((a + b) / 2 + (b - a) / 2 * u).
Lemma gk_eq f a b : gauss_kronrod f a b = gk (onto f a b) ((b - a) / 2).
Proof.
  assert (H1 : (fun i => f (1 / 2 * (a + b) - 1 / 2 * (b - a) * abscissa i)) = (fun i => onto f a b (- abscissa i))).
  { apply FunctionalExtensionality.functional_extensionality. intro i. unfold onto. f_equal. field. }
  assert (H2 : (fun i => f (1 / 2 * (a + b) + 1 / 2 * (b - a) * abscissa i)) = (fun i => onto f a b (abscissa i))).
  { apply FunctionalExtensionality.functional_extensionality. intro i. unfold onto. f_equal. field. }
  assert (H3 : f (1 / 2 * (a + b)) = onto f a b 0) by (unfold onto; f_equal; field).
  assert (H4 : 1 / 2 * (b - a) = (b - a) / 2) by field.
  change (gauss_kronrod f a b) with (body (fun i => f (1 / 2 * (a + b) - 1 / 2 * (b - a) * abscissa i))
    (fun i => f (1 / 2 * (a + b) + 1 / 2 * (b - a) * abscissa i)) (f (1 / 2 * (a + b))) (1 / 2 * (b - a))).
  rewrite H1, H2, H3, H4. reflexivity.
Qed.
Lemma K_fold g : fold_left (fun s i => s + kronrod_weight i * (g (- abscissa i) + g (abscissa i))) (odd_indices ++ even_indices) (kronrod_weight 10 * g 0)
  = rule (kronrod_weight 10) K_nodes g.
Proof.
  unfold rule, rsum, K_nodes, kronrod_weight, abscissa. cbn [map app odd_indices even_indices fold_left fold_right nth fst snd kronrod_digits abscissa_digits].
  set (D := digits). clearbody D. ring.
Qed.
Lemma G_fold g : fold_left (fun s i => s + gauss_weight ((i - 1) / 2) * (g (- abscissa i) + g (abscissa i))) odd_indices 0 = rule 0 G_nodes g.
Proof.
  unfold rule, rsum, G_nodes, gauss_weight, abscissa. cbn [map odd_indices fold_left fold_right nth fst snd gauss_digits abscissa_digits Nat.sub Nat.div Nat.divmod].
  cbn [nth fst snd Nat.div Nat.divmod]. set (D := digits). clearbody D. ring.
Qed.
Lemma A_fold g : fold_left (fun s i => s + kronrod_weight i * (Rabs (g (- abscissa i)) + Rabs (g (abscissa i)))) (odd_indices ++ even_indices) (Rabs (kronrod_weight 10 * g 0))
  = rule (kronrod_weight 10) K_nodes (fun u => Rabs (g u)).
Proof.
  rewrite Rabs_mult, (Rabs_pos_eq (kronrod_weight 10)) by apply K_good. apply (K_fold (fun u => Rabs (g u))).
Qed.
Lemma value_is g h : k_value (gk g h) = rule (kronrod_weight 10) K_nodes g * h.
Proof. unfold gk, body. cbn [k_value]. now rewrite K_fold. Qed.
Lemma abs_is g h : k_abs (gk g h) = rule (kronrod_weight 10) K_nodes (fun u => Rabs (g u)) * Rabs h.
Proof. unfold gk, body. cbn [k_abs]. now rewrite A_fold. Qed.
(** * The error estimate *)
Lemma raw_bound s e : 0 <= s -> 0 <= e ->
  0 <= (if negb (s =? 0) && negb (e =? 0) then s * Rmin 1 (Rpower (200 * e / s) (3 / 2)) else e) <= 200 * e.
Proof.
  intros S E. destruct (Reqb_spec s 0) as [?|NS]; cbn [negb andb]; [lra|]. destruct (Reqb_spec e 0) as [?|NE]; cbn [negb andb]; [lra|].
  assert (0 < s) by lra. assert (0 < e) by lra. set (y := 200 * e / s). assert (Y : 0 < y) by (apply Rdiv_lt_0_compat; lra).
  assert (EY : s * y = 200 * e) by (unfold y; field; lra). assert (P : 0 < Rpower y (3 / 2)) by apply exp_pos.
  split; [apply Rmult_le_pos; [lra|]; apply Rmin_glb; lra|].
  destruct (Rle_lt_dec y 1) as [L|L].
  - rewrite <- EY. apply Rmult_le_compat_l; [lra|]. eapply Rle_trans; [apply Rmin_r|]. rewrite <- (Rpower_1 y Y) at 2.
    unfold Rpower. assert (ln y <= 0) by (rewrite <- ln_1; apply ln_le; lra).
    destruct (Req_dec (3 / 2 * ln y) (1 * ln y)) as [->|]; [lra|]. left. apply exp_increasing. lra.
  - rewrite <- EY. apply Rmult_le_compat_l; [lra|]. eapply Rle_trans; [apply Rmin_l|]. lra.
Qed.
Lemma asc_pos g h : 0 <= k_asc (gk g h).
Proof.
  unfold gk, body. cbn [k_asc]. apply Rmult_le_pos; [|apply Rabs_pos].
  assert (W : forall i, 0 <= kronrod_weight i).
  { intro i. do 11 (destruct i as [|i]; [unfold kronrod_weight; apply (digits_range (nth _ kronrod_digits 0%Z, 0%Z)); vm_compute; reflexivity|]).
    unfold kronrod_weight. cbn [nth kronrod_digits]. destruct i; cbn [nth]; rewrite digits_0; lra. }
  assert (G : forall (F : nat -> R) l s, (forall i, 0 <= F i) -> 0 <= s -> 0 <= fold_left (fun s i => s + kronrod_weight i * F i) l s).
  { intros F l. induction l as [|i l IH]; intros s HF Hs; [exact Hs|]. cbn [fold_left]. apply IH; [exact HF|]. pose proof (Rmult_le_pos _ _ (W i) (HF i)). lra. }
  apply (G (fun i => _)).
  - intro i. apply Rplus_le_le_0_compat; apply Rabs_pos.
  - apply Rmult_le_pos; [apply W|apply Rabs_pos].
Qed.
Lemma error_bound g h :
  0 <= k_error (gk g h) <= Rmax (EPMACH * 50 * k_abs (gk g h)) (200 * Rabs ((rule (kronrod_weight 10) K_nodes g - rule 0 G_nodes g) * h)).
Proof.
  pose proof (asc_pos g h) as S. set (s := k_asc (gk g h)) in *.
  assert (E : k_error (gk g h) = let e := Rabs ((rule (kronrod_weight 10) K_nodes g - rule 0 G_nodes g) * h) in
    let e := if negb (s =? 0) && negb (e =? 0) then s * Rmin 1 (Rpower (200 * e / s) (3 / 2)) else e in
    if UFLOW / (50 * EPMACH) <? k_abs (gk g h) then Rmax (EPMACH * 50 * k_abs (gk g h)) e else e).
  { rewrite <- K_fold, <- G_fold. reflexivity. }
  rewrite E. cbv zeta. set (e := Rabs _). pose proof (raw_bound s e S (Rabs_pos _)) as B. set (x := if negb (s =? 0) && negb (e =? 0) then s * Rmin 1 (Rpower (200 * e / s) (3 / 2)) else e) in *. clearbody x.
  assert (0 <= EPMACH * 50 * k_abs (gk g h)).
  { rewrite abs_is. assert (0 < EPMACH) by (apply Rinv_0_lt_compat, pow_lt; lra).
    apply Rmult_le_pos; [lra|]. apply Rmult_le_pos; [|apply Rabs_pos]. unfold rule. apply Rplus_le_le_0_compat.
    - apply Rmult_le_pos; [apply K_good|apply Rabs_pos].
    - replace 0 with (rsum (fun _ => 0 * 1) K_nodes) by (rewrite rsum_scale; ring). apply rsum_le; [exact K_fit|]. intros. pose proof (Rabs_pos (g (- x0))). pose proof (Rabs_pos (g x0)). lra. }
  set (m := EPMACH * 50 * k_abs (gk g h)) in *. clearbody m. destruct (_ <? _).
  - split; [apply Rle_trans with m; [assumption|apply Rmax_l]|]. apply Rmax_lub; [apply Rmax_l|]. eapply Rle_trans; [apply B|apply Rmax_r].
  - split; [apply B|]. eapply Rle_trans; [apply B|apply Rmax_r].
Qed.

(** * The claims *)
Lemma on_polynomial f a b cs L w n : good w L n -> polynomial_between a b f cs -> (length cs <= n)%nat ->
  Rabs (rule w L (onto f a b) - areas cs 0) <= 1 / 10 ^ 15 * magnitudes cs.
Proof.
  intros G P N. rewrite (rule_ext w L _ (fun u => u ^ 0 * polynomial cs u)); [|apply G|].
  - apply (rule_poly _ _ _ G). exact N.
  - intros u HU. unfold onto. rewrite P by exact HU. cbn [pow]. ring.
Qed.
Lemma polynomials f a b cs I : polynomial_between a b f cs -> (length cs <= 32)%nat -> is_RInt f a b I ->
  Rabs (k_value (gauss_kronrod f a b) - I) <= Rabs (b - a) / 10 ^ 15 * magnitudes cs.
Proof.
  intros P N H. rewrite gk_eq, value_is, (integral_is _ _ _ _ _ P H). pose proof (on_polynomial _ _ _ _ _ _ _ K_good P N) as E.
  replace (rule (kronrod_weight 10) K_nodes (onto f a b) * ((b - a) / 2) - (b - a) / 2 * areas cs 0)
    with ((b - a) / 2 * (rule (kronrod_weight 10) K_nodes (onto f a b) - areas cs 0)) by ring.
  rewrite Rabs_mult. unfold Rdiv at 1. rewrite Rabs_mult, (Rabs_pos_eq (/ 2)) by lra.
  pose proof (Rabs_pos (b - a)) as B. pose proof (magnitudes_pos cs) as M. pose proof tiny_pos as T.
  replace (Rabs (b - a) / 10 ^ 15 * magnitudes cs) with (Rabs (b - a) * (1 / 10 ^ 15 * magnitudes cs)) by (unfold Rdiv; ring).
  rewrite Rmult_assoc. apply Rmult_le_compat_l; [exact B|]. pose proof (Rabs_pos (rule (kronrod_weight 10) K_nodes (onto f a b) - areas cs 0)). lra.
Qed.
Lemma polynomial_bound cs u : -1 <= u <= 1 -> Rabs (polynomial cs u) <= magnitudes cs.
Proof.
  intro HU. induction cs as [|c cs IH]; cbn [polynomial magnitudes]; [rewrite Rabs_R0; lra|]. eapply Rle_trans; [apply Rabs_triang|]. rewrite Rabs_mult.
  assert (Rabs u <= 1) by (apply Rabs_le; lra). pose proof (Rabs_pos u). pose proof (Rabs_pos (polynomial cs u)). apply Rplus_le_compat_l. nra.
Qed.
Lemma rule_le w L g h : forallb fit_node L = true -> 0 <= w -> (forall u, -1 <= u <= 1 -> g u <= h u) -> rule w L g <= rule w L h.
Proof.
  intros F W H. unfold rule. apply Rplus_le_compat; [apply Rmult_le_compat_l; [exact W|apply H; lra]|]. apply rsum_le; [exact F|]. intros x X.
  apply Rplus_le_compat; apply H; lra.
Qed.
Lemma rule_const c : rule (kronrod_weight 10) K_nodes (fun _ => c) = c * rule (kronrod_weight 10) K_nodes (fun u => u ^ 0).
Proof.
  unfold rule. rewrite (rsum_ext K_nodes (fun _ => c + c) (fun x => c * ((- x) ^ 0 + x ^ 0)) K_fit) by (intros; cbn [pow]; ring).
  rewrite rsum_scale. cbn [pow]. ring.
Qed.
Lemma rule_one : Rabs (rule (kronrod_weight 10) K_nodes (fun u => u ^ 0) - 2) <= 1 / 10 ^ 15.
Proof.
  destruct K_good as (_ & _ & M). specialize (M 0%nat ltac:(lia)). replace (area 0) with 2 in M; [exact M|]. unfold area. cbn [INR]. field.
Qed.
Lemma error f a b cs : polynomial_between a b f cs -> (length cs <= 20)%nat ->
  0 <= k_error (gauss_kronrod f a b) <= Rabs (b - a) / 10 ^ 12 * magnitudes cs.
Proof.
  intros P N. rewrite gk_eq. destruct (error_bound (onto f a b) ((b - a) / 2)) as [E1 E2]. split; [exact E1|]. eapply Rle_trans; [exact E2|].
  pose proof (on_polynomial _ _ _ _ _ _ _ K_good P ltac:(lia)) as K. pose proof (on_polynomial _ _ _ _ _ _ _ G_good P N) as G.
  assert (A : k_abs (gk (onto f a b) ((b - a) / 2)) <= 3 * magnitudes cs * (Rabs (b - a) / 2)).
  { rewrite abs_is. unfold Rdiv at 1. rewrite Rabs_mult, (Rabs_pos_eq (/ 2)) by lra. pose proof (Rabs_pos (b - a)).
    apply Rmult_le_compat_r; [lra|]. apply Rle_trans with (rule (kronrod_weight 10) K_nodes (fun _ => magnitudes cs)).
    - apply rule_le; [exact K_fit|apply K_good|]. intros u HU. unfold onto. rewrite P by exact HU. now apply polynomial_bound.
    - rewrite rule_const. pose proof rule_one as O1. apply Rabs_le_between in O1. pose proof (magnitudes_pos cs).
      assert (1 / 10 ^ 15 <= 1) by (unfold Rdiv; rewrite Rmult_1_l; rewrite <- Rinv_1; apply Rinv_le_contravar; [lra|apply pow_R1_Rle; lra]). nra. }
  pose proof (Rabs_pos (b - a)) as B. pose proof (magnitudes_pos cs) as M.
  assert (BM : 0 <= Rabs (b - a) * magnitudes cs) by (apply Rmult_le_pos; assumption).
  apply Rmax_lub.
  - assert (EP : EPMACH * 50 * 3 <= 2 / 10 ^ 12). { unfold EPMACH. apply (Rmult_le_reg_r (2 ^ 52 * 10 ^ 12)); [apply Rmult_lt_0_compat; apply pow_lt; lra|].
      replace (/ 2 ^ 52 * 50 * 3 * (2 ^ 52 * 10 ^ 12)) with (150 * 10 ^ 12) by field. replace (2 / 10 ^ 12 * (2 ^ 52 * 10 ^ 12)) with (2 * 2 ^ 52) by field. lra. }
    assert (0 < EPMACH) by (apply Rinv_0_lt_compat, pow_lt; lra).
    apply Rle_trans with (EPMACH * 50 * (3 * magnitudes cs * (Rabs (b - a) / 2))); [apply Rmult_le_compat_l; [lra|exact A]|].
    replace (EPMACH * 50 * (3 * magnitudes cs * (Rabs (b - a) / 2))) with (EPMACH * 50 * 3 * (Rabs (b - a) * magnitudes cs) / 2) by field.
    replace (Rabs (b - a) / 10 ^ 12 * magnitudes cs) with (2 / 10 ^ 12 * (Rabs (b - a) * magnitudes cs) / 2) by (field; apply pow_nonzero; lra).
    apply Rmult_le_compat_r; [lra|]. apply Rmult_le_compat_r; assumption.
  - rewrite Rabs_mult. unfold Rdiv at 1. rewrite (Rabs_mult (b - a)), (Rabs_pos_eq (/ 2)) by lra.
    assert (D : Rabs (rule (kronrod_weight 10) K_nodes (onto f a b) - rule 0 G_nodes (onto f a b)) <= 2 * (1 / 10 ^ 15 * magnitudes cs)).
    { apply Rabs_le_between in K. apply Rabs_le_between in G. apply Rabs_le. lra. }
    apply Rle_trans with (200 * (2 * (1 / 10 ^ 15 * magnitudes cs) * (Rabs (b - a) * / 2))).
    { apply Rmult_le_compat_l; [lra|]. apply Rmult_le_compat_r; [lra|exact D]. }
    replace (200 * (2 * (1 / 10 ^ 15 * magnitudes cs) * (Rabs (b - a) * / 2))) with (200 / 10 ^ 15 * (Rabs (b - a) * magnitudes cs)) by (field; apply pow_nonzero; lra).
    replace (Rabs (b - a) / 10 ^ 12 * magnitudes cs) with (1 / 10 ^ 12 * (Rabs (b - a) * magnitudes cs)) by (field; apply pow_nonzero; lra).
    apply Rmult_le_compat_r; [exact BM|]. lra.
Qed.
Lemma between f a b lo hi : a <= b -> (forall x, a <= x <= b -> lo <= f x <= hi) ->
  (lo - Rabs lo / 10 ^ 15) * (b - a) <= k_value (gauss_kronrod f a b) <= (hi + Rabs hi / 10 ^ 15) * (b - a).
Proof.
  intros AB H. rewrite gk_eq, value_is. assert (O : forall u, -1 <= u <= 1 -> lo <= onto f a b u <= hi).
  { intros u HU. apply H. split; nra. }
  pose proof rule_one as R1. apply Rabs_le_between in R1. pose proof tiny_pos as T.
  assert (Lo : lo * rule (kronrod_weight 10) K_nodes (fun u => u ^ 0) <= rule (kronrod_weight 10) K_nodes (onto f a b)).
  { rewrite <- rule_const. apply rule_le; [exact K_fit|apply K_good|]. intros u HU. apply O, HU. }
  assert (Hi : rule (kronrod_weight 10) K_nodes (onto f a b) <= hi * rule (kronrod_weight 10) K_nodes (fun u => u ^ 0)).
  { rewrite <- rule_const. apply rule_le; [exact K_fit|apply K_good|]. intros u HU. apply O, HU. }
  set (r := rule (kronrod_weight 10) K_nodes (onto f a b)) in *. set (o := rule (kronrod_weight 10) K_nodes (fun u => u ^ 0)) in *. clearbody r o.
  unfold Rdiv in R1, T |- *. rewrite Rmult_1_l in R1, T. set (t := / 10 ^ 15) in *. clearbody t.
  assert (L1 : 2 * (lo - Rabs lo * t) <= lo * o). { pose proof (Rabs_pos lo). pose proof (Rle_abs lo). pose proof (Rle_abs (- lo)) as N. rewrite Rabs_Ropp in N. nra. }
  assert (L2 : hi * o <= 2 * (hi + Rabs hi * t)). { pose proof (Rabs_pos hi). pose proof (Rle_abs hi). pose proof (Rle_abs (- hi)) as N. rewrite Rabs_Ropp in N. nra. }
  split; nra.
Qed.
(** * Swapped limits *)
Lemma body_swap f1 f2 fc h : body f2 f1 fc (- h) = let k := body f1 f2 fc h in mkkronrod (- k_value k) (k_error k) (k_abs k) (k_asc k).
Proof.
  assert (E : forall (w : nat -> R) (p q : nat -> R), (fun s i => s + w i * (p i + q i)) = (fun s i => s + w i * (q i + p i))).
  { intros. apply FunctionalExtensionality.functional_extensionality. intro s. apply FunctionalExtensionality.functional_extensionality. intro i. now rewrite (Rplus_comm (p i)). }
  unfold body. cbv zeta. cbn [k_value k_error k_abs k_asc].
  rewrite (E (fun i => gauss_weight ((i - 1) / 2)) f2 f1), (E kronrod_weight f2 f1), (E kronrod_weight (fun i => Rabs (f2 i)) (fun i => Rabs (f1 i))).
  set (rk := fold_left _ (odd_indices ++ even_indices) (kronrod_weight 10 * fc)).
  rewrite (E kronrod_weight (fun i => Rabs (f2 i - rk * (1 / 2))) (fun i => Rabs (f1 i - rk * (1 / 2)))).
  rewrite Rabs_Ropp. rewrite !Ropp_mult_distr_r_reverse, Rabs_Ropp. reflexivity.
Qed.
Lemma swapped f a b : let k := gauss_kronrod f a b in
  gauss_kronrod f b a = mkkronrod (- k_value k) (k_error k) (k_abs k) (k_asc k).
Proof.
  cbv zeta. rewrite !gk_eq. unfold gk. replace ((a - b) / 2) with (- ((b - a) / 2)) by field.
  assert (E : forall u, onto f b a u = onto f a b (- u)) by (intro u; unfold onto; f_equal; field).
  assert (E1 : (fun i => onto f b a (- abscissa i)) = (fun i => onto f a b (abscissa i))).
  { apply FunctionalExtensionality.functional_extensionality. intro i. rewrite E. f_equal. ring. }
  assert (E2 : (fun i => onto f b a (abscissa i)) = (fun i => onto f a b (- abscissa i))).
  { apply FunctionalExtensionality.functional_extensionality. intro i. now rewrite E. }
  rewrite E1, E2, (E 0), Ropp_0. exact (body_swap (fun i => onto f a b (- abscissa i)) (fun i => onto f a b (abscissa i)) (onto f a b 0) ((b - a) / 2)).
Qed.
(** * The first step of qags *)
Lemma accepted limit epsabs epsrel f a b o : qags_start limit epsabs epsrel f a b = Some o -> q_ier o = 0%Z ->
  q_abserr o <= Rmax epsabs (epsrel * Rabs (q_value o)) \/ q_abserr o = 0.
Proof.
  unfold qags_start. destruct ((epsabs <? 0) && (epsrel <? 0)); [intros [= <-]; discriminate|]. cbv zeta.
  set (k := gauss_kronrod f a b). clearbody k. set (e := Rmax epsabs (epsrel * Rabs (k_value k))).
  destruct (Rleb_spec (k_error k) e) as [L|L].
  - destruct (negb _ || _ || _); [|discriminate]. intros [= <-] _. left. exact L.
  - destruct (Reqb_spec (k_error k) 0) as [Z|Z].
    + destruct (negb _ || _ || _); [|discriminate]. intros [= <-] _. right. exact Z.
    + set (i := if limit =? 1 then 1%Z else _). clearbody i. destruct (Z.eqb_spec i 0) as [->|N]; cbn [negb orb andb].
      * discriminate.
      * intros [= <-]. cbn [q_ier]. contradiction.
Qed.
Lemma at_once f a b cs I : polynomial_between a b f cs -> (length cs <= 20)%nat -> is_RInt f a b I ->
  Rabs (b - a) * magnitudes cs / 10 ^ 5 <= Rabs I ->
  let k := gauss_kronrod f a b in
  qags_first f a b = Some (mkquadpack (k_value k) (k_error k) 21 0) \/ k_error k = k_asc k.
Proof.
  intros P N H B. cbv zeta. pose proof (error _ _ _ _ P N) as [E1 E2]. pose proof (polynomials _ _ _ _ _ P ltac:(lia) H) as V.
  set (k := gauss_kronrod f a b) in *. destruct (Req_dec (k_error k) (k_asc k)) as [D|D]; [right; exact D|left].
  assert (BM : 0 <= Rabs (b - a) * magnitudes cs) by (apply Rmult_le_pos; [apply Rabs_pos|apply magnitudes_pos]).
  replace (Rabs (b - a) / 10 ^ 12 * magnitudes cs) with (Rabs (b - a) * magnitudes cs / 10 ^ 12) in E2 by (field; apply pow_nonzero; lra).
  replace (Rabs (b - a) / 10 ^ 15 * magnitudes cs) with (Rabs (b - a) * magnitudes cs / 10 ^ 15) in V by (field; apply pow_nonzero; lra).
  set (q := Rabs (b - a) * magnitudes cs) in *. clearbody q.
  assert (A : Rabs I - q / 10 ^ 15 <= Rabs (k_value k)).
  { pose proof (Rabs_triang_inv I (k_value k)) as T. rewrite Rabs_minus_sym in T. lra. }
  unfold qags_first, qags_start. fold k. assert (T50 : 0 < / 10 ^ 50) by (apply Rinv_0_lt_compat, pow_lt; lra). assert (T6 : 0 < / 10 ^ 6) by (apply Rinv_0_lt_compat, pow_lt; lra).
  rewrite (proj2 (Rltb_false (/ 10 ^ 50) 0)) by lra. cbn [andb].
  assert (L : k_error k <= Rmax (/ 10 ^ 50) (/ 10 ^ 6 * Rabs (k_value k))).
  { eapply Rle_trans; [|apply Rmax_r]. clear T50. lra. }
  cbv zeta. set (e := Rmax _ _) in *. clearbody e. rewrite (proj2 (Rltb_false e (k_error k))) by lra. rewrite andb_false_r.
  destruct (Reqb_spec 50 1); [lra|]. cbn [Z.eqb negb orb].
  destruct (Rleb_spec (k_error k) e); [|lra]. destruct (Reqb_spec (k_error k) (k_asc k)); [contradiction|]. reflexivity.
Qed.
(** * A function that vanishes at all nodes *)
Definition factor (u : R) (z : Z) : R := (u * u - digits z * digits z) * (u * u - digits z * digits z).
Definition bump (u : R) : R := fold_right (fun z p => factor u z * p) 1 abscissa_digits.
Lemma vanishes u z : In z abscissa_digits -> u = digits z \/ u = - digits z -> bump u = 0.
Proof.
  unfold bump. generalize abscissa_digits as l. induction l as [|y l IH]; intros I U; [contradiction|]. cbn [fold_right]. destruct I as [->|I].
  - unfold factor. replace (u * u) with (digits z * digits z) by (destruct U; subst u; ring). ring.
  - rewrite (IH I U). ring.
Qed.
Lemma bump_pos u : 0 <= bump u.
Proof.
  unfold bump. generalize abscissa_digits as l. induction l as [|y l IH]; cbn [fold_right]; [lra|]. apply Rmult_le_pos; [|exact IH]. apply Rle_0_sqr.
Qed.
Lemma bump_continuous u : continuous bump u.
Proof.
  unfold bump. generalize abscissa_digits as l. induction l as [|y l IH]; cbn [fold_right]; [apply continuous_const|].
  apply (continuous_mult (fun u => factor u y)); [|exact IH]. apply (ex_derive_continuous (fun u => factor u y)). unfold factor. auto_derive. exact I.
Qed.
Lemma apart_from z u : (0 <=? z)%Z && ((5 * z <=? 10 ^ 33) || (10 ^ 33 <=? 4 * z))%Z = true -> 1 / 5 < u < 1 / 4 -> 0 < factor u z.
Proof.
  rewrite andb_true_iff, orb_true_iff, !Z.leb_le. intros [Z0 H] HU. pose proof scale_pos as S.
  assert (D0 : 0 <= digits z) by (apply Rdiv_le_0_compat; [apply (IZR_le 0), Z0|exact S]).
  assert (E : IZR z = digits z * 10 ^ 33) by (unfold digits; generalize dependent (10 ^ 33); intros; field; lra).
  assert (N : u * u - digits z * digits z <> 0).
  { destruct H as [H|H]; apply IZR_le in H; rewrite mult_IZR, <- scale_IZR, E in H; clear E; set (t := 10 ^ 33) in *; clearbody t; set (d := digits z) in *; clearbody d.
    - assert (5 * d <= 1) by (apply (Rmult_le_reg_r t); [exact S|lra]). nra.
    - assert (1 <= 4 * d) by (apply (Rmult_le_reg_r t); [exact S|lra]). nra. }
  unfold factor. apply Rlt_0_sqr. exact N.
Qed.
Lemma bump_big u : 1 / 5 < u < 1 / 4 -> 0 < bump u.
Proof.
  intro HU. unfold bump. assert (C : forallb (fun z => (0 <=? z)%Z && ((5 * z <=? 10 ^ 33) || (10 ^ 33 <=? 4 * z))%Z) abscissa_digits = true) by (vm_compute; reflexivity).
  revert C. generalize abscissa_digits as l. induction l as [|y l IH]; cbn [fold_right forallb]; [lra|]. rewrite andb_true_iff. intros [A B].
  apply Rmult_lt_0_compat; [now apply apart_from|]. now apply IH.
Qed.
Lemma bump_integrable a b : ex_RInt bump a b.
Proof. apply (ex_RInt_continuous (V := R_CompleteNormedModule)). intros. apply bump_continuous. Qed.
Lemma bump_integral : 0 < RInt bump (-1) 1.
Proof.
  rewrite <- (RInt_Chasles bump (-1) (1 / 5) 1) by apply bump_integrable. rewrite <- (RInt_Chasles bump (1 / 5) (1 / 4) 1) by apply bump_integrable.
  assert (A : 0 <= RInt bump (-1) (1 / 5)) by (apply RInt_ge_0; [lra|apply bump_integrable|intros; apply bump_pos]).
  assert (B : 0 < RInt bump (1 / 5) (1 / 4)) by (apply RInt_gt_0; [lra|exact bump_big|intros; apply bump_continuous]).
  assert (C : 0 <= RInt bump (1 / 4) 1) by (apply RInt_ge_0; [lra|apply bump_integrable|intros; apply bump_pos]).
  change (0 < RInt bump (-1) (1 / 5) + (RInt bump (1 / 5) (1 / 4) + RInt bump (1 / 4) 1)). lra.
Qed.
Lemma rsum_zero h L : (forall p, In p L -> h (digits (snd p)) = 0) -> rsum h L = 0.
Proof.
  intro H. unfold rsum. induction L as [|p L IH]; [reflexivity|]. cbn [fold_right]. rewrite IH by (intros; apply H; now right). rewrite (H p) by now left. ring.
Qed.
Lemma in_abscissae (L : list (Z * Z)) p : (forallb (fun p => existsb (Z.eqb (snd p)) abscissa_digits) L = true) -> In p L -> In (snd p) abscissa_digits.
Proof.
  intros H I. apply (proj1 (forallb_forall _ _) H), existsb_exists in I. destruct I as [z [Z1 Z2]]. apply Z.eqb_eq in Z2. now rewrite Z2.
Qed.
Lemma rule_zero w (L : list (Z * Z)) h : (forallb (fun p => existsb (Z.eqb (snd p)) abscissa_digits) L = true) -> h 0 = 0 -> (forall u, bump u = 0 -> h u = 0) -> rule w L h = 0.
Proof.
  intros H Z E. unfold rule. rewrite Z, rsum_zero; [ring|]. intros p I. apply (in_abscissae L p H) in I.
  rewrite !E by (apply (vanishes _ _ I); tauto). ring.
Qed.
Lemma blind : exists f I, (forall x, continuous f x) /\ is_RInt f (-1) 1 I /\ 0 < I /\ qags_first f (-1) 1 = Some (mkquadpack 0 0 21 0).
Proof.
  exists bump, (RInt bump (-1) 1). split; [exact bump_continuous|]. split; [apply (RInt_correct (V := R_CompleteNormedModule)), bump_integrable|]. split; [exact bump_integral|].
  assert (Z0 : bump 0 = 0) by (apply (vanishes 0 0); [cbn; tauto|left; symmetry; apply digits_0]).
  assert (EO : forall u, onto bump (-1) 1 u = bump u) by (intro u; unfold onto; f_equal; field).
  assert (NK : forallb (fun p => existsb (Z.eqb (snd p)) abscissa_digits) K_nodes = true) by (vm_compute; reflexivity).
  assert (NG : forallb (fun p => existsb (Z.eqb (snd p)) abscissa_digits) G_nodes = true) by (vm_compute; reflexivity).
  assert (RK : rule (kronrod_weight 10) K_nodes (onto bump (-1) 1) = 0) by (apply rule_zero; [exact NK|rewrite EO; exact Z0|intros u H; rewrite EO; exact H]).
  assert (RG : rule 0 G_nodes (onto bump (-1) 1) = 0) by (apply rule_zero; [exact NG|rewrite EO; exact Z0|intros u H; rewrite EO; exact H]).
  assert (RA : rule (kronrod_weight 10) K_nodes (fun u => Rabs (onto bump (-1) 1 u)) = 0).
  { apply rule_zero; [exact NK|rewrite EO, Z0; apply Rabs_R0|intros u H; rewrite EO, H; apply Rabs_R0]. }
  set (k := gauss_kronrod bump (-1) 1).
  assert (V : k_value k = 0) by (unfold k; rewrite gk_eq, value_is, RK; ring).
  assert (A : k_abs k = 0) by (unfold k; rewrite gk_eq, abs_is, RA; ring).
  assert (E : k_error k = 0).
  { unfold k. rewrite gk_eq. pose proof (error_bound (onto bump (-1) 1) ((1 - -1) / 2)) as [E1 E2]. rewrite abs_is, RA, RK, RG in E2.
    replace (EPMACH * 50 * (0 * Rabs ((1 - -1) / 2))) with 0 in E2 by ring. replace ((0 - 0) * ((1 - -1) / 2)) with 0 in E2 by ring. rewrite Rabs_R0, Rmult_0_r, Rmax_left in E2 by lra. lra. }
  unfold qags_first, qags_start. fold k. assert (T50 : 0 < / 10 ^ 50) by (apply Rinv_0_lt_compat, pow_lt; lra).
  rewrite (proj2 (Rltb_false (/ 10 ^ 50) 0)) by lra. cbn [andb]. cbv zeta. rewrite V, E, A, Rabs_R0, !Rmult_0_r, Rmax_left by lra.
  rewrite (proj2 (Rltb_false (/ 10 ^ 50) 0)) by lra. rewrite andb_false_r. destruct (Reqb_spec 50 1); [lra|]. destruct (Reqb_spec 0 0); [|lra].
  rewrite orb_true_r. reflexivity.
Qed.
(** * The integrals of the magnitude and of the deviation *)
Lemma magnitude f a b : a <= b -> k_abs (gauss_kronrod f a b) = k_value (gauss_kronrod (fun x => Rabs (f x)) a b).
Proof. intro H. rewrite !gk_eq, abs_is, value_is, (Rabs_pos_eq ((b - a) / 2)) by lra. reflexivity. Qed.
Lemma asc_is g h : k_asc (gk g h) = rule (kronrod_weight 10) K_nodes (fun u => Rabs (g u - rule (kronrod_weight 10) K_nodes g * (1 / 2))) * Rabs h.
Proof.
  unfold gk, body. cbn [k_asc]. rewrite K_fold. generalize (rule (kronrod_weight 10) K_nodes g * (1 / 2)) as m. intro m. f_equal.
  unfold rule, rsum, K_nodes, kronrod_weight, abscissa. cbn [seq map app odd_indices even_indices fold_left fold_right nth fst snd kronrod_digits abscissa_digits].
  set (D := digits). clearbody D. ring.
Qed.
Lemma roughness f a b : a < b ->
  k_asc (gauss_kronrod f a b) = k_value (gauss_kronrod (fun x => Rabs (f x - k_value (gauss_kronrod f a b) / (b - a))) a b).
Proof.
  intro H. rewrite !gk_eq, asc_is, !value_is, (Rabs_pos_eq ((b - a) / 2)) by lra. f_equal. f_equal.
  apply FunctionalExtensionality.functional_extensionality. intro u. unfold onto at 1 3. f_equal. f_equal. field. lra.
Qed.
Lemma single epsabs epsrel f a b : 0 <= epsabs \/ 0 <= epsrel ->
  let k := gauss_kronrod f a b in qags_start 1 epsabs epsrel f a b = Some (mkquadpack (k_value k) (k_error k) 21 1).
Proof.
  intros H. unfold qags_start. cbv zeta. assert (E : (epsabs <? 0) && (epsrel <? 0) = false).
  { apply andb_false_iff. rewrite !Rltb_false. lra. }
  rewrite E. destruct (Reqb_spec 1 1); [reflexivity|lra].
Qed.
Lemma impossible limit epsabs epsrel f a b : epsabs < 0 -> epsrel < 0 -> qags_start limit epsabs epsrel f a b = Some (mkquadpack 0 0 0 6).
Proof. intros A B. unfold qags_start. rewrite (proj2 (Rltb_true epsabs 0) A), (proj2 (Rltb_true epsrel 0) B). reflexivity. Qed.
(** * Any function *)
Lemma rule_shift g d : rule (kronrod_weight 10) K_nodes (fun u => g u + d) = rule (kronrod_weight 10) K_nodes g + d * rule (kronrod_weight 10) K_nodes (fun u => u ^ 0).
Proof.
  rewrite <- rule_const. unfold rule. rewrite (rsum_ext K_nodes (fun x => g (- x) + d + (g x + d)) (fun x => (g (- x) + g x) + (d + d)) K_fit) by (intros; ring).
  rewrite rsum_add. ring.
Qed.
Lemma shifted_int cs d h : is_RInt (fun u => h * (polynomial cs u + d)) (-1) 1 (h * (areas cs 0 + 2 * d)).
Proof.
  pose proof (areas_int cs 0) as A. pose proof (is_RInt_const (V := R_NormedModule) (-1) 1 d) as C. change (is_RInt (fun _ => d) (-1) 1 ((1 - -1) * d)) in C.
  pose proof (is_RInt_scal _ _ _ h _ (is_RInt_plus _ _ _ _ _ _ A C)) as P.
  replace (h * (areas cs 0 + 2 * d)) with (scal h (plus (areas cs 0) ((1 - -1) * d))) by (change (h * (areas cs 0 + (1 - -1) * d) = h * (areas cs 0 + 2 * d)); ring).
  eapply is_RInt_ext; [|exact P]. intros x _. change (h * (x ^ 0 * polynomial cs x + d) = h * (polynomial cs x + d)). cbn [pow]. ring.
Qed.
Lemma approximated f a b cs d I : a <= b -> (length cs <= 32)%nat ->
  (forall u, -1 <= u <= 1 -> Rabs (f ((a + b) / 2 + (b - a) / 2 * u) - polynomial cs u) <= d) -> is_RInt f a b I ->
  Rabs (k_value (gauss_kronrod f a b) - I) <= (b - a) * (magnitudes cs / 10 ^ 15 + 3 * d).
Proof.
  intros AB N H J. rewrite gk_eq, value_is. change (forall u, -1 <= u <= 1 -> Rabs (onto f a b u - polynomial cs u) <= d) in H.
  assert (D : 0 <= d) by (eapply Rle_trans; [apply Rabs_pos|apply (H 0); lra]).
  assert (B : forall u, -1 <= u <= 1 -> polynomial cs u + - d <= onto f a b u <= polynomial cs u + d).
  { intros u U. pose proof (proj1 (Rabs_le_between _ _) (H u U)). lra. }
  assert (L : rule (kronrod_weight 10) K_nodes (fun u => polynomial cs u + - d) <= rule (kronrod_weight 10) K_nodes (onto f a b)).
  { apply rule_le; [exact K_fit|apply K_good|]. intros u U. apply B, U. }
  assert (R : rule (kronrod_weight 10) K_nodes (onto f a b) <= rule (kronrod_weight 10) K_nodes (fun u => polynomial cs u + d)).
  { apply rule_le; [exact K_fit|apply K_good|]. intros u U. apply B, U. }
  rewrite rule_shift in L, R.
  assert (P : Rabs (rule (kronrod_weight 10) K_nodes (polynomial cs) - areas cs 0) <= 1 / 10 ^ 15 * magnitudes cs).
  { rewrite (rule_ext _ _ (polynomial cs) (fun u => u ^ 0 * polynomial cs u) K_fit) by (intros; cbn [pow]; ring). apply (rule_poly _ _ _ K_good). exact N. }
  set (h := (b - a) / 2). assert (Hh : 0 <= h) by (unfold h; lra).
  assert (E1 : (b - a) / 2 * -1 + (a + b) / 2 = a) by field. assert (E2 : (b - a) / 2 * 1 + (a + b) / 2 = b) by field.
  assert (J' : is_RInt f ((b - a) / 2 * -1 + (a + b) / 2) ((b - a) / 2 * 1 + (a + b) / 2) I) by (rewrite E1, E2; exact J).
  apply (is_RInt_comp_lin f ((b - a) / 2) ((a + b) / 2) (-1) 1) in J'.
  assert (X : forall x, onto f a b x = f ((b - a) / 2 * x + (a + b) / 2)) by (intro x; unfold onto; f_equal; ring).
  assert (I1 : h * (areas cs 0 + 2 * - d) <= I).
  { eapply (is_RInt_le (fun u => h * (polynomial cs u + - d))); [|apply shifted_int|exact J'|]; [lra|]. intros x [X1 X2].
    change (h * (polynomial cs x + - d) <= h * f ((b - a) / 2 * x + (a + b) / 2)). rewrite <- X. apply Rmult_le_compat_l; [exact Hh|]. apply B. lra. }
  assert (I2 : I <= h * (areas cs 0 + 2 * d)).
  { eapply (is_RInt_le _ (fun u => h * (polynomial cs u + d))); [|exact J'|apply shifted_int|]; [lra|]. intros x [X1 X2].
    change (h * f ((b - a) / 2 * x + (a + b) / 2) <= h * (polynomial cs x + d)). rewrite <- X. apply Rmult_le_compat_l; [exact Hh|]. apply B. lra. }
  pose proof rule_one as O. replace (b - a) with (2 * h) by (unfold h; field).
  pose proof (magnitudes_pos cs) as M. assert (T1 : 1 / 10 ^ 15 <= 1) by (apply (Rmult_le_reg_r (10 ^ 15)); [apply pow_lt; lra|]; unfold Rdiv; rewrite Rmult_assoc, Rinv_l by (apply pow_nonzero; lra); rewrite !Rmult_1_l, <- (pow1 15); apply pow_incr; lra).
  replace (magnitudes cs / 10 ^ 15) with (1 / 10 ^ 15 * magnitudes cs) by (unfold Rdiv; ring). pose proof tiny_pos as T.
  set (t := 1 / 10 ^ 15) in *. clearbody t h. set (q := rule (kronrod_weight 10) K_nodes (onto f a b)) in *. set (p := rule (kronrod_weight 10) K_nodes (polynomial cs)) in *.
  set (o := rule (kronrod_weight 10) K_nodes (fun u => u ^ 0)) in *. set (A := areas cs 0) in *. set (m := magnitudes cs) in *. clearbody q p o A m.
  apply Rabs_le_between in P, O. assert (DO : d * o <= d * 3) by (apply Rmult_le_compat_l; lra).
  assert (TM : 0 <= t * m) by (apply Rmult_le_pos; lra).
  assert (Q1 : A - t * m - 3 * d <= q) by lra. assert (Q2 : q <= A + t * m + 3 * d) by lra.
  pose proof (Rmult_le_compat_l h _ _ Hh Q1) as S1. pose proof (Rmult_le_compat_l h _ _ Hh Q2) as S2.
  pose proof (Rmult_le_pos h _ Hh TM) as S3. pose proof (Rmult_le_pos h _ Hh D) as S4. apply Rabs_le. lra.
Qed.
(** The estimate never claims more than rounding allows. *)
Lemma roundoff f a b : let k := gauss_kronrod f a b in UFLOW / (50 * EPMACH) < k_abs k -> 50 * EPMACH * k_abs k <= k_error k.
Proof.
  cbv zeta. rewrite gk_eq. set (g := onto f a b). set (h := (b - a) / 2). set (s := k_asc (gk g h)).
  assert (E : k_error (gk g h) = let e := Rabs ((rule (kronrod_weight 10) K_nodes g - rule 0 G_nodes g) * h) in
    let e := if negb (s =? 0) && negb (e =? 0) then s * Rmin 1 (Rpower (200 * e / s) (3 / 2)) else e in
    if UFLOW / (50 * EPMACH) <? k_abs (gk g h) then Rmax (EPMACH * 50 * k_abs (gk g h)) e else e).
  { rewrite <- K_fold, <- G_fold. reflexivity. }
  intro H. rewrite E. cbv zeta. rewrite (proj2 (Rltb_true _ _) H). replace (EPMACH * 50) with (50 * EPMACH) by ring. apply Rmax_l.
Qed.
