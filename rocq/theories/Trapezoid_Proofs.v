(** The sums of Trapezoid, Trapezoid3 and Trapezoid3S. *)
From Verif Require Import Prelude PreludeFacts Function_Model Integral_Model Function_Spec Integral_Spec.

Lemma fbind_Ok {A B} (a : A) (f : A -> run B) : fbind (done (Ok a)) f = f a.
Proof. reflexivity. Qed.

Lemma sum_below_ext n f g : (forall i, (i < n)%nat -> f i = g i) -> sum_below n f = sum_below n g.
Proof.
  induction n as [|n IH]; intro H; [reflexivity|]. cbn [sum_below].
  rewrite IH by (intros; apply H; lia). rewrite H by lia. reflexivity.
Qed.
Lemma sum_below_plus n f g : sum_below n (fun i => f i + g i) = sum_below n f + sum_below n g.
Proof. induction n as [|n IH]; cbn [sum_below]; [lra|]. rewrite IH. lra. Qed.
Lemma sum_below_scale n k f : sum_below n (fun i => k * f i) = k * sum_below n f.
Proof. induction n as [|n IH]; cbn [sum_below]; [lra|]. rewrite IH. lra. Qed.
Lemma sum_below_triple k f :
  sum_below (3 * k) f = sum_below k (fun j => f (3 * j)%nat + f (3 * j + 2)%nat) + sum_below k (fun j => f (3 * j + 1)%nat).
Proof.
  induction k as [|k IH]; [cbn; lra|].
  replace (3 * S k)%nat with (S (S (S (3 * k)))) by lia. cbn [sum_below]. rewrite IH.
  replace (3 * k + 1)%nat with (S (3 * k)) by lia. replace (3 * k + 2)%nat with (S (S (3 * k))) by lia. lra.
Qed.
Lemma sum_below_double k f :
  sum_below (2 * k) f = sum_below k (fun j => f (2 * j)%nat) + sum_below k (fun j => f (2 * j + 1)%nat).
Proof.
  induction k as [|k IH]; [cbn; lra|].
  replace (2 * S k)%nat with (S (S (2 * k))) by lia. cbn [sum_below]. rewrite IH.
  replace (2 * k + 1)%nat with (S (2 * k)) by lia. lra.
Qed.
Lemma sum_below_shift n f : sum_below (S n) f = f 0%nat + sum_below n (fun i => f (S i)).
Proof. induction n as [|n IH]; [cbn; lra|]. cbn [sum_below] in *. lra. Qed.

Lemma ltb_yes a b : a < b -> (a <? b) = true.
Proof. apply Rltb_true. Qed.
Lemma ltb_no a b : b <= a -> (a <? b) = false.
Proof. intro H. apply Rltb_false. lra. Qed.

(** ** The loops *)
Lemma trapezoid_loop_sum f F a h n (Hh : 0 < h) :
  (forall j, (j < n)%nat -> f (a + (INR j + / 2) * h) = Ok (F (a + (INR j + / 2) * h))) ->
  forall m j fuel x max sum, (j + m = n)%nat -> (m < fuel)%nat ->
  x = a + (INR j + / 2) * h -> max = a + INR n * h -> sum = sum_below j (fun i => F (a + (INR i + / 2) * h)) ->
  trapezoid_loop fuel f x max h sum = Some (Ok (sum_below n (fun i => F (a + (INR i + / 2) * h)))).
Proof.
  intros Hf. induction m as [|m IH]; intros j fuel x max sum E L -> -> ->; destruct fuel as [|fuel]; try lia; cbn [trapezoid_loop].
  - replace j with n by lia. rewrite ltb_no; [reflexivity|]. nra.
  - rewrite ltb_yes.
    2:{ assert (INR j + 1 <= INR n) by (rewrite <- S_INR; apply le_INR; lia). nra. }
    rewrite Hf by lia. rewrite fbind_Ok.
    apply (IH (S j)); try lia; try reflexivity. rewrite S_INR. lra.
Qed.

Lemma trapezoid3_loop_sum f F a h k (Hh : 0 < h) :
  (forall j, (j < 3 * k)%nat -> f (a + (INR j + / 2) * h) = Ok (F (a + (INR j + / 2) * h))) ->
  forall m j fuel x max sum, (j + m = k)%nat -> (m < fuel)%nat ->
  x = a + (INR (3 * j) + / 2) * h -> max = a + INR (3 * k) * h ->
  sum = sum_below j (fun i => F (a + (INR (3 * i) + / 2) * h) + F (a + (INR (3 * i + 2) + / 2) * h)) ->
  trapezoid3_loop fuel f x max h sum =
  Some (Ok (sum_below k (fun i => F (a + (INR (3 * i) + / 2) * h) + F (a + (INR (3 * i + 2) + / 2) * h)))).
Proof.
  intros Hf. induction m as [|m IH]; intros j fuel x max sum E L -> -> ->; destruct fuel as [|fuel]; try lia; cbn [trapezoid3_loop].
  - replace j with k by lia. rewrite ltb_no; [reflexivity|]. nra.
  - rewrite ltb_yes.
    2:{ assert (INR (3 * j) + 1 <= INR (3 * k)) by (rewrite <- S_INR; apply le_INR; lia). nra. }
    rewrite Hf by lia. rewrite fbind_Ok.
    replace (a + (INR (3 * j) + / 2) * h + 2 * h) with (a + (INR (3 * j + 2) + / 2) * h)
      by (rewrite plus_INR; cbn [INR]; lra).
    rewrite Hf by lia. rewrite fbind_Ok.
    apply (IH (S j)); try lia; try reflexivity.
    + replace (3 * S j)%nat with (3 * j + 2 + 1)%nat by lia. rewrite (plus_INR (3 * j + 2)). cbn [INR]. lra.
    + cbn [sum_below]. lra.
Qed.

(** The sum of Trapezoid3S is the same, if the place can be computed. *)
Lemma trapezoid3s_loop_sum nan f wanted precision small fuel : forall x max h sum found r,
  trapezoid3s_loop nan fuel f wanted precision small x max h sum found = Some (Ok r) ->
  trapezoid3_loop fuel f x max h sum = Some (Ok (fst r)).
Proof.
  induction fuel as [|fuel IH]; intros x max h sum found r H; cbn [trapezoid3s_loop trapezoid3_loop] in *; [discriminate|].
  destruct (x <? max); [|inversion H; reflexivity].
  destruct (f x) as [y1| |]; try discriminate. rewrite !fbind_Ok in *.
  destruct (f (x + 2 * h)) as [y2| |]; try discriminate. rewrite !fbind_Ok in *.
  destruct found as [p|].
  - rewrite fbind_Ok in H. exact (IH _ _ _ _ _ _ H).
  - destruct (_ && _).
    + destruct (locate _ _ _ _ _ _ _ _) as [p| |]; try discriminate. rewrite !fbind_Ok in H. exact (IH _ _ _ _ _ _ H).
    + rewrite fbind_Ok in H. exact (IH _ _ _ _ _ _ H).
Qed.

(** ** The sums *)
Definition good (f : R -> outcome R) (F : R -> R) (a b : R) : Prop := forall x, a < x < b -> f x = Ok (F x).

Lemma node_inside a b n j : a < b -> (j < n)%nat -> a < a + (INR j + / 2) * ((b - a) / INR n) < b.
Proof.
  intros Hab Hj. assert (0 < INR n) by (apply (lt_INR 0); lia).
  assert (0 <= INR j) by apply pos_INR. assert (INR j + 1 <= INR n) by (rewrite <- S_INR; apply le_INR; lia).
  set (h := (b - a) / INR n). assert (0 < h) by (apply Rdiv_lt_0_compat; lra).
  assert (INR n * h = b - a) by (unfold h; field; lra). split; nra.
Qed.

Lemma IZR_INR_of_nat n : IZR (Z.of_nat n) = INR n.
Proof. symmetry. apply INR_IZR_INZ. Qed.

Section Sums.
Variable nan : forall A, outcome A.

Lemma trapezoid3_first g F old : good (evaluate nan g) F (e_min g) (e_max g) -> e_min g < e_max g ->
  trapezoid3 nan g 1 old = Some (Ok (midpoint_sum F (e_min g) (e_max g) 1)).
Proof.
  intros G L. unfold trapezoid3. cbn [Z.eqb]. change (1 =? 1)%Z with true. cbn [done].
  rewrite G by lra. cbn [obind]. unfold midpoint_sum. cbn [sum_below INR]. do 2 apply f_equal.
  replace (e_min g + (0 + / 2) * ((e_max g - e_min g) / 1)) with ((e_max g + e_min g) / 2) by lra. lra.
Qed.

Lemma midpoint_triple F a b k : (1 <= k)%nat ->
  midpoint_sum F a b k / 3 + sum_below k (fun i => F (a + (INR (3 * i) + / 2) * ((b - a) / INR (3 * k))) +
    F (a + (INR (3 * i + 2) + / 2) * ((b - a) / INR (3 * k)))) * ((b - a) / INR (3 * k)) = midpoint_sum F a b (3 * k).
Proof.
  intro K. unfold midpoint_sum. rewrite sum_below_triple.
  assert (0 < INR k) by (apply (lt_INR 0); lia).
  assert (E : (b - a) / INR k = 3 * ((b - a) / INR (3 * k))) by (rewrite mult_INR; cbn [INR]; field; lra).
  rewrite E. set (h := (b - a) / INR (3 * k)). clearbody h.
  rewrite (sum_below_ext k (fun j => F (a + (INR j + / 2) * (3 * h))) (fun j => F (a + (INR (3 * j + 1) + / 2) * h))).
  - lra.
  - intros i _. f_equal. rewrite plus_INR, mult_INR. cbn [INR]. lra.
Qed.

Lemma trapezoid3_triple g F k : good (evaluate nan g) F (e_min g) (e_max g) -> e_min g < e_max g -> (1 <= k)%nat ->
  trapezoid3 nan g (Z.of_nat (3 * k)) (midpoint_sum F (e_min g) (e_max g) k) =
  Some (Ok (midpoint_sum F (e_min g) (e_max g) (3 * k))).
Proof.
  intros G L K. unfold trapezoid3. destruct (Z.eqb_spec (Z.of_nat (3 * k)) 1); [lia|].
  rewrite IZR_INR_of_nat, Nat2Z.id.
  assert (P : 0 < INR (3 * k)) by (apply (lt_INR 0); lia).
  assert (H : 0 < (e_max g - e_min g) / INR (3 * k)) by (apply Rdiv_lt_0_compat; lra).
  rewrite (trapezoid3_loop_sum _ F (e_min g) _ k H) with (m := k) (j := 0%nat); try lia; try reflexivity.
  - cbn [fbind]. unfold done. rewrite midpoint_triple by exact K. reflexivity.
  - intros j J. apply G. apply node_inside; assumption.
  - replace (3 * 0)%nat with 0%nat by lia. cbn [INR]. lra.
  - field. lra.
Qed.

Lemma trapezoid3s_sum g n old i v g' : trapezoid3s nan g n old i = Some (Ok (v, g')) -> trapezoid3 nan g n old = Some (Ok v).
Proof.
  unfold trapezoid3s, trapezoid3. destruct (n =? 1)%Z.
  - destruct (evaluate _ _ _); unfold done; cbn [obind]; intro H; inversion H; reflexivity.
  - destruct (if Nat.leb _ _ then _ else _) as [small| |]; try discriminate. rewrite fbind_Ok.
    destruct (trapezoid3s_loop _ _ _ _ _ _ _ _ _ _ _) as [[[sum found]| |]|] eqn:E; try discriminate.
    apply trapezoid3s_loop_sum in E. rewrite E. cbn [fbind fst]. unfold done. intro H. inversion H. reflexivity.
Qed.

Lemma trapezoid_first g F old : evaluate nan g (e_min g) = Ok (F (e_min g)) -> evaluate nan g (e_max g) = Ok (F (e_max g)) ->
  trapezoid nan g 1 old = Some (Ok (trapezoid_sum F (e_min g) (e_max g) 1)).
Proof.
  intros A B. unfold trapezoid. change (1 =? 1)%Z with true. cbv iota. rewrite B, A. cbn [obind]. unfold done, trapezoid_sum.
  cbn [sum_below INR]. do 2 apply f_equal.
  replace (e_min g + 0 * ((e_max g - e_min g) / 1)) with (e_min g) by lra.
  replace (e_min g + (0 + 1) * ((e_max g - e_min g) / 1)) with (e_max g) by lra. lra.
Qed.
Lemma trapezoid_midpoint F a b k : (1 <= k)%nat ->
  (trapezoid_sum F a b k + midpoint_sum F a b k) / 2 = trapezoid_sum F a b (2 * k).
Proof.
  intro K. unfold trapezoid_sum, midpoint_sum. rewrite sum_below_double.
  assert (0 < INR k) by (apply (lt_INR 0); lia).
  assert (E : (b - a) / INR k = 2 * ((b - a) / INR (2 * k))) by (rewrite mult_INR; cbn [INR]; field; lra).
  rewrite E. set (h := (b - a) / INR (2 * k)). clearbody h.
  rewrite <- (sum_below_plus k (fun j => (F (a + INR (2 * j) * h) + _) / 2)).
  match goal with |- _ = h * ?s =>
    replace s with (sum_below k (fun j => (F (a + INR j * (2 * h)) + F (a + (INR j + 1) * (2 * h))) / 2 + F (a + (INR j + / 2) * (2 * h)))) end.
  - rewrite sum_below_plus. lra.
  - apply sum_below_ext. intros i _. rewrite plus_INR, mult_INR. cbn [INR].
    replace (a + (1 + 1) * INR i * h) with (a + INR i * (2 * h)) by lra.
    replace (a + ((1 + 1) * INR i + 1) * h) with (a + (INR i + / 2) * (2 * h)) by lra.
    replace (a + ((1 + 1) * INR i + 1 + 1) * h) with (a + (INR i + 1) * (2 * h)) by lra. lra.
Qed.
Lemma trapezoid_double g F k : good (evaluate nan g) F (e_min g) (e_max g) -> e_min g < e_max g -> (1 <= k)%nat ->
  trapezoid nan g (Z.of_nat (2 * k)) (trapezoid_sum F (e_min g) (e_max g) k) =
  Some (Ok (trapezoid_sum F (e_min g) (e_max g) (2 * k))).
Proof.
  intros G L K. unfold trapezoid. destruct (Z.eqb_spec (Z.of_nat (2 * k)) 1); [lia|].
  replace (Z.of_nat (2 * k) / 2)%Z with (Z.of_nat k) by (rewrite Nat2Z.inj_mul, Z.mul_comm; change (Z.of_nat 2) with 2%Z; rewrite Z.div_mul; lia).
  rewrite IZR_INR_of_nat, Nat2Z.id.
  assert (P : 0 < INR k) by (apply (lt_INR 0); lia).
  assert (H : 0 < (e_max g - e_min g) / INR k) by (apply Rdiv_lt_0_compat; lra).
  rewrite (trapezoid_loop_sum _ F (e_min g) _ k H) with (m := k) (j := 0%nat); try lia; try reflexivity.
  - cbn [fbind]. unfold done. rewrite <- trapezoid_midpoint by exact K. do 2 apply f_equal. unfold midpoint_sum. lra.
  - intros j J. apply G. apply node_inside; assumption.
  - cbn [INR]. lra.
  - field. lra.
Qed.

(** ** The fuel suffices *)
Definition enough (fuel : nat) (x max h : R) : Prop := max <= x \/ (0 < h /\ max - x < INR fuel * h).
Lemma enough_next fuel x max h : enough (S fuel) x max h -> x < max -> enough fuel (x + h) max h.
Proof. unfold enough. rewrite S_INR. intros [H|H] L; [lra|]. right. lra. Qed.
Lemma enough_next3 fuel x max h : enough (S fuel) x max h -> x < max -> enough fuel (x + 2 * h + h) max h.
Proof. unfold enough. rewrite S_INR. intros [H|H] L; [lra|]. right. lra. Qed.
Lemma enough_0 x max h : enough 0 x max h -> max <= x.
Proof. unfold enough. cbn [INR]. lra. Qed.
Lemma trapezoid_loop_total f h : forall fuel x max sum, enough fuel x max h ->
  trapezoid_loop (S fuel) f x max h sum <> None.
Proof.
  induction fuel as [|fuel IH]; intros x max sum A.
  - cbn [trapezoid_loop]. rewrite ltb_no; [discriminate|]. apply (enough_0 _ _ h A).
  - remember (S fuel) as m eqn:M. cbn [trapezoid_loop].
    destruct (Rltb_spec x max) as [L|L]; [|discriminate]. destruct (f x); try discriminate. rewrite fbind_Ok.
    subst m. apply IH. apply enough_next; assumption.
Qed.
Lemma trapezoid3_loop_total f h : forall fuel x max sum, enough fuel x max h ->
  trapezoid3_loop (S fuel) f x max h sum <> None.
Proof.
  induction fuel as [|fuel IH]; intros x max sum A.
  - cbn [trapezoid3_loop]. rewrite ltb_no; [discriminate|]. apply (enough_0 _ _ h A).
  - change (trapezoid3_loop (S (S fuel)) f x max h sum) with
      (if x <? max then flet y1 := done (f x) in flet y2 := done (f (x + 2 * h)) in
         trapezoid3_loop (S fuel) f (x + 2 * h + h) max h (sum + y1 + y2) else done (Ok sum)).
    destruct (Rltb_spec x max) as [L|L]; [|discriminate]. destruct (f x); try discriminate. rewrite fbind_Ok.
    destruct (f (x + 2 * h)); try discriminate. rewrite fbind_Ok. apply IH. apply enough_next3; assumption.
Qed.
Lemma trapezoid3s_loop_total f wanted precision small h : forall fuel x max sum found, enough fuel x max h ->
  trapezoid3s_loop nan (S fuel) f wanted precision small x max h sum found <> None.
Proof.
  induction fuel as [|fuel IH]; intros x max sum found A.
  - cbn [trapezoid3s_loop]. rewrite ltb_no; [discriminate|]. apply (enough_0 _ _ h A).
  - remember (S fuel) as m eqn:M. cbn [trapezoid3s_loop].
    destruct (Rltb_spec x max) as [L|L]; [|discriminate]. destruct (f x) as [u| |]; try discriminate. rewrite fbind_Ok.
    destruct (f (x + 2 * h)) as [v| |]; try discriminate. rewrite fbind_Ok. subst m.
    assert (T : forall found, trapezoid3s_loop nan (S fuel) f wanted precision small (x + 2 * h + h) max h (sum + u + v) found <> None)
      by (intro; apply IH; apply enough_next3; assumption).
    destruct found; [rewrite fbind_Ok; apply T|]. destruct (_ && _); [|rewrite fbind_Ok; apply T].
    destruct (locate _ _ _ _ _ _ _ _); try discriminate. rewrite !fbind_Ok. apply T.
Qed.
Lemma range_fuel a b n : (1 <= n)%Z -> enough (Z.to_nat n) (a + (b - a) / IZR n / 2) b ((b - a) / IZR n).
Proof.
  intro N. unfold enough. rewrite INR_IZR_INZ, Z2Nat.id by lia. assert (1 <= IZR n) by (apply IZR_le; exact N).
  replace (IZR n * ((b - a) / IZR n)) with (b - a) by (field; lra).
  set (h := (b - a) / IZR n). assert (E : b - a = IZR n * h) by (unfold h; field; lra). clearbody h.
  destruct (Rlt_dec 0 h); [right; lra|left]. nra.
Qed.
Lemma trapezoid_total g n old : (1 <= n)%Z -> trapezoid nan g n old <> None.
Proof.
  intro N. unfold trapezoid. destruct (Z.eqb_spec n 1); [discriminate|].
  assert (P : (1 <= n / 2)%Z) by (apply Z.div_le_lower_bound; lia).
  pose proof (trapezoid_loop_total (evaluate nan g) _ _ _ _ 0 (range_fuel (e_min g) (e_max g) _ P)) as T.
  destruct (trapezoid_loop _ _ _ _ _ _) as [[| |]|]; [discriminate..|contradiction].
Qed.
Lemma trapezoid3_total g n old : (1 <= n)%Z -> trapezoid3 nan g n old <> None.
Proof.
  intro N. unfold trapezoid3. destruct (Z.eqb_spec n 1); [discriminate|].
  pose proof (trapezoid3_loop_total (evaluate nan g) _ _ _ _ 0 (range_fuel (e_min g) (e_max g) _ N)) as T.
  destruct (trapezoid3_loop _ _ _ _ _ _) as [[| |]|]; [discriminate..|contradiction].
Qed.
Lemma trapezoid3s_total g n old i : (1 <= n)%Z -> trapezoid3s nan g n old i <> None.
Proof.
  intro N. unfold trapezoid3s. destruct (Z.eqb_spec n 1); [discriminate|].
  destruct (if Nat.leb _ _ then _ else _) as [small| |]; try discriminate. rewrite fbind_Ok.
  pose proof (trapezoid3s_loop_total (evaluate nan g) (Nat.leb (e_romberg g) (S i)) (e_precision g) small _ _ _ _ 0 None
    (range_fuel (e_min g) (e_max g) _ N)) as T.
  destruct (trapezoid3s_loop _ _ _ _ _ _ _ _ _ _ _) as [[[]| |]|]; [discriminate..|contradiction].
Qed.
End Sums.
