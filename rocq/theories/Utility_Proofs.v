(** The calculators with tables. *)
From Coquelicot Require Rcomplements.
From Verif Require Import Prelude PreludeFacts Function_Model Integral_Model Function_Spec Integral_Spec Math_Model Math_Spec Math_Proofs
  Function_Proofs Trapezoid_Proofs Integral_Proofs Upper_Proofs Vec_Model Geometry_Model Propagator_Model Cross_Model Utility_Model Utility_Spec.

Section Tables.
Variable nan : forall A, outcome A.
Variable qags : (R -> outcome R) -> R -> R -> outcome R.
Variable find : (R -> R) -> R -> R -> R -> R -> option R.
Variable f : R -> outcome R.
Variable lower : R.
Variable table : R -> R.
Variable reverse : bool.
Notation c := (Tabulated f lower table reverse).

Lemma apart_ltb E_i E_f : apart E_i E_f -> (E_i - E_f <? E_i * IPREC) = false.
Proof. intro H. apply ltb_no. unfold apart, IPREC in *. lra. Qed.
Lemma table_value E_i E_f : apart E_i E_f ->
  calculate nan qags c E_i E_f = Some (Ok (table_difference table reverse E_i E_f, c)).
Proof. intro H. cbn [calculate]. rewrite apart_ltb by exact H. reflexivity. Qed.
Lemma table_close E_i E_f y : ~ apart E_i E_f -> f E_i = Ok y -> calculate nan qags c E_i E_f = Some (Ok (y * (E_f - E_i), c)).
Proof.
  intros H F. cbn [calculate]. rewrite ltb_yes by (unfold apart, IPREC in *; lra).
  replace ((E_i + E_i) / 2) with E_i by field. rewrite F. reflexivity.
Qed.
Lemma table_additive E1 E2 E3 : 0 < E2 -> apart E1 E2 -> apart E2 E3 -> exists v w,
  gives (calculate nan qags c E1 E2) v /\ gives (calculate nan qags c E2 E3) w /\ gives (calculate nan qags c E1 E3) (v + w).
Proof.
  intros P A B. exists (table_difference table reverse E1 E2), (table_difference table reverse E2 E3).
  split; [eexists; apply table_value; exact A|]. split; [eexists; apply table_value; exact B|].
  eexists. rewrite table_value by (unfold apart in *; lra). unfold table_difference. destruct reverse; do 3 f_equal; ring.
Qed.
Lemma table_equal E y : 0 < E -> f E = Ok y -> gives (calculate nan qags c E E) 0.
Proof.
  intros P F. eexists. rewrite (table_close E E y); [|unfold apart; lra|exact F]. do 3 f_equal. ring.
Qed.

(** ** The inverse *)
Lemma upper_beyond E s : apart E lower -> table_difference table reverse E lower < s ->
  get_upper nan qags find c E s = Some (Throw logic_error).
Proof. intros A H. cbn [get_upper]. rewrite table_value by exact A. cbn [fbind]. rewrite ltb_yes by exact H. reflexivity. Qed.

Definition target (E s : R) : R := if reverse then table E + s else table E - s.
Lemma target_eq E s : table E - (if reverse then - s else s) = target E s.
Proof. unfold target. destruct reverse; ring. Qed.
Lemma difference_target E x s : table_difference table reverse E x - s = (if reverse then 1 else -1) * (table x - target E s).
Proof. unfold table_difference, target. destruct reverse; ring. Qed.

Lemma upper_cases E s : apart E lower -> 0 < E -> lower < E -> 0 <= s <= table_difference table reverse E lower ->
  exists x, get_upper nan qags find c E s = Some (Ok (x, c)) /\
    ((x = lower /\ s = table_difference table reverse E lower) \/
     (exists a b guess, lower <= a /\ a <= b /\ b <= E /\ find table (target E s) a b guess = Some x) \/
     (exists b k, lower <= x /\ x <= b /\ b <= E /\ (table x - target E s) * (table b - target E s) <= 0 /\
        b - x = (E - lower) / 2 ^ k /\ (k = 101%nat \/ b - x < / 10 ^ 6))).
Proof.
  intros A P L S. cbn [get_upper]. rewrite table_value by exact A. cbn [fbind]. rewrite ltb_no by lra.
  destruct (Reqb_spec s (table_difference table reverse E lower)) as [Q|Q].
  - exists lower. split; [reflexivity|]. left. split; [reflexivity|exact Q].
  - rewrite target_eq. set (h := fun x => table x - target E s). change (fun x => table x - target E s) with h.
    assert (HP : h lower * h E <= 0).
    { unfold h, target. unfold table_difference in *. destruct reverse; nra. }
    assert (B : forall acc, bisection h lower E acc 101 = Ok (bisection_loop h acc 101 lower E)).
    { intro acc. unfold bisection. rewrite (ltb_no 0) by exact HP. rewrite ltb_no by lra. reflexivity. }
    rewrite !B. pose proof (fun acc => bisection_loop_ok h acc 101 lower E ltac:(lra) HP) as K.
    generalize dependent (101%nat). intros n B K.
    pose proof (K ((E - lower) * / 100)) as K1. destruct (bisection_loop h ((E - lower) * / 100) n lower E) as (a & b).
    destruct K1 as (K1 & K2 & K3 & K4 & _). cbn [done fbind].
    destruct (find table (target E s) a b (if b =? E then E else (a + b) / 2)) as [x|] eqn:F.
    + exists x. split; [reflexivity|]. right. left. exists a, b, (if b =? E then E else (a + b) / 2). repeat split; assumption.
    + pose proof (K (/ 10 ^ 6)) as K5. destruct (bisection_loop h (/ 10 ^ 6) n lower E) as (x & b').
      destruct K5 as (K5 & K6 & K7 & K8 & k & _ & K9 & K10 & _). exists x. split; [reflexivity|]. right. right. exists b', k.
      repeat split; assumption.
Qed.

(** The width below which the last bisection stops, or after all its passes *)
Lemma upper_found eps E s : finds_within eps find -> 0 <= eps -> continuity table ->
  apart E lower -> 0 < E -> lower < E -> 0 <= s <= table_difference table reverse E lower ->
  exists x z, get_upper nan qags find c E s = Some (Ok (x, c)) /\ lower <= x /\ x <= z <= E /\
    z - x <= Rmax (/ 10 ^ 6) ((E - lower) / 2 ^ 101) /\ Rabs (table_difference table reverse E z - s) <= eps.
Proof.
  intros Fi Ep C A P L S. destruct (upper_cases E s A P L S) as (x & G & H).
  assert (W : 0 <= Rmax (/ 10 ^ 6) ((E - lower) / 2 ^ 101)) by (eapply Rle_trans; [|apply Rmax_l]; lra).
  destruct H as [(-> & Q)|[(a & b & gu & H1 & H2 & H3 & H4)|(b & k & H1 & H2 & H3 & H4 & H5 & H6)]].
  - exists lower, lower. split; [exact G|]. split; [lra|]. split; [lra|]. split; [lra|]. rewrite <- Q. rewrite Rminus_diag_eq, Rabs_R0 by reflexivity. exact Ep.
  - destruct (Fi _ _ _ _ _ _ H4) as (I & D). exists x, x. split; [exact G|]. split; [lra|]. split; [lra|]. split; [lra|].
    rewrite difference_target. rewrite Rabs_mult. replace (Rabs (if reverse then 1 else -1)) with 1; [lra|].
    destruct reverse; [rewrite Rabs_R1; reflexivity|rewrite Rabs_left; lra].
  - destruct (IVT_cor (fun y => table y - target E s) x b) as (z & Z1 & Z2); [|exact H2|exact H4|].
    { apply continuity_minus; [exact C|]. apply continuity_const. intros ? ?. reflexivity. }
    exists x, z. split; [exact G|]. split; [lra|]. split; [lra|]. split.
    + destruct H6 as [->|H6]; [eapply Rle_trans; [|apply Rmax_r]; lra|eapply Rle_trans; [|apply Rmax_l]; lra].
    + rewrite difference_target, Z2. rewrite Rmult_0_r, Rabs_R0. exact Ep.
Qed.
Lemma upper_inside eps E s : finds_within eps find -> apart E lower -> 0 < E -> lower < E ->
  0 <= s <= table_difference table reverse E lower ->
  exists x, get_upper nan qags find c E s = Some (Ok (x, c)) /\ lower <= x <= E.
Proof.
  intros Fi A P L S. destruct (upper_cases E s A P L S) as (x & G & H). exists x. split; [exact G|].
  destruct H as [(-> & Q)|[(a & b & gu & H1 & H2 & H3 & H4)|(b & k & H1 & H2 & H3 & H4 & H5 & H6)]]; try lra.
  destruct (Fi _ _ _ _ _ _ H4) as (I & D). lra.
Qed.
Lemma upper_back E E' : finds_within 0 find -> continuity table ->
  (forall x y, lower <= x <= E -> lower <= y <= E -> table x = table y -> x = y) ->
  apart E lower -> 0 < E -> lower <= E' <= E -> 0 <= table_difference table reverse E E' <= table_difference table reverse E lower ->
  exists x, gives (get_upper nan qags find c E (table_difference table reverse E E')) x /\
    x <= E' /\ E' - x <= Rmax (/ 10 ^ 6) ((E - lower) / 2 ^ 101).
Proof.
  intros Fi C Inj A P L S.
  destruct (upper_found 0 E (table_difference table reverse E E') Fi ltac:(lra) C A P ltac:(unfold apart in A; lra) S)
    as (x & z & G & X & Z & W & D). exists x. split; [eexists; exact G|].
  assert (z = E').
  { apply Inj; try lra. apply Rcomplements.Rabs_le_between in D. unfold table_difference in D. destruct reverse; lra. }
  subst z. split; [lra|exact W].
Qed.
End Tables.

(** ** Interaction and decay with tables *)
Section Sampling.
Variable nan : forall A, outcome A.
Variable qags : (R -> outcome R) -> R -> R -> outcome R.
Variable find : (R -> R) -> R -> R -> R -> R -> option R.

Lemma minus_log_pos rnd : 0 < rnd -> minus_log nan rnd = Ok (Fin (- ln rnd)).
Proof. intro H. unfold minus_log. rewrite ltb_no by lra. rewrite eqb_no by lra. reflexivity. Qed.
Lemma minus_log_0 : minus_log nan 0 = Ok PInf.
Proof. unfold minus_log. rewrite ltb_no by lra. destruct (Reqb_spec 0 0); [reflexivity|lra]. Qed.
Lemma ln_nonpos rnd : 0 < rnd <= 1 -> 0 <= - ln rnd.
Proof. intro H. assert (ln rnd <= ln 1) by (apply Rcomplements.ln_le; lra). rewrite ln_1 in *. lra. Qed.

Lemma interaction_table eps f lower table reverse E rnd : let c := Tabulated f lower table reverse in
  finds_within eps find -> 0 < E -> lower < E -> apart E lower -> 0 <= rnd <= 1 ->
  exists x, energy_interaction nan qags find c E rnd = Some (Ok (x, c)) /\ lower <= x <= E.
Proof.
  intros c Fi P L A Rn. unfold energy_interaction. destruct (Req_dec rnd 0) as [->|Z].
  - rewrite minus_log_0. cbn [done fbind]. unfold c. rewrite table_value by exact A. cbn. exists lower. split; [reflexivity|lra].
  - rewrite minus_log_pos by lra. cbn [done fbind lower_of]. unfold c. rewrite table_value by exact A. cbn [fbind lower_of].
    destruct (Rleb_spec (table_difference table reverse E lower) (- ln rnd)) as [M|M].
    + exists lower. split; [reflexivity|lra].
    + apply (upper_inside nan qags find f lower table reverse eps); try assumption. pose proof (ln_nonpos rnd). lra.
Qed.
Lemma interaction_table_place eps f lower table reverse E rnd x : let c := Tabulated f lower table reverse in
  finds_within eps find -> 0 <= eps -> continuity table -> 0 < E -> lower < E -> apart E lower -> 0 < rnd <= 1 ->
  gives (energy_interaction nan qags find c E rnd) x ->
  (x = lower /\ table_difference table reverse E lower <= - ln rnd) \/
  (exists z, x <= z <= E /\ z - x <= Rmax (/ 10 ^ 6) ((E - lower) / 2 ^ 101) /\ Rabs (table_difference table reverse E z - - ln rnd) <= eps).
Proof.
  intros c Fi Ep C P L A Rn (c' & H). unfold energy_interaction in H. rewrite minus_log_pos in H by lra. cbn [done fbind lower_of] in H.
  unfold c in H. rewrite table_value in H by exact A. cbn [fbind lower_of] in H.
  destruct (Rleb_spec (table_difference table reverse E lower) (- ln rnd)) as [M|M].
  - left. injection H as <- _. split; [reflexivity|exact M].
  - right. pose proof (ln_nonpos rnd Rn).
    destruct (upper_found nan qags find f lower table reverse eps E (- ln rnd) Fi Ep C A P L ltac:(lra)) as (y & z & G & Y & Z & W & D).
    rewrite G in H. injection H as -> _. exists z. repeat split; try assumption; lra.
Qed.
Lemma decay_table eps f lower table reverse lifetime E rnd density : let c := Tabulated f lower table reverse in
  finds_within eps find -> 0 < E -> lower < E -> apart E lower -> 0 <= rnd <= 1 -> 0 < lifetime -> 0 < density ->
  exists x, energy_decay nan qags find c lifetime E rnd density = Some (Ok (x, c)) /\ lower <= x <= E.
Proof.
  intros c Fi P L A Rn Li De. unfold energy_decay. destruct (Req_dec rnd 0) as [->|Z].
  - rewrite minus_log_0. cbn [done fbind]. rewrite ltb_yes by exact De. cbn [done fbind]. unfold c. rewrite table_value by exact A. cbn [fbind].
    unfold quotient. rewrite eqb_no by lra. cbn. exists lower. split; [reflexivity|lra].
  - rewrite minus_log_pos by lra. cbn [done fbind lower_of]. unfold c. rewrite table_value by exact A. cbn [fbind].
    unfold quotient. rewrite eqb_no by lra. cbn [fbind lower_of].
    destruct (Rleb_spec (table_difference table reverse E lower / lifetime) (- ln rnd * density)) as [M|M].
    + exists lower. split; [reflexivity|lra].
    + apply (upper_inside nan qags find f lower table reverse eps); try assumption. pose proof (ln_nonpos rnd). split.
      * apply Rmult_le_pos; [apply Rmult_le_pos|]; lra.
      * apply Rlt_le. apply Rnot_le_lt in M. apply (Rmult_lt_compat_r lifetime) in M; [|exact Li]. replace (table_difference table reverse E lower / lifetime * lifetime) with (table_difference table reverse E lower) in M by (field; lra). lra.
Qed.
End Sampling.
