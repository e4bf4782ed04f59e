(** Grammage, time and randomized energies: sums, differences and exceptions. *)
From Coquelicot Require Rcomplements.
From Verif Require Import Prelude PreludeFacts Function_Model Integral_Model Function_Spec Integral_Spec Math_Model
  Function_Proofs Trapezoid_Proofs Integral_Proofs Values_Proofs Upper_Proofs
  Vec_Model Geometry_Model Propagator_Model Cross_Model Utility_Model Utility_Spec Utility_Proofs Direct_Proofs Twin_Proofs.

Section Grammage.
Variable nan : forall A, outcome A.
Variable qags : (R -> outcome R) -> R -> R -> outcome R.
Variable find : (R -> R) -> R -> R -> R -> R -> option R.

(** ** Sums of integrals *)
Lemma direct_additive f lower c0 G c c' c'' E1 E2 E3 : log_polynomial qags f c0 G ->
  later nan qags find (new_direct f lower) c -> later nan qags find (new_direct f lower) c' -> later nan qags find (new_direct f lower) c'' ->
  0 < E3 < E2 -> E2 < E1 -> logs_apart E1 E2 -> logs_apart E2 E3 -> logs_apart E1 E3 ->
  exists v w, gives (calculate nan qags c E1 E2) v /\ gives (calculate nan qags c' E2 E3) w /\ gives (calculate nan qags c'' E1 E3) (v + w).
Proof.
  intros P L1 L2 L3 A B A1 A2 A3. exists (G (ln E2) - G (ln E1)), (G (ln E3) - G (ln E2)).
  split; [eapply direct_value; eassumption || lra|]. split; [eapply direct_value; eassumption || lra|].
  replace (G (ln E2) - G (ln E1) + (G (ln E3) - G (ln E2))) with (G (ln E3) - G (ln E1)) by ring. eapply direct_value; eassumption || lra.
Qed.
Lemma direct_negligible f lower g E_i E_f : 0 < E_f < E_i -> negligible (ln E_f) (ln E_i) = true ->
  gives (calculate nan qags (Direct f lower g) E_i E_f) 0.
Proof.
  intros L N. cbn [calculate]. unfold integrate. rewrite eqb_no by lra. cbn [andb]. rewrite !leb_no by lra. cbn [orb].
  unfold integrate_log. rewrite Rmin_right, Rmax_left by lra. unfold logarithm. rewrite !ltb_yes by lra.
  rewrite !fbind_Ok. cbv zeta. cbn [e_min e_max prepared]. rewrite N. eexists. reflexivity.
Qed.
Lemma direct_additive_refuted f lower : (forall E, 0 < E -> f E = Ok (- / E)) ->
  (forall h lo hi, lo < hi -> (forall t, lo < t < hi -> h t = Ok (-1)) -> qags h lo hi = Ok (lo - hi)) ->
  exists E1 E2 E3 v, 0 < E3 < E2 /\ E2 < E1 /\ gives (calculate nan qags (new_direct f lower) E1 E2) 0 /\
    gives (calculate nan qags (new_direct f lower) E2 E3) 0 /\ gives (calculate nan qags (new_direct f lower) E1 E3) v /\ 0 < v.
Proof.
  intros F Q. set (d := 9 / 10 ^ 11). exists (exp (1 + 2 * d)), (exp (1 + d)), (exp 1), (2 * d).
  assert (D : 0 < d) by (unfold d; lra).
  pose proof (exp_increasing 1 (1 + d) ltac:(lra)). pose proof (exp_increasing (1 + d) (1 + 2 * d) ltac:(lra)). pose proof (exp_pos 1).
  split; [lra|]. split; [lra|]. unfold new_direct.
  assert (P : log_polynomial qags f [-1] (fun t => - t)).
  { split.
    - intros E HE. rewrite (F E HE). unfold polynomial. cbn. f_equal. field. lra.
    - cbn. lia.
    - intro t. unfold polynomial. cbn. replace (-1 * 1 + 0) with (- (1)) by lra. apply derivable_pt_lim_opp. apply derivable_pt_lim_id.
    - intros h lo hi HL Hh. rewrite (Q h lo hi HL); [f_equal; ring|]. intros t Ht. rewrite (Hh t Ht). f_equal. unfold polynomial. cbn. ring. }
  split; [|split; [|split]].
  - apply direct_negligible; [lra|]. rewrite !ln_exp. unfold negligible, COMPUTER_PRECISION.
    destruct (Rleb_spec (Rabs (1 + 2 * d - (1 + d))) (Rabs (1 + d) * / 10 ^ 10)) as [X|X]; [reflexivity|]. exfalso. apply X.
    rewrite !Rabs_right by lra. unfold d. lra.
  - apply direct_negligible; [lra|]. rewrite !ln_exp. unfold negligible, COMPUTER_PRECISION.
    destruct (Rleb_spec (Rabs (1 + d - 1)) (Rabs 1 * / 10 ^ 10)) as [X|X]; [reflexivity|]. exfalso. apply X.
    rewrite !Rabs_right by lra. unfold d. lra.
  - replace (2 * d) with (- ln (exp 1) - - ln (exp (1 + 2 * d))) at 2 by (rewrite !ln_exp; ring).
    apply (direct_value nan qags find f lower [-1] (fun t => - t)); [exact P|apply later_none|lra|].
    unfold logs_apart. rewrite Rmin_right by lra. rewrite !ln_exp. rewrite Rabs_left by lra. rewrite Rabs_right by lra. unfold d. lra.
  - lra.
Qed.
(** Close energies of a table *)
Definition close_f (E : R) : outcome R := Ok (- E).
Definition close_table (E : R) : R := E * E / 2.
Lemma close_exact E : derivable_pt_lim close_table E E.
Proof.
  unfold close_table. replace E with ((1 * E + E * 1) * / 2) at 2 by field.
  apply (derivable_pt_lim_scal_right (fun y => y * y) E (1 * E + E * 1) (/ 2)).
  apply (derivable_pt_lim_mult (fun y => y) (fun y => y)); apply derivable_pt_lim_id.
Qed.
Lemma table_additive_refuted : let c := Tabulated close_f (/ 2) close_table false in
  let E1 := 1 in let E2 := 1 - 5 / 10 ^ 7 in let E3 := / 2 in exists v w u,
  gives (calculate nan qags c E1 E2) v /\ gives (calculate nan qags c E2 E3) w /\ gives (calculate nan qags c E1 E3) u /\ u < v + w.
Proof.
  intros c E1 E2 E3. exists (- E1 * (E2 - E1)), (table_difference close_table false E2 E3), (table_difference close_table false E1 E3).
  split; [|split; [|split]].
  - eexists. apply table_close; [unfold apart, E1, E2; lra|reflexivity].
  - eexists. apply table_value. unfold apart, E2, E3. lra.
  - eexists. apply table_value. unfold apart, E1, E3. lra.
  - unfold table_difference, close_table, E1, E2, E3. lra.
Qed.

(** An exact table adds up to a small error. *)
Lemma table_near f F lower table (reverse : bool) E_i E_f w :
  (forall E, lower <= E -> f E = Ok (F E)) ->
  (forall E, lower <= E -> derivable_pt_lim table E (if reverse then F E else - F E)) ->
  lower <= E_f <= E_i -> 0 < lower -> 0 <= w -> steady F lower E_i (E_i / 10 ^ 6) w ->
  exists v, gives (calculate nan qags (Tabulated f lower table reverse) E_i E_f) v /\
    Rabs (v - table_difference table reverse E_i E_f) <= w * (E_i / 10 ^ 6).
Proof.
  intros Hf D L P W S. destruct (Rle_or_lt (E_i / 10 ^ 6) (E_i - E_f)) as [A|A].
  - exists (table_difference table reverse E_i E_f). split; [eexists; apply table_value; exact A|].
    rewrite Rminus_eq_0, Rabs_R0. apply Rmult_le_pos; lra.
  - exists (F E_i * (E_f - E_i)). split; [eexists; apply table_close; [unfold apart; lra|apply Hf; lra]|].
    destruct (Req_dec E_f E_i) as [->|N].
    { unfold table_difference. replace (if reverse then table E_i - table E_i else table E_i - table E_i) with 0 by (destruct reverse; ring).
      replace (F E_i * (E_i - E_i) - 0) with 0 by ring. rewrite Rabs_R0. apply Rmult_le_pos; lra. }
    set (T := fun E => if reverse then table E else - table E).
    assert (DT : forall E, lower <= E -> derivable_pt_lim T E (F E)).
    { intros E HE. specialize (D E HE). unfold T. destruct reverse; [exact D|].
      replace (F E) with (- - F E) by ring. apply derivable_pt_lim_opp. exact D. }
    destruct (MVT_cor2 T F E_f E_i ltac:(lra)) as (z & HM & HZ). { intros E HE. apply DT. lra. }
    replace (table_difference table reverse E_i E_f) with (- (T E_i - T E_f)) by (unfold table_difference, T; destruct reverse; ring).
    rewrite HM. replace (F E_i * (E_f - E_i) - - (F z * (E_i - E_f))) with ((F z - F E_i) * (E_i - E_f)) by ring.
    rewrite Rabs_mult. rewrite (Rabs_right (E_i - E_f)) by lra.
    apply Rmult_le_compat; [apply Rabs_pos|lra| |lra]. apply S; [lra|lra|]. rewrite Rabs_left by lra. lra.
Qed.
Lemma table_additive_near f F lower table (reverse : bool) E1 E2 E3 w :
  (forall E, lower <= E -> f E = Ok (F E)) ->
  (forall E, lower <= E -> derivable_pt_lim table E (if reverse then F E else - F E)) ->
  0 < lower -> lower <= E3 <= E2 -> E2 <= E1 -> 0 <= w -> steady F lower E1 (E1 / 10 ^ 6) w ->
  exists v12 v23 v13, let c := Tabulated f lower table reverse in
    gives (calculate nan qags c E1 E2) v12 /\ gives (calculate nan qags c E2 E3) v23 /\ gives (calculate nan qags c E1 E3) v13 /\
    Rabs (v12 + v23 - v13) <= 3 * w * (E1 / 10 ^ 6).
Proof.
  intros Hf D P L1 L2 W S.
  assert (S2 : steady F lower E2 (E2 / 10 ^ 6) w) by (intros x y Hx Hy Hd; apply S; lra).
  destruct (table_near f F lower table reverse E1 E2 w Hf D ltac:(lra) P W S) as (a & A & A').
  destruct (table_near f F lower table reverse E2 E3 w Hf D ltac:(lra) P W S2) as (b & B & B').
  destruct (table_near f F lower table reverse E1 E3 w Hf D ltac:(lra) P W S) as (c & C & C').
  exists a, b, c. split; [exact A|]. split; [exact B|]. split; [exact C|].
  assert (w * (E2 / 10 ^ 6) <= w * (E1 / 10 ^ 6)) by (apply Rmult_le_compat_l; lra).
  assert (T : table_difference table reverse E1 E3 = table_difference table reverse E1 E2 + table_difference table reverse E2 E3)
    by (unfold table_difference; destruct reverse; ring).
  apply Rcomplements.Rabs_le_between in A'. apply Rcomplements.Rabs_le_between in B'. apply Rcomplements.Rabs_le_between in C'.
  apply Rcomplements.Rabs_le_between. lra.
Qed.

(** ** Tables of integrals *)
Lemma node_direct f lower upper reverse E : node_value nan qags f lower upper reverse E =
  (flet (v, _) := calculate nan qags (new_direct f lower) (if reverse then upper else E) (if reverse then E else lower) in done (Ok v)).
Proof.
  unfold node_value, new_direct. cbn [calculate]. destruct reverse.
  - destruct (integrate nan qags (new_integral 5 40 IPREC2) upper E f 4 0) as [[(v & g)| |]|]; reflexivity.
  - destruct (integrate nan qags (new_integral 5 40 IPREC2) E lower f 4 0) as [[(v & g)| |]|]; reflexivity.
Qed.
Lemma node_polynomial f lower upper c0 G (reverse : bool) E : log_polynomial qags f c0 G -> 0 < lower -> lower <= E <= upper ->
  same_or_apart (if reverse then upper else E) (if reverse then E else lower) ->
  node_value nan qags f lower upper reverse E = Some (Ok (if reverse then G (ln E) - G (ln upper) else G (ln lower) - G (ln E))).
Proof.
  intros P Lp L S. rewrite node_direct. destruct (Req_dec (if reverse then upper else E) (if reverse then E else lower)) as [Q|Q].
  - destruct (direct_equal nan qags find f lower (new_direct f lower) (if reverse then E else lower) (later_none _ _ _ _)) as (c & Hc).
    rewrite Q, Hc. cbn. destruct reverse; rewrite Q, Rminus_eq_0; reflexivity.
  - destruct S as [S|S]; [contradiction|].
    destruct (direct_value nan qags find f lower c0 G (new_direct f lower) (if reverse then upper else E) (if reverse then E else lower) P) as (c & Hc).
    + apply later_none.
    + destruct reverse; lra.
    + exact S.
    + rewrite Hc. cbn. destruct reverse; reflexivity.
Qed.
Lemma table_direct f lower upper c0 G reverse table eps E_i E_f : log_polynomial qags f c0 G -> 0 < lower ->
  tabulates nan qags eps f lower upper reverse table -> lower <= E_f -> apart E_i E_f -> E_i <= upper ->
  (let reference := if reverse then upper else lower in same_or_apart reference E_i /\ same_or_apart reference E_f) ->
  exists v, gives (calculate nan qags (Tabulated f lower table reverse) E_i E_f) v /\ Rabs (v - (G (ln E_f) - G (ln E_i))) <= 2 * eps.
Proof.
  intros P Lp T L A U (Si & Sf). exists (table_difference table reverse E_i E_f). split; [eexists; apply table_value; exact A|].
  assert (0 < E_i) by (unfold apart in A; lra). assert (E_f <= E_i) by (unfold apart in A; lra).
  assert (Sw : forall a b, same_or_apart a b -> same_or_apart b a).
  { intros a b [->|X]; [left; reflexivity|]. right. unfold logs_apart in *. rewrite Rmin_comm. rewrite Rabs_minus_sym. exact X. }
  assert (N : forall E, lower <= E <= upper -> same_or_apart (if reverse then upper else lower) E ->
     Rabs (table E - (if reverse then G (ln E) - G (ln upper) else G (ln lower) - G (ln E))) <= eps).
  { intros E HE HS. apply T; [exact HE|]. apply (node_polynomial _ _ _ c0); [exact P|exact Lp|exact HE|].
    destruct reverse; [exact HS|]. apply Sw. exact HS. }
  pose proof (N E_i ltac:(lra) Si) as Ni. pose proof (N E_f ltac:(lra) Sf) as Nf.
  apply Rcomplements.Rabs_le_between in Ni. apply Rcomplements.Rabs_le_between in Nf.
  apply Rcomplements.Rabs_le_between. unfold table_difference. destruct reverse; lra.
Qed.

(** ** Near the lower limit *)
Lemma upper_exception_refuted : let c := Tabulated close_f 1 close_table false in exists E s most,
  1 < E /\ 0 < s < most /\ gives (calculate nan qags c E 1) most /\ get_upper nan qags find c E s = Some (Throw math_exception).
Proof.
  intro c. set (d := 5 / 10 ^ 7). exists (1 + d), (d + 3 / 4 * d * d), (- (1 + d) * (1 - (1 + d))).
  assert (D : 0 < d) by (unfold d; lra). assert (DD : 0 < d * d) by nra.
  split; [lra|]. split; [split; [|unfold d; lra]; nra|].
  assert (C : calculate nan qags c (1 + d) 1 = Some (Ok (- (1 + d) * (1 - (1 + d)), c)))
    by (apply table_close; [unfold apart, d; lra|reflexivity]).
  split; [eexists; exact C|]. unfold c in *. cbn [get_upper]. rewrite C. cbn [fbind]. rewrite ltb_no by lra. rewrite eqb_no by lra.
  unfold bisection. rewrite ltb_yes; [reflexivity|]. unfold close_table.
  replace (1 * 1 / 2 - ((1 + d) * (1 + d) / 2 - (d + 3 / 4 * d * d))) with (d * d / 4) by field.
  replace ((1 + d) * (1 + d) / 2 - ((1 + d) * (1 + d) / 2 - (d + 3 / 4 * d * d))) with (d + 3 / 4 * d * d) by field.
  apply Rmult_lt_0_compat; nra.
Qed.

(** ** Time *)
Lemma time_value c E_i E_f grammage density v : density <> 0 -> gives (calculate nan qags c E_i E_f) v ->
  gives (time_elapsed nan qags c E_i E_f grammage density) (v / density).
Proof.
  intros N (c' & H). unfold time_elapsed. rewrite H. cbn [fbind]. unfold quotient. rewrite eqb_no by exact N. eexists. reflexivity.
Qed.
Lemma approximate_additive E1 E2 E3 g1 g2 density : density <> 0 -> exists t1 t2,
  approximate_time_elapsed nan E1 E2 g1 density = Ok t1 /\ approximate_time_elapsed nan E2 E3 g2 density = Ok t2 /\
  approximate_time_elapsed nan E1 E3 (g1 + g2) density = Ok (t1 + t2) /\ t1 * density * 29979245800 = g1.
Proof.
  intro N. exists (g1 / (density * SPEED)), (g2 / (density * SPEED)). unfold approximate_time_elapsed, quotient.
  assert (density * SPEED <> 0) by (apply Rmult_integral_contrapositive_currified; [exact N|unfold SPEED; lra]).
  rewrite eqb_no by assumption. split; [reflexivity|]. split; [reflexivity|]. split; [f_equal; field; split; [unfold SPEED; lra|exact N]|].
  unfold SPEED. field. exact N.
Qed.

(** ** Lower limits *)
Lemma displacement_lower cross v : new_displacement cross = Ok v ->
  (exists x, In x cross /\ x_lower x = v) /\ (forall x, In x cross -> v <= x_lower x).
Proof.
  unfold new_displacement. destruct cross as [|x l]; [discriminate|]. cbn [max_element]. intro H. injection H as <-.
  revert x. induction l as [|y l IH]; intro x; cbn [max_element_from].
  - split; [exists x; cbn; auto|]. intros z [->|[]]. lra.
  - destruct (Rltb_spec (x_lower y) (x_lower x)) as [C|C].
    + destruct (IH y) as ((z & Z & Z') & M). split; [exists z; split; [right; exact Z|exact Z']|].
      intros w [<-|Hw]; [specialize (M y (or_introl eq_refl)); lra|apply M; exact Hw].
    + destruct (IH x) as ((z & Z & Z') & M). split; [exists z; split; [destruct Z as [->|Z]; [left; reflexivity|right; right; exact Z]|exact Z']|].
      intros w [<-|[<-|Hw]]; [apply M; left; reflexivity|specialize (M x (or_introl eq_refl)); lra|apply M; right; exact Hw].
Qed.
Lemma displacement_empty cross : new_displacement cross = Throw invalid_argument <-> cross = [].
Proof. unfold new_displacement. destruct cross; cbn; split; intro H; try discriminate; reflexivity. Qed.
Lemma cont_rand_needs cross : new_cont_rand cross = Ok tt <-> exists x cut, In x cross /\ x_cut x = Some cut /\ cut_cont_rand cut = true.
Proof.
  unfold new_cont_rand. split.
  - destruct (existsb _ cross) eqn:E; [|discriminate]. intros _. apply existsb_exists in E. destruct E as (x & I & H).
    destruct (x_cut x) as [cut|] eqn:C; [|discriminate]. exists x, cut. auto.
  - intros (x & cut & I & C & B). replace (existsb _ cross) with true; [reflexivity|]. symmetry. apply existsb_exists. exists x. rewrite C. auto.
Qed.

(** ** Continuous randomization *)
Lemma gaussian_range erf ppf mean sigma rnd min max : quantile SQRT2 erf ppf -> 0 <= sigma -> 0 <= rnd <= 1 -> min <= mean <= max ->
  exists x, sample_from_gaussian nan erf ppf mean sigma rnd min max = Ok x /\ min <= x <= max.
Proof.
  intros (Mo & Q & In) Si Rn M. unfold sample_from_gaussian. destruct (Reqb_spec sigma 0) as [->|N]; [exists mean; split; [reflexivity|lra]|].
  assert (S2 : 0 < SQRT2) by (unfold SQRT2; lra). assert (P : 0 < SQRT2 * sigma) by (apply Rmult_lt_0_compat; lra).
  unfold quotient. rewrite eqb_no by lra. cbn [obind]. set (zlo := (min - mean) / (SQRT2 * sigma)). set (zhi := (max - mean) / (SQRT2 * sigma)).
  assert (Z : zlo <= zhi) by (unfold zlo, zhi; apply Rmult_le_compat_r; [left; apply Rinv_0_lt_compat; exact P|lra]).
  pose proof (Mo zlo zhi Z) as Er.
  destruct (In zlo zhi (/ 2 + erf zlo / 2 + (/ 2 + erf zhi / 2 - (/ 2 + erf zlo / 2)) * rnd)) as (q & Hq & B); [split; nra|].
  rewrite Hq. cbn [obind]. eexists. split; [reflexivity|].
  assert (sigma * (SQRT2 * zlo) = min - mean) by (unfold zlo; field; lra). assert (sigma * (SQRT2 * zhi) = max - mean) by (unfold zhi; field; lra).
  assert (sigma * (SQRT2 * zlo) <= sigma * q) by (apply Rmult_le_compat_l; lra).
  assert (sigma * q <= sigma * (SQRT2 * zhi)) by (apply Rmult_le_compat_l; lra). lra.
Qed.
Lemma calculate_lower c E_i E_f v c' : calculate nan qags c E_i E_f = Some (Ok (v, c')) -> lower_of c' = lower_of c.
Proof.
  destruct c as [f l g|f l t r]; cbn [calculate].
  - intro H. apply fbind_inv in H. destruct H as ((w & g') & _ & H). apply done_inv in H. injection H as _ <-. reflexivity.
  - destruct (E_i - E_f <? E_i * IPREC).
    + intro H. apply done_inv in H. destruct (f _); cbn in H; try discriminate. injection H as _ <-. reflexivity.
    + intro H. apply done_inv in H. injection H as _ <-. reflexivity.
Qed.
Lemma randomize_range erf ppf c E_i E_f rnd min_energy var : quantile SQRT2 erf ppf -> gives (calculate nan qags c E_i E_f) var ->
  0 <= rnd <= 1 -> Rmax (lower_of c) min_energy <= E_f <= E_i ->
  exists x, gives (energy_randomize nan qags erf ppf c E_i E_f rnd min_energy) x /\ Rmax (lower_of c) min_energy <= x <= E_i.
Proof.
  intros Q (c' & H) Rn M. unfold energy_randomize. rewrite H. cbn [fbind]. rewrite (calculate_lower _ _ _ _ _ H).
  destruct (gaussian_range erf ppf E_f (sqrt (Rmax var 0)) rnd (Rmax (lower_of c) min_energy) E_i Q (sqrt_pos _) Rn M) as (x & Hx & B).
  exists x. rewrite Hx. split; [eexists; reflexivity|exact B].
Qed.
Lemma randomize_none erf ppf c E_i E_f rnd min_energy var : gives (calculate nan qags c E_i E_f) var -> var <= 0 ->
  gives (energy_randomize nan qags erf ppf c E_i E_f rnd min_energy) E_f.
Proof.
  intros (c' & H) V. unfold energy_randomize. rewrite H. cbn [fbind]. rewrite Rmax_right by exact V. rewrite sqrt_0.
  unfold sample_from_gaussian. destruct (Reqb_spec 0 0) as [_|X]; [|lra]. eexists. reflexivity.
Qed.
End Grammage.
