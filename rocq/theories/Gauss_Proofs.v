(** The error function, and the quantile of the normal distribution for every number. *)
From Coq Require Import String Ratan.
From Coquelicot Require Import Coquelicot.
From Verif Require Import Prelude PreludeFacts Particle_Model Limits_Model Vec_Model Cross_Model Photo_Model Integral_Model Utility_Model
  Decay_Spec Multiple_Model Multiple_Spec Multiple_Proofs.

(** ** The integral of the bell curve *)
Definition companion (x t : R) : R := exp (- (x * x * (1 + t * t))) / (1 + t * t).
Definition half_area (x : R) : R := RInt bell 0 x.
Definition rest (x : R) : R := RInt (fun t => companion x t) 0 1.
Lemma one_square t : 0 < 1 + t * t.
Proof. nra. Qed.
Lemma companion_derive x t : is_derive (fun u => companion u t) x (- (2 * x) * exp (- (x * x * (1 + t * t)))).
Proof. unfold companion. pose proof (one_square t). auto_derive; [lra|]. field. lra. Qed.
Lemma companion_continuous x t : continuous (fun t => companion x t) t.
Proof. apply (ex_derive_continuous (fun t => companion x t)). unfold companion. auto_derive. pose proof (one_square t). lra. Qed.
Lemma companion_integrable x a b : ex_RInt (fun t => companion x t) a b.
Proof. apply @ex_RInt_continuous. intros t _. apply companion_continuous. Qed.
Lemma half_area_derive x : is_derive half_area x (bell x).
Proof.
  apply (is_derive_RInt bell half_area 0 x); [|apply bell_continuous].
  exists (mkposreal 1 ltac:(lra)). intros y _. apply (RInt_correct (V := R_CompleteNormedModule)). apply bell_integrable.
Qed.
Lemma rest_derive x : is_derive rest x (- (2 * bell x * half_area x)).
Proof.
  assert (D : is_derive rest x (RInt (fun t => Derive (fun u => companion u t) x) 0 1)).
  { apply is_derive_RInt_param.
    - apply filter_forall. intros y t _. eexists. apply companion_derive.
    - intros t _. apply (continuity_2d_pt_ext (fun u v => - (2 * u) * exp (- (u * u * (1 + v * v))))).
      + intros u v. symmetry. apply is_derive_unique, companion_derive.
      + apply continuity_2d_pt_mult.
        * apply continuity_2d_pt_opp. apply continuity_2d_pt_mult; [apply continuity_2d_pt_const|apply continuity_2d_pt_id1].
        * apply (continuity_1d_2d_pt_comp exp); [apply derivable_continuous_pt, derivable_pt_exp|]. apply continuity_2d_pt_opp.
          apply continuity_2d_pt_mult; [apply continuity_2d_pt_mult; apply continuity_2d_pt_id1|].
          apply continuity_2d_pt_plus; [apply continuity_2d_pt_const|]. apply continuity_2d_pt_mult; apply continuity_2d_pt_id2.
    - apply filter_forall. intros y. apply companion_integrable. }
  replace (- (2 * bell x * half_area x)) with (RInt (fun t => Derive (fun u => companion u t) x) 0 1); [exact D|].
  assert (S : is_RInt (fun t => x * bell (x * t + 0)) 0 1 (half_area x)).
  { apply (is_RInt_comp_lin bell x 0 0 1). rewrite Rmult_0_r, Rmult_1_r, !Rplus_0_r.
    apply (RInt_correct (V := R_CompleteNormedModule)). apply bell_integrable. }
  apply (is_RInt_scal _ _ _ (-2 * bell x)) in S. apply (is_RInt_unique (V := R_CompleteNormedModule)).
  replace (- (2 * bell x * half_area x)) with (scal (-2 * bell x) (half_area x)) by (unfold scal; cbn; unfold mult; cbn; ring).
  apply (is_RInt_ext (fun t => scal (-2 * bell x) (x * bell (x * t + 0)))); [|exact S].
  intros t _. etransitivity; [|symmetry; apply is_derive_unique, companion_derive]. unfold scal; cbn; unfold mult; cbn. unfold bell.
  replace (- (x * x * (1 + t * t))) with (- (x * x) + - ((x * t + 0) * (x * t + 0))) by ring. rewrite exp_plus. ring.
Qed.
Lemma rest_0 : rest 0 = PI / 4.
Proof.
  unfold rest. apply (is_RInt_unique (V := R_CompleteNormedModule)).
  replace (PI / 4) with (minus (atan 1) (atan 0)) by (rewrite atan_1, atan_0; unfold minus, plus, opp; cbn; ring).
  apply (is_RInt_derive atan (fun t => companion 0 t)).
  - intros t _. replace (companion 0 t) with (/ (1 + t ^ 2)); [apply is_derive_Reals; apply derivable_pt_lim_atan|].
    unfold companion. replace (- (0 * 0 * (1 + t * t))) with 0 by ring. rewrite exp_0. field. nra.
  - intros t _. apply companion_continuous.
Qed.
Lemma gauss x : half_area x * half_area x + rest x = PI / 4.
Proof.
  assert (Z : half_area 0 * half_area 0 + rest 0 = PI / 4).
  { rewrite rest_0. unfold half_area. rewrite RInt_point. unfold zero; cbn. ring. }
  assert (D : forall t, is_derive (fun x => half_area x * half_area x + rest x) t zero).
  { intros t. pose proof (half_area_derive t) as H. pose proof (rest_derive t) as R.
    pose proof (is_derive_plus _ _ t _ _ (is_derive_mult _ _ t _ _ H H Rmult_comm) R) as S.
    match type of S with is_derive _ _ ?v => match goal with |- is_derive _ _ ?z => replace z with v; [exact S|] end end.
    unfold plus, mult, zero; cbn. ring. }
  destruct (Rtotal_order x 0) as [L|[->|L]]; [|exact Z|].
  - rewrite <- Z. apply (eq_is_derive (fun x => half_area x * half_area x + rest x) x 0); [intros t _; apply D|exact L].
  - rewrite <- Z. symmetry. apply (eq_is_derive (fun x => half_area x * half_area x + rest x) 0 x); [intros t _; apply D|exact L].
Qed.
Lemma rest_bounds x : 0 <= rest x <= exp (- (x * x)) * (PI / 4).
Proof.
  split.
  - unfold rest. apply RInt_ge_0; [lra|apply companion_integrable|]. intros t _. unfold companion. apply Rmult_le_pos; [left; apply exp_pos|left; apply Rinv_0_lt_compat, one_square].
  - rewrite <- rest_0. unfold rest. rewrite <- (RInt_scal (V := R_CompleteNormedModule)) by apply companion_integrable.
    apply RInt_le; [lra|apply companion_integrable|apply @ex_RInt_scal, companion_integrable|].
    intros t _. unfold companion, scal; cbn; unfold mult; cbn. replace (- (0 * 0 * (1 + t * t))) with 0 by ring. rewrite exp_0.
    replace (exp (- (x * x)) * (1 / (1 + t * t))) with (exp (- (x * x)) / (1 + t * t)) by (field; pose proof (one_square t); lra).
    apply Rmult_le_compat_r; [left; apply Rinv_0_lt_compat, one_square|].
    destruct (Req_dec (x * x * (t * t)) 0) as [E|E].
    + right. f_equal. lra.
    + left. apply exp_increasing. assert (0 <= x * x * (t * t)) by (apply Rmult_le_pos; apply Rle_0_sqr). lra.
Qed.
Lemma erf_area x : erf x = 2 / sqrt PI * half_area x.
Proof. reflexivity. Qed.
Lemma sqrt_PI : 0 < sqrt PI /\ sqrt PI * sqrt PI = PI.
Proof. split; [apply sqrt_lt_R0, PI_RGT_0|apply sqrt_sqrt; left; apply PI_RGT_0]. Qed.
Lemma erf_nonneg x : 0 <= x -> 0 <= erf x.
Proof.
  intros P. rewrite erf_area. destruct sqrt_PI as (S & _). apply Rmult_le_pos; [apply Rmult_le_pos; [lra|left; now apply Rinv_0_lt_compat]|].
  unfold half_area. apply RInt_ge_0; [exact P|apply bell_integrable|]. intros t _. left. apply exp_pos.
Qed.
Lemma erfc_bounds x : 0 <= x -> 0 <= erfc x <= exp (- (x * x)).
Proof.
  intros P. destruct sqrt_PI as (S & SS). pose proof (gauss x) as G. pose proof (rest_bounds x) as (R0 & R1). pose proof PI_RGT_0 as PP.
  assert (E2 : erf x * erf x = 1 - 4 / PI * rest x).
  { rewrite erf_area. replace (2 / sqrt PI * half_area x * (2 / sqrt PI * half_area x)) with (4 / (sqrt PI * sqrt PI) * (half_area x * half_area x)) by (field; lra).
    rewrite SS. replace (half_area x * half_area x) with (PI / 4 - rest x) by lra. field. lra. }
  pose proof (erf_nonneg x P) as E0. assert (Q0 : 0 <= 4 / PI * rest x) by (apply Rmult_le_pos; [left; apply Rdiv_lt_0_compat; lra|exact R0]).
  assert (Q1 : 4 / PI * rest x <= exp (- (x * x))).
  { apply Rle_trans with (4 / PI * (exp (- (x * x)) * (PI / 4))); [|right; field; lra]. apply Rmult_le_compat_l; [left; apply Rdiv_lt_0_compat; lra|exact R1]. }
  unfold erfc. split; [nra|]. assert (1 - erf x <= (1 - erf x) * (1 + erf x)) by nra. nra.
Qed.
(** Mills' inequality *)
Lemma erfc_mills y : 0 < y -> erfc y <= exp (- (y * y)) / (y * sqrt PI).
Proof.
  intros Y. destruct sqrt_PI as (S & _). set (m := fun y => exp (- (y * y)) / (y * sqrt PI) - erfc y). destruct (Rle_dec 0 (m y)) as [H|H]; [unfold m in H; lra|exfalso].
  apply Rnot_le_lt in H. set (d := - m y). assert (D : 0 < d) by (unfold d; lra).
  set (z := y + / d). pose proof (Rinv_0_lt_compat d D) as ID. assert (Z : y < z) by (unfold z; lra).
  assert (MD : forall t, 0 < t -> is_derive m t (- (exp (- (t * t)) / (t * t * sqrt PI)))).
  { intros t T. assert (D1 : is_derive (fun y => exp (- (y * y)) / (y * sqrt PI)) t (- (2 / sqrt PI * exp (- (t * t))) - exp (- (t * t)) / (t * t * sqrt PI))).
    { auto_derive; [nra|]. field. split; nra. }
    assert (D2 : is_derive erfc t (- (2 / sqrt PI * exp (- (t * t))))).
    { unfold erfc. pose proof (is_derive_minus (fun _ => 1) erf t _ _ (is_derive_const 1 t) (is_derive_erf t)) as K.
      match type of K with is_derive _ _ ?v => replace (- (2 / sqrt PI * exp (- (t * t)))) with v; [exact K|] end. unfold minus, plus, opp, zero; cbn. ring. }
    pose proof (is_derive_minus _ _ t _ _ D1 D2) as K. match type of K with is_derive _ _ ?v => replace (- (exp (- (t * t)) / (t * t * sqrt PI))) with v; [exact K|] end.
    unfold minus, plus, opp; cbn. field. split; nra. }
  assert (M : m z <= m y).
  { destruct (MVT_gen m y z (fun t => - (exp (- (t * t)) / (t * t * sqrt PI)))) as (c & C & E).
    - intros t T. rewrite Rmin_left, Rmax_right in T by lra. apply MD. lra.
    - intros t T. rewrite Rmin_left, Rmax_right in T by lra. apply continuity_pt_filterlim. apply (ex_derive_continuous m). eexists. apply MD. lra.
    - rewrite Rmin_left, Rmax_right in C by lra. assert (0 < exp (- (c * c)) / (c * c * sqrt PI)) by (apply Rdiv_lt_0_compat; [apply exp_pos|apply Rmult_lt_0_compat; nra]). nra. }
  destruct (erfc_bounds z ltac:(lra)) as (_ & U).
  assert (P : 0 < exp (- (z * z)) / (z * sqrt PI)) by (apply Rdiv_lt_0_compat; [apply exp_pos|apply Rmult_lt_0_compat; lra]).
  assert (L : d < exp (- (z * z))) by (unfold m in M at 1; unfold d; lra).
  rewrite exp_Ropp in L. pose proof (exp_ineq1_le (z * z)) as X.
  assert (W : / d < z) by (unfold z; lra). assert (1 < d * z) by (replace 1 with (d * / d) by (field; lra); now apply Rmult_lt_compat_l).
  assert (E : 0 < exp (z * z)) by apply exp_pos. assert (d * exp (z * z) < 1) by (replace 1 with (/ exp (z * z) * exp (z * z)) by (field; lra); now apply Rmult_lt_compat_r).
  assert (1 < d * exp (z * z)); [|lra]. apply Rlt_le_trans with (1 := H0). apply Rmult_le_compat_l; nra.
Qed.

(** ** The quantile *)
Lemma sqrt2_bounds : 0 < SQRT2 /\ SQRT2 * SQRT2 < 2.
Proof. unfold SQRT2. lra. Qed.
Lemma step_positive x p : 0 <= p <= 1 ->
  0 < 1 + x * ((1 / 2 * erfc (- x / SQRT2) - p) * sqrt (2 * PI) * exp (1 / 2 * x * x)) * (1 / 2).
Proof.
  intros P. destruct sqrt2_bounds as (S2 & S22). destruct sqrt_PI as (SP & SPP). pose proof PI_RGT_0 as PP.
  set (k := sqrt (2 * PI) * exp (1 / 2 * x * x)).
  assert (K : 0 < k) by (apply Rmult_lt_0_compat; [apply sqrt_lt_R0; lra|apply exp_pos]).
  assert (A : forall w, 0 < w -> w * w = x * x -> w * (1 / 2 * erfc (w / SQRT2)) * k <= 1).
  { intros w W WX. set (y := w / SQRT2). assert (Y : 0 < y) by (apply Rdiv_lt_0_compat; lra). pose proof (erfc_mills y Y) as M.
    assert (E : exp (- (y * y)) * exp (1 / 2 * x * x) <= 1).
    { rewrite <- exp_plus. assert (Q : y * y * (SQRT2 * SQRT2) = x * x) by (unfold y; rewrite <- WX; field; lra).
      assert (Z : - (y * y) + 1 / 2 * x * x <= 0) by nra. rewrite <- exp_0 at 2. destruct Z as [Z|Z]; [left; now apply exp_increasing|right; now rewrite Z]. }
    assert (R : sqrt (2 * PI) = sqrt 2 * sqrt PI) by (apply sqrt_mult; lra).
    assert (S2r : sqrt 2 * sqrt 2 = 2) by (apply sqrt_sqrt; lra). assert (0 < sqrt 2) by (apply sqrt_lt_R0; lra).
    apply Rle_trans with (w * (1 / 2 * (exp (- (y * y)) / (y * sqrt PI))) * k).
    - apply Rmult_le_compat_r; [lra|]. apply Rmult_le_compat_l; [lra|]. lra.
    - unfold k. rewrite R. replace (w * (1 / 2 * (exp (- (y * y)) / (y * sqrt PI))) * (sqrt 2 * sqrt PI * exp (1 / 2 * x * x)))
        with (1 / 2 * (SQRT2 * sqrt 2) * (exp (- (y * y)) * exp (1 / 2 * x * x))) by (unfold y; field; repeat split; lra).
      assert (0 < exp (- (y * y)) * exp (1 / 2 * x * x)) by (apply Rmult_lt_0_compat; apply exp_pos).
      assert (SQRT2 * sqrt 2 <= 2) by nra. assert (0 < SQRT2 * sqrt 2) by nra. nra. }
  replace (x * ((1 / 2 * erfc (- x / SQRT2) - p) * sqrt (2 * PI) * exp (1 / 2 * x * x)) * (1 / 2)) with (x * (1 / 2 * erfc (- x / SQRT2) - p) * k * (1 / 2)) by (unfold k; ring).
  destruct (Rtotal_order x 0) as [X|[->|X]]; [| lra |].
  - specialize (A (- x) ltac:(lra) ltac:(ring)). assert (x * (1 / 2 * erfc (- x / SQRT2)) * k <= x * (1 / 2 * erfc (- x / SQRT2) - p) * k).
    { apply Rmult_le_compat_r; [lra|]. assert (0 <= - x * p) by (apply Rmult_le_pos; lra). lra. }
    lra.
  - specialize (A x X eq_refl). replace (- x / SQRT2) with (- (x / SQRT2)) by (field; lra). rewrite erfc_reflected.
    assert (- (x * (1 / 2 * erfc (x / SQRT2))) * k <= x * (1 / 2 * (2 - erfc (x / SQRT2)) - p) * k).
    { apply Rmult_le_compat_r; [lra|]. assert (0 <= x * (1 - p)) by (apply Rmult_le_pos; lra). lra. }
    lra.
Qed.
Lemma tail_denominator_positive q : 0 <= q -> 0 < tail_denominator q.
Proof. intros Q. unfold tail_denominator. assert (0 <= q * q) by nra. assert (0 <= q * q * q) by nra. assert (0 <= q * q * q * q) by nra. lra. Qed.
Lemma central_denominator_positive r : r <= 2264 / 10000 -> 0 < central_denominator r.
Proof.
  intros L. set (s := 2264 / 10000 - r). assert (S : 0 <= s) by (unfold s; lra). replace r with (2264 / 10000 - s) by (unfold s; ring).
  unfold central_denominator. assert (S2 : 0 <= s * s) by nra. assert (S3 : 0 <= s * s * s) by nra. assert (S4 : 0 <= s * s * s * s) by nra.
  assert (S5 : 0 <= s * s * s * s * s) by (apply Rmult_le_pos; assumption). lra.
Qed.
Lemma quantile_total nan p : 0 < p < 1 -> exists z, normalppf nan p = Ok z.
Proof.
  intros P. unfold normalppf. assert (L : p_low = 2425 / 100000) by reflexivity.
  assert (T : forall q, 0 < q -> q < p_low -> exists s, obind (natural_log nan q) (fun l => Utility_Model.root nan (-2 * l)) = Ok s /\ 0 <= s).
  { intros q Q1 Q2. unfold natural_log, Rltb. destruct (Rlt_dec 0 q); [|lra]. cbn [obind]. assert (ln q < 0) by (rewrite <- ln_1; apply ln_increasing; lra).
    unfold Utility_Model.root, Rltb. destruct (Rlt_dec (-2 * ln q) 0); [lra|]. eexists. split; [reflexivity|apply sqrt_pos]. }
  assert (X : exists x, (if p <? p_low then
       obind (natural_log nan p) (fun l => obind (Utility_Model.root nan (-2 * l)) (fun q => quotient nan (tail_numerator q) (tail_denominator q)))
     else if p <=? 1 - p_low then
       quotient nan (central_numerator ((p - 1 / 2) * (p - 1 / 2)) * (p - 1 / 2)) (central_denominator ((p - 1 / 2) * (p - 1 / 2)))
     else obind (natural_log nan (1 - p)) (fun l => obind (Utility_Model.root nan (-2 * l)) (fun q => quotient nan (- tail_numerator q) (tail_denominator q)))) = Ok x).
  { unfold Rltb at 1, Rleb at 1. destruct (Rlt_dec p p_low) as [A|A]; [|destruct (Rle_dec p (1 - p_low)) as [B|B]].
    - destruct (T p ltac:(lra) A) as (s & H & S). apply bind_ok in H. destruct H as (l & Hl & H). rewrite Hl. cbn [obind]. rewrite H. cbn [obind].
      pose proof (tail_denominator_positive s S). rewrite divide_ok by lra. eauto.
    - pose proof (central_denominator_positive ((p - 1 / 2) * (p - 1 / 2)) ltac:(nra)). rewrite divide_ok by lra. eauto.
    - destruct (T (1 - p) ltac:(lra) ltac:(lra)) as (s & H & S). apply bind_ok in H. destruct H as (l & Hl & H). rewrite Hl. cbn [obind]. rewrite H. cbn [obind].
      pose proof (tail_denominator_positive s S). rewrite divide_ok by lra. eauto. }
  destruct X as (x & X). cbv zeta. rewrite X. cbn [obind]. pose proof (step_positive x p ltac:(lra)). rewrite divide_ok by lra. cbn [obind]. eauto.
Qed.
Lemma c61_highland_total nan h g E r0 r1 r2 r3 : 0 < h_length h -> 0 <= h_mass h < E -> 0 <= g ->
  0 < r0 < 1 -> 0 < r1 < 1 -> 0 < r2 < 1 -> 0 < r3 < 1 -> exists o, highland_offset nan h g E r0 r1 r2 r3 = Ok o.
Proof.
  intros L M G I0 I1 I2 I3. unfold highland_offset. destruct (c61_highland nan h g E L M G) as (w & -> & _). cbn [obind]. unfold gaussian_offset.
  destruct (quantile_total nan r0 I0) as (z0 & ->), (quantile_total nan r1 I1) as (z1 & ->), (quantile_total nan r2 I2) as (z2 & ->), (quantile_total nan r3 I3) as (z3 & ->).
  cbn [obind]. eauto.
Qed.
Lemma c61_quantile nan p : not_a_value nan -> 0 < p < 1 -> exists z, normalppf nan p = Ok z /\ normalppf nan (1 - p) = Ok (- z).
Proof. intros N I. destruct (quantile_total nan p I) as (z & H). exists z. split; [exact H|]. now apply quantile_mirror. Qed.
Lemma c61_highland_both nan h g E r0 r1 r2 r3 : not_a_value nan -> 0 < h_length h -> 0 <= h_mass h < E -> 0 <= g ->
  0 < r0 < 1 -> 0 < r1 < 1 -> 0 < r2 < 1 -> 0 < r3 < 1 ->
  exists o, highland_offset nan h g E r0 r1 r2 r3 = Ok o /\ highland_offset nan h g E (1 - r0) (1 - r1) (1 - r2) (1 - r3) = Ok (mirror o).
Proof.
  intros N L M G I0 I1 I2 I3. destruct (c61_highland_total nan h g E r0 r1 r2 r3 L M G I0 I1 I2 I3) as (o & H). exists o. split; [exact H|].
  now apply c61_highland_mirror.
Qed.
