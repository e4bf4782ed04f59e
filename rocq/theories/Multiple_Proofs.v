(** Proofs about the quantile of the normal distribution and about Highland's
    widths. *)
From Coq Require Import String.
From Coquelicot Require Import Coquelicot.
From Verif Require Import Prelude PreludeFacts Particle_Model Limits_Model Vec_Model Cross_Model Photo_Model Integral_Model Utility_Model
  Decay_Spec Multiple_Model Multiple_Spec.
Notation length := List.length.

(** ** The error function *)
Definition bell (t : R) : R := exp (- (t * t)).
Lemma bell_continuous x : continuous bell x.
Proof. apply (ex_derive_continuous bell). unfold bell. auto_derive. exact I. Qed.
Lemma bell_integrable a b : ex_RInt bell a b.
Proof. apply @ex_RInt_continuous. intros x _. apply bell_continuous. Qed.
Lemma erf_odd x : erf (- x) = - erf x.
Proof.
  unfold erf. fold bell. change (fun t : R => exp (- (t * t))) with bell.
  replace (RInt bell 0 (- x)) with (- RInt bell 0 x); [ring|].
  pose proof (RInt_correct bell 0 (- x) (bell_integrable _ _)) as H. rewrite <- Ropp_0 in H at 1.
  apply is_RInt_comp_opp in H. pose proof (is_RInt_opp bell 0 x _ (RInt_correct bell 0 x (bell_integrable _ _))) as K.
  apply is_RInt_ext with (g := fun y => opp (bell y)) in H.
  - apply (is_RInt_unique (V := R_CompleteNormedModule)) in H. apply (is_RInt_unique (V := R_CompleteNormedModule)) in K. rewrite <- H. symmetry. exact K.
  - intros t _. f_equal. unfold bell. f_equal. ring.
Qed.
Lemma erf_0 : erf 0 = 0.
Proof. unfold erf. rewrite RInt_point. unfold zero. cbn. ring. Qed.
Lemma erfc_reflected x : erfc (- x) = 2 - erfc x.
Proof. unfold erfc. rewrite erf_odd. ring. Qed.
Lemma is_derive_erf x : is_derive erf x (2 / sqrt PI * exp (- (x * x))).
Proof.
  unfold erf. apply (is_derive_scal (fun x => RInt bell 0 x)). change (exp (- (x * x))) with (bell x). apply (is_derive_RInt bell (fun x => RInt bell 0 x) 0 x); [|apply bell_continuous].
  exists (mkposreal 1 ltac:(lra)). intros y _. apply (RInt_correct (V := R_CompleteNormedModule)). apply bell_integrable.
Qed.

Section Multiple.
Variable nan : forall A, outcome A.
Notation divide := (quotient nan).
Lemma divide_ok a b : b <> 0 -> divide a b = Ok (a / b).
Proof. intros N. unfold quotient, Reqb. destruct (Req_EM_T b 0); [contradiction|reflexivity]. Qed.
Hypothesis N : not_a_value nan.
Lemma divide_inv a b x : divide a b = Ok x -> b <> 0 /\ x = a / b.
Proof.
  unfold quotient, Reqb. destruct (Req_EM_T b 0); intros H; [destruct (N R x H)|]. split; [assumption|now injection H].
Qed.
Lemma root_inv a x : Utility_Model.root nan a = Ok x -> 0 <= a /\ x = sqrt a.
Proof.
  unfold Utility_Model.root, Rltb. destruct (Rlt_dec a 0); intros H; [destruct (N R x H)|]. split; [lra|now injection H].
Qed.
(** ** The quantile *)
Lemma quantile_mirror p z : 0 < p < 1 -> normalppf nan p = Ok z -> normalppf nan (1 - p) = Ok (- z).
Proof.
  intros P. unfold normalppf, Rltb, Rleb. cbv zeta. replace (1 - (1 - p)) with p by ring.
  assert (L : p_low = 2425 / 100000) by reflexivity.
  intros H. apply bind_ok in H. destruct H as (x & Hx & H). apply bind_ok in H. destruct H as (c & Hc & H).
  injection H as <-. apply divide_inv in Hc. destruct Hc as (D & ->).
  match goal with |- obind ?first _ = _ => assert (HX : first = Ok (- x)) end.
  { destruct (Rlt_dec p p_low) as [A|A].
    - destruct (Rlt_dec (1 - p) p_low); [lra|]. destruct (Rle_dec (1 - p) (1 - p_low)); [lra|].
      apply bind_ok in Hx. destruct Hx as (l & Hl & Hx). rewrite Hl. cbn [obind]. apply bind_ok in Hx. destruct Hx as (q & Hq & Hx).
      rewrite Hq. cbn [obind]. apply divide_inv in Hx. destruct Hx as (D' & ->). rewrite divide_ok by exact D'. f_equal. field. exact D'.
    - destruct (Rle_dec p (1 - p_low)) as [B|B].
      + destruct (Rlt_dec (1 - p) p_low); [lra|]. destruct (Rle_dec (1 - p) (1 - p_low)); [|lra].
        replace ((1 - p - 1 / 2) * (1 - p - 1 / 2)) with ((p - 1 / 2) * (p - 1 / 2)) by field.
        apply divide_inv in Hx. destruct Hx as (D' & ->). rewrite divide_ok by exact D'. f_equal. field. exact D'.
      + destruct (Rlt_dec (1 - p) p_low); [|lra].
        apply bind_ok in Hx. destruct Hx as (l & Hl & Hx). rewrite Hl. cbn [obind]. apply bind_ok in Hx. destruct Hx as (q & Hq & Hx).
        rewrite Hq. cbn [obind]. apply divide_inv in Hx. destruct Hx as (D' & ->). rewrite divide_ok by exact D'. f_equal. field. exact D'. }
  rewrite HX. cbn [obind].
  set (e := 1 / 2 * erfc (- x / SQRT2) - p) in *.
  assert (E : 1 / 2 * erfc (- - x / SQRT2) - (1 - p) = - e).
  { unfold e. replace (- - x / SQRT2) with (- (- x / SQRT2)) by (unfold SQRT2; field). rewrite erfc_reflected. lra. }
  rewrite E. replace (1 / 2 * - x * - x) with (1 / 2 * x * x) by ring.
  set (u := e * sqrt (2 * PI) * exp (1 / 2 * x * x)) in *.
  replace (- e * sqrt (2 * PI) * exp (1 / 2 * x * x)) with (- u) by (unfold u; ring).
  replace (1 + - x * - u * (1 / 2)) with (1 + x * u * (1 / 2)) by ring.
  set (d := 1 + x * u * (1 / 2)) in *. rewrite divide_ok by exact D. cbn [obind]. f_equal. field. exact D.
Qed.
End Multiple.
Lemma quantile_half nan : normalppf nan (1 / 2) = Ok 0.
Proof.
  unfold normalppf, Rltb, Rleb. cbv zeta. assert (L : p_low = 2425 / 100000) by reflexivity.
  destruct (Rlt_dec (1 / 2) p_low); [lra|]. destruct (Rle_dec (1 / 2) (1 - p_low)); [|lra].
  replace (1 / 2 - 1 / 2) with 0 by ring. rewrite divide_ok; [|unfold central_denominator; lra]. cbn [obind].
  replace (central_numerator (0 * 0) * 0 / central_denominator (0 * 0)) with 0 by (unfold central_denominator; field; lra).
  replace (- 0 / SQRT2) with 0 by (unfold SQRT2; field). unfold erfc. rewrite erf_0.
  rewrite divide_ok by lra. cbn [obind]. f_equal. field_simplify; lra.
Qed.

(** ** Highland *)
Section Highland.
Variable nan : forall A, outcome A.
Lemma theta0_value h grammage E : 0 < h_length h -> 0 <= h_mass h < E -> 0 <= grammage ->
  theta0 nan h grammage E = Ok (if Req_EM_T grammage 0 then 0 else
    Rmax (highland_width (h_charge h) (h_mass h) E (grammage / h_length h)) 0).
Proof.
  intros L M G. unfold theta0. rewrite divide_ok by lra. cbn [obind].
  assert (P : 0 < (E - h_mass h) * (E + h_mass h)) by (apply Rmult_lt_0_compat; lra).
  rewrite divide_ok by lra. cbn [obind]. assert (BP : 0 < (E - h_mass h) * (E + h_mass h) / E) by (apply Rdiv_lt_0_compat; lra).
  rewrite divide_ok by lra. cbn [obind]. assert (Y : 0 <= grammage / h_length h) by (apply Rmult_le_pos; [lra|left; apply Rinv_0_lt_compat; lra]).
  unfold Utility_Model.root, Rltb. destruct (Rlt_dec (grammage / h_length h) 0); [lra|]. cbn [obind].
  unfold log_factor, Rltb, Reqb. destruct (Req_EM_T grammage 0) as [->|NG].
  - replace (0 / h_length h) with 0 by (field; lra). destruct (Rlt_dec 0 0); [lra|]. destruct (Req_EM_T 0 0); [|lra]. cbn [obind].
    rewrite sqrt_0. f_equal. ring.
  - assert (YP : 0 < grammage / h_length h) by (apply Rdiv_lt_0_compat; lra). destruct (Rlt_dec 0 (grammage / h_length h)); [|lra].
    cbn [obind]. f_equal. unfold highland_width, log10.
    set (y := grammage / h_length h) in *. set (f := 1 + 88 / 1000 * (ln y / ln 10)).
    replace (136 / 10 * Rabs (h_charge h) * (E / (E ^ 2 - h_mass h ^ 2)) * sqrt y * f)
      with (136 / 10 * Rabs (h_charge h) / ((E - h_mass h) * (E + h_mass h) / E) * sqrt y * f) by (field; nra).
    rewrite <- RmaxRmult.
    + f_equal. ring.
    + apply Rmult_le_pos; [|apply sqrt_pos]. apply Rmult_le_pos; [pose proof (Rabs_pos (h_charge h)); lra|left; now apply Rinv_0_lt_compat].
Qed.
Lemma c61_highland h grammage E : 0 < h_length h -> 0 <= h_mass h < E -> 0 <= grammage ->
  exists w, theta0 nan h grammage E = Ok w /\ 0 <= w /\ (grammage = 0 -> w = 0) /\
  (0 < grammage -> w = Rmax (highland_width (h_charge h) (h_mass h) E (grammage / h_length h)) 0).
Proof.
  intros L M G. rewrite (theta0_value h grammage E L M G). eexists. split; [reflexivity|].
  destruct (Req_EM_T grammage 0) as [->|NG].
  - repeat split; [lra|intros; lra].
  - repeat split; [apply Rmax_r|intros; lra].
Qed.
(** The width grows with the thickness and falls with the energy *)
Lemma factor_mono y1 y2 : 0 < y1 <= y2 -> 1 + 88 / 1000 * (ln y1 / ln 10) <= 1 + 88 / 1000 * (ln y2 / ln 10).
Proof.
  intros Y. assert (0 < ln 10) by (rewrite <- ln_1; apply ln_increasing; lra).
  assert (ln y1 <= ln y2) by (destruct (proj2 Y) as [U|U]; [left; apply ln_increasing; lra|rewrite U; lra]).
  assert (ln y1 / ln 10 <= ln y2 / ln 10); [|lra]. apply Rmult_le_compat_r; [left; now apply Rinv_0_lt_compat|exact H0].
Qed.
Lemma highland_mono z m E1 E2 y1 y2 : 0 <= m < E1 -> E1 <= E2 -> 0 < y1 <= y2 ->
  Rmax (highland_width z m E2 y1) 0 <= Rmax (highland_width z m E1 y2) 0.
Proof.
  intros M E Y. pose proof (factor_mono y1 y2 Y) as F. unfold highland_width.
  set (f1 := 1 + 88 / 1000 * (ln y1 / ln 10)) in *. set (f2 := 1 + 88 / 1000 * (ln y2 / ln 10)) in *.
  assert (P1 : 0 < E1 ^ 2 - m ^ 2) by nra. assert (P2 : 0 < E2 ^ 2 - m ^ 2) by nra.
  assert (Q : 0 <= E2 / (E2 ^ 2 - m ^ 2) <= E1 / (E1 ^ 2 - m ^ 2)).
  { split; [apply Rmult_le_pos; [lra|left; now apply Rinv_0_lt_compat]|].
    apply (proj2 (Rcomplements.Rle_div_l _ _ _ P2)). replace (E1 / (E1 ^ 2 - m ^ 2) * (E2 ^ 2 - m ^ 2)) with (E1 * (E2 ^ 2 - m ^ 2) / (E1 ^ 2 - m ^ 2)) by (field; lra).
    apply (proj1 (Rcomplements.Rle_div_r _ _ _ P1)).
    assert (0 <= (E2 - E1) * (E1 * E2 + m ^ 2)) by (apply Rmult_le_pos; nra). lra. }
  pose proof (Rabs_pos z) as Z. assert (S : 0 <= sqrt y1 <= sqrt y2) by (split; [apply sqrt_pos|apply sqrt_le_1; lra]).
  set (q1 := E1 / (E1 ^ 2 - m ^ 2)) in *. set (q2 := E2 / (E2 ^ 2 - m ^ 2)) in *. set (a := 136 / 10 * Rabs z) in *.
  assert (A : 0 <= a) by (unfold a; apply Rmult_le_pos; lra). clearbody q1 q2 a.
  assert (K : 0 <= a * q2 * sqrt y1 <= a * q1 * sqrt y2).
  { split; [apply Rmult_le_pos; [apply Rmult_le_pos; lra|lra]|]. apply Rmult_le_compat; [apply Rmult_le_pos; lra|lra| |lra].
    apply Rmult_le_compat_l; lra. }
  apply Rmax_lub; [|apply Rmax_r]. destruct (Rle_dec f1 0) as [H|H].
  - apply Rle_trans with 0; [|apply Rmax_r].
    assert (0 <= (a * q2 * sqrt y1) * - f1) by (apply Rmult_le_pos; lra). lra.
  - eapply Rle_trans; [|apply Rmax_l]. apply Rmult_le_compat; lra.
Qed.
Lemma c61_highland_mono h g1 g2 E1 E2 w1 w2 : 0 < h_length h -> 0 <= h_mass h < E1 -> E1 <= E2 -> 0 <= g1 <= g2 ->
  theta0 nan h g1 E2 = Ok w1 -> theta0 nan h g2 E1 = Ok w2 -> w1 <= w2.
Proof.
  intros L M E G. rewrite !theta0_value by (try assumption; lra). intros H1 H2. injection H1 as <-. injection H2 as <-.
  destruct (Req_EM_T g1 0); destruct (Req_EM_T g2 0); try lra; [apply Rmax_r|].
  apply highland_mono; [lra|lra|]. split; [apply Rdiv_lt_0_compat; lra|apply Rmult_le_compat_r; [left; apply Rinv_0_lt_compat|]; lra].
Qed.

(** ** Mirrored numbers *)
Lemma gaussian_mirror t r0 r1 r2 r3 o : not_a_value nan -> 0 < r0 < 1 -> 0 < r1 < 1 -> 0 < r2 < 1 -> 0 < r3 < 1 ->
  gaussian_offset nan t r0 r1 r2 r3 = Ok o -> gaussian_offset nan t (1 - r0) (1 - r1) (1 - r2) (1 - r3) = Ok (mirror o).
Proof.
  intros N R0 R1 R2 R3 H. unfold gaussian_offset in *.
  apply bind_ok in H. destruct H as (z0 & H0 & H). apply bind_ok in H. destruct H as (z1 & H1 & H).
  apply bind_ok in H. destruct H as (z2 & H2 & H). apply bind_ok in H. destruct H as (z3 & H3 & H). injection H as <-.
  rewrite (quantile_mirror nan N r0 z0 R0 H0), (quantile_mirror nan N r1 z1 R1 H1), (quantile_mirror nan N r2 z2 R2 H2), (quantile_mirror nan N r3 z3 R3 H3).
  cbn [obind]. unfold mirror. cbn [o_sx o_sy o_tx o_ty]. f_equal. f_equal; unfold SQRT3; field.
Qed.
Lemma c61_highland_mirror h g E r0 r1 r2 r3 o : not_a_value nan -> 0 < r0 < 1 -> 0 < r1 < 1 -> 0 < r2 < 1 -> 0 < r3 < 1 ->
  highland_offset nan h g E r0 r1 r2 r3 = Ok o -> highland_offset nan h g E (1 - r0) (1 - r1) (1 - r2) (1 - r3) = Ok (mirror o).
Proof.
  intros N R0 R1 R2 R3 H. unfold highland_offset in *. apply bind_ok in H. destruct H as (t & Ht & H). rewrite Ht. cbn [obind].
  now apply gaussian_mirror.
Qed.
End Highland.

(** ** HighlandIntegral *)
Section HighlandIntegral.
Variable nan : forall A, outcome A.
Variable qags : (R -> outcome R) -> R -> R -> outcome R.
Lemma c61_integral h c g ei ef I c' : 0 < h_length h -> 0 < g -> calculate nan qags c ei ef = Some (Ok (I, c')) ->
  theta0_integral nan qags h c g ei ef
  = Some (Ok (Rmin (Rmax (integrated_width (h_charge h) (Rmax I 0) (h_length h) (g / h_length h)) 0) 1, c')).
Proof.
  intros L G C. unfold theta0_integral. rewrite C. cbn [fbind]. rewrite divide_ok by lra. unfold done. cbn [fbind].
  assert (Q : 0 <= Rmax I 0 / h_length h) by (apply Rmult_le_pos; [apply Rmax_r|left; now apply Rinv_0_lt_compat]).
  unfold Utility_Model.root, Rltb. destruct (Rlt_dec (Rmax I 0 / h_length h) 0); [lra|]. cbn [fbind].
  rewrite divide_ok by lra. cbn [fbind]. assert (Y : 0 < g / h_length h) by (apply Rdiv_lt_0_compat; lra).
  unfold log_factor, Rltb. destruct (Rlt_dec 0 (g / h_length h)); [|lra]. cbn [fbind].
  f_equal. f_equal. f_equal. f_equal. unfold integrated_width.
  set (s := sqrt (Rmax I 0 / h_length h)). set (f := 1 + 38 / 1000 * ln (g / h_length h)).
  replace (136 / 10 * Rabs (h_charge h) * s * f) with (136 / 10 * s * Rabs (h_charge h) * f) by ring.
  rewrite <- RmaxRmult; [f_equal; ring|]. apply Rmult_le_pos; [|apply Rabs_pos]. apply Rmult_le_pos; [lra|apply sqrt_pos].
Qed.
Lemma c61_integral_range h c g ei ef t c' : not_a_value nan -> 0 < h_length h -> 0 <= g -> theta0_integral nan qags h c g ei ef = Some (Ok (t, c')) ->
  0 <= t <= 1.
Proof.
  intros N L G. unfold theta0_integral. destruct (calculate nan qags c ei ef) as [[[I c1]|e|u]|]; cbn [fbind]; try discriminate.
  rewrite divide_ok by lra. unfold done. cbn [fbind].
  destruct (Utility_Model.root nan (Rmax I 0 / h_length h)) as [s| |] eqn:S; cbn [fbind]; try discriminate.
  apply (root_inv nan N) in S. destruct S as (_ & ->).
  rewrite divide_ok by lra. cbn [fbind]. destruct (log_factor nan (38 / 1000) ln (g / h_length h)) as [l| |] eqn:F; cbn [fbind]; try discriminate.
  intros H. injection H as <- _. split; [|apply Rmin_r]. apply Rmin_glb; [|lra].
  assert (0 <= l).
  { revert F. unfold log_factor, Rltb, Reqb. destruct (Rlt_dec 0 (g / h_length h)); [intros F; injection F as <-; apply Rmax_r|].
    destruct (Req_EM_T (g / h_length h) 0); intros F; [injection F as <-; lra|destruct (N _ _ F)]. }
  apply Rmult_le_pos; [|assumption]. apply Rmult_le_pos; [|apply Rabs_pos]. apply Rmult_le_pos; [lra|apply sqrt_pos].
Qed.
(** The function of a destroyed object *)
Lemma dead_evaluate g f u x : e_integrand g = Some f -> (forall t, f t = UB u) -> e_power g = 0 -> evaluate nan g x = UB u.
Proof.
  intros F D P. unfold evaluate. rewrite P, F. unfold Reqb. destruct (Req_EM_T 0 0); [|contradiction]. cbn [obind].
  destruct (e_log g); rewrite D; reflexivity.
Qed.
Lemma dead_loop g f u n : e_integrand g = Some f -> (forall t, f t = UB u) -> e_power g = 0 -> e_random g = 0 ->
  opened_loop nan qags (S n) None g 0 1 1 0 = Some (UB u).
Proof.
  intros F D P Z. cbn [opened_loop]. rewrite Z. unfold Reqb at 1. destruct (Req_EM_T 0 0); [|contradiction]. cbn [orb].
  unfold trapezoid3. cbn [Z.eqb Pos.eqb]. rewrite (dead_evaluate g f u _ F D P). reflexivity.
Qed.
Lemma c61_destroyed alive owner f lower h g ei ef : alive owner = false -> 0 < ef < ei -> negligible (ln ef) (ln ei) = false ->
  theta0_integral nan qags h (new_direct (captured alive owner f) lower) g ei ef = Some (UB use_after_free).
Proof.
  intros A E NG. unfold theta0_integral, calculate, new_direct, integrate, Reqb, Rleb.
  destruct (Req_EM_T ei 0); [lra|]. cbn [andb]. destruct (Rle_dec ei 0); [lra|]. destruct (Rle_dec ef 0); [lra|]. cbn [orb].
  unfold integrate_log. rewrite Rmin_right, Rmax_left by lra. unfold logarithm, Rltb.
  destruct (Rlt_dec 0 ef); [|lra]. destruct (Rlt_dec 0 ei); [|lra]. unfold done. cbn [fbind].
  match goal with |- context [prepared ?a ?b ?c ?d ?e ?f ?h ?i ?j ?k] => set (e0 := prepared a b c d e f h i j k) end.
  change (e_min e0) with (ln ef). change (e_max e0) with (ln ei). rewrite NG. unfold romberg_opened.
  change (e_steps e0) with 12%nat.
  rewrite (dead_loop e0 (captured alive owner f) use_after_free 11); [reflexivity|reflexivity| |reflexivity|reflexivity].
  intros t. unfold captured. now rewrite A.
Qed.
Lemma c61_living alive owner f E : alive owner = true -> captured alive owner f E = f E.
Proof. intros A. unfold captured. now rewrite A. Qed.
End HighlandIntegral.

(** ** Comparison *)
Lemma Reqb_eq a b : (a =? b) = true -> a = b.
Proof. unfold Reqb. destruct (Req_EM_T a b); [auto|discriminate]. Qed.
Lemma c61_equal_highland a b : scatterer_equal (Highland a) (Highland b) = Ok true -> a = b.
Proof.
  unfold scatterer_equal, scatterer_mass. destruct (h_mass a =? h_mass b) eqn:M; cbn [negb]; [|discriminate].
  unfold highland_compare. intros H. injection H as H. apply andb_prop in H. destruct H as (H1 & H2).
  apply Reqb_eq in M, H1, H2. destruct a, b. cbn in *. congruence.
Qed.
Lemma c61_equal_classes h m : h_mass h = mo_mass m ->
  scatterer_equal (Highland h) (Moliere m) = UB null_deref /\ scatterer_equal (Moliere m) (Highland h) = Ok false.
Proof.
  intros M. unfold scatterer_equal, scatterer_mass. rewrite M. unfold Reqb. destruct (Req_EM_T (mo_mass m) (mo_mass m)); [|contradiction].
  split; reflexivity.
Qed.
Lemma c61_equal_integral h : scatterer_equal (Highland h) (HighlandIntegral h) = Ok true.
Proof.
  unfold scatterer_equal, scatterer_mass, highland_compare, Reqb.
  destruct (Req_EM_T (h_mass h) (h_mass h)); [|contradiction]. destruct (Req_EM_T (h_length h) (h_length h)); [|contradiction].
  destruct (Req_EM_T (h_charge h) (h_charge h)); [|contradiction]. reflexivity.
Qed.
