(** Predefined media and the correction for their density. *)
From Coq Require Import String Ascii.
From Coquelicot Require Import Coquelicot.
From Verif Require Import Prelude PreludeFacts Cross_Model Transform_Proofs Limits_Model Photo_Model Ionization_Model Ionization_Proofs
  Differential_Spec Medium_Spec Continuous_Spec Config_Model Catalogue_Model Catalogue_Spec.
Local Open Scope string_scope.
Local Open Scope list_scope.
Local Open Scope R_scope.

Lemma ten_log : 0 < ln 10.
Proof. rewrite <- ln_1. apply ln_increasing; lra. Qed.
Lemma LOG10_pos : 0 < LOG10.
Proof. unfold LOG10. lra. Qed.
Lemma decade_grows b g b' g' : 0 < b * g <= b' * g' -> decade b g <= decade b' g'.
Proof.
  intros H. unfold decade, Rdiv. apply Rmult_le_compat_r; [left; apply Rinv_0_lt_compat, ten_log|]. apply ln_le; lra.
Qed.
Lemma power_small w p : 0 < w <= 1 -> 0 <= p -> Rpower w p <= 1.
Proof.
  intros W P. assert (E : Rpower 1 p = 1) by (unfold Rpower; rewrite ln_1, Rmult_0_r; apply exp_0).
  rewrite <- E. apply Rle_Rpower_l; lra.
Qed.
Lemma momentum_of X : exists b g, moving b g /\ decade b g = X.
Proof.
  set (p := Rpower 10 X). assert (0 < p) by apply exp_pos.
  set (g := sqrt (1 + p * p)). assert (P : 1 < 1 + p * p) by nra.
  assert (G : g * g = 1 + p * p) by (apply sqrt_sqrt; lra).
  assert (1 < g). { rewrite <- sqrt_1 at 1. apply sqrt_lt_1; lra. }
  exists (p / g), g.
  assert (E : p / g * g = p) by (field; lra).
  assert (0 < p / g) by (apply Rdiv_lt_0_compat; lra).
  split; [split; [|split; [lra|]]|].
  - split; [lra|]. apply (Rmult_lt_reg_r g); [lra|]. rewrite E. nra.
  - transitivity (g * g - (p / g * g) * (p / g * g)); [ring|]. rewrite E, G. ring.
  - unfold decade. rewrite E. unfold p, Rpower. rewrite ln_exp. field. pose proof ten_log. lra.
Qed.

Section Effect.
Variable nan : forall A, outcome A.
Variables (m : material).
Notation X0 := (mat_X0 m). Notation X1 := (mat_X1 m).
Definition effect_at (X : R) : R := if X <? X0 then mat_d0 m * Rpower 10 (2 * (X - X0)) else if X <? X1 then fit m X else asymptote m X.
Lemma effect_value b g : 0 < b * g -> density_effect nan m b g = Ok (effect_at (decade b g)).
Proof.
  intros H. unfold density_effect. rewrite (log_ok nan _ H). cbn [obind]. unfold effect_at, decade, fit, asymptote.
  destruct (_ <? _); [reflexivity|]. destruct (_ <? _); reflexivity.
Qed.
Lemma slow_zero b g : 0 < b * g -> mat_d0 m = 0 -> decade b g < X0 -> density_effect nan m b g = Ok 0.
Proof.
  intros H Z L. rewrite (effect_value b g H). unfold effect_at. rewrite (proj2 (Rltb_true _ _) L), Z. f_equal. ring.
Qed.
Lemma above_asymptote b g : 0 < b * g -> 0 <= mat_a m -> X0 <= decade b g ->
  exists d, density_effect nan m b g = Ok d /\ asymptote m (decade b g) <= d /\ (X1 <= decade b g -> d = asymptote m (decade b g)).
Proof.
  intros H A L. rewrite (effect_value b g H). eexists. split; [reflexivity|]. unfold effect_at.
  destruct (Rltb_spec (decade b g) X0); [lra|]. destruct (Rltb_spec (decade b g) X1).
  - split; [|lra]. unfold fit. assert (0 < Rpower (X1 - decade b g) (mat_m m)) by apply exp_pos. nra.
  - split; [lra | reflexivity].
Qed.

Lemma fit_derive X : X < X1 -> is_derive (fit m) X (2 * LOG10 - mat_a m * mat_m m * Rpower (X1 - X) (mat_m m - 1)).
Proof.
  intros H. apply is_derive_Reals. unfold fit, asymptote.
  replace (2 * LOG10 - mat_a m * mat_m m * Rpower (X1 - X) (mat_m m - 1))
    with (2 * LOG10 * 1 + 0 + (mat_a m * (mat_m m * Rpower (X1 - X) (mat_m m - 1) * (0 - 1)))) by ring.
  apply derivable_pt_lim_plus; [apply derivable_pt_lim_plus|].
  - apply (derivable_pt_lim_scal id). apply derivable_pt_lim_id.
  - apply derivable_pt_lim_const.
  - apply (derivable_pt_lim_scal (fun X => Rpower (X1 - X) (mat_m m))).
    apply (derivable_pt_lim_comp (fun X => X1 - X) (fun y => Rpower y (mat_m m))).
    + apply derivable_pt_lim_minus; [apply derivable_pt_lim_const | apply derivable_pt_lim_id].
    + apply derivable_pt_lim_power. lra.
Qed.
Lemma fit_change X Y : X < Y < X1 ->
  exists Z, X <= Z <= Y /\ fit m Y - fit m X = (2 * LOG10 - mat_a m * mat_m m * Rpower (X1 - Z) (mat_m m - 1)) * (Y - X).
Proof.
  intros H. destruct (MVT_gen (fit m) X Y (fun Z => 2 * LOG10 - mat_a m * mat_m m * Rpower (X1 - Z) (mat_m m - 1))) as [Z [HZ E]].
  - intros Z HZ. rewrite Rmin_left, Rmax_right in HZ by lra. apply fit_derive. lra.
  - intros Z HZ. rewrite Rmin_left, Rmax_right in HZ by lra. apply derivable_continuous_pt.
    eexists. apply is_derive_Reals, fit_derive. lra.
  - exists Z. rewrite Rmin_left, Rmax_right in HZ by lra. split; [lra | exact E].
Qed.

Hypothesis F : fitted m.
Lemma fit_grows X Y : X0 <= X <= Y -> Y < X1 -> fit m X <= fit m Y.
Proof.
  destruct F as [_ [A [M [L S]]]]. intros H HY. destruct (Req_dec X Y) as [->|N]; [lra|].
  destruct (fit_change X Y) as [Z [HZ E]]; [lra|].
  assert (Rpower (X1 - Z) (mat_m m - 1) <= Rpower (X1 - X0) (mat_m m - 1)) by (apply Rle_Rpower_l; lra).
  assert (0 <= mat_a m * mat_m m) by (apply Rmult_le_pos; lra).
  assert (mat_a m * mat_m m * Rpower (X1 - Z) (mat_m m - 1) <= 2 * LOG10).
  { eapply Rle_trans; [|exact S]. apply Rmult_le_compat_l; assumption. }
  assert (0 <= (2 * LOG10 - mat_a m * mat_m m * Rpower (X1 - Z) (mat_m m - 1)) * (Y - X)) by (apply Rmult_le_pos; lra). lra.
Qed.
(** The fit stays below the asymptote at X1 *)
Lemma fit_end X : X0 <= X < X1 -> fit m X <= asymptote m X1.
Proof.
  intros H. destruct (Rle_lt_dec (fit m X) (asymptote m X1)) as [L|L]; [exact L|exfalso].
  pose proof F as [_ [A [M _]]]. pose proof LOG10_pos.
  set (e := fit m X - asymptote m X1). assert (0 < e) by (unfold e; lra).
  set (w := Rmin (Rmin (X1 - X) 1) (e / (2 * (mat_a m + 1)))).
  assert (0 < e / (2 * (mat_a m + 1))) by (apply Rdiv_lt_0_compat; lra).
  assert (W : 0 < w /\ w <= X1 - X /\ w <= 1 /\ w <= e / (2 * (mat_a m + 1))).
  { unfold w. split; [repeat apply Rmin_glb_lt; lra|]. split; [eapply Rle_trans; [apply Rmin_l | apply Rmin_l]|].
    split; [eapply Rle_trans; [apply Rmin_l | apply Rmin_r] | apply Rmin_r]. }
  destruct W as [W1 [W2 [W3 W4]]].
  assert (G : fit m X <= fit m (X1 - w)) by (apply fit_grows; lra).
  assert (P : Rpower w (mat_m m) <= w).
  { replace (mat_m m) with (1 + (mat_m m - 1)) by ring. rewrite Rpower_plus, Rpower_1 by lra.
    assert (Rpower w (mat_m m - 1) <= 1) by (apply power_small; lra).
    assert (0 < Rpower w (mat_m m - 1)) by apply exp_pos. nra. }
  assert (fit m (X1 - w) <= asymptote m X1 + mat_a m * w).
  { unfold fit, asymptote. replace (X1 - (X1 - w)) with w by ring. nra. }
  assert (mat_a m * w <= e / 2).
  { assert (w * (2 * (mat_a m + 1)) <= e).
    { apply (Rmult_le_compat_r (2 * (mat_a m + 1))) in W4; [|lra]. unfold Rdiv in W4. rewrite Rmult_assoc, Rinv_l in W4 by lra. lra. }
    nra. }
  unfold e in *. lra.
Qed.
Lemma effect_grows X Y : X <= Y -> effect_at X <= effect_at Y.
Proof.
  intros H. pose proof F as [D [A [M [L S]]]]. pose proof LOG10_pos. unfold effect_at.
  assert (S0 : X < X0 -> mat_d0 m * Rpower 10 (2 * (X - X0)) <= mat_d0 m).
  { intros HX. assert (Rpower 10 (2 * (X - X0)) <= 1).
    { rewrite <- (Rpower_O 10) by lra. apply Rle_Rpower; lra. }
    assert (0 < Rpower 10 (2 * (X - X0))) by apply exp_pos. nra. }
  assert (FE : fit m X0 <= asymptote m X1) by (apply fit_end; lra).
  assert (AM : forall Z, X1 <= Z -> asymptote m X1 <= asymptote m Z) by (intros Z HZ; unfold asymptote; nra).
  destruct (Rltb_spec X X0) as [HX|HX].
  - specialize (S0 HX). destruct (Rltb_spec Y X0) as [HY|HY].
    + apply Rmult_le_compat_l; [lra|]. apply Rle_Rpower; lra.
    + destruct (Rltb_spec Y X1) as [HY'|HY'].
      * assert (fit m X0 <= fit m Y) by (apply fit_grows; lra). lra.
      * pose proof (AM Y ltac:(lra)). lra.
  - destruct (Rltb_spec Y X0); [lra|]. destruct (Rltb_spec X X1) as [HX'|HX'].
    + destruct (Rltb_spec Y X1) as [HY'|HY']; [apply fit_grows; lra|].
      pose proof (fit_end X ltac:(lra)). pose proof (AM Y ltac:(lra)). lra.
    + destruct (Rltb_spec Y X1); [lra|]. unfold asymptote. nra.
Qed.
Lemma effect_nonneg X : 0 <= effect_at X.
Proof.
  pose proof F as [D [A [M [L S]]]].
  apply Rle_trans with (effect_at (Rmin X (X0 - 1))); [|apply effect_grows, Rmin_l].
  unfold effect_at. assert (Rmin X (X0 - 1) <= X0 - 1) by apply Rmin_r.
  destruct (Rltb_spec (Rmin X (X0 - 1)) X0); [|lra]. apply Rmult_le_pos; [lra | left; apply exp_pos].
Qed.
End Effect.

Lemma monotone nan m b g b' g' : fitted m -> 0 < b * g <= b' * g' ->
  exists d d', density_effect nan m b g = Ok d /\ density_effect nan m b' g' = Ok d' /\ 0 <= d <= d'.
Proof.
  intros F H. exists (effect_at m (decade b g)), (effect_at m (decade b' g')).
  rewrite !effect_value by lra. split; [reflexivity|]. split; [reflexivity|].
  split; [now apply effect_nonneg | apply effect_grows; [exact F | now apply decade_grows]].
Qed.
(** At X1 the fit meets the asymptote *)
Lemma joined nan m eps : 0 < eps -> 1 < mat_m m -> mat_X0 m < mat_X1 m -> exists delta, 0 < delta /\
  forall b g, 0 < b * g -> Rabs (decade b g - mat_X1 m) < delta ->
  exists d, density_effect nan m b g = Ok d /\ Rabs (d - asymptote m (mat_X1 m)) < eps.
Proof.
  intros He M L. pose proof LOG10_pos. set (k := 2 * LOG10 + Rabs (mat_a m) + 1).
  assert (K : 0 < k) by (unfold k; pose proof (Rabs_pos (mat_a m)); lra).
  exists (Rmin (Rmin (mat_X1 m - mat_X0 m) 1) (eps / k)).
  assert (0 < eps / k) by (apply Rdiv_lt_0_compat; lra).
  split; [repeat apply Rmin_glb_lt; lra|]. intros b g P HX. rewrite (effect_value nan m b g P). eexists. split; [reflexivity|].
  set (X := decade b g) in *.
  assert (HX1 : Rabs (X - mat_X1 m) < mat_X1 m - mat_X0 m) by (eapply Rlt_le_trans; [exact HX|]; eapply Rle_trans; [apply Rmin_l | apply Rmin_l]).
  assert (HX2 : Rabs (X - mat_X1 m) < 1) by (eapply Rlt_le_trans; [exact HX|]; eapply Rle_trans; [apply Rmin_l | apply Rmin_r]).
  assert (HX3 : Rabs (X - mat_X1 m) < eps / k) by (eapply Rlt_le_trans; [exact HX | apply Rmin_r]).
  assert (B : Rabs (X - mat_X1 m) * k < eps).
  { apply (Rmult_lt_compat_r k) in HX3; [|exact K]. unfold Rdiv in HX3. rewrite Rmult_assoc, Rinv_l in HX3 by lra. lra. }
  pose proof (Rabs_pos (X - mat_X1 m)) as N. pose proof (Rabs_pos (mat_a m)) as NA.
  assert (BA : Rabs (asymptote m X - asymptote m (mat_X1 m)) = 2 * LOG10 * Rabs (X - mat_X1 m)).
  { unfold asymptote. replace (2 * LOG10 * X + mat_C m - (2 * LOG10 * mat_X1 m + mat_C m)) with (2 * LOG10 * (X - mat_X1 m)) by ring.
    rewrite Rabs_mult, (Rabs_pos_eq (2 * LOG10)) by lra. reflexivity. }
  unfold effect_at. destruct (Rltb_spec X (mat_X0 m)) as [HL|HL].
  { exfalso. rewrite Rabs_left in HX1 by lra. lra. }
  destruct (Rltb_spec X (mat_X1 m)) as [HM|HM].
  - set (w := mat_X1 m - X) in *. assert (W : Rabs (X - mat_X1 m) = w) by (unfold w; rewrite Rabs_left by lra; ring).
    rewrite W in *. unfold fit. fold w.
    assert (PW : 0 < Rpower w (mat_m m) <= w).
    { split; [apply exp_pos|]. replace (mat_m m) with (1 + (mat_m m - 1)) by ring. rewrite Rpower_plus, Rpower_1 by (unfold w; lra).
      assert (Rpower w (mat_m m - 1) <= 1) by (apply power_small; unfold w in *; lra).
      assert (0 < Rpower w (mat_m m - 1)) by apply exp_pos. nra. }
    replace (asymptote m X + mat_a m * Rpower w (mat_m m) - asymptote m (mat_X1 m))
      with ((asymptote m X - asymptote m (mat_X1 m)) + mat_a m * Rpower w (mat_m m)) by ring.
    eapply Rle_lt_trans; [apply Rabs_triang|]. rewrite BA, Rabs_mult, (Rabs_pos_eq (Rpower w (mat_m m))) by lra.
    unfold k in B. nra.
  - rewrite BA. unfold k in B. nra.
Qed.

(** ** Predefined media *)
Lemma power_le x n y k : 0 < x -> 0 < y -> (0 < k)%nat -> y ^ k <= x ^ n -> y <= Rpower x (INR n / INR k).
Proof.
  intros Hx Hy Hk H. assert (0 < INR k) by now apply lt_0_INR. unfold Rpower.
  rewrite <- (exp_ln y Hy) at 1. assert (L : ln y <= INR n / INR k * ln x).
  { assert (INR k * ln y <= INR n * ln x).
    { rewrite <- !ln_pow by assumption. apply ln_le; [now apply pow_lt | exact H]. }
    apply (Rmult_le_reg_l (INR k)); [assumption|]. replace (INR k * (INR n / INR k * ln x)) with (INR n * ln x) by (field; lra). assumption. }
  destruct L as [L | ->]; [left; now apply exp_increasing | right; reflexivity].
Qed.
Lemma power_ge x n y k : 0 < x -> 0 < y -> (0 < k)%nat -> x ^ n <= y ^ k -> Rpower x (INR n / INR k) <= y.
Proof.
  intros Hx Hy Hk H. assert (0 < INR k) by now apply lt_0_INR. unfold Rpower.
  rewrite <- (exp_ln y Hy) at 1. assert (L : INR n / INR k * ln x <= ln y).
  { assert (INR n * ln x <= INR k * ln y).
    { rewrite <- !ln_pow by assumption. apply ln_le; [now apply pow_lt | exact H]. }
    apply (Rmult_le_reg_l (INR k)); [assumption|]. replace (INR k * (INR n / INR k * ln x)) with (INR n * ln x) by (field; lra). assumption. }
  destruct L as [L | ->]; [left; now apply exp_increasing | right; reflexivity].
Qed.
(** Powers with rounded multiplications: integers are in units of [1 / u]. *)
Fixpoint low_power (u a : Z) (n : positive) : Z :=
  match n with
  | xH => a
  | xO n => let y := low_power u a n in (y * y / u)%Z
  | xI n => let y := low_power u a n in ((y * y / u) * a / u)%Z
  end.
Fixpoint high_power (u a : Z) (n : positive) : Z :=
  match n with
  | xH => a
  | xO n => let y := high_power u a n in (y * y / u + 1)%Z
  | xI n => let y := high_power u a n in ((y * y / u + 1) * a / u + 1)%Z
  end.
Lemma div_low x u : (0 < u)%Z -> (0 <= x)%Z -> (0 <= x / u)%Z /\ IZR (x / u) <= IZR x / IZR u.
Proof.
  intros U X. split; [apply Z.div_pos; assumption|]. pose proof (IZR_lt _ _ U) as U'.
  apply (Rmult_le_reg_r (IZR u)); [assumption|]. unfold Rdiv. rewrite Rmult_assoc, Rinv_l, Rmult_1_r, <- mult_IZR by lra.
  apply IZR_le. rewrite Z.mul_comm. apply Z.mul_div_le. assumption.
Qed.
Lemma div_high x u : (0 < u)%Z -> (0 <= x)%Z -> (0 <= x / u + 1)%Z /\ IZR x / IZR u <= IZR (x / u + 1).
Proof.
  intros U X. split; [pose proof (Z.div_pos x u X U); lia|]. pose proof (IZR_lt _ _ U) as U'.
  apply (Rmult_le_reg_r (IZR u)); [assumption|]. unfold Rdiv. rewrite Rmult_assoc, Rinv_l, Rmult_1_r, <- mult_IZR by lra.
  apply IZR_le. pose proof (Z.mul_succ_div_gt x u U). lia.
Qed.
Lemma square_step x y u : 0 < u -> 0 <= y -> y / u <= x -> 0 <= x -> y * y / u / u <= x * x.
Proof.
  intros U Y H X. replace (y * y / u / u) with ((y / u) * (y / u)) by (field; lra).
  assert (0 <= y / u) by (apply Rdiv_le_0_compat; assumption). nra.
Qed.
Lemma div_mono a b u : 0 < u -> a <= b -> a / u <= b / u.
Proof. intros U H. unfold Rdiv. apply Rmult_le_compat_r; [left; apply Rinv_0_lt_compat|]; assumption. Qed.
Lemma low_power_spec u a n : (0 < u)%Z -> (0 <= a)%Z ->
  (0 <= low_power u a n)%Z /\ IZR (low_power u a n) / IZR u <= (IZR a / IZR u) ^ Pos.to_nat n.
Proof.
  intros U A. pose proof (IZR_lt _ _ U) as U'. pose proof (IZR_le _ _ A) as A'. set (x := IZR a / IZR u).
  assert (X : 0 <= x) by (apply Rdiv_le_0_compat; assumption).
  assert (D : forall m y, (0 <= y)%Z -> IZR y / IZR u <= x ^ m -> (0 <= y * y / u)%Z /\ IZR (y * y / u) / IZR u <= x ^ (m + m)).
  { intros m y Y H. destruct (div_low (y * y) u U ltac:(nia)) as [P Q]. split; [exact P|].
    eapply Rle_trans; [apply div_mono; [assumption|exact Q]|]. rewrite mult_IZR, pow_add. apply square_step; try assumption.
    - apply (IZR_le 0); assumption.
    - apply pow_le; assumption. }
  induction n as [n IH|n IH|].
  - cbn [low_power]. destruct IH as [P Q]. destruct (D _ _ P Q) as [P' Q']. set (y := (low_power u a n * low_power u a n / u)%Z) in *.
    destruct (div_low (y * a) u U ltac:(nia)) as [P2 Q2]. split; [exact P2|].
    eapply Rle_trans; [apply div_mono; [assumption|exact Q2]|]. rewrite mult_IZR, Pos2Nat.inj_xI.
    replace (S (2 * Pos.to_nat n)) with (S (Pos.to_nat n + Pos.to_nat n)) by lia. cbn [pow].
    replace (IZR y * IZR a / IZR u / IZR u) with (x * (IZR y / IZR u)) by (unfold x; field; lra). apply Rmult_le_compat_l; assumption.
  - cbn [low_power]. destruct IH as [P Q]. rewrite Pos2Nat.inj_xO. replace (2 * Pos.to_nat n)%nat with (Pos.to_nat n + Pos.to_nat n)%nat by lia. apply D; assumption.
  - cbn [low_power]. split; [assumption|]. rewrite Pos2Nat.inj_1. cbn [pow]. fold x. lra.
Qed.
Lemma square_step_high x y u : 0 < u -> 0 <= y -> x <= y / u -> 0 <= x -> x * x <= y * y / u / u.
Proof.
  intros U Y H X. replace (y * y / u / u) with ((y / u) * (y / u)) by (field; lra).
  assert (0 <= y / u) by (apply Rdiv_le_0_compat; assumption). nra.
Qed.
Lemma high_power_spec u a n : (0 < u)%Z -> (0 <= a)%Z ->
  (0 <= high_power u a n)%Z /\ (IZR a / IZR u) ^ Pos.to_nat n <= IZR (high_power u a n) / IZR u.
Proof.
  intros U A. pose proof (IZR_lt _ _ U) as U'. pose proof (IZR_le _ _ A) as A'. set (x := IZR a / IZR u).
  assert (X : 0 <= x) by (apply Rdiv_le_0_compat; assumption).
  assert (D : forall m y, (0 <= y)%Z -> x ^ m <= IZR y / IZR u -> (0 <= y * y / u + 1)%Z /\ x ^ (m + m) <= IZR (y * y / u + 1) / IZR u).
  { intros m y Y H. destruct (div_high (y * y) u U ltac:(nia)) as [P Q]. split; [exact P|].
    eapply Rle_trans; [|apply div_mono; [assumption|exact Q]]. rewrite mult_IZR, pow_add. apply square_step_high; try assumption.
    - apply (IZR_le 0); assumption.
    - apply pow_le; assumption. }
  induction n as [n IH|n IH|].
  - cbn [high_power]. destruct IH as [P Q]. destruct (D _ _ P Q) as [P' Q']. set (y := (high_power u a n * high_power u a n / u + 1)%Z) in *.
    destruct (div_high (y * a) u U ltac:(nia)) as [P2 Q2]. split; [exact P2|].
    eapply Rle_trans; [|apply div_mono; [assumption|exact Q2]]. rewrite mult_IZR, Pos2Nat.inj_xI.
    replace (S (2 * Pos.to_nat n)) with (S (Pos.to_nat n + Pos.to_nat n)) by lia. cbn [pow].
    replace (IZR y * IZR a / IZR u / IZR u) with (x * (IZR y / IZR u)) by (unfold x; field; lra). apply Rmult_le_compat_l; assumption.
  - cbn [high_power]. destruct IH as [P Q]. rewrite Pos2Nat.inj_xO. replace (2 * Pos.to_nat n)%nat with (Pos.to_nat n + Pos.to_nat n)%nat by lia. apply D; assumption.
  - cbn [high_power]. split; [assumption|]. rewrite Pos2Nat.inj_1. cbn [pow]. fold x. lra.
Qed.
(** [w] is the power of ten of the precision. *)
Lemma power_le_rounded a b n c d k w : (0 < a)%Z -> (0 < b)%Z -> (0 < c)%Z -> (0 < d)%Z -> (0 < w)%Z ->
  (high_power w (c * w / d + 1) k <=? low_power w (a * w / b) n)%Z = true ->
  IZR c / IZR d <= Rpower (IZR a / IZR b) (INR (Pos.to_nat n) / INR (Pos.to_nat k)).
Proof.
  intros Ha Hb Hc Hd Hw H. apply Z.leb_le, IZR_le in H.
  pose proof (IZR_lt _ _ Ha) as Ha'. pose proof (IZR_lt _ _ Hb) as Hb'. pose proof (IZR_lt _ _ Hc) as Hc'. pose proof (IZR_lt _ _ Hd) as Hd'. pose proof (IZR_lt _ _ Hw) as Hw'.
  apply power_le; [apply Rdiv_lt_0_compat; assumption|apply Rdiv_lt_0_compat; assumption|lia|].
  destruct (div_high (c * w) d Hd ltac:(nia)) as [P Q]. destruct (div_low (a * w) b Hb ltac:(nia)) as [P2 Q2].
  destruct (high_power_spec w _ k Hw P) as [_ H1]. destruct (low_power_spec w _ n Hw P2) as [_ H2].
  rewrite mult_IZR in Q, Q2.
  eapply Rle_trans; [|eapply Rle_trans; [exact H1|eapply Rle_trans; [apply div_mono; [assumption|exact H]|eapply Rle_trans; [exact H2|]]]].
  - apply pow_incr. split; [apply Rdiv_le_0_compat; lra|].
    replace (IZR c / IZR d) with (IZR c * IZR w / IZR d / IZR w) by (field; lra). apply div_mono; assumption.
  - apply pow_incr. split; [apply Rdiv_le_0_compat; [apply (IZR_le 0)|]; assumption|].
    replace (IZR a / IZR b) with (IZR a * IZR w / IZR b / IZR w) by (field; lra). apply div_mono; assumption.
Qed.
Section Media.
Variable hash : R -> R -> R -> N.
Ltac fitting := unfold fitted, fit, asymptote; cbn [md_material mat_d0 mat_X0 mat_X1 mat_a mat_m mat_C].
Lemma water_fit : 262885 / 10000 <= Rpower (25604 / 10000) (34773 / 10000).
Proof.
  eapply Rle_trans; [apply (power_le_rounded 25604 10000 153 262885 10000 44 (2 ^ 64)); try lia; vm_compute; reflexivity|].
  apply Rle_Rpower; [lra|]. rewrite !INR_IZR_INZ, !positive_nat_Z. lra.
Qed.
Lemma water_slope : Rpower (25604 / 10000) (34773 / 10000 - 1) <= 14.
Proof.
  eapply Rle_trans; [|apply (power_ge (25604 / 10000) 5 14 2); try lra; lia]. apply Rle_Rpower; [lra|]. cbn [INR]. lra.
Qed.
Lemma water_fitted cs I : fitted (mkmaterial cs I (-35017 / 10000) (9116 / 100000) (34773 / 10000) (24 / 100) (28004 / 10000) 0).
Proof.
  fitting. replace (28004 / 10000 - 24 / 100) with (25604 / 10000) by lra.
  pose proof water_fit. pose proof water_slope. unfold LOG10. lra.
Qed.
Lemma ice_fitted cs I : fitted (mkmaterial cs I (-35873 / 10000) (9116 / 100000) (34773 / 10000) (2586 / 10000) (2819 / 1000) 0).
Proof.
  fitting. replace (2819 / 1000 - 2586 / 10000) with (25604 / 10000) by lra.
  pose proof water_fit. pose proof water_slope. unfold LOG10. lra.
Qed.
Lemma hydrogen_fitted : fitted (md_material (m_hydrogen hash)).
Proof.
  fitting. cbn [m_hydrogen md_material mat_d0 mat_X0 mat_X1 mat_a mat_m mat_C]. replace (18856 / 10000 - 44 / 100) with (14456 / 10000) by lra.
  assert (79465 / 10000 <= Rpower (14456 / 10000) (56249 / 10000)).
  { eapply Rle_trans; [apply (power_le_rounded 14456 10000 1198 79465 10000 213 (2 ^ 64)); try lia; vm_compute; reflexivity|].
    apply Rle_Rpower; [lra|]. rewrite !INR_IZR_INZ, !positive_nat_Z. lra. }
  assert (Rpower (14456 / 10000) (56249 / 10000 - 1) <= 6).
  { eapply Rle_trans; [|apply (power_ge (14456 / 10000) 14 6 3); try lra; lia]. apply Rle_Rpower; [lra|]. cbn [INR]. lra. }
  unfold LOG10. lra.
Qed.
Lemma lead_fitted : fitted (md_material (m_lead hash)).
Proof.
  fitting. cbn [m_lead md_material mat_d0 mat_X0 mat_X1 mat_a mat_m mat_C]. replace (38073 / 10000 - 3776 / 10000) with (34297 / 10000) by lra.
  assert (4918145 / 100000 <= Rpower (34297 / 10000) (31608 / 10000)).
  { eapply Rle_trans; [apply (power_le_rounded 34297 10000 806 4918145 100000 255 (2 ^ 64)); try lia; vm_compute; reflexivity|].
    apply Rle_Rpower; [lra|]. rewrite !INR_IZR_INZ, !positive_nat_Z. lra. }
  assert (Rpower (34297 / 10000) (31608 / 10000 - 1) <= 155 / 10).
  { eapply Rle_trans; [|apply (power_ge (34297 / 10000) 11 (155 / 10) 5); try lra; lia]. apply Rle_Rpower; [lra|]. cbn [INR]. lra. }
  unfold LOG10. lra.
Qed.
Lemma paraffin_fitted : fitted (md_material (m_paraffin hash)).
Proof.
  fitting. cbn [m_paraffin md_material mat_d0 mat_X0 mat_X1 mat_a mat_m mat_C]. replace (25084 / 10000 - 1289 / 10000) with (23795 / 10000) by lra.
  assert (195327 / 10000 <= Rpower (23795 / 10000) (34288 / 10000)).
  { eapply Rle_trans; [apply (power_le_rounded 23795 10000 24 195327 10000 7 (2 ^ 64)); try lia; vm_compute; reflexivity|].
    apply Rle_Rpower; [lra|]. rewrite !INR_IZR_INZ, !positive_nat_Z. lra. }
  assert (Rpower (23795 / 10000) (34288 / 10000 - 1) <= 9).
  { eapply Rle_trans; [|apply (power_ge (23795 / 10000) 5 9 2); try lra; lia]. apply Rle_Rpower; [lra|]. cbn [INR]. lra. }
  unfold LOG10. lra.
Qed.
Lemma argon_fitted : fitted (md_material (m_liquid_argon hash)).
Proof.
  fitting. cbn [m_liquid_argon md_material mat_d0 mat_X0 mat_X1 mat_a mat_m mat_C].
  assert (P : forall n, Rpower (3 - 2 / 10) (INR n) = (28 / 10) ^ n) by (intro n; rewrite Rpower_pow by lra; f_equal; lra).
  pose proof (P 3%nat) as P3. pose proof (P 2%nat) as P2.
  replace (INR 3) with 3 in P3 by (cbn; lra). replace (INR 2) with (3 - 1) in P2 by (cbn; lra). rewrite P2, P3. unfold LOG10. cbn [pow]. lra.
Qed.
Lemma media_fitted : Forall (fun m => fitted (md_material m))
  [m_water_2001 hash; m_water_2020 hash; m_ice_2001 hash; m_ice_2020 hash; m_hydrogen hash; m_lead hash; m_paraffin hash; m_liquid_argon hash;
   m_antares_water hash; m_cascadia_basin_water hash].
Proof.
  repeat apply Forall_cons; try apply Forall_nil; cbn [md_material m_water_2001 m_water_2020 m_ice_2001 m_ice_2020 m_antares_water m_cascadia_basin_water];
    first [apply water_fitted | apply ice_fitted | apply hydrogen_fitted | apply lead_fitted | apply paraffin_fitted | apply argon_fitted].
Qed.
Lemma salt_negative nan : exists b g d, moving b g /\ density_effect nan (md_material (m_salt hash)) b g = Ok d /\ d < 0.
Proof.
  destruct (momentum_of (2 / 10)) as [b [g [[Hb [Hg E]] D]]]. exists b, g.
  eexists. split; [exact (conj Hb (conj Hg E))|]. rewrite effect_value by nra. split; [reflexivity|].
  rewrite D. unfold effect_at, fit, asymptote. cbn [m_salt md_material mat_d0 mat_X0 mat_X1 mat_a mat_m mat_C].
  destruct (Rltb_spec (2 / 10) (2 / 10)); [lra|]. destruct (Rltb_spec (2 / 10) 3); [|lra].
  assert (P : Rpower (3 - 2 / 10) (INR 3) = (28 / 10) ^ 3) by (rewrite Rpower_pow by lra; f_equal; lra).
  replace (INR 3) with 3 in P by (cbn; lra). rewrite P. unfold LOG10. cbn [pow]. lra.
Qed.
Lemma frejus_falls nan : exists b g d b' g' d', moving b g /\ moving b' g' /\ g < g' /\
  density_effect nan (md_material (m_frejus_rock hash)) b g = Ok d /\ density_effect nan (md_material (m_frejus_rock hash)) b' g' = Ok d' /\ d' < d.
Proof.
  destruct (momentum_of (288 / 1000)) as [b [g [[Hb [Hg E]] D]]].
  destruct (momentum_of (296 / 1000)) as [b' [g' [[Hb' [Hg' E']] D']]].
  set (m := md_material (m_frejus_rock hash)).
  exists b, g, (effect_at m (decade b g)), b', g', (effect_at m (decade b' g')).
  split; [exact (conj Hb (conj Hg E))|]. split; [exact (conj Hb' (conj Hg' E'))|].
  assert (PL : b * g < b' * g').
  { destruct (Rlt_le_dec (b * g) (b' * g')) as [L|L]; [exact L|exfalso]. pose proof (decade_grows b' g' b g ltac:(nra)). lra. }
  split. { assert (b * g * (b * g) < b' * g' * (b' * g')) by (apply Rmult_le_0_lt_compat; nra). nra. }
  rewrite !effect_value by nra. split; [reflexivity|]. split; [reflexivity|]. rewrite D, D'.
  destruct (fit_change m (288 / 1000) (296 / 1000)) as [Z [HZ EZ]]; [cbn; lra|].
  unfold effect_at. change (mat_X0 m) with (288 / 1000). change (mat_X1 m) with (3196 / 1000) in *.
  destruct (Rltb_spec (288 / 1000) (288 / 1000)); [lra|]. destruct (Rltb_spec (288 / 1000) (3196 / 1000)); [|lra].
  destruct (Rltb_spec (296 / 1000) (288 / 1000)); [lra|]. destruct (Rltb_spec (296 / 1000) (3196 / 1000)); [|lra].
  change (mat_m m) with (3645 / 1000) in EZ. change (mat_a m) with (78 / 1000) in EZ.
  assert (163 / 10 <= Rpower (3196 / 1000 - Z) (3645 / 1000 - 1)).
  { eapply Rle_trans; [apply (power_le (29 / 10) 21 _ 8); try lra; lia|].
    eapply Rle_trans; [apply (Rle_Rpower (29 / 10) _ (3645 / 1000 - 1)); [lra | cbn [INR]; lra]|]. apply Rle_Rpower_l; lra. }
  unfold LOG10 in EZ. nra.
Qed.

(** ** Names and composition *)
Lemma lower_idempotent s : lower (lower s) = lower s.
Proof.
  induction s as [|c s IH]; [reflexivity|]. cbn [lower]. f_equal; [|exact IH].
  destruct c as [[] [] [] [] [] [] [] []]; reflexivity.
Qed.
Lemma lower_code c : nat_of_ascii (lower_ascii c) =
  (if (65 <=? nat_of_ascii c)%nat && (nat_of_ascii c <=? 90)%nat then nat_of_ascii c + 32 else nat_of_ascii c)%nat.
Proof. destruct c as [[] [] [] [] [] [] [] []]; reflexivity. Qed.
Lemma code_eq c d : nat_of_ascii c = nat_of_ascii d -> c = d.
Proof. intros H. rewrite <- (ascii_nat_embedding c), <- (ascii_nat_embedding d). now f_equal. Qed.
Lemma same_letter c d : lower_ascii c = lower_ascii d <-> c = d \/ capital_of c d \/ capital_of d c.
Proof.
  unfold capital_of. split.
  - intros H. apply (f_equal nat_of_ascii) in H. rewrite !lower_code in H.
    destruct (Nat.leb_spec 65 (nat_of_ascii c)), (Nat.leb_spec (nat_of_ascii c) 90), (Nat.leb_spec 65 (nat_of_ascii d)), (Nat.leb_spec (nat_of_ascii d) 90);
      cbn [andb] in H; try (right; lia); left; apply code_eq; lia.
  - intros H. apply code_eq. rewrite !lower_code. destruct H as [-> | H]; [reflexivity|].
    destruct (Nat.leb_spec 65 (nat_of_ascii c)), (Nat.leb_spec (nat_of_ascii c) 90), (Nat.leb_spec 65 (nat_of_ascii d)), (Nat.leb_spec (nat_of_ascii d) 90);
      cbn [andb]; lia.
Qed.
Lemma same_lower : forall s t, same_letters s t <-> lower s = lower t.
Proof.
  induction s as [|c s IH]; intros [|d t]; cbn [same_letters lower]; try (split; [contradiction | discriminate]); [tauto|].
  rewrite IH, <- same_letter. split; [intros [-> ->]; reflexivity | intros [= H H']; auto].
Qed.
Lemma case_ignored s s' : same_letters s s' -> create_medium hash s = create_medium hash s'.
Proof. intros H. unfold create_medium. apply same_lower in H as ->. reflexivity. Qed.
Lemma documented_found : forall s, In s documented ->
  exists m, create_medium hash s = Ok m /\ In m (media hash) /\ prefix (md_name m) (lower s) = true.
Proof.
  intros s H. cbn in H.
  repeat (destruct H as [<- | H]; [eexists; split; [reflexivity|]; split; [cbn; tauto | reflexivity]|]). contradiction.
Qed.
Lemma search_found n : forall ns ts m, search hash n ns ts = Ok m -> In n ns.
Proof.
  induction ns as [|x ns IH]; intros ts m; cbn [search]; [discriminate|]. destruct (String.eqb_spec n x) as [->|]; [now left|].
  intro H. right. eapply IH, H.
Qed.
Lemma only_documented s m : create_medium hash s = Ok m -> exists t, In t documented /\ same_letters t s.
Proof.
  intros H. apply search_found in H. change names with (map lower documented) in H. apply in_map_iff in H as [t [E I]]. exists t. split; [exact I | now apply same_lower].
Qed.
(** A medium is found again by its name unless it is one of 2001 *)
Lemma found_again s m : create_medium hash s = Ok m -> lower s <> "waterpdg2001" -> lower s <> "icepdg2001" ->
  create_medium hash (md_name m) = Ok m.
Proof.
  intros H W I. unfold create_medium in H. set (n := lower s) in *. clearbody n. cbn [search names types tl] in H.
  repeat (match type of H with (if String.eqb _ ?x then _ else _) = _ => destruct (String.eqb_spec n x) end; [subst n; try contradiction; injection H as <-; reflexivity|]). discriminate.
Qed.
Lemma old_media : exists s m m', create_medium hash s = Ok m /\ create_medium hash (md_name m) = Ok m' /\ md_density m <> md_density m'.
Proof.
  exists "IcePDG2001", (m_ice_2001 hash), (m_ice_2020 hash). split; [reflexivity|]. split; [reflexivity|]. cbn. lra.
Qed.
Lemma calcium_carbonate : In (m_calcium_carbonate hash) (media hash) /\
  forall s m, create_medium hash s = Ok m -> md_name m <> md_name (m_calcium_carbonate hash).
Proof.
  split; [cbn; tauto|]. intros s m H. unfold create_medium in H. set (n := lower s) in *. clearbody n. cbn [search names types tl] in H.
  repeat (match type of H with (if String.eqb _ ?x then _ else _) = _ => destruct (String.eqb_spec n x) end; [injection H as <-; discriminate|]). discriminate.
Qed.
Lemma media_sound : Forall (fun m => sound_material (md_material m) /\ substance (mat_components (md_material m)) /\ 0 < md_density m) (media hash).
Proof.
  repeat apply Forall_cons; try apply Forall_nil; (split; [|split; [|cbn; lra]]).
  all: match goal with
       | |- sound_material _ => constructor; [discriminate | repeat apply Forall_cons; try apply Forall_nil; cbn; lra | cbn; lra]
       | |- _ => split; [discriminate|]; apply Forall_forall; repeat apply Forall_cons; try apply Forall_nil; unfold element; cbn; lra
       end.
Qed.
Lemma compositions :
  made_of (m_water_2001 hash) [(1, 2); (8, 1)] /\ made_of (m_water_2020 hash) [(1, 2); (8, 1)] /\
  made_of (m_ice_2001 hash) [(1, 2); (8, 1)] /\ made_of (m_ice_2020 hash) [(1, 2); (8, 1)] /\
  made_of (m_salt hash) [(11, 1); (17, 1)] /\ made_of (m_calcium_carbonate hash) [(20, 1); (6, 1); (8, 3)] /\
  made_of (m_hydrogen hash) [(1, 2)] /\ made_of (m_iron hash) [(26, 1)] /\ made_of (m_copper hash) [(29, 1)] /\
  made_of (m_lead hash) [(82, 1)] /\ made_of (m_uranium hash) [(92, 1)] /\ made_of (m_liquid_argon hash) [(18, 1)].
Proof. repeat split; repeat constructor. Qed.
Lemma no_hydrogen : exists c, In c (mat_components (md_material (m_paraffin hash))) /\ c_charge c = 8 /\
  amount 1 (mat_components (md_material (m_paraffin hash))) = 0.
Proof.
  exists (c_oxygen hash 52). split; [cbn; tauto|]. split; [reflexivity|]. cbn.
  destruct (Reqb_spec 6 1); [lra|]. destruct (Reqb_spec 8 1); lra.
Qed.
Ltac ions := unfold cations, anions; cbn -[IZR]; repeat match goal with |- context [Reqb ?a ?b] => destruct (Reqb_spec a b) as [?E|?E]; try (exfalso; lra) end.
Lemma cascadia_neutral : Rabs (cations (m_cascadia_basin_water hash) - anions (m_cascadia_basin_water hash)) <= cations (m_cascadia_basin_water hash) / 100.
Proof. ions. rewrite Rabs_pos_eq; lra. Qed.
Lemma antares_charged : anions (m_antares_water hash) > 18 / 10 * cations (m_antares_water hash).
Proof. ions. lra. Qed.
End Media.
