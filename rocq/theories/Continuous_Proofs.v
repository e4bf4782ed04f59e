(** The continuous and the sampled losses share out one mean loss. *)
From Coq Require Import Lra Psatz.
From Coquelicot Require Import Coquelicot.
From Verif Require Import Prelude PreludeFacts Particle_Model Limits_Model Cross_Model Photo_Model Integral_Model Utility_Model.
From Verif Require Import Ionization_Model Continuous_Model Continuous_Spec Transform_Proofs Integral_Proofs Ionization_Proofs.

(** ** Integrals *)
Lemma lost_chasles E s a b c : integrable (fun v => v * s v) a b -> integrable (fun v => v * s v) b c ->
  lost_between E s a b + lost_between E s b c = lost_between E s a c.
Proof.
  intros A B. unfold lost_between. rewrite <- (RInt_Chasles (V := R_CompleteNormedModule) _ a b c A B).
  unfold plus. cbn. ring.
Qed.
(** A primitive of the loss *)
Lemma lost_primitive E s t G a b : a <= b ->
  (forall v, a < v < b -> s v = t v) ->
  (forall v, a <= v <= b -> is_derive G v (E * (v * t v))) -> (forall v, a <= v <= b -> continuous t v) ->
  integrable (fun v => v * s v) a b /\ lost_between E s a b = G b - G a.
Proof.
  intros L S D C.
  assert (forall v, a <= v <= b -> continuous (fun v => v * t v) v) as C'.
  { intros v V. apply (continuous_mult (fun v => v) t); [apply continuous_id|now apply C]. }
  assert (integrable (fun v => v * t v) a b) as I.
  { apply (ex_RInt_continuous (V := R_CompleteNormedModule)). intros v V. rewrite Rmin_left, Rmax_right in V by exact L. now apply C'. }
  assert (integrable (fun v => v * s v) a b) as I'.
  { apply ex_RInt_ext with (2 := I). intros v V. rewrite Rmin_left, Rmax_right in V by exact L. now rewrite S by exact V. }
  split; [exact I'|]. unfold lost_between.
  rewrite (RInt_ext (V := R_CompleteNormedModule) _ (fun v => v * t v)).
  2:{ intros v V. rewrite Rmin_left, Rmax_right in V by exact L. now rewrite S by exact V. }
  transitivity (integral_of (fun v => scal E (v * t v)) a b).
  { symmetry. exact (RInt_scal (V := R_CompleteNormedModule) _ a b E I). }
  apply is_RInt_unique.
  apply (is_RInt_derive (V := R_CompleteNormedModule) G (fun v => scal E (v * t v))).
  - intros v V. rewrite Rmin_left, Rmax_right in V by exact L. now apply D.
  - intros v V. rewrite Rmin_left, Rmax_right in V by exact L.
    apply (continuous_scal_r (V := R_CompleteNormedModule) E), C', V.
Qed.

Lemma rossi_derive b q M K E v : 0 < b -> 0 < q -> 0 < M -> 0 < E -> 0 < v ->
  is_derive (fun v => (ln v + v / (2 * q) * (v / (2 * q)) - b * b * (v / M)) * (K / (2 * (b * b)))) v
    (E * (v * ((1 - b * b * (v / M) + v / q * (1 / 2 * (v / q))) * (K / (2 * (b * b) * E * v * v))))).
Proof. intros B Q P H V. auto_derive; [exact V|]. field. repeat split; lra. Qed.
Lemma correction_derive A M g mass E v : 0 < E -> 0 < mass -> 0 < g -> 0 < v < M -> v < 1 ->
  ex_derive (fun v => A * (ln (1 + 2 * v * E / ME) * (2 * ln ((1 - v / M) / (1 - v)) + ln (2 * g * (1 - v) * ME / (mass * v)))
   - ln ((1 - v / M) / (1 - v)) * ln ((1 - v / M) / (1 - v)))) v.
Proof.
  intros HE Hm Hg V O. pose proof ME_pos as P.
  assert (v / M < 1) as S by (apply (Rmult_lt_reg_r M); [lra|]; unfold Rdiv; rewrite Rmult_assoc, Rinv_l by lra; lra).
  assert (0 < (1 - v / M) / (1 - v)) by (apply Rdiv_lt_0_compat; lra).
  assert (0 < mass * v) by nra.
  assert (0 < 2 * g * (1 - v) * ME / (mass * v)) by (apply Rdiv_lt_0_compat; [repeat (apply Rmult_lt_0_compat; try lra)|lra]).
  assert (0 < 2 * v * E / ME) by (apply Rdiv_lt_0_compat; [|lra]; apply Rmult_lt_0_compat; lra).
  auto_derive. unfold Rdiv, Rminus in *. repeat split; lra.
Qed.
Section Scheme.
Variable nan : forall A, outcome A.
Variable qags : (R -> outcome R) -> R -> R -> outcome R.

(** ** The formulas of Berger and Seltzer *)
Section Electron.
Variables (m : material) (E : R).
Hypotheses (sound : sound_material m) (E_big : ME < E).
Lemma vmax_pos : 0 < 1 - ME / E.
Proof. pose proof ME_pos. assert (ME / E < 1); [|lra]. apply (Rmult_lt_reg_r E); [lra|]. unfold Rdiv. rewrite Rmult_assoc, Rinv_l by lra. lra. Qed.
Lemma g_above : 1 < E / ME.
Proof. pose proof ME_pos. apply (Rmult_lt_reg_r ME); [lra|]. unfold Rdiv. rewrite Rmult_assoc, Rinv_l by lra. lra. Qed.

Lemma bhabha_primitive f v : 0 < v ->
  is_derive (fun v => fplus (E / ME) (v * (E / ME)) * scale E f) v
            (E * (v * (bhabha_bracket (E / ME) (share_of E v) * front E f))).
Proof.
  intros V. pose proof ME_pos as M. pose proof g_above as G. set (g := E / ME) in *.
  assert (E = g * ME) as Eg by (unfold g; field; lra).
  pose proof (fplus_derive g (v * g) G ltac:(apply Rmult_lt_0_compat; lra)) as D.
  assert (is_derive (fun v => v * g) v g) as K by (auto_derive; [trivial|ring]).
  pose proof (is_derive_comp (fplus g) (fun v => v * g) v _ _ D K) as C.
  apply (is_derive_ext (fun v => scal (scale E f) (fplus g (v * g)))).
  { intros t. unfold scal. cbn. unfold mult. cbn. ring. }
  apply (is_derive_scal (fun v => fplus g (v * g)) v (scale E f)) in C.
  match goal with H : is_derive _ _ ?a |- is_derive _ _ ?b => replace b with a; [exact H|] end.
  unfold scal. cbn. unfold mult. cbn. unfold share_of, front, scale. fold g.
  set (B := bhabha_bracket g (v * g / (g - 1))). clearbody B. rewrite Eg.
  assert (g * g - 1 <> 0) by nra. field. repeat split; lra.
Qed.
Lemma bhabha_continuous f v : 0 < v -> continuous (fun v => bhabha_bracket (E / ME) (share_of E v) * front E f) v.
Proof.
  intros V. pose proof ME_pos as M. pose proof g_above as G. set (g := E / ME) in *.
  apply (ex_derive_continuous (fun v => bhabha_bracket g (share_of E v) * front E f)).
  unfold bhabha_bracket, share_of. fold g.
  assert (0 < v * g / (g - 1)) by (apply Rdiv_lt_0_compat; [apply Rmult_lt_0_compat; lra|lra]).
  assert (0 < 1 - 1 / (g * g)).
  { assert (1 / (g * g) < 1); [|lra]. apply (Rmult_lt_reg_r (g * g)); [nra|]. unfold Rdiv. rewrite Rmult_assoc, Rinv_l by nra. nra. }
  auto_derive. unfold Rdiv in *.
  repeat split; try lra; apply Rgt_not_eq; first [assumption|apply Rmult_lt_0_compat; [apply Rmult_lt_0_compat; assumption|assumption]].
Qed.
Lemma moller_primitive f v : 0 < v <= 1 / 2 * (1 - ME / E) ->
  is_derive (fun v => fminus (E / ME) (v * (E / ME)) * scale E f) v
            (E * (v * (moller_bracket (E / ME) (share_of E v) / (1 - 1 / (E / ME * (E / ME))) * front E f))).
Proof.
  intros V. destruct (share_range E E_big v (1 / 2) V) as [S1 S2]. unfold share_of in S2.
  pose proof ME_pos as M. pose proof g_above as G. set (g := E / ME) in *.
  assert (E = g * ME) as Eg by (unfold g; field; lra).
  assert (v * g <= 1 / 2 * (g - 1)) as T.
  { apply (Rmult_le_compat_r (g - 1)) in S2; [|lra]. unfold Rdiv in S2 at 1. rewrite Rmult_assoc, Rinv_l in S2 by lra. lra. }
  pose proof (fminus_derive g (v * g) G ltac:(split; [apply Rmult_lt_0_compat; lra|lra])) as D.
  assert (is_derive (fun v => v * g) v g) as K by (auto_derive; [trivial|ring]).
  pose proof (is_derive_comp (fminus g) (fun v => v * g) v _ _ D K) as C.
  apply (is_derive_ext (fun v => scal (scale E f) (fminus g (v * g)))).
  { intros t. unfold scal. cbn. unfold mult. cbn. ring. }
  apply (is_derive_scal (fun v => fminus g (v * g)) v (scale E f)) in C.
  match goal with H : is_derive _ _ ?a |- is_derive _ _ ?b => replace b with a; [exact H|] end.
  unfold scal. cbn. unfold mult. cbn. unfold share_of, front, scale. fold g.
  set (B := moller_bracket g (v * g / (g - 1))). clearbody B. rewrite Eg.
  assert (g * g - 1 <> 0) by nra. field. repeat split; lra.
Qed.
Lemma moller_continuous f v : 0 < v <= 1 / 2 * (1 - ME / E) ->
  continuous (fun v => moller_bracket (E / ME) (share_of E v) / (1 - 1 / (E / ME * (E / ME))) * front E f) v.
Proof.
  intros V. destruct (share_range E E_big v (1 / 2) V) as [S1 S2]. unfold share_of in *.
  pose proof ME_pos as M. pose proof g_above as G. set (g := E / ME) in *.
  apply (ex_derive_continuous (fun v => moller_bracket g (share_of E v) / (1 - 1 / (g * g)) * front E f)).
  unfold moller_bracket, share_of. fold g.
  auto_derive. unfold Rdiv in *. repeat split; try lra.
Qed.

Lemma formula_loss own cut value x : value E = Ok x ->
  continuous_loss nan qags (Formula value) own cut E = Some (Ok x).
Proof.
  intros H. pose proof ME_pos. unfold continuous_loss, dedx_integral, fbind, done. rewrite H.
  rewrite (quo_ok nan x E) by lra. do 2 f_equal. field. lra.
Qed.

Lemma formula_stochastic kin s c vmax : kin E = mklimits 0 vmax -> 0 < vmax -> accepted c ->
  stochastic_part E s kin c = lost_between E s (Rmin (get_cut c E) vmax) vmax.
Proof.
  intros K V C. pose proof ME_pos. pose proof (get_cut_positive c E C ltac:(lra)) as P.
  unfold stochastic_part, integration_limits, get_cut_within. rewrite K. cbn [v_min v_max].
  rewrite (Rmax_right 0 (get_cut c E)) by lra. rewrite Rmax_left; [reflexivity|]. apply Rmin_glb; lra.
Qed.
Lemma formula_partition kin s vmax B G c1 c2 x1 x2 : kin E = mklimits 0 vmax -> 0 < vmax ->
  (forall v, 0 < v <= vmax -> is_derive G v (E * (v * s v))) -> (forall v, 0 < v <= vmax -> continuous s v) ->
  (forall v, 0 < v <= vmax -> 0 <= s v) ->
  accepted c1 -> accepted c2 ->
  x1 = Rmax (B + G (Rmin (get_cut c1 E) vmax)) 0 -> x2 = Rmax (B + G (Rmin (get_cut c2 E) vmax)) 0 ->
  (0 < x1 -> 0 < x2 -> x1 + stochastic_part E s kin c1 = x2 + stochastic_part E s kin c2) /\
  (get_cut c1 E <= get_cut c2 E -> x1 <= x2).
Proof.
  intros K V D C N A1 A2 X1 X2. pose proof ME_pos.
  pose proof (get_cut_positive c1 E A1 ltac:(lra)) as P1. pose proof (get_cut_positive c2 E A2 ltac:(lra)) as P2.
  rewrite !(formula_stochastic kin s _ vmax) by assumption.
  set (u1 := Rmin (get_cut c1 E) vmax) in *. set (u2 := Rmin (get_cut c2 E) vmax) in *.
  assert (0 < u1 <= vmax) as U1 by (unfold u1; split; [apply Rmin_glb_lt; lra|apply Rmin_r]).
  assert (0 < u2 <= vmax) as U2 by (unfold u2; split; [apply Rmin_glb_lt; lra|apply Rmin_r]).
  assert (forall a b, 0 < a <= b -> b <= vmax -> lost_between E s a b = G b - G a) as L.
  { intros a b Ha Hb. apply (lost_primitive E s s G a b); [lra|reflexivity|intros v W; apply D; lra|intros v W; apply C; lra]. }
  split.
  - rewrite !L by lra. intros Y1 Y2.
    assert (x1 = B + G u1) as -> by (unfold Rmax in X1; destruct (Rle_dec _ _) in X1; lra).
    assert (x2 = B + G u2) as -> by (unfold Rmax in X2; destruct (Rle_dec _ _) in X2; lra).
    ring.
  - intros O. assert (u1 <= u2) as U by (unfold u1, u2; apply Rle_min_compat_r, O).
    assert (0 <= lost_between E s u1 u2) as Q.
    { destruct (lost_primitive E s s G u1 u2 U ltac:(reflexivity)) as [I _]; [intros v W; apply D; lra|intros v W; apply C; lra|].
      unfold lost_between. apply Rmult_le_pos; [lra|].
      apply (RInt_ge_0 (fun v => v * s v) u1 u2 U I). intros v W. apply Rmult_le_pos; [lra|]. apply N. lra. }
    rewrite L in Q by lra. rewrite X1, X2. apply Rle_max_compat_r. lra.
Qed.
Lemma bhabha_partition : exists sigma : R -> R,
  (forall v, 0 < v <= 1 - ME / E -> bhabha nan ME m E v = Ok (sigma v) /\ 0 < sigma v) /\
  (forall a b, 0 < a <= b -> b <= 1 - ME / E -> integrable (fun v => v * sigma v) a b) /\
  forall c1 c2, accepted c1 -> accepted c2 -> exists x1 x2,
    continuous_loss nan qags (bhabha_scheme nan c1 ME m) (bhabha_parametrization nan c1 ME m) c1 E = Some (Ok x1) /\
    continuous_loss nan qags (bhabha_scheme nan c2 ME m) (bhabha_parametrization nan c2 ME m) c2 E = Some (Ok x2) /\
    0 <= x1 /\ 0 <= x2 /\
    (0 < x1 -> 0 < x2 -> x1 + stochastic_part E sigma (bhabha_limits ME) c1 = x2 + stochastic_part E sigma (bhabha_limits ME) c2) /\
    (get_cut c1 E <= get_cut c2 E -> x1 <= x2).
Proof.
  destruct (fraction_positive nan m sound) as (f & F & Fe). pose proof vmax_pos as V. pose proof g_above as G.
  assert (P : forall v, 0 < v <= 1 - ME / E -> 0 < bhabha_bracket (E / ME) (share_of E v) * front E f).
  { intros v W. apply Rmult_lt_0_compat; [|now apply front_pos]. apply bhabha_bracket_positive; [exact G|].
    apply (share_range E E_big v 1). lra. }
  exists (fun v => bhabha_bracket (E / ME) (share_of E v) * front E f). split; [|split].
  - intros v W. split; [|now apply P]. exact (bhabha_value nan m E f E_big F Fe v W).
  - intros a b A B. eapply (lost_primitive E _ (fun v => bhabha_bracket (E / ME) (share_of E v) * front E f)); [lra|reflexivity| |].
    + intros v W. apply bhabha_primitive. lra.
    + intros v W. apply bhabha_continuous. lra.
  - intros c1 c2 A1 A2. destruct (effect_exists nan m E E_big) as [d Hd].
    pose proof (bhabha_dedx_value nan m E f (sm_I m sound) E_big Fe d Hd) as H.
    eexists _, _. split; [apply formula_loss; exact (H c1 A1)|]. split; [apply formula_loss; exact (H c2 A2)|].
    split; [apply Rmax_r|]. split; [apply Rmax_r|].
    apply (formula_partition (bhabha_limits ME) _ (1 - ME / E) (excitation m E d * scale E f) (fun v => fplus (E / ME) (v * (E / ME)) * scale E f)); try assumption.
    + unfold bhabha_limits. now rewrite (proj2 (Rltb_false _ 0)) by lra.
    + intros v W. apply bhabha_primitive. lra.
    + intros v W. apply bhabha_continuous. lra.
    + intros v W. apply Rlt_le, P, W.
    + f_equal. ring.
    + f_equal. ring.
Qed.
Lemma moller_partition : exists sigma : R -> R,
  (forall v, 0 < v <= 1 / 2 * (1 - ME / E) -> moller nan ME m E v = Ok (sigma v) /\ 0 < sigma v) /\
  (forall a b, 0 < a <= b -> b <= 1 / 2 * (1 - ME / E) -> integrable (fun v => v * sigma v) a b) /\
  forall c1 c2, accepted c1 -> accepted c2 -> exists x1 x2,
    continuous_loss nan qags (moller_scheme nan c1 ME m) (moller_parametrization nan c1 ME m) c1 E = Some (Ok x1) /\
    continuous_loss nan qags (moller_scheme nan c2 ME m) (moller_parametrization nan c2 ME m) c2 E = Some (Ok x2) /\
    0 <= x1 /\ 0 <= x2 /\
    (0 < x1 -> 0 < x2 -> x1 + stochastic_part E sigma (moller_limits ME) c1 = x2 + stochastic_part E sigma (moller_limits ME) c2) /\
    (get_cut c1 E <= get_cut c2 E -> x1 <= x2).
Proof.
  destruct (fraction_positive nan m sound) as (f & F & Fe). pose proof vmax_pos as V. pose proof g_above as G.
  assert (P : forall v, 0 < v <= 1 / 2 * (1 - ME / E) -> 0 < moller_bracket (E / ME) (share_of E v) / (1 - 1 / (E / ME * (E / ME))) * front E f).
  { intros v W. apply Rmult_lt_0_compat; [|now apply front_pos]. apply Rdiv_lt_0_compat; [|now apply beta_pos].
    apply moller_bracket_positive; [exact G|]. pose proof (share_range E E_big v (1 / 2) W). lra. }
  exists (fun v => moller_bracket (E / ME) (share_of E v) / (1 - 1 / (E / ME * (E / ME))) * front E f). split; [|split].
  - intros v W. split; [|now apply P]. exact (moller_value nan m E f E_big F Fe v W).
  - intros a b A B. eapply (lost_primitive E _ (fun v => moller_bracket (E / ME) (share_of E v) / (1 - 1 / (E / ME * (E / ME))) * front E f)); [lra|reflexivity| |].
    + intros v W. apply moller_primitive. lra.
    + intros v W. apply moller_continuous. lra.
  - intros c1 c2 A1 A2. destruct (effect_exists nan m E E_big) as [d Hd].
    pose proof (moller_dedx_value nan m E f (sm_I m sound) E_big Fe d Hd) as H.
    eexists _, _. split; [apply formula_loss; exact (H c1 A1)|]. split; [apply formula_loss; exact (H c2 A2)|].
    split; [apply Rmax_r|]. split; [apply Rmax_r|].
    apply (formula_partition (moller_limits ME) _ (1 / 2 * (1 - ME / E)) (excitation m E d * scale E f) (fun v => fminus (E / ME) (v * (E / ME)) * scale E f)); try assumption.
    + unfold moller_limits. now rewrite (proj2 (Rltb_false _ 0)) by lra.
    + lra.
    + intros v W. apply moller_primitive. lra.
    + intros v W. apply moller_continuous. lra.
    + intros v W. apply Rlt_le, P, W.
    + f_equal. ring.
    + f_equal. ring.
Qed.
End Electron.

(** ** The integrals *)
(** The rest of the range is the sampled one. *)
Lemma cut_within c lim E : v_min lim <= v_max lim -> v_min lim <= get_cut_within c lim E <= v_max lim.
Proof. intros L. unfold get_cut_within. split; [apply Rmin_glb; [apply Rmax_l|exact L]|apply Rmin_r]. Qed.
Lemma sampled_rest kin s c E : v_min (kin E) <= v_max (kin E) ->
  stochastic_part E s kin c = lost_between E s (get_cut_within c (kin E) E) (v_max (kin E)).
Proof.
  intros L. unfold stochastic_part, integration_limits. cbn [v_min v_max]. rewrite Rmax_left; [reflexivity|].
  apply cut_within, L.
Qed.
Lemma ex_split (f : R -> R) a b c : a <= b <= c -> integrable f a c -> integrable f a b /\ integrable f b c.
Proof.
  intros H I. split; [apply (ex_RInt_Chasles_1 (V := R_CompleteNormedModule) f a b c H I)|apply (ex_RInt_Chasles_2 (V := R_CompleteNormedModule) f a b c H I)].
Qed.
Section Numeric.
Variables (kin : R -> limits) (differential : R -> R -> outcome R) (c : energy_cut) (E : R) (s : R -> R).
Let p := standard kin differential.
Let a := v_min (kin E).
Let b := get_cut_within c (kin E) E.
Let d := v_max (kin E).
Hypothesis ordered : v_min (kin E) <= v_max (kin E).
Hypothesis value : forall v, a < v <= d -> differential E v = Ok (s v).
Hypothesis integ : integrable (fun v => v * s v) a d.
Lemma rest_of_total e : E * (integral_of (fun v => v * s v) a b + e) + stochastic_part E s kin c = lost_between E s a d + E * e.
Proof.
  pose proof (cut_within c (kin E) E ordered) as W. rewrite sampled_rest by exact ordered. fold a b d. fold a b d in W.
  destruct (ex_split _ a b d W integ) as [I1 I2]. rewrite <- (lost_chasles E s a b d I1 I2). unfold lost_between. ring.
Qed.
Lemma plain_partition e : deviates (fun v => v * s v) a b e (integral nan qags default_integral a b (p_dedx p E) 2) ->
  exists x, continuous_loss nan qags Plain p c E = Some (Ok x) /\ x + stochastic_part E s kin c = lost_between E s a d + E * e.
Proof.
  intros (y & H & Y). exists (y * E). unfold continuous_loss, dedx_integral. cbn [p_limits p standard]. fold a b.
  rewrite H. split; [reflexivity|]. rewrite Y, <- rest_of_total. ring.
Qed.
Lemma logarithmic_partition e : deviates (fun v => v * s v) a b e (integral nan qags fine_integral a b (p_dedx p E) 4) ->
  exists x, continuous_loss nan qags Logarithmic p c E = Some (Ok x) /\ x + stochastic_part E s kin c = lost_between E s a d + E * e.
Proof.
  intros (y & H & Y). exists (y * E). unfold continuous_loss, dedx_integral. cbn [p_limits p standard]. fold a b.
  rewrite H. split; [reflexivity|]. rewrite Y, <- rest_of_total. ring.
Qed.
(** The second moment *)
Lemma variance_partition e : integrable (fun v => v * v * s v) a d ->
  deviates (fun v => v * v * s v) a b e
    (integral nan qags default_integral a b (fun v => olet y := p_differential p E v in Ok (v * v * y)) 2) ->
  exists x, continuous_variance nan qags p c E = Some (Ok x) /\
    x + E * E * integral_of (fun v => v * v * s v) b d = E * E * integral_of (fun v => v * v * s v) a d + E * E * e.
Proof.
  intros I (y & H & Y). pose proof (cut_within c (kin E) E ordered) as W. fold a b d in W.
  destruct (ex_split _ a b d W I) as [I1 I2].
  exists (y * E * E). unfold continuous_variance. cbn [p_limits p standard]. fold a b.
  rewrite H. split; [reflexivity|]. rewrite Y, <- (RInt_Chasles (V := R_CompleteNormedModule) _ a b d I1 I2).
  unfold plus. cbn. ring.
Qed.
(** Compton scattering: the integral in t = ln (1 - v) *)
Lemma substituted_back a' b' : a' <= b' < 1 -> (forall v, a' <= v <= b' -> continuous s v) ->
  integral_of (fun t => exp t * ((1 - exp t) * s (1 - exp t))) (ln (1 - b')) (ln (1 - a')) = integral_of (fun v => v * s v) a' b'.
Proof.
  intros [L U] C.
  assert (ln (1 - b') <= ln (1 - a')) as O by (apply ln_le; lra).
  assert (B : forall t, ln (1 - b') <= t <= ln (1 - a') -> a' <= 1 - exp t <= b').
  { intros t [T1 T2].
    assert (1 - b' <= exp t) by (rewrite <- (exp_ln (1 - b')) by lra; destruct T1 as [T1| <-]; [now apply Rlt_le, exp_increasing|lra]).
    assert (exp t <= 1 - a') by (rewrite <- (exp_ln (1 - a')) by lra; destruct T2 as [T2| ->]; [now apply Rlt_le, exp_increasing|lra]).
    lra. }
  assert (K : forall v, a' <= v <= b' -> continuous (fun v => v * s v) v).
  { intros v V. apply (continuous_mult (fun v => v) s); [apply continuous_id|now apply C]. }
  assert (I : integrable (fun v => v * s v) b' a').
  { apply (ex_RInt_swap (V := R_CompleteNormedModule)), (ex_RInt_continuous (V := R_CompleteNormedModule)).
    intros v V. rewrite Rmin_left, Rmax_right in V by exact L. now apply K. }
  rewrite <- (opp_RInt_swap (V := R_CompleteNormedModule) _ b' a') by exact I.
  rewrite <- (RInt_opp (V := R_CompleteNormedModule) _ b' a') by exact I.
  pose proof (RInt_comp (V := R_CompleteNormedModule) (fun v => opp (v * s v)) (fun t => 1 - exp t) (fun t => - exp t) (ln (1 - b')) (ln (1 - a'))) as R.
  rewrite Rmin_left, Rmax_right in R by exact O. rewrite !exp_ln in R by lra.
  replace (1 - (1 - b')) with b' in R by ring. replace (1 - (1 - a')) with a' in R by ring.
  etransitivity; [|apply R].
  - apply (RInt_ext (V := R_CompleteNormedModule)). intros t _. unfold scal, opp. cbn. unfold mult. cbn. ring.
  - intros t T. apply (continuous_opp (V := R_CompleteNormedModule) (fun v => v * s v)), K, B, T.
  - intros t T. split; [auto_derive; [trivial|ring]|]. apply (ex_derive_continuous (fun t => - exp t)). auto_derive. trivial.
Qed.
Lemma reflected_partition e : 0 <= a -> d < 1 -> (forall v, a <= v <= d -> continuous s v) ->
  deviates (fun t => exp t * ((1 - exp t) * s (1 - exp t))) (ln (1 - b)) (ln (1 - a)) e
    (integral nan qags default_integral (ln (1 - b)) (ln (1 - a)) (fun t => olet y := p_dedx p E (1 - exp t) in Ok (exp t * y)) 2) ->
  exists x, continuous_loss nan qags Reflected p c E = Some (Ok x) /\ x + stochastic_part E s kin c = lost_between E s a d + E * e.
Proof.
  intros A D C (y & H & Y). pose proof (cut_within c (kin E) E ordered) as W. fold a b d in W.
  exists (y * E). unfold continuous_loss, dedx_integral, compton_integral. cbn [p_limits p standard]. fold a b.
  rewrite !(log_ok nan) by lra. cbn [fbind done]. rewrite H. split; [reflexivity|].
  rewrite Y, substituted_back, <- rest_of_total; [ring|lra|]. intros v V. apply C. lra.
Qed.

(** Pair production: the range is cut in three. *)
Lemma reflect_back x y : integrable (fun v => v * s v) (1 - y) (1 - x) ->
  integral_of (fun v => (1 - v) * s (1 - v)) x y = integral_of (fun v => v * s v) (1 - y) (1 - x).
Proof.
  intros I. apply (ex_RInt_swap (V := R_CompleteNormedModule)) in I.
  rewrite <- (opp_RInt_swap (V := R_CompleteNormedModule) _ (1 - x) (1 - y)) by exact I.
  rewrite <- (RInt_opp (V := R_CompleteNormedModule) _ (1 - x) (1 - y)) by exact I.
  pose proof (RInt_comp_lin (V := R_CompleteNormedModule) (fun v => opp (v * s v)) (-1) 1 x y) as R.
  replace (-1 * x + 1) with (1 - x) in R by ring. replace (-1 * y + 1) with (1 - y) in R by ring.
  etransitivity; [|apply R].
  - apply (RInt_ext (V := R_CompleteNormedModule)). intros t _. unfold scal, opp. cbn. unfold mult. cbn.
    replace (-1 * t + 1) with (1 - t) by ring. ring.
  - apply (ex_RInt_opp (V := R_CompleteNormedModule)), I.
Qed.
Lemma split_partition e1 e2 e3 g1 g2 g3 x1 x2 x3 :
  let r1 := 8 / 10 in
  let r2 := Rmin (Rmax (1 - b) COMPUTER_PRECISION) (1 - r1) in
  0 < a -> d <= 1 -> 8 / 10 < b * (1 - HALF_PRECISION) ->
  2 * (8 / 10 * s (8 / 10)) < b * (1 - HALF_PRECISION) * s (b * (1 - HALF_PRECISION)) ->
  a < 8 / 10 ->
  integrate nan qags default_integral a r1 (p_dedx p E) 4 0 = Some (Ok (x1, g1)) -> x1 = integral_of (fun v => v * s v) a r1 + e1 ->
  integrate nan qags g1 (1 - b) r2 (fun v => olet y := differential E (1 - v) in Ok ((1 - v) * y)) 2 0 = Some (Ok (x2, g2)) ->
  x2 = integral_of (fun v => (1 - v) * s (1 - v)) (1 - b) r2 + e2 ->
  integrate nan qags g2 r2 (1 - r1) (fun v => olet y := differential E (1 - v) in Ok ((1 - v) * y)) 4 0 = Some (Ok (x3, g3)) ->
  x3 = integral_of (fun v => (1 - v) * s (1 - v)) r2 (1 - r1) + e3 ->
  exists x, continuous_loss nan qags Split p c E = Some (Ok x) /\
    x + stochastic_part E s kin c = lost_between E s a d + E * (e1 + e2 + e3).
Proof.
  intros r1 r2 A D R Y A8 H1 X1 H2 X2 H3 X3. pose proof (cut_within c (kin E) E ordered) as W. fold a b d in W.
  assert (0 < HALF_PRECISION < 1) as HP.
  { unfold HALF_PRECISION. split; [apply Rinv_0_lt_compat, pow_lt; lra|]. rewrite <- Rinv_1. apply Rinv_lt_contravar; [|]; apply Rmult_lt_0_compat || idtac; try apply pow_lt; try lra. }
  assert (b * (1 - HALF_PRECISION) <= b) as Bh by nra.
  assert (r1 = 8 / 10) as R1 by reflexivity.
  assert (1 - b <= r2 <= 1 - r1) as R2.
  { unfold r2. split; [apply Rmin_glb; [apply Rmax_l|lra]|apply Rmin_r]. }
  exists ((x1 + x2 + x3) * E). split.
  - unfold continuous_loss, dedx_integral, split_integral. cbn [p_limits p_dedx p_differential p standard]. fold a b.
    rewrite (proj2 (Rltb_true (8 / 10) _)) by lra.
    rewrite !value by lra. cbn [obind fbind done]. rewrite (proj2 (Rltb_true _ _)) by exact Y. cbn [obind fbind done].
    rewrite (proj2 (Rltb_false b (8 / 10))) by lra. rewrite (proj2 (Rltb_false (8 / 10) a)) by lra.
    cbn [p_dedx p standard] in H1. rewrite R1 in H1. rewrite H1. cbn [fbind done].
    replace (if 1 - 8 / 10 <? Rmax (1 - b) COMPUTER_PRECISION then 1 - 8 / 10 else Rmax (1 - b) COMPUTER_PRECISION) with r2.
    2:{ unfold r2. rewrite R1. destruct (Rltb_spec (1 - 8 / 10) (Rmax (1 - b) COMPUTER_PRECISION)); [apply Rmin_right; lra|apply Rmin_left; lra]. }
    rewrite H2. cbn [fbind done]. rewrite <- R1, H3. reflexivity.
  - destruct (ex_split _ a b d W integ) as [I1 _].
    clear H1 H2 H3. clearbody r2. clearbody r1.
    destruct (ex_split _ a r1 b ltac:(lra) I1) as [J1 J2]. destruct (ex_split _ r1 (1 - r2) b ltac:(lra) J2) as [J3 J4].
    rewrite reflect_back in X2, X3.
    2:{ replace (1 - (1 - r1)) with r1 by ring. exact J3. }
    2:{ replace (1 - (1 - b)) with b by ring. exact J4. }
    replace (1 - (1 - b)) with b in X2 by ring. replace (1 - (1 - r1)) with r1 in X3 by ring.
    pose proof (rest_of_total (e1 + e2 + e3)) as T.
    rewrite <- (RInt_Chasles (V := R_CompleteNormedModule) _ a r1 b J1 J2) in T.
    rewrite <- (RInt_Chasles (V := R_CompleteNormedModule) _ r1 (1 - r2) b J3 J4) in T.
    rewrite X1, X2, X3.
    set (i1 := integral_of _ a r1) in *. set (i2 := integral_of _ (1 - r2) b) in *. set (i3 := integral_of _ r1 (1 - r2)) in *.
    clearbody i1 i2 i3. unfold plus in T. cbn in T. rewrite <- T. ring.
Qed.
Lemma whole_partition e : 
  (b * (1 - HALF_PRECISION) <= 8 / 10 \/
   (a < 8 / 10 /\ b * (1 - HALF_PRECISION) * s (b * (1 - HALF_PRECISION)) <= 2 * (8 / 10 * s (8 / 10)))) ->
  deviates (fun v => v * s v) a b e (integral nan qags default_integral a b (p_dedx p E) 4) ->
  exists x, continuous_loss nan qags Split p c E = Some (Ok x) /\ x + stochastic_part E s kin c = lost_between E s a d + E * e.
Proof.
  intros R (y & H & Y). pose proof (cut_within c (kin E) E ordered) as W. fold a b d in W.
  assert (0 < HALF_PRECISION < 1) as HP.
  { unfold HALF_PRECISION. split; [apply Rinv_0_lt_compat, pow_lt; lra|]. rewrite <- Rinv_1. apply Rinv_lt_contravar; [|]; apply Rmult_lt_0_compat || idtac; try apply pow_lt; try lra. }
  exists (y * E). unfold continuous_loss, dedx_integral, split_integral. cbn [p_limits p_dedx p_differential p standard]. fold a b.
  split.
  2:{ rewrite Y, <- rest_of_total. ring. }
  destruct (Rltb_spec (8 / 10) (b * (1 - HALF_PRECISION))) as [Q|Q].
  - destruct R as [R|(R1 & R3)]; [lra|]. assert (0 < b) by nra. assert (b * (1 - HALF_PRECISION) <= b) by nra. rewrite !value by lra. cbn [obind fbind done].
    rewrite (proj2 (Rltb_false _ _)) by exact R3. cbn [obind fbind done]. cbn [p_dedx p standard] in H. now rewrite H.
  - cbn [obind fbind done]. cbn [p_dedx p standard] in H. now rewrite H.
Qed.
End Numeric.

(** ** Bethe, Bloch and Rossi *)
Section Rossi.
Variables (mass charge : R) (m : material) (E f : R).
Hypotheses (sound : sound_material m) (mass_pos : 0 < mass) (E_big : mass < E) (charged : charge <> 0).
Hypotheses (f_pos : 0 < f) (f_eq : proton_fraction nan (mat_components m) = Ok f).
Let lim := ionization_limits mass (mat_I m) E.
Let beta := sqrt (Rmax ((E - mass) * (E + mass)) 0) / E.
Let gamma := E / mass.
Lemma beta_eq : velocity nan mass E = Ok beta.
Proof. unfold velocity. apply quo_ok. lra. Qed.
Lemma beta_positive : 0 < beta.
Proof. unfold beta. apply Rdiv_lt_0_compat; [|lra]. apply sqrt_lt_R0. eapply Rlt_le_trans; [|apply Rmax_l]. nra. Qed.
Lemma gamma_big : 1 < gamma.
Proof. unfold gamma. apply (Rmult_lt_reg_r mass); [lra|]. unfold Rdiv. rewrite Rmult_assoc, Rinv_l by lra. lra. Qed.
Lemma vmin_pos : 0 < v_min lim.
Proof.
  unfold lim, ionization_limits. cbn [v_min]. apply Rdiv_lt_0_compat; [|lra].
  apply Rdiv_lt_0_compat; [exact (sm_I m sound)|apply pow_lt; lra].
Qed.
Lemma vmin_vmax : v_min lim <= v_max lim.
Proof. unfold lim, ionization_limits. cbn [v_min v_max]. destruct (Rltb_spec (Rmin (2 * ME * (E / mass * (E / mass) - 1) / ((1 + 2 * (E / mass) * (ME / mass) + ME / mass * (ME / mass)) * E)) (1 - mass / E)) (mat_I m / 10 ^ 6 / E)); lra. Qed.
Lemma vmax_below : v_min lim < v_max lim -> v_max lim < 1.
Proof.
  unfold lim, ionization_limits. cbn [v_min v_max]. destruct (Rltb_spec (Rmin (2 * ME * (E / mass * (E / mass) - 1) / ((1 + 2 * (E / mass) * (ME / mass) + ME / mass * (ME / mass)) * E)) (1 - mass / E)) (mat_I m / 10 ^ 6 / E)); intros; [lra|].
  eapply Rle_lt_trans; [apply Rmin_r|]. assert (0 < mass / E) by (apply Rdiv_lt_0_compat; lra). lra.
Qed.
Let k := IONK * charge * charge * f / (2 * (beta * beta)).
Lemma k_pos : 0 < k.
Proof.
  unfold k. pose proof beta_positive. apply Rdiv_lt_0_compat; [|nra]. apply Rmult_lt_0_compat; [|exact f_pos].
  rewrite Rmult_assoc. apply Rmult_lt_0_compat; [unfold IONK; lra|]. exact (Rsqr_pos_lt charge charged).
Qed.
Definition core (v : R) : R :=
  (1 - beta * beta * (v / v_max lim) + v / (1 + 1 / gamma) * (1 / 2 * (v / (1 + 1 / gamma))))
  * (IONK * charge * charge * f / (2 * (beta * beta) * E * v * v)).
Definition correction (v : R) : R :=
  ALPHA / (2 * PI) *
  (ln (1 + 2 * v * E / ME) * (2 * ln ((1 - v / v_max lim) / (1 - v)) + ln (2 * gamma * (1 - v) * ME / (mass * v)))
   - ln ((1 - v / v_max lim) / (1 - v)) * ln ((1 - v / v_max lim) / (1 - v))).
Lemma inverse_gamma : 0 < 1 / gamma.
Proof. pose proof gamma_big. apply Rdiv_lt_0_compat; lra. Qed.
Lemma core_value v : 0 < v -> 0 < v_max lim -> rossi_core nan mass charge m E v = Ok (core v).
Proof.
  intros V M. pose proof beta_positive as B. pose proof gamma_big as G. pose proof inverse_gamma as I.
  unfold rossi_core. rewrite beta_eq. cbn [obind]. rewrite (quo_ok nan E mass) by lra. cbn [obind]. fold gamma.
  rewrite quo_ok by lra. cbn [obind]. rewrite quo_ok by lra. cbn [obind]. fold lim. rewrite quo_ok by lra. cbn [obind].
  rewrite f_eq. cbn [obind]. rewrite quo_ok; [reflexivity|].
  apply Rgt_not_eq. assert (0 < beta * beta) by nra. repeat (apply Rmult_lt_0_compat; try lra).
Qed.
Lemma share_below v : 0 < v < v_max lim -> 0 < v / v_max lim < 1.
Proof.
  intros V. split; [apply Rdiv_lt_0_compat; lra|]. apply (Rmult_lt_reg_r (v_max lim)); [lra|]. unfold Rdiv. rewrite Rmult_assoc, Rinv_l by lra. lra.
Qed.
Lemma correction_value v : 0 < v < v_max lim -> v < 1 -> inelastic nan mass m E v = Ok (correction v).
Proof.
  intros V O. pose proof ME_pos as P. pose proof gamma_big as G. pose proof (share_below v V) as S.
  unfold inelastic. rewrite (quo_ok nan E mass) by lra. cbn [obind]. fold gamma.
  rewrite log_ok. 2:{ assert (0 < 2 * v * E / ME); [|lra]. apply Rdiv_lt_0_compat; [|lra]. apply Rmult_lt_0_compat; lra. }
  cbn [obind]. fold lim. rewrite quo_ok by lra. cbn [obind]. rewrite quo_ok by lra. cbn [obind].
  rewrite log_ok by (apply Rdiv_lt_0_compat; lra). cbn [obind]. rewrite quo_ok by nra. cbn [obind].
  rewrite log_ok; [reflexivity|]. apply Rdiv_lt_0_compat; [|nra]. repeat (apply Rmult_lt_0_compat; try lra).
Qed.
Definition primitive (v : R) : R := (ln v + v / (2 * (1 + 1 / gamma)) * (v / (2 * (1 + 1 / gamma))) - beta * beta * (v / v_max lim)) * k.
Lemma primitive_derive v : 0 < v -> 0 < v_max lim -> is_derive primitive v (E * (v * core v)).
Proof.
  intros V M. pose proof beta_positive as B. pose proof gamma_big as G. pose proof inverse_gamma as I.
  unfold primitive, core, k. apply rossi_derive; lra.
Qed.
Lemma core_continuous v : 0 < v -> 0 < v_max lim -> continuous core v.
Proof.
  intros V M. pose proof beta_positive as B. pose proof gamma_big as G. pose proof inverse_gamma as I.
  apply (ex_derive_continuous core). unfold core. auto_derive. 
  assert (0 < beta * beta) by nra. repeat split; try lra. apply Rgt_not_eq. repeat (apply Rmult_lt_0_compat; try lra).
Qed.
Lemma correction_continuous v : 0 < v < v_max lim -> v < 1 -> continuous correction v.
Proof.
  intros V O. pose proof gamma_big as G. apply (ex_derive_continuous correction). apply correction_derive; lra.
Qed.
Lemma effect_known : exists d, density_effect nan m beta gamma = Ok d.
Proof. pose proof beta_positive. pose proof gamma_big. apply density_effect_total. nra. Qed.
Definition ground (d : R) : R := (ln (2 * ME * E) + 2 * ln (beta * gamma / (/ 10 ^ 6 * mat_I m)) - beta * beta - d) * k.
Lemma loss_value d c : density_effect nan m beta gamma = Ok d -> 0 < get_cut c E < v_max lim -> get_cut c E <> v_min lim ->
  ionization_loss nan c mass charge m E =
  Ok (if 0 <? ground d + primitive (get_cut c E) then ground d + primitive (get_cut c E) else 0).
Proof.
  intros D C Nm. pose proof beta_positive as B. pose proof gamma_big as G. pose proof inverse_gamma as I. pose proof ME_pos as P.
  pose proof k_pos as K. pose proof vmin_pos as Vm. pose proof (sm_I m sound) as Ip.
  assert (0 < / 10 ^ 6 * mat_I m) as J by (apply Rmult_lt_0_compat; [apply Rinv_0_lt_compat, pow_lt; lra|exact Ip]).
  unfold ionization_loss. fold lim. rewrite beta_eq. cbn [obind]. rewrite (quo_ok nan E mass) by lra. cbn [obind]. fold gamma.
  rewrite Rmin_right by lra. set (u := get_cut c E) in *.
  rewrite quo_ok by lra. cbn [obind]. rewrite log_ok by (repeat (apply Rmult_lt_0_compat; try lra)). cbn [obind].
  rewrite log_ok by (apply Rdiv_lt_0_compat; [nra|lra]). cbn [obind].
  rewrite quo_ok by lra. cbn [obind]. rewrite quo_ok by lra. cbn [obind]. rewrite quo_ok by lra. cbn [obind].
  rewrite D. cbn [obind]. rewrite f_eq. cbn [obind]. rewrite quo_ok by nra. cbn [obind]. fold k.
  rewrite (proj2 (Reqb_false u _)) by exact Nm. rewrite (ln_mult u (2 * ME * E)) by (try lra; repeat (apply Rmult_lt_0_compat; try lra)).
  set (r := ln u + ln (2 * ME * E) + 2 * ln (beta * gamma / (/ 10 ^ 6 * mat_I m)) + u / (2 * (1 + 1 / gamma)) * (u / (2 * (1 + 1 / gamma)))
            - (beta * beta * (1 + u / v_max lim) + d)).
  replace (ground d + primitive u) with (r * k) by (unfold r, primitive, ground; ring).
  f_equal. destruct (Rltb_spec 0 r); [rewrite (proj2 (Rltb_true 0 (r * k))) by nra|rewrite (proj2 (Rltb_false 0 (r * k))) by nra]; reflexivity.
Qed.

Lemma correction_integral u : v_min lim <= u < v_max lim ->
  integrable (fun v => v * core v * correction v) (v_min lim) u /\
  integrable (fun v => v * (core v * (1 + correction v))) (v_min lim) u /\
  lost_between E (fun v => core v * (1 + correction v)) (v_min lim) u =
  primitive u - primitive (v_min lim) + E * integral_of (fun v => v * core v * correction v) (v_min lim) u.
Proof.
  intros U. pose proof vmin_pos as P. assert (v_max lim < 1) as O by (apply vmax_below; lra).
  assert (integrable (fun v => v * core v * correction v) (v_min lim) u) as I.
  { apply (ex_RInt_continuous (V := R_CompleteNormedModule)). intros v V. rewrite Rmin_left, Rmax_right in V by lra.
    apply (continuous_mult (fun v => v * core v) correction); [|apply correction_continuous; lra].
    apply (continuous_mult (fun v => v) core); [apply continuous_id|apply core_continuous; lra]. }
  destruct (lost_primitive E core core primitive (v_min lim) u ltac:(lra) ltac:(reflexivity)) as [J L].
  { intros v V. apply primitive_derive; lra. }
  { intros v V. apply core_continuous; lra. }
  assert (integrable (fun v => v * (core v * (1 + correction v))) (v_min lim) u) as K.
  { apply (ex_RInt_ext (V := R_CompleteNormedModule) (fun v => plus (v * core v) (v * core v * correction v))).
    - intros v _. unfold plus. cbn. ring.
    - apply (ex_RInt_plus (V := R_CompleteNormedModule)); assumption. }
  split; [exact I|]. split; [exact K|].
  rewrite <- L. unfold lost_between.
  rewrite (RInt_ext (V := R_CompleteNormedModule) _ (fun v => plus (v * core v) (v * core v * correction v))).
  2:{ intros v _. unfold plus. cbn. ring. }
  rewrite (RInt_plus (V := R_CompleteNormedModule)) by assumption. unfold plus. cbn. ring.
Qed.
Lemma rossi_loss own c l y : get_cut c E = get_cut own E -> v_min lim < get_cut c E < v_max lim ->
  ionization_loss nan own mass charge m E = Ok l ->
  integral nan qags fine_integral (v_min lim) (get_cut c E) (rossi_dedx nan mass charge m E) 4 = Some (Ok y) ->
  continuous_loss nan qags (rossi_scheme nan own mass charge m) (rossi_parametrization nan mass charge m) c E = Some (Ok (E * y + l)).
Proof.
  intros O C L Y. unfold continuous_loss, dedx_integral, rossi_scheme. cbn [p_limits p_dedx rossi_parametrization]. fold lim.
  replace (get_cut_within c lim E) with (get_cut c E).
  2:{ unfold get_cut_within. rewrite Rmax_right by lra. rewrite Rmin_left by lra. reflexivity. }
  rewrite Y. cbn [fbind done]. rewrite L. cbn [fbind done]. rewrite (quo_ok nan l E) by lra. cbn [fbind done]. match goal with |- _ = ?r => change (Some (Ok ((y + l / E) * E)) = r) end. do 2 f_equal. field. lra.
Qed.
End Rossi.

Lemma rossi_moves mass charge m E : sound_material m -> 0 < mass < E -> charge <> 0 ->
  let lim := ionization_limits mass (mat_I m) E in
  exists sigma F : R -> R,
  (forall v, v_min lim <= v < v_max lim -> rossi nan mass charge m E v = Ok (sigma v) /\ rossi_dedx nan mass charge m E v = Ok (F v)) /\
  (forall v, v_min lim <= v < v_max lim -> integrable (fun v => v * sigma v) (v_min lim) v /\ integrable F (v_min lim) v) /\
  forall c1 c2 l1 l2 e1 e2,
    v_min lim < get_cut c1 E < v_max lim -> v_min lim < get_cut c2 E < v_max lim ->
    ionization_loss nan c1 mass charge m E = Ok l1 -> 0 < l1 -> ionization_loss nan c2 mass charge m E = Ok l2 -> 0 < l2 ->
    deviates F (v_min lim) (get_cut c1 E) e1 (integral nan qags fine_integral (v_min lim) (get_cut c1 E) (rossi_dedx nan mass charge m E) 4) ->
    deviates F (v_min lim) (get_cut c2 E) e2 (integral nan qags fine_integral (v_min lim) (get_cut c2 E) (rossi_dedx nan mass charge m E) 4) ->
    exists x1 x2,
      continuous_loss nan qags (rossi_scheme nan c1 mass charge m) (rossi_parametrization nan mass charge m) c1 E = Some (Ok x1) /\
      continuous_loss nan qags (rossi_scheme nan c2 mass charge m) (rossi_parametrization nan mass charge m) c2 E = Some (Ok x2) /\
      x2 - x1 = lost_between E sigma (get_cut c1 E) (get_cut c2 E) + E * (e2 - e1).
Proof.
  intros S [M0 M1] Q lim. destruct (fraction_positive nan m S) as (f & F & Fe).
  assert (0 < v_min lim) as P by (apply (vmin_pos mass m E); assumption).
  exists (fun v => core mass charge m E f v * (1 + correction mass m E v)), (fun v => v * core mass charge m E f v * correction mass m E v).
  split; [|split].
  - intros v V. assert (v_max lim < 1) as O by (apply (vmax_below mass m E); try assumption; fold lim; lra).
    unfold rossi, rossi_dedx. rewrite (core_value mass charge m E f M0 M1 Fe) by (fold lim; lra). cbn [obind].
    rewrite (correction_value mass m E M0 M1) by (fold lim; lra). cbn [obind]. split; reflexivity.
  - intros v V. destruct (correction_integral mass charge m E f S M0 M1 v V) as (A & B & _). split; assumption.
  - intros c1 c2 l1 l2 e1 e2 C1 C2 L1 P1 L2 P2 (y1 & I1 & Y1) (y2 & I2 & Y2).
    exists (E * y1 + l1), (E * y2 + l2).
    split; [exact (rossi_loss mass charge m E M0 M1 c1 c1 l1 y1 eq_refl C1 L1 I1)|].
    split; [exact (rossi_loss mass charge m E M0 M1 c2 c2 l2 y2 eq_refl C2 L2 I2)|].
    destruct (effect_known mass m E M0 M1) as [d Hd].
    rewrite (loss_value mass charge m E f S M0 M1 Q F Fe d c1 Hd) in L1 by (fold lim; lra).
    rewrite (loss_value mass charge m E f S M0 M1 Q F Fe d c2 Hd) in L2 by (fold lim; lra).
    set (A := ground mass charge m E f d) in *.
    assert (l1 = A + primitive mass charge m E f (get_cut c1 E)) as ->.
    { injection L1 as L1. destruct (Rltb_spec 0 (A + primitive mass charge m E f (get_cut c1 E))); lra. }
    assert (l2 = A + primitive mass charge m E f (get_cut c2 E)) as ->.
    { injection L2 as L2. destruct (Rltb_spec 0 (A + primitive mass charge m E f (get_cut c2 E))); lra. }
    destruct (correction_integral mass charge m E f S M0 M1 (get_cut c1 E) ltac:(fold lim; lra)) as (A1 & B1 & D1).
    destruct (correction_integral mass charge m E f S M0 M1 (get_cut c2 E) ltac:(fold lim; lra)) as (A2 & B2 & D2).
    fold lim in A1, B1, D1, A2, B2, D2.
    assert (integrable (fun v => v * (core mass charge m E f v * (1 + correction mass m E v))) (get_cut c1 E) (get_cut c2 E)) as J.
    { apply (ex_RInt_Chasles (V := R_CompleteNormedModule) _ _ (v_min lim)); [now apply (ex_RInt_swap (V := R_CompleteNormedModule))|assumption]. }
    pose proof (lost_chasles E (fun v => core mass charge m E f v * (1 + correction mass m E v)) _ _ _ B1 J) as T.
    rewrite Y1, Y2. set (i1 := integral_of _ _ (get_cut c1 E)) in *. set (i2 := integral_of _ _ (get_cut c2 E)) in *.
    rewrite D1, D2 in T. lra.
Qed.
End Scheme.
