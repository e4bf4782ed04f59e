(** The integral of the cross section of Koch and Motz over the kinematic limits, below
    50 MeV: it exists, and it changes its sign between 2.5 and 20 electron masses. *)
From Coquelicot Require Import Coquelicot.
From Verif Require Import Prelude PreludeFacts Particle_Model Cross_Model Photo_Model Limits_Model Differential_Model Differential_Spec Photopair_Model
  Transform_Proofs Ionization_Proofs Differential_Proofs Brems_Proofs Screening_Proofs Photopair_Proofs Decay_Spec Tabulated_Spec.

(** ** Integrals that depend on a parameter *)
Section Varying.
Variables (h : R -> R -> R) (lo : R -> R) (A B L M D : R).
(** Between the limits lo E and 1 - lo E *)
Hypothesis order : forall E, A <= E <= B -> lo E <= 1 / 2.
Hypothesis falls : forall E E', A <= E -> E <= E' -> E' <= B -> 0 <= lo E - lo E' <= D * (E' - E).
Hypothesis smooth : forall E v, A <= E <= B -> lo B <= v <= 1 - lo B -> continuous (h E) v.
Hypothesis bound : forall E v, A <= E <= B -> lo B <= v <= 1 - lo B -> Rabs (h E v) <= M.
Hypothesis lipschitz : forall E E' v, A <= E -> E <= E' -> E' <= B -> lo B <= v <= 1 - lo B -> Rabs (h E v - h E' v) <= L * (E' - E).
Definition area_of (E : R) : R := RInt (h E) (lo E) (1 - lo E).

Lemma part_integrable E a b : A <= E <= B -> lo B <= a -> a <= b -> b <= 1 - lo B -> ex_RInt (h E) a b.
Proof.
  intros HE Ha Hab Hb. apply (@ex_RInt_continuous R_CompleteNormedModule). intros v. rewrite Rmin_left, Rmax_right by exact Hab. intro V. apply smooth; [exact HE|lra].
Qed.
Lemma inside E : A <= E <= B -> lo B <= lo E.
Proof. intros H. pose proof (falls E B ltac:(lra) ltac:(lra) ltac:(lra)). lra. Qed.
Lemma area_lipschitz E E' : A <= E -> E <= E' -> E' <= B -> Rabs (area_of E - area_of E') <= (L * Rabs (1 - 2 * lo B) + 2 * M * D) * (E' - E).
Proof.
  intros H1 H2 H3. pose proof (order E ltac:(lra)) as O. pose proof (falls E E' H1 H2 H3) as F. pose proof (inside E ltac:(lra)) as I. pose proof (inside E' ltac:(lra)) as I'.
  set (a := lo E) in *. set (a' := lo E') in *. unfold area_of. fold a a'.
  assert (X1 : ex_RInt (h E') a' a) by (apply part_integrable; lra). assert (X2 : ex_RInt (h E') a (1 - a)) by (apply part_integrable; lra).
  assert (X3 : ex_RInt (h E') (1 - a) (1 - a')) by (apply part_integrable; lra). assert (X0 : ex_RInt (h E) a (1 - a)) by (apply part_integrable; lra).
  assert (C1 : RInt (h E') a' a + RInt (h E') a (1 - a) = RInt (h E') a' (1 - a)) by exact (RInt_Chasles (h E') a' a (1 - a) X1 X2). assert (X12 : ex_RInt (h E') a' (1 - a)) by (apply part_integrable; lra).
  assert (C2 : RInt (h E') a' (1 - a) + RInt (h E') (1 - a) (1 - a') = RInt (h E') a' (1 - a')) by exact (RInt_Chasles (h E') a' (1 - a) (1 - a') X12 X3).
  assert (B1 : Rabs (RInt (h E') a' a) <= (a - a') * M).
  { apply (norm_RInt_le_const (h E') a' a _ M ltac:(lra)); [|now apply (@RInt_correct R_CompleteNormedModule)]. intros v V. apply bound; lra. }
  assert (B3 : Rabs (RInt (h E') (1 - a) (1 - a')) <= (a - a') * M).
  { replace (a - a') with (1 - a' - (1 - a)) by ring. apply (norm_RInt_le_const (h E') (1 - a) (1 - a') _ M ltac:(lra)); [|now apply (@RInt_correct R_CompleteNormedModule)]. intros v V. apply bound; lra. }
  assert (B2 : Rabs (RInt (h E) a (1 - a) - RInt (h E') a (1 - a)) <= (1 - a - a) * (L * (E' - E))).
  { pose proof (is_RInt_minus (h E) (h E') a (1 - a) _ _ (RInt_correct _ _ _ X0) (RInt_correct _ _ _ X2)) as IM.
    apply (norm_RInt_le_const (fun v => minus (h E v) (h E' v)) a (1 - a) _ (L * (E' - E)) ltac:(lra)); [|exact IM]. intros v V. apply lipschitz; lra. }
  assert (LP : 0 <= L * (E' - E)) by (eapply Rle_trans; [apply Rabs_pos|apply (lipschitz E E' (1 / 2) H1 H2 H3); lra]).
  assert (MP : 0 <= M) by (eapply Rle_trans; [apply Rabs_pos|apply (bound E (1 / 2) ltac:(lra)); lra]).
  assert (W : 1 - a - a <= Rabs (1 - 2 * lo B)) by (rewrite Rabs_right by lra; lra).
  assert (B2' : Rabs (RInt (h E) a (1 - a) - RInt (h E') a (1 - a)) <= Rabs (1 - 2 * lo B) * (L * (E' - E))) by (eapply Rle_trans; [exact B2|apply Rmult_le_compat_r; lra]).
  assert (Q : (a - a') * M <= D * (E' - E) * M) by (apply Rmult_le_compat_r; lra).
  replace (RInt (h E) a (1 - a) - RInt (h E') a' (1 - a')) with
    ((RInt (h E) a (1 - a) - RInt (h E') a (1 - a)) + (- RInt (h E') a' a + - RInt (h E') (1 - a) (1 - a'))) by lra.
  eapply Rle_trans; [apply Rabs_triang|]. eapply Rle_trans; [apply Rplus_le_compat_l, Rabs_triang|]. rewrite !Rabs_Ropp. lra.
Qed.
(** Where its sign changes it is zero. *)
Lemma area_zero : A < B -> area_of A < 0 -> 0 < area_of B -> exists E, A <= E <= B /\ area_of E = 0.
Proof.
  intros AB NA PB. set (K := L * Rabs (1 - 2 * lo B) + 2 * M * D).
  set (cl := fun E => Rmax A (Rmin E B)).
  assert (CL : forall E, A <= cl E <= B) by (intro E; unfold cl, Rmax, Rmin; repeat destruct Rle_dec; lra).
  assert (CE : forall E, A <= E <= B -> cl E = E) by (intros E HE; unfold cl, Rmax, Rmin; repeat destruct Rle_dec; lra).
  assert (C1 : forall E E', Rabs (cl E - cl E') <= Rabs (E - E')) by (intros E E'; unfold cl, Rmax, Rmin, Rabs; repeat destruct Rle_dec; repeat destruct Rcase_abs; lra).
  assert (KL : forall E E', Rabs (area_of (cl E) - area_of (cl E')) <= Rabs K * Rabs (E - E')).
  { assert (H : forall E E', cl E <= cl E' -> Rabs (area_of (cl E) - area_of (cl E')) <= Rabs K * Rabs (E - E')).
    { intros E E' O. pose proof (CL E). pose proof (CL E'). eapply Rle_trans; [apply area_lipschitz; lra|]. fold K. pose proof (C1 E E') as C. rewrite Rabs_left1 in C by lra.
      eapply Rle_trans; [apply Rmult_le_compat_r; [lra|apply Rle_abs]|]. apply Rmult_le_compat_l; [apply Rabs_pos|lra]. }
    intros E E'. destruct (Rle_dec (cl E) (cl E')) as [O|O]; [now apply H|]. rewrite Rabs_minus_sym, (Rabs_minus_sym E). apply H. lra. }
  assert (CT : continuity (fun E => area_of (cl E))).
  { intros E0 eps HP. exists (eps / (Rabs K + 1)). pose proof (Rabs_pos K) as KP. split; [apply Rdiv_lt_0_compat; lra|]. intros E (_ & HE). cbn in *. unfold R_dist in *.
    eapply Rle_lt_trans; [apply KL|]. apply (Rmult_lt_compat_r (Rabs K + 1)) in HE; [|lra]. unfold Rdiv in HE. rewrite Rmult_assoc, Rinv_l, Rmult_1_r in HE by lra.
    pose proof (Rabs_pos (E - E0)). nra. }
  destruct (IVT (fun E => area_of (cl E)) A B CT AB) as (E & HE & Z); [rewrite CE by lra; exact NA|rewrite CE by lra; exact PB|].
  exists E. split; [exact HE|]. now rewrite CE in Z by exact HE.
Qed.
End Varying.

(** ** The cross section *)
Lemma product_range v : 0 < v < 1 -> 0 < v * (1 - v) <= 1 / 4.
Proof. intro V. split; [apply Rmult_lt_0_compat; lra|]. pose proof (Rle_0_sqr (v - 1 / 2)). unfold Rsqr in *. lra. Qed.
Lemma product_lower v : 1 / 20 <= v <= 19 / 20 -> 475 / 10000 <= v * (1 - v).
Proof. intro V. assert (0 <= (v - 1 / 20) * (19 / 20 - v)) by (apply Rmult_le_pos; lra). lra. Qed.

Section Cross.
Variables (nan : forall A, outcome A) (c : component).
Hypothesis el : element c.
Notation z := (inverse_cube_root (c_charge c)).
Definition screening_number (E v : R) : R := 136 * z * ME / (E * v * (1 - v)) + 952 / 1000.
Definition low_cross (E v : R) : R := (1 - 4 / 3 * v * (1 - v)) * (2112 / 100 - 4184 / 1000 * ln (screening_number E v) - 4 / 3 * ln (c_charge c)).

Lemma raw_form : exists k, 0 < k /\ forall E v, 0 < E < 50 -> 0 < v < 1 -> koch_motz_raw nan None c E v = Ok (k * low_cross E v).
Proof.
  pose proof ME_pos as P. pose proof (element_icr c el) as ZB. destruct el as [[Z1 Z2] [A1 A2]].
  destruct (logarithms_value nan (c_charge c) ltac:(lra)) as (a & b & EL & A & B). pose proof (coulomb_range (c_charge c) ltac:(lra)) as F.
  set (xi := b / (a - coulomb (c_charge c))). assert (XI : 0 < xi) by (apply Rdiv_lt_0_compat; lra).
  assert (0 < NA) as NP by (unfold NA; lra). pose proof ALPHA_pos as AL. assert (0 < RE) as RP by (unfold RE; lra).
  exists (c_charge c * (c_charge c + xi) * (RE * RE * ALPHA) * NA / c_atomic c). split.
  { apply Rdiv_lt_0_compat; [|lra]. apply Rmult_lt_0_compat; [|lra]. apply Rmult_lt_0_compat; [apply Rmult_lt_0_compat; lra|].
    assert (0 < RE * RE) by nra. apply Rmult_lt_0_compat; lra. }
  intros E v HE V. unfold koch_motz_raw. rewrite log_ok by lra. cbn [obind].
  pose proof (product_range v V) as PV.
  assert (0 < E * v * (1 - v)) as Q1 by (apply Rmult_lt_0_compat; [|lra]; apply Rmult_lt_0_compat; lra).
  rewrite quo_ok by lra. cbn [obind].
  replace (136 * z * 2 * (ME * ME / (2 * E * v * (1 - v))) / ME) with (136 * z * ME / (E * v * (1 - v))) by (field; repeat split; lra).
  set (x := 136 * z * ME / (E * v * (1 - v))).
  assert (X : 1 < x).
  { unfold x. apply (Rmult_lt_reg_r (E * v * (1 - v))); [exact Q1|]. replace (136 * z * ME / (E * v * (1 - v)) * (E * v * (1 - v))) with (136 * z * ME) by (field; repeat split; lra).
    assert (E * v * (1 - v) <= 50 / 4) by nra. assert (51 / 100 <= ME) by (unfold ME; lra). assert (215 / 1000 * (51 / 100) <= z * ME) by nra. lra. }
  unfold screening_functions. rewrite (proj2 (Rleb_false _ _)) by lra. rewrite log_ok by lra. cbn [obind]. rewrite EL. cbn [obind fst snd].
  rewrite quo_ok by lra. cbn [obind suppressed]. rewrite quo_ok by lra. rewrite (proj2 (Rltb_true _ _)) by lra. f_equal. fold xi. unfold low_cross, screening_number. fold x. field. lra.
Qed.
Lemma number_positive E v : 0 < E -> 0 < v < 1 -> 952 / 1000 < screening_number E v.
Proof.
  intros HE V. pose proof ME_pos. pose proof (element_icr c el). unfold screening_number. assert (0 < 136 * z * ME / (E * v * (1 - v))); [|lra].
  apply Rdiv_lt_0_compat; [apply Rmult_lt_0_compat; lra|]. repeat apply Rmult_lt_0_compat; lra.
Qed.
Lemma low_continuous E v : 0 < E -> 0 < v < 1 -> continuous (low_cross E) v.
Proof.
  intros HE V. pose proof (number_positive E v HE V) as N. apply (@ex_derive_continuous R_AbsRing R_NormedModule). unfold low_cross, screening_number in *.
  assert (Q : E * v * (1 - v) <> 0) by (repeat apply Rmult_integral_contrapositive_currified; lra).
  auto_derive. repeat split; first [exact Q|apply Rlt_trans with (952 / 1000); [lra|exact N]|idtac].
Qed.
Lemma limits_low E : 2 * ME < E -> photo_pair_limits E = mklimits (ME / E) (1 - ME / E) /\ 0 < ME / E < 1 / 2.
Proof.
  intro H. pose proof ME_pos. unfold photo_pair_limits. rewrite (proj2 (Rleb_false _ _)) by lra. split; [reflexivity|].
  split; [apply Rdiv_lt_0_compat; lra|]. apply (proj2 (Rlt_div_l ME (1 / 2) E ltac:(lra))). lra.
Qed.
Lemma low_integrable E : 2 * ME < E < 50 -> ex_RInt (low_cross E) (ME / E) (1 - ME / E).
Proof.
  intros H. pose proof ME_pos. destruct (limits_low E ltac:(lra)) as (_ & R). apply (@ex_RInt_continuous R_CompleteNormedModule). intros v. rewrite Rmin_left, Rmax_right by lra.
  intro V. apply low_continuous; lra.
Qed.
(** The integral in barn *)
Lemma raw_total E : 2 * ME < E < 50 -> exists k, 0 < k /\
  total_in_barn c (photo_pair_limits E) (koch_motz_raw nan None c E) (k * RInt (low_cross E) (ME / E) (1 - ME / E)).
Proof.
  intros H. pose proof ME_pos. destruct (limits_low E ltac:(lra)) as (-> & R). destruct raw_form as (k & K & W). cbn [v_min v_max].
  assert (NP : 0 < NA) by (unfold NA; lra). destruct el as [[Z1 Z2] [A1 A2]].
  exists (k * c_atomic c / NA * 10 ^ 24). split; [apply Rmult_lt_0_compat; [apply Rdiv_lt_0_compat; [apply Rmult_lt_0_compat; lra|exact NP]|apply pow_lt; lra]|].
  exists (fun v => k * low_cross E v). cbn [v_min v_max]. split; [intros v V; apply W; lra|].
  pose proof (is_RInt_scal (low_cross E) (ME / E) (1 - ME / E) k _ (RInt_correct _ _ _ (low_integrable E H))) as I.
  replace (NA / c_atomic c * (k * c_atomic c / NA * 10 ^ 24 * RInt (low_cross E) (ME / E) (1 - ME / E) / 10 ^ 24)) with (scal k (RInt (low_cross E) (ME / E) (1 - ME / E))); [exact I|].
  unfold scal. cbn -[pow]. unfold mult. cbn -[pow]. field. repeat split; lra.
Qed.
Lemma weight_positive v : 0 < v < 1 -> 2 / 3 <= 1 - 4 / 3 * v * (1 - v) <= 1.
Proof. intro V. pose proof (product_range v V). lra. Qed.
(** Close to the threshold it is negative, ... *)
Lemma near_negative E v : 2 * ME < E <= 5 / 2 * ME -> 0 < v < 1 -> low_cross E v < 0.
Proof.
  intros H V. pose proof ME_pos as P. pose proof (element_icr c el) as ZB. pose proof (ln_z c el) as LZ. pose proof ln_182 as L. pose proof (ln_icr c) as LI.
  pose proof (weight_positive v V) as W. unfold low_cross. enough (2112 / 100 - 4184 / 1000 * ln (screening_number E v) - 4 / 3 * ln (c_charge c) < 0) by nra.
  assert (182 * z <= screening_number E v).
  { unfold screening_number. assert (182 * z <= 136 * z * ME / (E * v * (1 - v))); [|lra]. pose proof (product_range v V) as PV.
    replace (E * v * (1 - v)) with (E * (v * (1 - v))) by ring. set (p := v * (1 - v)) in *. clearbody p. set (y := z) in *. clearbody y.
    apply (Rmult_le_reg_r (E * p)); [nra|]. replace (136 * y * ME / (E * p) * (E * p)) with (136 * y * ME) by (field; split; lra).
    assert (E * p <= 5 / 8 * ME) by nra. nra. }
  assert (ln 182 + ln z <= ln (screening_number E v)) as Q by (rewrite <- ln_mult by lra; apply ln_le; lra).
  set (l := ln (screening_number E v)) in *. set (lz := ln z) in *. clearbody l lz. lra.
Qed.
(** ... and from twenty electron masses on it is positive. *)
Lemma far_positive E v : 20 * ME <= E -> ME / E <= v <= 1 - ME / E -> 0 < low_cross E v.
Proof.
  intros HE V. pose proof ME_pos as P. pose proof (element_icr c el) as ZB. pose proof (ln_z c el) as LZ. pose proof ln_147 as L. pose proof (ln_icr c) as LI.
  assert (R0 : 0 < ME / E) by (apply Rdiv_lt_0_compat; lra). assert (R1 : ME / E <= 1 / 20) by (apply Rle_div_l; lra).
  assert (EP : 95 / 100 * ME <= E * (v * (1 - v))).
  { assert (Q : 0 <= (v - ME / E) * (1 - ME / E - v)) by (apply Rmult_le_pos; lra). assert (Q' : ME / E * (1 - ME / E) <= v * (1 - v)) by (set (r := ME / E) in *; clearbody r; lra).
    apply (Rmult_le_compat_l E) in Q'; [|lra]. replace (E * (ME / E * (1 - ME / E))) with (ME * (1 - ME / E)) in Q' by (field; lra). assert (0 <= ME * (1 / 20 - ME / E)) by (apply Rmult_le_pos; lra). lra. }
  pose proof (weight_positive v ltac:(lra)) as W. unfold low_cross. apply Rmult_lt_0_compat; [lra|].
  assert (S : screening_number E v <= 1477 / 10 * z).
  { unfold screening_number. assert (136 * z * ME / (E * v * (1 - v)) <= 1431580 / 10000 * z); [|lra].
    replace (E * v * (1 - v)) with (E * (v * (1 - v))) by ring. set (q := E * (v * (1 - v))) in *. clearbody q. set (y := z) in *. clearbody y.
    apply (Rmult_le_reg_r q); [lra|]. replace (136 * y * ME / q * q) with (136 * y * ME) by (field; lra).
    assert (95 / 100 * ME * y <= q * y) by (apply Rmult_le_compat_r; lra). assert (0 <= ME * y) by (apply Rmult_le_pos; lra). lra. }
  pose proof (number_positive E v ltac:(lra) ltac:(lra)) as N.
  assert (ln (screening_number E v) <= ln (1477 / 10) + ln z) as Q by (rewrite <- ln_mult by lra; apply ln_le; lra).
  set (l := ln (screening_number E v)) in *. set (lz := ln z) in *. clearbody l lz. lra.
Qed.
(** The bounds that make the integral continuous *)
Lemma ln_difference u u' : 1 / 2 <= u' -> u' <= u -> 0 <= ln u - ln u' <= 2 * (u - u').
Proof.
  intros H1 H2. split; [assert (ln u' <= ln u) by (apply ln_le; lra); lra|].
  assert (D : 0 <= (u - u') / u') by (apply Rmult_le_pos; [lra|apply Rlt_le, Rinv_0_lt_compat; lra]).
  replace u with (u' * (1 + (u - u') / u')) at 1 by (field; lra). rewrite ln_mult by lra.
  assert (E1 : ln (1 + (u - u') / u') <= (u - u') / u').
  { rewrite <- (ln_exp ((u - u') / u')) at 2. apply ln_le; [lra|]. apply exp_ineq1_le. }
  assert ((u - u') / u' <= 2 * (u - u')); [|lra]. apply (Rmult_le_reg_r u'); [lra|]. replace ((u - u') / u' * u') with (u - u') by (field; lra). nra.
Qed.
Notation a0 := (136 * z * ME).
Lemma low_lipschitz E E' v : 5 / 2 * ME <= E -> E <= E' -> E' <= 20 * ME -> 1 / 20 <= v <= 19 / 20 ->
  Rabs (low_cross E v - low_cross E' v) <= 8368 / 1000 * (a0 * 22 / (4 * ME * ME)) * (E' - E).
Proof.
  intros H1 H2 H3 V. pose proof ME_pos as P. pose proof (element_icr c el) as ZB. pose proof (weight_positive v ltac:(lra)) as W.
  pose proof (number_positive E' v ltac:(lra) ltac:(lra)) as N'.
  pose proof (product_lower v V) as PV.
  assert (A0 : 0 < a0) by (apply Rmult_lt_0_compat; lra).
  assert (D : 0 <= screening_number E v - screening_number E' v <= a0 * 22 / (4 * ME * ME) * (E' - E)).
  { unfold screening_number. set (p := v * (1 - v)) in *. replace (E * v * (1 - v)) with (E * p) by (unfold p; ring). replace (E' * v * (1 - v)) with (E' * p) by (unfold p; ring).
    set (a := a0) in *. clearbody p a. replace (a / (E * p) + 952 / 1000 - (a / (E' * p) + 952 / 1000)) with (a * (E' - E) * / (E * E' * p)) by (field; repeat split; lra).
    assert (EE : 4 * ME * ME <= E * E') by nra. assert (I : 4 * ME * ME / 22 <= E * E' * p) by nra.
    assert (0 < 4 * ME * ME / 22) by (apply Rdiv_lt_0_compat; nra).
    assert (J : / (E * E' * p) <= 22 / (4 * ME * ME)).
    { replace (22 / (4 * ME * ME)) with (/ (4 * ME * ME / 22)) by (field; lra). apply Rinv_le_contravar; lra. }
    assert (0 < / (E * E' * p)) by (apply Rinv_0_lt_compat; lra). assert (0 <= a * (E' - E)) by nra.
    split; [apply Rmult_le_pos; lra|]. eapply Rle_trans; [apply Rmult_le_compat_l; [lra|exact J]|]. right. field. lra. }
  pose proof (ln_difference (screening_number E v) (screening_number E' v) ltac:(lra) ltac:(lra)) as LD. unfold low_cross.
  set (w := 1 - 4 / 3 * v * (1 - v)) in *. set (l := ln (screening_number E v)) in *. set (l' := ln (screening_number E' v)) in *. set (q := a0 * 22 / (4 * ME * ME) * (E' - E)) in *.
  replace (w * (2112 / 100 - 4184 / 1000 * l - 4 / 3 * ln (c_charge c)) - w * (2112 / 100 - 4184 / 1000 * l' - 4 / 3 * ln (c_charge c))) with (- (w * (4184 / 1000 * (l - l')))) by ring.
  rewrite Rabs_Ropp. rewrite Rabs_right by (apply Rle_ge, Rmult_le_pos; lra).
  replace (8368 / 1000 * (a0 * 22 / (4 * ME * ME)) * (E' - E)) with (8368 / 1000 * q) by (unfold q; ring).
  assert (l - l' <= 2 * q) by lra. clearbody w l l' q. nra.
Qed.
Lemma low_bounded E v : 5 / 2 * ME <= E <= 20 * ME -> 1 / 20 <= v <= 19 / 20 -> Rabs (low_cross E v) <= 50 + 5 * (a0 * 11 / ME + 1).
Proof.
  intros HE V. pose proof ME_pos as P. pose proof (element_icr c el) as ZB. pose proof (weight_positive v ltac:(lra)) as W. pose proof (number_positive E v ltac:(lra) ltac:(lra)) as N.
  pose proof (product_lower v V) as PV. assert (A0 : 0 < a0) by (apply Rmult_lt_0_compat; lra).
  assert (U : screening_number E v <= a0 * 11 / ME + 1).
  { unfold screening_number. set (p := v * (1 - v)) in *. replace (E * v * (1 - v)) with (E * p) by (unfold p; ring). set (a := a0) in *. clearbody p a.
    assert (I : ME / 11 <= E * p) by nra. assert (/ (E * p) <= 11 / ME) as J.
    { replace (11 / ME) with (/ (ME / 11)) by (field; lra). apply Rinv_le_contravar; lra. }
    assert (a / (E * p) <= a * 11 / ME); [|lra]. unfold Rdiv at 1. replace (a * 11 / ME) with (a * (11 / ME)) by (field; lra). apply Rmult_le_compat_l; lra. }
  assert (LZ : 0 <= ln (c_charge c) <= 480 / 100).
  { destruct el as [[Z1 Z2] _]. split; [rewrite <- ln_1; apply ln_le; lra|]. eapply Rle_trans; [|exact ln_100]. apply ln_le; lra. }
  pose proof (ln_difference (screening_number E v) (952 / 1000) ltac:(lra) ltac:(lra)) as _.
  assert (LU : ln (screening_number E v) <= screening_number E v) by (pose proof (exp_ineq1_le (screening_number E v)) as X; rewrite <- (ln_exp (screening_number E v)) at 2; apply ln_le; lra).
  assert (LL : - 1 <= ln (screening_number E v)).
  { pose proof (ln_difference 1 (952 / 1000) ltac:(lra) ltac:(lra)) as D. rewrite ln_1 in D. assert (ln (952 / 1000) <= ln (screening_number E v)) by (apply ln_le; lra). lra. }
  unfold low_cross. set (w := 1 - 4 / 3 * v * (1 - v)) in *. set (l := ln (screening_number E v)) in *. set (lz := ln (c_charge c)) in *. set (u := a0 * 11 / ME + 1) in *.
  assert (B : Rabs (2112 / 100 - 4184 / 1000 * l - 4 / 3 * lz) <= 50 + 5 * u).
  { assert (l <= u) by lra. assert (0 < u) by (pose proof N; lra). apply Rabs_le. lra. }
  rewrite Rabs_mult, (Rabs_right w) by lra. pose proof (Rabs_pos (2112 / 100 - 4184 / 1000 * l - 4 / 3 * lz)). clearbody w l lz u. nra.
Qed.
Lemma crossing : exists E, 5 / 2 * ME <= E <= 20 * ME /\ RInt (low_cross E) (ME / E) (1 - ME / E) = 0.
Proof.
  pose proof ME_pos as P. assert (LB : ME / (20 * ME) = 1 / 20) by (field; lra). assert (LA : ME / (5 / 2 * ME) = 2 / 5) by (field; lra).
  apply (area_zero low_cross (fun E => ME / E) (5 / 2 * ME) (20 * ME) (8368 / 1000 * (a0 * 22 / (4 * ME * ME))) (50 + 5 * (a0 * 11 / ME + 1)) (1 / (4 * ME))).
  - intros E HE. apply Rle_div_l; lra.
  - intros E E' H1 H2 H3. replace (ME / E - ME / E') with (ME * (E' - E) * / (E * E')) by (field; split; lra).
    assert (EE : 4 * ME * ME <= E * E') by nra. assert (0 < 4 * ME * ME) by nra. assert (J : / (E * E') <= / (4 * ME * ME)) by (apply Rinv_le_contravar; lra).
    assert (0 < / (E * E')) by (apply Rinv_0_lt_compat; lra). assert (0 <= ME * (E' - E)) by nra. split; [apply Rmult_le_pos; lra|].
    eapply Rle_trans; [apply Rmult_le_compat_l; [lra|exact J]|]. right. field. lra.
  - intros E v HE V. rewrite LB in V. apply low_continuous; lra.
  - intros E v HE V. rewrite LB in V. apply low_bounded; lra.
  - intros E E' v H1 H2 H3 V. rewrite LB in V. apply low_lipschitz; lra.
  - lra.
  - unfold area_of. rewrite LA. assert (0 < RInt (fun v => - low_cross (5 / 2 * ME) v) (2 / 5) (1 - 2 / 5)) as H.
    { apply RInt_gt_0; [lra| |].
      - intros v V. pose proof (near_negative (5 / 2 * ME) v ltac:(lra) ltac:(lra)). lra.
      - intros v V. apply (continuous_opp (low_cross (5 / 2 * ME))). apply low_continuous; lra. }
    assert (I : ex_RInt (low_cross (5 / 2 * ME)) (2 / 5) (1 - 2 / 5)).
    { apply (@ex_RInt_continuous R_CompleteNormedModule). intros v. rewrite Rmin_left, Rmax_right by lra. intro V. apply low_continuous; lra. }
    assert (O : RInt (fun v => - low_cross (5 / 2 * ME) v) (2 / 5) (1 - 2 / 5) = - RInt (low_cross (5 / 2 * ME)) (2 / 5) (1 - 2 / 5)) by exact (RInt_opp _ _ _ I). lra.
  - unfold area_of. rewrite LB. apply RInt_gt_0; [lra| |].
    + intros v V. apply far_positive; [lra|rewrite LB; lra].
    + intros v V. apply low_continuous; lra.
Qed.

(** ** The total cross section and the correction *)
Lemma total_unique lim sigma n n' : total_in_barn c lim sigma n -> total_in_barn c lim sigma n' -> v_min lim <= v_max lim -> n = n'.
Proof.
  intros (s & S & I) (s' & S' & I') O. assert (I2 : is_RInt s (v_min lim) (v_max lim) (NA / c_atomic c * (n' / 10 ^ 24))).
  { apply (is_RInt_ext s'); [|exact I']. intros v. rewrite Rmin_left, Rmax_right by exact O. intro V. specialize (S v ltac:(lra)). rewrite (S' v ltac:(lra)) in S. now injection S. }
  pose proof (is_RInt_unique _ _ _ _ I) as U. pose proof (is_RInt_unique _ _ _ _ I2) as U'. rewrite U in U'.
  assert (NP : 0 < NA) by (unfold NA; lra). destruct el as [[Z1 Z2] [A1 A2]].
  replace n with (NA / c_atomic c * (n / 10 ^ 24) * (10 ^ 24 * c_atomic c / NA)) by (field; lra). rewrite U'. field. lra.
Qed.
Lemma total_exists E : 2 * ME < E < 50 -> exists n, total_in_barn c (photo_pair_limits E) (koch_motz_raw nan None c E) n.
Proof. intro H. destruct (raw_total E H) as (k & _ & T). eauto. Qed.
Lemma total_value E n : 2 * ME < E < 50 -> total_in_barn c (photo_pair_limits E) (koch_motz_raw nan None c E) n ->
  exists k, 0 < k /\ n = k * RInt (low_cross E) (ME / E) (1 - ME / E).
Proof.
  intros H T. destruct (raw_total E H) as (k & K & T'). exists k. split; [exact K|]. refine (total_unique _ _ _ _ T T' _).
  destruct (limits_low E ltac:(lra)) as (-> & R). cbn. lra.
Qed.
Lemma total_near E n : 2 * ME < E <= 5 / 2 * ME -> total_in_barn c (photo_pair_limits E) (koch_motz_raw nan None c E) n -> n < 0.
Proof.
  intros H T. pose proof ME_pos as P. assert (U : ME < 1) by (unfold ME; lra). destruct (total_value E n ltac:(lra) T) as (k & K & ->). destruct (limits_low E ltac:(lra)) as (_ & R).
  assert (0 < RInt (fun v => - low_cross E v) (ME / E) (1 - ME / E)) as Q.
  { apply RInt_gt_0; [lra| |].
    - intros v V. pose proof (near_negative E v H ltac:(lra)). lra.
    - intros v V. apply (continuous_opp (low_cross E)). apply low_continuous; lra. }
  assert (O : RInt (fun v => - low_cross E v) (ME / E) (1 - ME / E) = - RInt (low_cross E) (ME / E) (1 - ME / E)) by exact (RInt_opp _ _ _ (low_integrable E ltac:(lra))). nra.
Qed.
Lemma total_far E n : 20 * ME <= E < 50 -> total_in_barn c (photo_pair_limits E) (koch_motz_raw nan None c E) n -> 0 < n.
Proof.
  intros H T. pose proof ME_pos as P. destruct (total_value E n ltac:(lra) T) as (k & K & ->). destruct (limits_low E ltac:(lra)) as (_ & R).
  apply Rmult_lt_0_compat; [exact K|]. apply RInt_gt_0; [lra| |].
  - intros v V. apply far_positive; lra.
  - intros v V. apply low_continuous; lra.
Qed.
Lemma total_zero : exists E, 5 / 2 * ME < E < 20 * ME /\ total_in_barn c (photo_pair_limits E) (koch_motz_raw nan None c E) 0 /\
  forall data total d v y, not_a_value nan -> total E = Ok 0 -> data E = Ok d -> koch_motz nan data total None c E v <> Ok y.
Proof.
  pose proof ME_pos as P. assert (U : 51 / 100 < ME < 52 / 100) by (unfold ME; lra). destruct crossing as (E & H & I). exists E.
  destruct (raw_total E ltac:(lra)) as (k & K & T). rewrite I, Rmult_0_r in T.
  assert (5 / 2 * ME < E).
  { destruct (proj1 H) as [G|G]; [exact G|]. pose proof (total_near E 0 ltac:(lra) T). lra. }
  assert (E < 20 * ME).
  { destruct (proj2 H) as [G|G]; [exact G|]. pose proof (total_far E 0 ltac:(lra) T). lra. }
  split; [lra|]. split; [exact T|]. intros data total d v y NV T0 D0. unfold koch_motz. rewrite (proj2 (Rltb_false _ _)) by lra. rewrite T0. cbn [obind]. rewrite D0. cbn [obind].
  unfold quo. rewrite (proj2 (Reqb_true 0 0) eq_refl). intro Y.
  pose proof (NV R) as N. destruct (nan R) as [r| |]; cbn [obind] in Y; try discriminate. now apply (N r).
Qed.
End Cross.
