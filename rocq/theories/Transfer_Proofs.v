(** Proofs about nuclear interactions with a momentum transfer. *)
From Verif Require Import Prelude PreludeFacts Propagator_Model Particle_Model Limits_Model Cross_Model Photo_Model Differential_Spec
  Nuclear_Model Nuclear_Spec Nuclear_Proofs Ionization_Model Integral_Model Integral_Spec Integral_Examples Keys_Model Values_Proofs Log_Proofs Lpm_Proofs Transfer_Model Transfer_Spec.

(** ** Kinematics *)
Lemma weight_pos c : element c -> 0 < nucleon_weight c.
Proof. intro H. pose proof (nucleon_range c H). unfold MP in *. lra. Qed.
Lemma pion_pos : 0 < MPI.
Proof. unfold MPI. lra. Qed.
Lemma inelastic_iff m c E v Q2 : element c -> 0 < E -> (Q2 <= transfer_max m c E v <-> inelastic c E v Q2).
Proof.
  intros H HE. pose proof (weight_pos c H) as M. unfold transfer_max, inelastic, photonuclear_limits. cbn [v_min].
  rewrite <- (nucleon_mean c H). set (w := nucleon_weight c) in *.
  replace (2 * w * E * (v - (MPI + MPI * MPI / (2 * w)) / E)) with (2 * w * (v * E) - 2 * w * MPI - MPI * MPI) by (field; lra).
  split; nra.
Qed.
(** The lower limit *)
Lemma transfer_min_value nan m E v : 0 < E -> v < 1 -> transfer_min nan m E v =
  Ok (if m <? MPI then m * m * v * v / (1 - v) - (m * m / E) * (m * m / E) / (2 * (1 - v)) else m * m * v * v / (1 - v)).
Proof.
  intros HE Hv. unfold transfer_min, quo.
  destruct (Reqb_spec (1 - v) 0) as [Z|_]; [lra|]. cbn [obind].
  destruct (m <? MPI).
  - destruct (Reqb_spec E 0) as [Z|_]; [lra|]. cbn [obind].
    destruct (Reqb_spec (2 * (1 - v)) 0) as [Z|_]; [lra|]. cbn [obind]. f_equal. field. lra.
  - f_equal. field. lra.
Qed.
Definition low (m E v : R) : R :=
  if m <? MPI then m * m * v * v / (1 - v) - (m * m / E) * (m * m / E) / (2 * (1 - v)) else m * m * v * v / (1 - v).
Lemma low_below m E v : 0 < E -> v < 1 -> low m E v <= m * m * v * v / (1 - v).
Proof.
  intros HE Hv. unfold low. destruct (m <? MPI); [|lra].
  assert (0 <= (m * m / E) * (m * m / E) / (2 * (1 - v))); [|lra].
  apply Rmult_le_pos; [apply Rle_0_sqr|]. apply Rlt_le, Rinv_0_lt_compat. lra.
Qed.
Lemma pion_limit c E v m : element c -> 0 < E -> v_min (photonuclear_limits m (nucleon_weight c) E) <= v -> MPI / E < v.
Proof.
  intros H HE Hv. pose proof (weight_pos c H) as M. unfold photonuclear_limits in Hv. cbn [v_min] in Hv.
  assert (0 < MPI * MPI / (2 * nucleon_weight c)).
  { apply Rmult_lt_0_compat; [pose proof pion_pos; nra|]. apply Rinv_0_lt_compat. lra. }
  eapply Rlt_le_trans; [|exact Hv]. unfold Rdiv at 1 2. apply Rmult_lt_compat_r; [apply Rinv_0_lt_compat; lra|]. lra.
Qed.
Lemma low_pos m E v : 0 < m -> 0 < E -> MPI / E < v -> v < 1 -> 0 < low m E v.
Proof.
  intros Hm HE Hv V1. pose proof pion_pos as P.
  assert (0 < MPI / E) by (apply Rmult_lt_0_compat; [lra|apply Rinv_0_lt_compat; lra]).
  assert (I : 0 < / (1 - v)) by (apply Rinv_0_lt_compat; lra).
  assert (Q : 0 < m * m * v * v / (1 - v)).
  { apply Rmult_lt_0_compat; [|exact I]. repeat (apply Rmult_lt_0_compat; [|lra]); lra. }
  unfold low. destruct (Rltb_spec m MPI) as [L|L]; [|exact Q].
  replace (m * m * v * v / (1 - v) - m * m / E * (m * m / E) / (2 * (1 - v)))
    with (m * m * (v * v - (m / E) * (m / E) / 2) * / (1 - v)) by (field; lra).
  apply Rmult_lt_0_compat; [|exact I]. apply Rmult_lt_0_compat; [nra|].
  assert (0 < m / E < v).
  { split; [apply Rmult_lt_0_compat; [lra|apply Rinv_0_lt_compat; lra]|].
    eapply Rlt_trans; [|exact Hv]. unfold Rdiv. apply Rmult_lt_compat_r; [apply Rinv_0_lt_compat; lra|lra]. }
  nra.
Qed.

(** ** Possible transfers *)
(** The condition without angles *)
Lemma possible_bound m E v Q2 : 0 < m -> 0 < E -> 0 < v -> possible m E v Q2 ->
  0 < Q2 /\ m * m * ((v * E) * (v * E) + Q2) + Q2 * Q2 / 4 <= E * (E * (1 - v)) * Q2.
Proof.
  intros Hm HE Hv [L [u [U ->]]]. set (E' := E * (1 - v)) in *.
  assert (EE : E' < E) by (unfold E'; nra).
  assert (S1 : sqrt (E * E - m * m) * sqrt (E * E - m * m) = E * E - m * m) by (apply sqrt_sqrt; nra).
  assert (S2 : sqrt (E' * E' - m * m) * sqrt (E' * E' - m * m) = E' * E' - m * m) by (apply sqrt_sqrt; nra).
  pose proof (sqrt_pos (E * E - m * m)) as P1. pose proof (sqrt_pos (E' * E' - m * m)) as P2.
  unfold momentum_transfer. set (p := sqrt (E * E - m * m)) in *. set (p' := sqrt (E' * E' - m * m)) in *.
  assert (Hve : v * E = E - E') by (unfold E'; ring). rewrite Hve.
  assert (PP : (p * p') * (p * p') = (E * E - m * m) * (E' * E' - m * m)) by (rewrite <- S1, <- S2; ring).
  assert (N : 0 <= p * p') by (apply Rmult_le_pos; assumption).
  assert (X : 0 <= E * E' - m * m) by nra.
  assert (D : (E * E' - m * m) * (E * E' - m * m) - (p * p') * (p * p') = m * m * (E - E') * (E - E')) by (rewrite PP; ring).
  assert (0 < m * m * (E - E') * (E - E')) by (repeat (apply Rmult_lt_0_compat; [|lra]); lra).
  assert (LT : p * p' < E * E' - m * m) by nra.
  set (q := p * p') in *. clearbody q.
  assert (Uq : q * u <= q) by nra. assert (Uq' : - q <= q * u) by nra.
  split; [nra|].
  set (z := E * E' - m * m) in *.
  assert (Z : (q * u) * (q * u) <= q * q) by nra.
  set (w := 2 * (E * E' - q * u - m * m)).
  assert (W : w = 2 * (z - q * u)) by (unfold w, z; ring).
  assert (Y : (z - w / 2) * (z - w / 2) <= q * q) by (rewrite W; nra).
  assert (K : m * m * ((E - E') * (E - E') + w) + w * w / 4 - E * E' * w = (z - w / 2) * (z - w / 2) - q * q).
  { replace (q * q) with (z * z - m * m * (E - E') * (E - E')) by lra. unfold z. field. }
  lra.
Qed.
Lemma bound_low m E v Q2 : 0 < m -> 0 < E -> 0 < v < 1 -> 0 < Q2 ->
  m * m * ((v * E) * (v * E) + Q2) + Q2 * Q2 / 4 <= E * (E * (1 - v)) * Q2 -> m * m * v * v / (1 - v) < Q2.
Proof.
  intros Hm HE Hv HQ B. apply (Rmult_lt_reg_r (1 - v)); [lra|]. unfold Rdiv. rewrite Rmult_assoc, Rinv_l, Rmult_1_r by lra.
  apply (Rmult_lt_reg_r (E * E)); [nra|].
  assert (0 < m * m) by nra. assert (0 < m * m * Q2) by (apply Rmult_lt_0_compat; assumption). nra.
Qed.
Lemma inelastic_share c E v Q2 m : element c -> 0 < E -> 0 < Q2 -> inelastic c E v Q2 ->
  v_min (photonuclear_limits m (nucleon_weight c) E) < v.
Proof.
  intros H HE HQ I. apply (proj2 (inelastic_iff m c E v Q2 H HE)) in I. unfold transfer_max in I.
  pose proof (weight_pos c H) as M. set (a := v_min _) in *. 
  destruct (Rlt_le_dec a v) as [L|L]; [exact L|]. exfalso.
  assert (0 <= 2 * nucleon_weight c * E * (a - v)) by (apply Rmult_le_pos; nra). nra.
Qed.
Lemma possible_less m E v Q2 : 0 < m -> 0 < E -> possible m E v Q2 -> v < 1.
Proof. intros Hm HE [L _]. nra. Qed.
Lemma possible_nonneg m E v Q2 : 0 < m <= E -> possible m E v Q2 -> 0 <= Q2.
Proof.
  intros [Hm HE] [L [u [U ->]]]. set (E' := E * (1 - v)) in *. unfold momentum_transfer.
  assert (S1 : sqrt (E * E - m * m) * sqrt (E * E - m * m) = E * E - m * m) by (apply sqrt_sqrt; nra).
  assert (S2 : sqrt (E' * E' - m * m) * sqrt (E' * E' - m * m) = E' * E' - m * m) by (apply sqrt_sqrt; nra).
  pose proof (sqrt_pos (E * E - m * m)) as P1. pose proof (sqrt_pos (E' * E' - m * m)) as P2.
  set (p := sqrt (E * E - m * m)) in *. set (p' := sqrt (E' * E' - m * m)) in *.
  assert (PP : (p * p') * (p * p') = (E * E - m * m) * (E' * E' - m * m)) by (rewrite <- S1, <- S2; ring).
  assert (N : 0 <= p * p') by (apply Rmult_le_pos; assumption).
  assert (X : 0 <= E * E' - m * m) by nra.
  assert (D : (E * E' - m * m) * (E * E' - m * m) - (p * p') * (p * p') = m * m * (E - E') * (E - E')) by (rewrite PP; ring).
  assert (0 <= m * m * (E - E') * (E - E')).
  { replace (m * m * (E - E') * (E - E')) with ((m * (E - E')) * (m * (E - E'))) by ring. apply Rle_0_sqr. }
  assert (LT : p * p' <= E * E' - m * m) by nra.
  set (q := p * p') in *. clearbody q. nra.
Qed.
Lemma inelastic_positive c E v Q2 : element c -> 0 < E -> 0 <= Q2 -> inelastic c E v Q2 -> 0 < v.
Proof.
  intros H HE HQ I. pose proof (nucleon_range c H) as M. rewrite (nucleon_mean c H) in M.
  unfold inelastic in I. pose proof pion_pos as P. assert (0 < mean_nucleon c) by (unfold MP in M; lra).
  assert (0 < 2 * mean_nucleon c * (v * E)) by nra. destruct (Rlt_le_dec 0 v) as [L|L]; [exact L|]. exfalso.
  assert (v * E <= 0) by nra. nra.
Qed.
Lemma covers nan m c E v Q2 : element c -> 0 < m <= E -> possible m E v Q2 -> inelastic c E v Q2 ->
  exists lo, transfer_min nan m E v = Ok lo /\ 0 < lo < Q2 /\ Q2 <= transfer_max m c E v.
Proof.
  intros H [Hm HmE] P I. assert (HE : 0 < E) by lra.
  pose proof (possible_less m E v Q2 Hm HE P) as V1.
  pose proof (inelastic_positive c E v Q2 H HE (possible_nonneg m E v Q2 (conj Hm HmE) P) I) as V0.
  destruct (possible_bound m E v Q2 Hm HE V0 P) as [HQ B].
  pose proof (bound_low m E v Q2 Hm HE (conj V0 V1) HQ B) as L.
  exists (low m E v). split; [apply transfer_min_value; assumption|].
  pose proof (inelastic_share c E v Q2 m H HE HQ I) as S.
  split; [split|].
  - apply low_pos; try assumption. apply (pion_limit c E v m H HE). lra.
  - pose proof (low_below m E v HE V1). lra.
  - apply (inelastic_iff m c E v Q2 H HE). exact I.
Qed.
Lemma low_impossible nan m E v lo : 0 < m -> 0 < E -> 0 < v -> m <= E * (1 - v) -> transfer_min nan m E v = Ok lo -> ~ possible m E v lo.
Proof.
  intros Hm HE Hv L T P.
  pose proof (possible_less m E v lo Hm HE P) as V1.
  destruct (possible_bound m E v lo Hm HE Hv P) as [HQ B].
  pose proof (bound_low m E v lo Hm HE (conj Hv V1) HQ B) as K.
  rewrite (transfer_min_value nan m E v HE V1) in T. change (Ok (low m E v) = Ok lo) in T.
  assert (low m E v = lo) by congruence. pose proof (low_below m E v HE V1). lra.
Qed.

(** ** Arithmetic *)
Section Values.
Variable nan : forall A, outcome A.
Notation quo := (quo nan).
Notation log := (log nan).
Notation power := (Deflection_Model.power nan).
Lemma quo_value a b : b <> 0 -> quo a b = Ok (a / b).
Proof. intro H. unfold Cross_Model.quo. destruct (Reqb_spec b 0) as [Z|_]; [contradiction|reflexivity]. Qed.
Lemma log_value x : 0 < x -> log x = Ok (ln x).
Proof. intro H. unfold Cross_Model.log. destruct (Rleb_spec x 0) as [Z|_]; [lra|reflexivity]. Qed.
Lemma power_value x y : 0 < x -> power x y = Ok (Rpower x y).
Proof. intro H. unfold Deflection_Model.power. destruct (Rltb_spec 0 x) as [_|Z]; [reflexivity|lra]. Qed.
Lemma rpower_pos x y : 0 < Rpower x y.
Proof. apply exp_pos. Qed.
Lemma div_pos a b : 0 < a -> 0 < b -> 0 < a / b.
Proof. intros. apply Rmult_lt_0_compat; [assumption|apply Rinv_0_lt_compat; assumption]. Qed.

(** ** The fits by Abramowicz and others *)
Record plausible (p : allm) : Prop := {
  pl_scale : 0 < scale_parameter p < Q20_free_param p;
  pl_photon : 0 < mass_photon_eff p; pl_pomeron : 0 < mass_pomeron p; pl_reggeon : 0 < mass_reggeon p;
  pl_c : 0 < c2_pomeron p <= c1_pomeron p }.
Lemma falling_value t f1 f2 f3 : 0 < t -> exists y, falling nan t f1 f2 f3 = Ok y /\ (0 < f2 <= f1 -> 0 < y).
Proof.
  intro H. unfold falling. rewrite power_value by assumption. cbn [obind].
  pose proof (rpower_pos t f3) as P. rewrite quo_value by lra. cbn [obind]. eexists. split; [reflexivity|].
  intros F. pose proof (div_pos 1 (1 + Rpower t f3) ltac:(lra) ltac:(lra)). nra.
Qed.
Lemma rising_value t f1 f2 f3 : 0 < t -> rising nan t f1 f2 f3 = Ok (f1 + f2 * Rpower t f3).
Proof. intro H. unfold rising. rewrite power_value by assumption. reflexivity. Qed.
Lemma guarded_value t f1 f2 f3 : 0 < t -> guarded_rising nan t f1 f2 f3 = Ok (f1 + f2 * Rpower t f3).
Proof. intro H. unfold guarded_rising. destruct (Rltb_spec 0 t) as [_|Z]; [|lra]. apply rising_value. exact H. Qed.
Lemma allm_value g p M E v x Q2 : plausible p -> 0 < Q2 -> 0 < x < 1 -> Q2 < 2 * M * E * v ->
  exists q cp A B t, allm_proton nan g p M E v x Q2 = Ok (q * (cp * A + (c1_reggeon p + c2_reggeon p * Rpower t (c3_reggeon p)) * B)) /\
    0 < q /\ 0 < cp /\ 0 < A /\ 0 < B /\
    t = ln (ln ((Q2 + Q20_free_param p) / scale_parameter p) / ln (Q20_free_param p / scale_parameter p)) /\ 0 < t.
Proof.
  intros [[S0 S1] P1 P2 P3 PC] HQ Hx HW. unfold allm_proton.
  set (y0 := Q20_free_param p / scale_parameter p). set (y1 := (Q2 + Q20_free_param p) / scale_parameter p).
  assert (I : 0 < / scale_parameter p) by (apply Rinv_0_lt_compat; assumption).
  assert (Y0 : 1 < y0). { unfold y0. apply (Rmult_lt_reg_r (scale_parameter p)); [assumption|]. unfold Rdiv. rewrite Rmult_assoc, Rinv_l by lra. lra. }
  assert (Y1 : y0 < y1). { unfold y0, y1, Rdiv. apply Rmult_lt_compat_r; [assumption|lra]. }
  assert (L0 : 0 < ln y0). { rewrite <- ln_1. apply ln_increasing; lra. }
  assert (L1 : ln y0 < ln y1) by (apply ln_increasing; lra).
  assert (T1 : 1 < ln y1 / ln y0). { apply (Rmult_lt_reg_r (ln y0)); [assumption|]. unfold Rdiv. rewrite Rmult_assoc, Rinv_l by lra. lra. }
  assert (T : 0 < ln (ln y1 / ln y0)). { rewrite <- ln_1. apply ln_increasing; lra. }
  rewrite (log_value y1) by lra. rewrite (log_value y0) by lra. cbn [obind].
  rewrite quo_value by lra. cbn [obind]. rewrite log_value by lra. cbn [obind].
  set (t := ln (ln y1 / ln y0)) in *.
  destruct (Rltb_spec t 0) as [Z|_]; [lra|].
  rewrite (rising_value t (b1_reggeon p)), (rising_value t (b1_pomeron p)) by assumption.
  replace ((if g then guarded_rising nan else rising nan) t (a1_reggeon p) (a2_reggeon p) (a3_reggeon p))
    with (Ok (a1_reggeon p + a2_reggeon p * Rpower t (a3_reggeon p)))
    by (destruct g; [rewrite guarded_value|rewrite rising_value]; auto).
  replace ((if g then guarded_rising nan else rising nan) t (c1_reggeon p) (c2_reggeon p) (c3_reggeon p))
    with (Ok (c1_reggeon p + c2_reggeon p * Rpower t (c3_reggeon p)))
    by (destruct g; [rewrite guarded_value|rewrite rising_value]; auto).
  cbn [obind].
  destruct (falling_value t (a1_pomeron p) (a2_pomeron p) (a3_pomeron p) T) as [ap [-> _]].
  destruct (falling_value t (c1_pomeron p) (c2_pomeron p) (c3_pomeron p) T) as [cp [-> Cp]]. specialize (Cp PC). cbn [obind].
  assert (N1 : 0 < Q2 + mass_pomeron p + (M * M + 2 * M * E * v - Q2) - M * M) by lra.
  assert (N2 : 0 < Q2 + mass_reggeon p + (M * M + 2 * M * E * v - Q2) - M * M) by lra.
  rewrite (quo_value _ _ (Rgt_not_eq _ _ N1)), (quo_value _ _ (Rgt_not_eq _ _ N2)). cbn [obind].
  rewrite (power_value ((Q2 + mass_pomeron p) / _)) by (apply div_pos; lra). cbn [obind].
  rewrite (power_value (1 - x)) by lra. cbn [obind].
  rewrite (power_value ((Q2 + mass_reggeon p) / _)) by (apply div_pos; lra). cbn [obind].
  rewrite (power_value (1 - x)) by lra. cbn [obind].
  rewrite quo_value by lra. cbn [obind].
  match goal with |- exists _ _ _ _ _, Ok (?q0 * (?c * ?a1 * ?a2 + ?d * ?b1 * ?b2)) = _ /\ _ =>
    exists q0, c, (a1 * a2), (b1 * b2), t end.
  repeat split; try assumption.
  - f_equal. ring.
  - apply div_pos; lra.
  - apply Rmult_lt_0_compat; apply rpower_pos.
  - apply Rmult_lt_0_compat; apply rpower_pos.
Qed.
Lemma plausible_91 : plausible allm91.
Proof. split; cbn; lra. Qed.
Lemma plausible_97 : plausible allm97.
Proof. split; cbn; lra. Qed.
Lemma plausible_abt : plausible allm_abt.
Proof. split; cbn; lra. Qed.
Lemma proton_positive g p M E v x Q2 : plausible p -> 0 < c1_reggeon p -> 0 < c2_reggeon p -> 0 < Q2 -> 0 < x < 1 -> Q2 < 2 * M * E * v ->
  exists y, allm_proton nan g p M E v x Q2 = Ok y /\ 0 < y.
Proof.
  intros P C1 C2 HQ Hx HW. destruct (allm_value g p M E v x Q2 P HQ Hx HW) as [q [cp [A [B [t [-> [Q [C [HA [HB _]]]]]]]]]].
  eexists. split; [reflexivity|]. pose proof (rpower_pos t (c3_reggeon p)) as R1.
  assert (0 < c1_reggeon p + c2_reggeon p * Rpower t (c3_reggeon p)) by nra.
  apply Rmult_lt_0_compat; [assumption|]. apply Rplus_lt_0_compat; apply Rmult_lt_0_compat; assumption.
Qed.
(** The factor of the reggeon in AbtFT falls with Q2, but not below zero within the
    range of the numbers. *)
Lemma ln_mono a b : 0 < a -> a <= b -> ln a <= ln b.
Proof. intros A [L|L]; [left; apply ln_increasing; assumption|right; rewrite L; reflexivity]. Qed.
Lemma abt_factor Q2 : 0 < Q2 <= 2 ^ 1024 ->
  let t := ln (ln ((Q2 + Q20_free_param allm_abt) / scale_parameter allm_abt) / ln (Q20_free_param allm_abt / scale_parameter allm_abt)) in
  0 < t -> 0 < c1_reggeon allm_abt + c2_reggeon allm_abt * Rpower t (c3_reggeon allm_abt).
Proof.
  intros [Q0 Q1] t T. cbn [c1_reggeon c2_reggeon c3_reggeon allm_abt].
  assert (P : 1 <= 2 ^ 1024) by (apply pow_R1_Rle; lra).
  set (y1 := (Q2 + Q20_free_param allm_abt) / scale_parameter allm_abt) in *.
  set (y0 := Q20_free_param allm_abt / scale_parameter allm_abt) in *.
  assert (Y1 : 1 < y1 <= 2 ^ 1040).
  { replace (2 ^ 1040) with (2 ^ 1024 * 2 ^ 16) by (rewrite <- pow_add; reflexivity).
    unfold y1. cbn [Q20_free_param scale_parameter allm_abt]. set (b := 2 ^ 1024) in *. clearbody b. split; lra. }
  assert (L1 : ln y1 <= 721).
  { apply Rle_trans with (ln (2 ^ 1040)); [apply ln_mono; lra|].
    rewrite <- Rpower_pow by lra. rewrite ln_Rpower. 
    replace (INR 1040) with 1040 by (rewrite INR_IZR_INZ; reflexivity). pose proof ln_2. lra. }
  assert (L0 : 1 <= ln y0).
  { rewrite <- (ln_exp 1). apply ln_mono; [apply exp_pos|]. pose proof exp_le_3. unfold y0. cbn [Q20_free_param scale_parameter allm_abt]. lra. }
  assert (T7 : t <= 7).
  { unfold t. apply Rle_trans with (ln (2 ^ 10)).
    - assert (0 < ln y1 / ln y0).
      { apply div_pos; [|lra]. rewrite <- ln_1. apply ln_increasing; lra. }
      apply ln_mono; [assumption|]. apply Rle_trans with (721 / 1); [|lra]. 
      apply Rle_trans with (ln y1 / 1); [|lra]. unfold Rdiv. apply Rmult_le_compat_l; [rewrite <- ln_1; apply ln_mono; lra|].
      apply Rinv_le_contravar; lra.
    - rewrite <- Rpower_pow by lra. rewrite ln_Rpower. replace (INR 10) with 10 by (rewrite INR_IZR_INZ; reflexivity). pose proof ln_2. lra. }
  assert (K : / 4 <= Rpower t (- (660 / 1000))).
  { apply Rle_trans with (Rpower 8 (- (660 / 1000))); [|left; apply Rpower_anti; lra].
    unfold Rpower. replace (/ 4) with (exp (- (2 * ln 2))).
    - left. apply exp_increasing. replace 8 with (2 * 2 * 2) by ring. rewrite !ln_mult by lra. pose proof ln_2. lra.
    - rewrite exp_Ropp. f_equal. replace (2 * ln 2) with (ln 2 + ln 2) by ring. rewrite exp_plus, exp_ln by lra. ring. }
  lra.
Qed.
Lemma abt_positive M E v x Q2 : 0 < Q2 <= 2 ^ 1024 -> 0 < x < 1 -> Q2 < 2 * M * E * v ->
  exists y, allm_proton nan true allm_abt M E v x Q2 = Ok y /\ 0 < y.
Proof.
  intros HQ Hx HW. destruct (allm_value true allm_abt M E v x Q2 plausible_abt (proj1 HQ) Hx HW) as [q [cp [A [B [t [-> [Q [C [HA [HB [Ht T]]]]]]]]]]].
  eexists. split; [reflexivity|]. pose proof (abt_factor Q2 HQ) as K. cbv zeta in K. rewrite <- Ht in K. specialize (K T).
  apply Rmult_lt_0_compat; [assumption|]. apply Rplus_lt_0_compat; apply Rmult_lt_0_compat; assumption.
Qed.
Lemma block_value x Q2 : 0 < Q2 -> 0 < x < 1 -> exists D n, 0 < D /\ 0 < n /\
  let aux := ln (1 + Q2 / (282 * 10 ^ 4)) in
  let l := ln (Q2 / x / (Q2 + 282 * 10 ^ 4)) in
  block_proton nan x Q2 = Ok (D * n * (255 / 1000 + 1475 / 10 ^ 4 * aux
     + (8205 / 10 ^ 7 + - (5148 / 10 ^ 5) * aux + - (4725 / 10 ^ 6) * aux * aux) * l
     + (2217 / 10 ^ 6 + 1244 / 10 ^ 5 * aux + 5958 / 10 ^ 7 * aux * aux) * l * l)).
Proof.
  intros HQ Hx. unfold block_proton.
  assert (0 < Q2 / (282 * 10 ^ 4)) by (apply div_pos; lra).
  rewrite (log_value (1 + _)) by lra. cbn [obind].
  assert (0 < (Q2 + 753 * 10 ^ 3) ^ 2) by (apply pow_lt; lra).
  rewrite (quo_value _ ((Q2 + 753 * 10 ^ 3) ^ 2)) by lra. cbn [obind].
  rewrite (quo_value Q2 x) by lra. cbn [obind]. rewrite (quo_value _ (Q2 + 282 * 10 ^ 4)) by lra. cbn [obind].
  assert (0 < Q2 / x) by (apply div_pos; lra).
  rewrite log_value by (apply div_pos; lra). cbn [obind]. rewrite power_value by lra. cbn [obind].
  eexists _, _. split; [|split]; [| |reflexivity]; [apply div_pos; nra|apply rpower_pos].
Qed.
(** ** Shadowing *)
Lemma dutta_value c x nu : element c -> 0 < x -> exists y, shadow_dutta nan c x nu = Ok y /\ 0 < y.
Proof.
  intros [Z A] Hx. unfold shadow_dutta. destruct (c_charge c =? 1); [exists 1; split; [reflexivity|lra]|].
  destruct (x <? 14 / 10 ^ 4); [rewrite power_value by lra; eexists; split; [reflexivity|apply rpower_pos]|].
  destruct (x <? 4 / 100); [|exists 1; split; [reflexivity|lra]].
  rewrite log_value by lra. cbn [obind]. rewrite power_value by lra. eexists; split; [reflexivity|apply rpower_pos].
Qed.
Lemma wood_saxon_range c : c_charge c <> 1 -> 7 / 2 <= c_atomic c -> 0 < wood_saxon c < 1.
Proof.
  intros Z A. unfold wood_saxon. destruct (Reqb_spec (c_charge c) 1) as [X|_]; [contradiction|].
  set (s := Rpower (c_atomic c) (1 / 3)).
  assert (S3 : s * s * s = c_atomic c).
  { unfold s. rewrite <- !Rpower_plus. replace (1 / 3 + 1 / 3 + 1 / 3) with 1 by field. apply Rpower_1. lra. }
  assert (S0 : 0 < s) by apply exp_pos.
  assert (S1 : 3 / 2 <= s) by (destruct (Rle_lt_dec (3 / 2) s) as [L|L]; [exact L|exfalso; nra]).
  assert (Zs : s * / s = 1) by (apply Rinv_r; lra). set (z := / s) in *.
  assert (Z0 : 0 < z) by (apply Rinv_0_lt_compat; exact S0).
  assert (Z1 : z <= 2 / 3) by nra.
  replace (86 / 100 / s) with (86 / 100 * z) by reflexivity.
  set (r := 112 / 100 * s - 86 / 100 * z).
  assert (R0 : 0 < r) by (unfold r; lra).
  assert (RR : r * r = 12544 / 10000 * (s * s) - 19264 / 10000 + 7396 / 10000 * (z * z)).
  { unfold r. replace ((112 / 100 * s - 86 / 100 * z) * (112 / 100 * s - 86 / 100 * z))
      with (12544 / 10000 * (s * s) - 19264 / 10000 * (s * z) + 7396 / 10000 * (z * z)) by field. rewrite Zs. ring. }
  rewrite <- S3. pose proof PI_bounds as [P0 P1]. pose proof ln_2 as [N0 N1]. unfold ZETA3.
  assert (PP : 98 / 10 <= PI * PI <= 98785 / 10000) by (split; nra).
  set (k := r * r * ln 2 + 54 / 100 * r * PI * PI / 6 + 54 / 100 * (54 / 100) * (15 / 10) * (1202056903159594 / 10 ^ 15)).
  assert (K0 : 0 < k).
  { unfold k. assert (0 < r * r * ln 2) by (apply Rmult_lt_0_compat; [nra|lra]).
    assert (0 < 54 / 100 * r * PI * PI / 6) by (replace (54 / 100 * r * PI * PI / 6) with (9 / 100 * (r * (PI * PI))) by field; nra). lra. }
  assert (K1 : k <= 693148 / 10 ^ 6 * (r * r) + 8891 / 10 ^ 4 * r + 5258 / 10 ^ 4).
  { unfold k. replace (54 / 100 * r * PI * PI / 6) with (9 / 100 * (r * (PI * PI))) by field. nra. }
  assert (K2 : 11542 / 10 ^ 4 * (693148 / 10 ^ 6 * (r * r) + 8891 / 10 ^ 4 * r + 5258 / 10 ^ 4) < s * s * s).
  { rewrite RR. unfold r. assert (z * z <= 2 / 3 * z) by nra.
    assert (0 < s * s * s - 10036 / 10000 * (s * s) - 11494 / 10000 * s + 933 / 1000); [|nra].
    replace (s * s * s - 10036 / 10000 * (s * s) - 11494 / 10000 * s + 933 / 1000)
      with ((s - 3 / 2) * (s * s + 4964 / 10000 * s - 4048 / 10000) + 3258 / 10000) by field.
    assert (0 <= (s - 3 / 2) * (s * s + 4964 / 10000 * s - 4048 / 10000)) by (apply Rmult_le_pos; nra). lra. }
  assert (S4 : 0 < s * s * s) by lra.
  assert (F : 0 < 4 * PI * (17 / 100) * (54 / 100 * k) < s * s * s).
  { split; [repeat (apply Rmult_lt_0_compat; try lra)|].
    apply Rle_lt_trans with (11542 / 10 ^ 4 * k); [|nra].
    replace (4 * PI * (17 / 100) * (54 / 100 * k)) with (3672 / 10000 * PI * k) by field. apply Rmult_le_compat_r; lra. }
  set (num := 4 * PI * (17 / 100) * (54 / 100 * k)) in *. clearbody num.
  assert (0 < num / (s * s * s) < 1); [|lra]. split; [apply div_pos; lra|].
  apply (Rmult_lt_reg_r (s * s * s)); [exact S4|]. unfold Rdiv. rewrite Rmult_assoc, Rinv_l by lra. lra.
Qed.
Lemma oscillation k u : 148 / 1000 <= k <= 149 / 1000 -> 10 / 7 < u -> 
  u - 1000 / 722 - k * (u * u - 1000 / 722 * (1000 / 722)) < 6 / 10.
Proof.
  intros K U. assert (0 <= (1 - 2 * (148 / 1000) * u) * (1 - 2 * (148 / 1000) * u)) by apply Rle_0_sqr.
  assert (148 / 1000 * (u * u) <= k * (u * u)) by nra. nra.
Qed.
Lemma butkevich_value c x nu : element c -> real_nucleus c -> 0 < x < 1 -> 0 < nu -> exists y, shadow_butkevich nan c x nu = Ok y /\ 0 < y.
Proof.
  intros El Re Hx Hn. unfold shadow_butkevich. destruct (Reqb_spec (c_charge c) 1) as [Z|Z]; [exists 1; split; [reflexivity|lra]|].
  destruct Re as [X|[_ A]]; [contradiction|]. pose proof (wood_saxon_range c Z A) as W. set (w := wood_saxon c) in *. clearbody w.
  destruct (Rltb_spec (3 / 10) x) as [L|L].
  - rewrite quo_value by lra. cbn [obind]. pose proof (nucleon_range c El) as M. unfold MP, MN in M.
    rewrite quo_value by lra. cbn [obind]. eexists. split; [reflexivity|].
    assert (U : 10 / 7 < 1 / (1 - x)).
    { apply (Rmult_lt_reg_r (1 - x)); [lra|]. unfold Rdiv at 2. rewrite Rmult_assoc, Rinv_l by lra. lra. }
    assert (K : 148 / 1000 <= MPI / nucleon_weight c <= 149 / 1000).
    { unfold MPI. set (g := nucleon_weight c) in *. clearbody g. split; (apply (Rmult_le_reg_r g); [lra|]); replace (13957018 / 10 ^ 5 / g * g) with (13957018 / 10 ^ 5) by (field; lra); lra. }
    set (u := 1 / (1 - x)) in *. set (k := MPI / nucleon_weight c) in *. clearbody u k.
    pose proof (oscillation k u K U) as O. replace (1 / (1 - 278 / 1000)) with (1000 / 722) by field.
    set (o := u - 1000 / 722 - k * (u * u - 1000 / 722 * (1000 / 722))) in *. clearbody o.
    assert (0 < 1 - 1 / 2 * x < 1) by lra. set (h := 1 - 1 / 2 * x) in *. clearbody h.
    assert (h * o < 6 / 10) by nra. assert (w * (h * o) < 6 / 10) by nra. lra.
  - assert (0 < nu / 10 ^ 3) by (apply div_pos; lra). set (n := nu / 10 ^ 3) in *. clearbody n.
    rewrite !(power_value n) by assumption. cbn [obind]. rewrite (power_value (c_atomic c)) by lra. cbn [obind].
    pose proof (rpower_pos n (988 / 10 ^ 4)) as Q1. pose proof (rpower_pos n (- (5944 / 10 ^ 4))) as Q2.
    pose proof (rpower_pos (c_atomic c) (1 / 3)) as Q3.
    set (sg := 1122 / 10 * (609 / 1000 * Rpower n (988 / 10 ^ 4) + 1037 / 1000 * Rpower n (- (5944 / 10 ^ 4)))).
    assert (0 < sg) by (unfold sg; lra). clearbody sg.
    set (t := 282 / 10 ^ 5 * Rpower (c_atomic c) (1 / 3) * sg).
    assert (T : 0 < t) by (unfold t; apply Rmult_lt_0_compat; [lra|assumption]). clearbody t.
    rewrite quo_value by lra. cbn [obind]. rewrite quo_value by nra. cbn [obind].
    replace (3 / t * (1 / 2 + ((1 + t) * exp (- t) - 1) / (t * t))) with (3 / (t * t * t) * Nuclear_Proofs.shadow t) by (unfold Nuclear_Proofs.shadow; field; lra).
    pose proof (shadow_ratio t T) as S. set (g := 3 / (t * t * t) * Nuclear_Proofs.shadow t) in *. clearbody g.
    rewrite quo_value by lra. cbn [obind]. rewrite quo_value by lra. cbn [obind].
    rewrite power_value by (apply div_pos; lra). cbn [obind].
    match goal with |- context [?a <=? x] => destruct (a <=? x) end; [|eexists; split; [reflexivity|lra]].
    rewrite power_value by lra. cbn [obind]. eexists. split; [reflexivity|].
    apply Rmult_lt_0_compat; [apply Rmult_lt_0_compat; [apply rpower_pos|lra]|]. nra.
Qed.
Lemma shadow_value k c x nu : element c -> real_nucleus c -> 0 < x < 1 -> 0 < nu -> exists y, shadow nan k c x nu = Ok y /\ 0 < y.
Proof.
  intros El Re Hx Hn. destruct k; [apply dutta_value; [exact El|lra]|apply butkevich_value; assumption].
Qed.
Lemma shadow_hydrogen k c x nu : c_charge c = 1 -> shadow nan k c x nu = Ok 1.
Proof. intro H. destruct k; cbn [shadow]; unfold shadow_dutta, shadow_butkevich; rewrite (proj2 (Reqb_true _ _) H); reflexivity. Qed.
(** ** Nuclei *)
Lemma neutron_positive x : 0 < neutron_ratio x.
Proof.
  unfold neutron_ratio.
  assert (0 <= (x * x - 1175 / 1000 * x) * (x * x - 1175 / 1000 * x)) by apply Rle_0_sqr.
  assert (0 <= (x - 8 / 10) * (x - 8 / 10)) by apply Rle_0_sqr. nra.
Qed.
Lemma nucleus_value k c E v x F : element c -> real_nucleus c -> 0 < x < 1 -> 0 < v * E ->
  exists G, 0 < G /\ nucleus_of_proton nan k c E v x F = Ok (F * G).
Proof.
  intros El Re Hx Hn. unfold nucleus_of_proton. destruct (shadow_value k c x (v * E) El Re Hx Hn) as [G [-> HG]]. cbn [obind].
  destruct El as [[Z1 Z2] [A1 A2]]. pose proof (neutron_positive x) as N.
  exists (G * (c_charge c + (c_atomic c - c_charge c) * neutron_ratio x)). split; [|f_equal; ring].
  apply Rmult_lt_0_compat; [assumption|]. nra.
Qed.
Lemma butkevich_nucleus_value k c E v x Q2 : element c -> real_nucleus c -> 0 < x < 1 -> 0 < v * E -> 0 < Q2 ->
  exists y, butkevich_nucleus nan k c E v x Q2 = Ok y /\ 0 < y.
Proof.
  intros El Re Hx Hn HQ. unfold butkevich_nucleus.
  rewrite !quo_value by lra. cbn [obind]. rewrite !(power_value x), !(power_value (1 - x)) by lra.
  rewrite !(power_value (Q2 / _)) by (apply div_pos; lra). cbn [obind].
  destruct (shadow_value k c x (v * E) El Re Hx Hn) as [G [-> HG]]. cbn [obind]. eexists. split; [reflexivity|].
  destruct El as [[Z1 Z2] [A1 A2]]. apply Rmult_lt_0_compat; [assumption|].
  repeat match goal with |- context [Rpower ?a ?b] => let P := fresh in let z := fresh "z" in pose proof (rpower_pos a b) as P; set (z := Rpower a b) in *; clearbody z end.
  assert (Hpos : forall a b, 0 < a -> 0 < b -> 0 < a * b) by (intros; apply Rmult_lt_0_compat; assumption).
  assert (0 < 1 - x) by lra.
  match goal with |- 0 < c_charge c * ?p + (c_atomic c - c_charge c) * ?n => assert (0 < p); [|assert (0 < n)]; [| |nra] end.
  - apply Rplus_lt_0_compat; [|apply Rplus_lt_0_compat]; repeat apply Hpos; lra.
  - apply Rplus_lt_0_compat; [|apply Rplus_lt_0_compat]; unfold Rdiv; repeat apply Hpos; lra.
Qed.
(** ** The integrand *)
Lemma nucleus_sign t k c E v x Q2 : element c -> real_nucleus c -> 0 < E -> 0 < v -> 0 < x < 1 -> 0 < Q2 -> Q2 < 2 * nucleon_weight c * E * v ->
  exists F, nucleus nan t k c E v x Q2 = Ok F /\ (t <> BlockDurandHa -> (t = AbtFT -> Q2 <= 2 ^ 1024) -> 0 < F).
Proof.
  intros El Re HE Hv Hx HQ HW. assert (Hn : 0 < v * E) by nra.
  assert (P : forall F, exists G, 0 < G /\ nucleus_of_proton nan k c E v x F = Ok (F * G)) by (intro F; apply nucleus_value; assumption).
  destruct t; cbn [nucleus].
  - destruct (proton_positive false allm91 (nucleon_weight c) E v x Q2 plausible_91 ltac:(cbn; lra) ltac:(cbn; lra) HQ Hx HW) as [F [-> HF]].
    cbn [obind]. destruct (P F) as [G [HG ->]]. eexists. split; [reflexivity|]. intros. nra.
  - destruct (proton_positive false allm97 (nucleon_weight c) E v x Q2 plausible_97 ltac:(cbn; lra) ltac:(cbn; lra) HQ Hx HW) as [F [-> HF]].
    cbn [obind]. destruct (P F) as [G [HG ->]]. eexists. split; [reflexivity|]. intros. nra.
  - destruct (butkevich_nucleus_value k c E v x Q2 El Re Hx Hn HQ) as [F [-> HF]]. eexists. split; [reflexivity|]. auto.
  - destruct (proton_positive false allm97 (nucleon_weight c) E v x Q2 plausible_97 ltac:(cbn; lra) ltac:(cbn; lra) HQ Hx HW) as [F [-> HF]].
    cbn [obind]. destruct (P F) as [G [HG ->]]. eexists. split; [reflexivity|]. intros. nra.
  - destruct (Rle_lt_dec Q2 (2 ^ 1024)) as [L|L].
    + destruct (abt_positive (nucleon_weight c) E v x Q2 (conj HQ L) Hx HW) as [F [-> HF]].
      cbn [obind]. destruct (P F) as [G [HG ->]]. eexists. split; [reflexivity|]. intros. nra.
    + destruct (allm_value true allm_abt (nucleon_weight c) E v x Q2 plausible_abt HQ Hx HW) as [q [cp [A [B [t [-> _]]]]]].
      cbn [obind]. match goal with |- context [nucleus_of_proton nan k c E v x ?F] => destruct (P F) as [G [HG ->]] end.
      eexists. split; [reflexivity|]. intros _ H. specialize (H eq_refl). exfalso. apply (Rlt_irrefl Q2). apply Rle_lt_trans with (2 ^ 1024); assumption.
  - destruct (block_value x Q2 HQ Hx) as [D [n [HD [Hn' H]]]]. cbv zeta in H. rewrite H. cbn [obind].
    match goal with |- context [nucleus_of_proton nan k c E v x ?F] => destruct (P F) as [G [HG ->]] end.
    eexists. split; [reflexivity|]. intro N. contradiction.
Qed.
(** The brackets in terms of energies *)
Definition half_energy (Rt m E v Q2 : R) : R :=
  E * (E * (1 - v)) - Q2 / 4 + ((v * E) * (v * E) + Q2) / (2 * (1 + Rt)) - m * m * ((v * E) * (v * E) + Q2) / Q2 / (1 + Rt).
Definition zero_energy (m E v Q2 : R) : R :=
  E * (E * (1 - v)) - Q2 / 4 - m * m * ((v * E) * (v * E) + Q2) / Q2.
Definition bracket_energy (t : transfer_kind) (m E v Q2 : R) : R :=
  match t with RenoSarcevicSu => zero_energy m E v Q2 | ButkevichMikheyev => half_energy (25 / 100) m E v Q2 | _ => half_energy 0 m E v Q2 end.
Lemma bracket_value t m M E v x Q2 : 0 < E -> 0 < v -> 0 < M -> 0 < Q2 -> x = Q2 / (2 * M * v * E) ->
  bracket nan t m M E v x Q2 = Ok (bracket_energy t m E v Q2 / (E * E)).
Proof.
  intros HE Hv HM HQ ->.
  assert (H : forall Rt, 0 <= Rt -> half_bracket nan Rt m M E v (Q2 / (2 * M * v * E)) Q2 = Ok (half_energy Rt m E v Q2 / (E * E))).
  { intros Rt HR. unfold half_bracket. rewrite !quo_value by lra. cbn [obind]. f_equal. unfold half_energy. field. lra. }
  destruct t; cbn [bracket bracket_energy]; try (apply H; lra).
  unfold zero_bracket. rewrite !quo_value by lra. cbn [obind]. f_equal. unfold zero_energy. field. lra.
Qed.
Lemma integrand_value t k m c E v Q2 : element c -> real_nucleus c -> 0 < E -> 0 < v -> 0 < Q2 -> Q2 < 2 * nucleon_weight c * E * v ->
  exists g F, 0 < g /\ nucleus nan t k c E v (Q2 / (2 * nucleon_weight c * v * E)) Q2 = Ok F /\
    transfer_integrand nan t k m c E v Q2 = Ok (g * F * bracket_energy t m E v Q2) /\
    (t <> BlockDurandHa -> (t = AbtFT -> Q2 <= 2 ^ 1024) -> 0 < F).
Proof.
  intros El Re HE Hv HQ HW. pose proof (weight_pos c El) as M. unfold transfer_integrand, bjorken.
  set (w := nucleon_weight c) in *. assert (N : 0 < 2 * w * v * E) by (repeat (apply Rmult_lt_0_compat; [|lra]); lra).
  rewrite (quo_value _ (2 * w * v * E)) by lra. cbn [obind].
  set (x := Q2 / (2 * w * v * E)).
  assert (Hx : 0 < x < 1).
  { split; [apply div_pos; lra|]. unfold x. apply (Rmult_lt_reg_r (2 * w * v * E)); [lra|]. unfold Rdiv. rewrite Rmult_assoc, Rinv_l by lra. lra. }
  destruct (nucleus_sign t k c E v x Q2 El Re HE Hv Hx HQ HW) as [F [HF S]]. rewrite HF. cbn [obind].
  rewrite quo_value by lra. cbn [obind]. rewrite quo_value by lra. cbn [obind]. rewrite (bracket_value t m w E v x Q2 HE Hv M HQ eq_refl). cbn [obind].
  assert (ER : 0 < ME * RE) by (unfold ME, RE; lra).
  exists (ME * RE / Q2 * (ME * RE / Q2) * 4 * PI / v / (E * E)), F. split; [|split; [reflexivity|split; [|exact S]]].
  - pose proof PI_bounds. assert (0 < ME * RE / Q2) by (apply div_pos; lra).
    apply div_pos; [|nra]. apply div_pos; [|lra]. repeat (apply Rmult_lt_0_compat; try lra).
  - f_equal. field. lra.
Qed.
(** In the range of possible transfers the brackets are not negative. *)
Lemma energy_positive t m E v Q2 : 0 < m -> 0 < E -> 0 < v -> possible m E v Q2 ->
  0 <= bracket_energy t m E v Q2 /\ (t <> RenoSarcevicSu -> 0 < bracket_energy t m E v Q2).
Proof.
  intros Hm HE Hv P. destruct (possible_bound m E v Q2 Hm HE Hv P) as [HQ B].
  set (k := m * m * ((v * E) * (v * E) + Q2) / Q2).
  assert (K : k <= E * (E * (1 - v)) - Q2 / 4).
  { unfold k. apply (Rmult_le_reg_r Q2); [exact HQ|]. unfold Rdiv at 1. rewrite Rmult_assoc, Rinv_l by lra. lra. }
  assert (N : 0 < (v * E) * (v * E)) by (assert (0 < v * E) by nra; nra).
  assert (K0 : 0 < k) by (unfold k; apply div_pos; [|exact HQ]; apply Rmult_lt_0_compat; nra).
  assert (H : forall Rt, 0 <= Rt -> 0 < half_energy Rt m E v Q2).
  { intros Rt HR. unfold half_energy. fold k.
    assert (0 < ((v * E) * (v * E) + Q2) / (2 * (1 + Rt))) by (apply div_pos; lra).
    assert (k / (1 + Rt) <= k).
    { apply (Rmult_le_reg_r (1 + Rt)); [lra|]. unfold Rdiv. rewrite Rmult_assoc, Rinv_l by lra. nra. }
    lra. }
  destruct t; cbn [bracket_energy]; try (split; [left|intros _]; apply H; lra).
  unfold zero_energy. fold k. split; [lra|intro X; contradiction].
Qed.
Lemma range_below m c E v Q2 : element c -> 0 < E -> 0 <= Q2 <= transfer_max m c E v -> Q2 < 2 * nucleon_weight c * E * v.
Proof.
  intros El HE [HQ L]. pose proof (weight_pos c El) as M. pose proof pion_pos as P. unfold transfer_max, photonuclear_limits in L. cbn [v_min] in L.
  set (w := nucleon_weight c) in *. clearbody w.
  replace (2 * w * E * (v - (MPI + MPI * MPI / (2 * w)) / E)) with (2 * w * E * v - (2 * w * MPI + MPI * MPI)) in L by (field; lra). nra.
Qed.
Lemma physical_integrand t k m c E v Q2 : element c -> real_nucleus c -> 0 < m <= E -> possible m E v Q2 -> inelastic c E v Q2 ->
  t <> BlockDurandHa -> Q2 <= 2 ^ 1024 ->
  exists y, transfer_integrand nan t k m c E v Q2 = Ok y /\ 0 <= y /\ (t <> RenoSarcevicSu -> 0 < y).
Proof.
  intros El Re [Hm HmE] P I NB HB. assert (HE : 0 < E) by lra.
  pose proof (inelastic_positive c E v Q2 El HE (possible_nonneg m E v Q2 (conj Hm HmE) P) I) as V0.
  destruct (possible_bound m E v Q2 Hm HE V0 P) as [HQ _].
  pose proof (proj2 (inelastic_iff m c E v Q2 El HE) I) as U.
  pose proof (range_below m c E v Q2 El HE (conj (Rlt_le _ _ HQ) U)) as W.
  destruct (integrand_value t k m c E v Q2 El Re HE V0 HQ W) as [g [F [G [_ [-> S]]]]]. specialize (S NB (fun _ => HB)).
  destruct (energy_positive t m E v Q2 Hm HE V0 P) as [B0 B1]. clear HB.
  assert (0 < g * F) by nra. eexists. split; [reflexivity|]. split; [nra|]. intro X. specialize (B1 X). nra.
Qed.
(** Everywhere between the limits *)
Lemma defined_integrand t k m c E v Q2 lo : element c -> real_nucleus c -> 0 < m -> 0 < E ->
  v_min (photonuclear_limits m (nucleon_weight c) E) <= v < 1 -> transfer_min nan m E v = Ok lo -> lo <= Q2 <= transfer_max m c E v ->
  0 < lo /\ exists y, transfer_integrand nan t k m c E v Q2 = Ok y.
Proof.
  intros El Re Hm HE [V0 V1] T [L U]. pose proof (pion_limit c E v m El HE V0) as V.
  assert (0 < MPI / E) by (apply div_pos; [apply pion_pos|lra]).
  rewrite (transfer_min_value nan m E v HE V1) in T. change (Ok (low m E v) = Ok lo) in T.
  assert (TL : low m E v = lo) by congruence. pose proof (low_pos m E v Hm HE V V1) as L0.
  split; [lra|]. assert (HQ : 0 < Q2) by lra.
  pose proof (range_below m c E v Q2 El HE (conj (Rlt_le _ _ HQ) U)) as W.
  destruct (integrand_value t k m c E v Q2 El Re HE ltac:(lra) HQ W) as [g [F [G [_ [-> _]]]]]. eauto.
Qed.
(** ** Transfers that are not possible *)
Lemma spin_zero_negative k m c E v lo : element c -> real_nucleus c -> 0 < m -> 0 < E ->
  v_min (photonuclear_limits m (nucleon_weight c) E) <= v < 1 -> transfer_min nan m E v = Ok lo -> lo <= transfer_max m c E v ->
  exists y, transfer_integrand nan RenoSarcevicSu k m c E v lo = Ok y /\ y < 0.
Proof.
  intros El Re Hm HE [V0 V1] T U. pose proof (pion_limit c E v m El HE V0) as V.
  assert (0 < MPI / E) by (apply div_pos; [apply pion_pos|lra]).
  rewrite (transfer_min_value nan m E v HE V1) in T. change (Ok (low m E v) = Ok lo) in T.
  assert (TL : low m E v = lo) by congruence. pose proof (low_pos m E v Hm HE V V1) as L0. rewrite TL in L0.
  pose proof (low_below m E v HE V1) as LB. rewrite TL in LB.
  pose proof (range_below m c E v lo El HE (conj (Rlt_le _ _ L0) U)) as W.
  destruct (integrand_value RenoSarcevicSu k m c E v lo El Re HE ltac:(lra) L0 W) as [g [F [G [_ [-> S]]]]].
  specialize (S ltac:(discriminate) ltac:(discriminate)). eexists. split; [reflexivity|].
  cbn [bracket_energy]. assert (B : zero_energy m E v lo < 0); [|assert (0 < g * F) by nra; nra].
  unfold zero_energy. replace (m * m * (v * E * (v * E) + lo) / lo) with (m * m * v * v / lo * (E * E) + m * m) by (field; lra).
  assert (1 - v <= m * m * v * v / lo).
  { apply (Rmult_le_reg_r lo); [exact L0|]. unfold Rdiv. rewrite Rmult_assoc, Rinv_l, Rmult_1_r by lra.
    apply (Rmult_le_compat_r (1 - v)) in LB; [|lra]. unfold Rdiv in LB. rewrite Rmult_assoc, Rinv_l in LB by lra. lra. }
  assert ((1 - v) * (E * E) <= m * m * v * v / lo * (E * E)) by (apply Rmult_le_compat_r; [nra|assumption]).
  assert (0 < m * m) by nra. nra.
Qed.
Lemma abramowicz_energy t m E v Q2 : of_abramowicz t -> bracket_energy t m E v Q2 = half_energy 0 m E v Q2 /\ t <> BlockDurandHa.
Proof. intros [->|[->| ->]]; split; try reflexivity; discriminate. Qed.
Lemma small_power : 10 ^ 20 <= 2 ^ 1024.
Proof.
  replace (2 ^ 1024) with (2 ^ 80 * 2 ^ 944) by (rewrite <- pow_add; reflexivity).
  assert (1 <= 2 ^ 944) by (apply pow_R1_Rle; lra). assert (10 ^ 20 <= 2 ^ 80) by lra.
  assert (0 < 2 ^ 80) by lra. apply Rle_trans with (2 ^ 80 * 1); [lra|]. apply Rmult_le_compat_l; lra.
Qed.
Lemma tau_negative t k c : of_abramowicz t -> element c -> real_nucleus c -> exists E v lo y,
  v_min (photonuclear_limits MTAU (nucleon_weight c) E) <= v < 1 /\ MTAU <= E * (1 - v) /\ transfer_min nan MTAU E v = Ok lo /\ lo < transfer_max MTAU c E v /\
  transfer_integrand nan t k MTAU c E v lo = Ok y /\ y < 0.
Proof.
  intros Pl El Re. set (E := 10 ^ 6). set (v := 1 / 1000).
  assert (HE : 0 < E) by (unfold E; lra). assert (V1 : v < 1) by (unfold v; lra). assert (V0 : 0 < v) by (unfold v; lra).
  assert (NP : (MTAU <? MPI) = false) by (apply Rltb_false; unfold MTAU, MPI; lra).
  pose proof (nucleon_range c El) as M. unfold MP, MN in M.
  pose proof (transfer_min_value nan MTAU E v HE V1) as T. rewrite NP in T.
  set (lo := MTAU * MTAU * v * v / (1 - v)) in *.
  assert (L : 3 < lo < 4) by (unfold lo, MTAU, v; lra).
  assert (U : 10 ^ 6 < transfer_max MTAU c E v).
  { unfold transfer_max, photonuclear_limits. cbn [v_min]. set (w := nucleon_weight c) in *. clearbody w.
    replace (2 * w * E * (v - (MPI + MPI * MPI / (2 * w)) / E)) with (2 * w * E * v - (2 * w * MPI + MPI * MPI)) by (field; lra).
    unfold E, v, MPI. nra. }
  assert (VM : v_min (photonuclear_limits MTAU (nucleon_weight c) E) <= v).
  { unfold transfer_max in U. set (a := v_min _) in *. destruct (Rle_lt_dec a v) as [X|X]; [exact X|exfalso].
    assert (0 < 2 * nucleon_weight c * E * (a - v)) by (repeat (apply Rmult_lt_0_compat; [|lra]); lra). lra. }
  pose proof (range_below MTAU c E v lo El HE ltac:(lra)) as W.
  destruct (integrand_value t k MTAU c E v lo El Re HE V0 ltac:(lra) W) as [g [F [G [_ [I S]]]]].
  destruct (abramowicz_energy t MTAU E v lo Pl) as [EB NB]. rewrite EB in I.
  assert (HF : 0 < F). { apply S; [exact NB|]. intros _. apply Rle_trans with (10 ^ 20); [lra|apply small_power]. }
  exists E, v, lo, (g * F * half_energy 0 MTAU E v lo).
  split; [split; assumption|]. split; [unfold MTAU, E, v; lra|]. split; [exact T|]. split; [lra|]. split; [exact I|].
  assert (B : half_energy 0 MTAU E v lo < 0); [|assert (0 < g * F) by nra; nra].
  unfold half_energy. replace (MTAU * MTAU * (v * E * (v * E) + lo) / lo / (1 + 0)) with (MTAU * MTAU * v * v / lo * (E * E) + MTAU * MTAU) by (field; lra).
  replace (MTAU * MTAU * v * v / lo) with (1 - v) by (unfold lo, v, MTAU; field).
  unfold E, v, MTAU. lra.
Qed.
Lemma stopped_positive t k c : of_abramowicz t -> element c -> real_nucleus c -> exists E v lo,
  v_min (photonuclear_limits MTAU (nucleon_weight c) E) <= v < 1 /\ E * (1 - v) < MTAU /\ transfer_min nan MTAU E v = Ok lo /\ lo < transfer_max MTAU c E v /\
  forall Q2, lo <= Q2 <= transfer_max MTAU c E v -> exists y, transfer_integrand nan t k MTAU c E v Q2 = Ok y /\ 0 < y.
Proof.
  intros Pl El Re. set (E := 10 ^ 9). set (v := 1 - 97 / 100 * MTAU / 10 ^ 9).
  assert (HE : 0 < E) by (unfold E; lra). assert (V1 : 999998 / 10 ^ 6 < v < 1) by (unfold v, MTAU; lra).
  assert (NP : (MTAU <? MPI) = false) by (apply Rltb_false; unfold MTAU, MPI; lra).
  pose proof (nucleon_range c El) as M. unfold MP, MN in M.
  pose proof (transfer_min_value nan MTAU E v HE (proj2 V1)) as T. rewrite NP in T.
  set (lo := MTAU * MTAU * v * v / (1 - v)) in *.
  assert (LV : lo = MTAU * v * v * 10 ^ 11 / 97) by (unfold lo, v, MTAU; field).
  assert (L : 10 ^ 12 < lo < 184 / 100 * 10 ^ 12).
  { rewrite LV. unfold MTAU. assert (9 / 10 < v * v < 1) by nra. lra. }
  assert (U : 187 / 100 * 10 ^ 12 < transfer_max MTAU c E v < 10 ^ 20).
  { unfold transfer_max, photonuclear_limits. cbn [v_min]. set (w := nucleon_weight c) in *. clearbody w.
    replace (2 * w * E * (v - (MPI + MPI * MPI / (2 * w)) / E)) with (2 * w * E * v - (2 * w * MPI + MPI * MPI)) by (field; lra).
    unfold E, MPI. nra. }
  assert (VM : v_min (photonuclear_limits MTAU (nucleon_weight c) E) <= v).
  { unfold transfer_max in U. set (a := v_min _) in *. destruct (Rle_lt_dec a v) as [X|X]; [exact X|exfalso].
    assert (0 < 2 * nucleon_weight c * E * (a - v)) by (repeat (apply Rmult_lt_0_compat; [|lra]); lra). lra. }
  exists E, v, lo. split; [split; [exact VM|lra]|]. split; [unfold E, v, MTAU; lra|]. split; [exact T|]. split; [lra|].
  intros Q2 [QL QU]. assert (HQ : 0 < Q2) by lra.
  pose proof (range_below MTAU c E v Q2 El HE (conj (Rlt_le _ _ HQ) QU)) as W.
  destruct (integrand_value t k MTAU c E v Q2 El Re HE ltac:(lra) HQ W) as [g [F [G [_ [I S]]]]].
  destruct (abramowicz_energy t MTAU E v Q2 Pl) as [EB NB]. rewrite EB in I.
  assert (HF : 0 < F). { apply S; [exact NB|]. intros _. apply Rle_trans with (10 ^ 20); [lra|apply small_power]. }
  exists (g * F * half_energy 0 MTAU E v Q2). split; [exact I|].
  assert (B : 0 < half_energy 0 MTAU E v Q2); [|assert (0 < g * F) by nra; nra].
  unfold half_energy. replace (MTAU * MTAU * (v * E * (v * E) + Q2) / Q2 / (1 + 0)) with (MTAU * MTAU * v * v / Q2 * (E * E) + MTAU * MTAU) by (field; lra).
  assert (K : MTAU * MTAU * v * v / Q2 <= 1 - v).
  { apply (Rmult_le_reg_r Q2); [exact HQ|]. unfold Rdiv. rewrite Rmult_assoc, Rinv_l, Rmult_1_r by lra.
    apply Rle_trans with ((1 - v) * lo); [right; unfold lo; field; lra|]. apply Rmult_le_compat_l; lra. }
  assert (MTAU * MTAU * v * v / Q2 * (E * E) <= (1 - v) * (E * E)) by (apply Rmult_le_compat_r; [nra|exact K]).
  assert (10 ^ 17 < v * E * (v * E)) by (unfold E; nra). unfold MTAU in *. lra.
Qed.
(** The bound is also sufficient. *)
Lemma bound_possible m E v Q2 : 0 < m -> 0 < E -> 0 < v -> m < E * (1 - v) ->
  m * m * ((v * E) * (v * E) + Q2) + Q2 * Q2 / 4 <= E * (E * (1 - v)) * Q2 -> possible m E v Q2.
Proof.
  intros Hm HE Hv L B. split; [lra|]. set (E' := E * (1 - v)) in *.
  assert (EE : E' < E) by (unfold E'; nra). assert (Hve : v * E = E - E') by (unfold E'; ring). rewrite Hve in B.
  assert (S1 : sqrt (E * E - m * m) * sqrt (E * E - m * m) = E * E - m * m) by (apply sqrt_sqrt; nra).
  assert (S2 : sqrt (E' * E' - m * m) * sqrt (E' * E' - m * m) = E' * E' - m * m) by (apply sqrt_sqrt; nra).
  assert (P1 : 0 < sqrt (E * E - m * m)) by (apply sqrt_lt_R0; nra).
  assert (P2 : 0 < sqrt (E' * E' - m * m)) by (apply sqrt_lt_R0; nra).
  unfold momentum_transfer. set (p := sqrt (E * E - m * m)) in *. set (p' := sqrt (E' * E' - m * m)) in *.
  assert (PP : (p * p') * (p * p') = (E * E - m * m) * (E' * E' - m * m)) by (rewrite <- S1, <- S2; ring).
  assert (N : 0 < p * p') by (apply Rmult_lt_0_compat; assumption).
  set (q := p * p') in *. set (z := E * E' - m * m).
  assert (K : (z - Q2 / 2) * (z - Q2 / 2) <= q * q) by (rewrite PP; unfold z; nra).
  exists ((z - Q2 / 2) / q). clearbody q. split.
  - assert (- q <= z - Q2 / 2 <= q) by (split; nra).
    split; apply (Rmult_le_reg_r q); try exact N; unfold Rdiv; rewrite Rmult_assoc, Rinv_l, Rmult_1_r by lra; lra.
  - unfold z. field. lra.
Qed.
Lemma exp_1_below : exp 1 <= 272 / 100.
Proof.
  rewrite <- (exp_ln (272 / 100)) by lra. apply exp_mono. replace (272 / 100) with (2 * (136 / 100)) by field. rewrite ln_mult by lra.
  pose proof ln_2 as A. pose proof (ln_bounds (136 / 100) ltac:(lra)) as B. unfold area in B. cbv zeta in B.
  replace ((136 / 100 - 1) / (136 / 100 + 1)) with (9 / 59) in B by field. lra.
Qed.
Lemma exp_times n : exp 1 ^ n = exp (INR n).
Proof. induction n as [|n IH]; [symmetry; apply exp_0|]. rewrite S_INR. cbn [pow]. rewrite IH, exp_plus. ring. Qed.
Lemma exp_20 : 10 ^ 4 <= exp 20 /\ exp 20 <= 492 * 10 ^ 6.
Proof.
  replace (exp 20) with (exp 1 ^ 20) by (rewrite exp_times; f_equal; rewrite INR_IZR_INZ; reflexivity).
  pose proof exp_1_below as B. pose proof (exp_ineq1_le 1) as A. split.
  - apply Rle_trans with (2 ^ 20); [lra|]. apply pow_incr. lra.
  - apply Rle_trans with ((272 / 100) ^ 20); [|lra]. apply pow_incr. lra.
Qed.
Lemma exp_3 : 8 <= exp 3 /\ exp 3 <= 202 / 10.
Proof.
  replace (exp 3) with (exp 1 ^ 3) by (rewrite exp_times; f_equal; rewrite INR_IZR_INZ; reflexivity).
  pose proof exp_1_below as B. pose proof (exp_ineq1_le 1) as A. split.
  - apply Rle_trans with (2 ^ 3); [lra|]. apply pow_incr. lra.
  - apply Rle_trans with ((272 / 100) ^ 3); [|lra]. apply pow_incr. lra.
Qed.
Lemma block_negative k c : element c -> real_nucleus c -> exists E v Q2 y, MMU < E <= 10 ^ 14 /\ possible MMU E v Q2 /\ inelastic c E v Q2 /\
  transfer_integrand nan BlockDurandHa k MMU c E v Q2 = Ok y /\ y < 0.
Proof.
  intros El Re. pose proof (nucleon_range c El) as M. unfold MP, MN in M.
  destruct exp_20 as [A0 A1]. destruct exp_3 as [B0 B1].
  set (w := nucleon_weight c) in *. set (mu := 282 * 10 ^ 4). set (a := exp 20) in *. set (b := exp 3) in *.
  set (E := mu * (a * b) / w). set (Q2 := mu * (a - 1)).
  assert (Ew : E * w = mu * (a * b)) by (unfold E; field; lra).
  assert (AB : 8 * a <= a * b <= 202 / 10 * a) by (split; nra).
  assert (E0 : 10 ^ 7 < E).
  { apply (Rmult_lt_reg_r w); [lra|]. rewrite Ew. unfold mu. nra. }
  assert (E1 : E <= 10 ^ 14).
  { apply (Rmult_le_reg_r w); [lra|]. rewrite Ew. unfold mu. nra. }
  assert (Q0 : 10 ^ 10 < Q2) by (unfold Q2, mu; lra).
  assert (QW : Q2 < E * w) by (rewrite Ew; unfold Q2, mu; nra).
  assert (P : possible MMU E (1 / 2) Q2).
  { apply bound_possible; try (unfold MMU; lra).
    assert (Q2 / 4 <= 235 * E) by nra. assert (MMU * MMU <= 12 * 10 ^ 3) by (unfold MMU; lra). assert (0 < MMU * MMU) by (unfold MMU; lra).
    assert (MMU * MMU * (E * E / 4) <= 12 * 10 ^ 3 * (E * E / 4)) by (apply Rmult_le_compat_r; nra).
    assert (12 * 10 ^ 3 * (E * E / 4) <= E * E / 8 * Q2) by nra.
    assert (MMU * MMU * Q2 <= E * Q2) by (apply Rmult_le_compat_r; lra).
    assert (Q2 * Q2 / 4 <= 235 * E * Q2) by nra.
    assert (236 * E * Q2 <= E * E / 8 * Q2) by (apply Rmult_le_compat_r; nra). nra. }
  assert (I : inelastic c E (1 / 2) Q2).
  { unfold inelastic. rewrite <- (nucleon_mean c El). fold w.
    replace (2 * w * (1 / 2 * E)) with (mu * (a * b)) by (rewrite <- Ew; field). unfold Q2, mu, MPI. nra. }
  assert (HE : 0 < E) by lra. assert (HQ : 0 < Q2) by lra.
  pose proof (proj2 (inelastic_iff MMU c E (1 / 2) Q2 El HE) I) as U.
  pose proof (range_below MMU c E (1 / 2) Q2 El HE (conj (Rlt_le _ _ HQ) U)) as W.
  destruct (integrand_value BlockDurandHa k MMU c E (1 / 2) Q2 El Re HE ltac:(lra) HQ W) as [g [F [G [HF [IV _]]]]].
  destruct (energy_positive BlockDurandHa MMU E (1 / 2) Q2 ltac:(unfold MMU; lra) HE ltac:(lra) P) as [_ B]. specialize (B ltac:(discriminate)).
  fold w in HF. set (x := Q2 / (2 * w * (1 / 2) * E)) in HF.
  assert (X : x = Q2 / (E * w)) by (unfold x; field; lra).
  assert (Hx : 0 < x < 1).
  { rewrite X. split; [apply div_pos; lra|]. apply (Rmult_lt_reg_r (E * w)); [lra|]. unfold Rdiv. rewrite Rmult_assoc, Rinv_l by lra. lra. }
  cbn [nucleus] in HF. destruct (block_value x Q2 HQ Hx) as [D [n [HD [Hn V]]]]. cbv zeta in V.
  replace (ln (1 + Q2 / (282 * 10 ^ 4))) with 20 in V.
  2:{ fold mu. replace (1 + Q2 / mu) with (exp 20) by (fold a; unfold Q2, mu; field). rewrite ln_exp. reflexivity. }
  replace (ln (Q2 / x / (Q2 + 282 * 10 ^ 4))) with 3 in V.
  2:{ fold mu. replace (Q2 / x / (Q2 + mu)) with (exp 3); [rewrite ln_exp; reflexivity|].
      fold b. rewrite X. replace (Q2 + mu) with (mu * a) by (unfold Q2; ring).
      replace (Q2 / (Q2 / (E * w))) with (E * w) by (field; lra). rewrite Ew. field. unfold mu. lra. }
  rewrite V in HF. cbn [obind] in HF.
  match type of HF with nucleus_of_proton _ _ _ _ _ _ ?f = _ => set (f0 := f) in HF; assert (N : f0 < 0) end.
  { unfold f0. assert (0 < D * n) by nra. nra. }
  destruct (nucleus_value k c E (1 / 2) x f0 El Re Hx ltac:(lra)) as [G' [HG' V']]. rewrite V' in HF.
  assert (HF' : f0 * G' = F) by congruence.
  exists E, (1 / 2), Q2. eexists. split; [split; [unfold MMU; lra|exact E1]|]. split; [exact P|]. split; [exact I|]. split; [exact IV|].
  assert (F < 0) by nra. assert (g * F < 0) by nra. nra.
Qed.
(** Shadowing by more than the whole *)
Lemma dutta_exceeds c nu : element c -> c_charge c <> 1 -> exists y, shadow_dutta nan c (395 / 10 ^ 4) nu = Ok y /\ 1 < y.
Proof.
  intros [Z A] N. unfold shadow_dutta. destruct (Reqb_spec (c_charge c) 1) as [X|_]; [contradiction|].
  destruct (Rltb_spec (395 / 10 ^ 4) (14 / 10 ^ 4)) as [X|_]; [lra|]. destruct (Rltb_spec (395 / 10 ^ 4) (4 / 100)) as [_|X]; [|lra].
  rewrite log_value by lra. cbn [obind]. rewrite power_value by lra. eexists. split; [reflexivity|].
  assert (A1 : 1 < c_atomic c) by lra.
  rewrite <- (Rpower_O (c_atomic c)) by lra. apply Rpower_lt; [exact A1|]. 
  assert (L : - (3235 / 1000) < ln (395 / 10 ^ 4)).
  { replace (395 / 10 ^ 4) with (/ (10 ^ 4 / 395)) by (field; lra). rewrite ln_Rinv by lra. apply Ropp_lt_contravar.
    replace (10 ^ 4 / 395) with (2 * 2 * 2 * 2 * (10 ^ 4 / 395 / 16)) by field. rewrite !ln_mult by lra.
    pose proof ln_2 as L2. pose proof (ln_bounds (10 ^ 4 / 395 / 16) ltac:(lra)) as B. unfold area in B. cbv zeta in B.
    replace ((10 ^ 4 / 395 / 16 - 1) / (10 ^ 4 / 395 / 16 + 1)) with (23 / 102) in B by field. lra. }
  unfold LOG10. lra.
Qed.
Lemma dutta_bounded c x nu : element c -> 0 < x <= 39 / 1000 \/ 4 / 100 <= x -> exists y, shadow_dutta nan c x nu = Ok y /\ 0 < y <= 1.
Proof.
  intros [Z A] H. unfold shadow_dutta. destruct (Reqb_spec (c_charge c) 1) as [X|_]; [exists 1; split; [reflexivity|lra]|].
  assert (P : forall e, e <= 0 -> exists y, power (c_atomic c) e = Ok y /\ 0 < y <= 1).
  { intros e He. rewrite power_value by lra. eexists. split; [reflexivity|]. split; [apply rpower_pos|].
    unfold Rpower. rewrite <- exp_0. apply exp_mono. assert (0 <= ln (c_atomic c)) by (rewrite <- ln_1; apply ln_mono; lra). nra. }
  destruct (Rltb_spec x (14 / 10 ^ 4)) as [X|X]; [apply P; lra|]. destruct (Rltb_spec x (4 / 100)) as [Y|Y]; [|exists 1; split; [reflexivity|lra]].
  rewrite log_value by lra. cbn [obind]. apply P.
  assert (L : ln x <= - (324 / 100)).
  { apply Rle_trans with (ln (39 / 1000)); [apply ln_mono; lra|].
    replace (39 / 1000) with (/ (1000 / 39)) by (field; lra). rewrite ln_Rinv by lra. apply Ropp_le_contravar.
    replace (1000 / 39) with (2 * 2 * 2 * 2 * (1000 / 39 / 16)) by field. rewrite !ln_mult by lra.
    pose proof ln_2 as L2. pose proof (ln_bounds (1000 / 39 / 16) ltac:(lra)) as B. unfold area in B. cbv zeta in B.
    replace ((1000 / 39 / 16 - 1) / (1000 / 39 / 16 + 1)) with (47 / 203) in B by field. lra. }
  unfold LOG10. lra.
Qed.
(** ** The integral *)
Variable qags : (R -> outcome R) -> R -> R -> outcome R.
Lemma differential_value t k m charge c E v lo : element c -> real_nucleus c -> 0 < m -> 0 < E ->
  v_min (photonuclear_limits m (nucleon_weight c) E) <= v < 1 -> transfer_min nan m E v = Ok lo ->
  lo < transfer_max m c E v -> negligible (ln lo) (ln (transfer_max m c E v)) = false ->
  exists F r, (forall Q2, lo < Q2 < transfer_max m c E v -> transfer_integrand nan t k m c E v Q2 = Ok (F Q2)) /\
    @computed engine qags (fun s => exp s * F (exp s)) (ln lo) (ln (transfer_max m c E v)) 3
      (midpoint_sum (fun s => exp s * F (exp s)) (ln lo) (ln (transfer_max m c E v))) 12 5 (/ 10 ^ 6) r /\
    transfer_differential nan qags t k m charge c E v =
      (flet (x, _) := r in done (Ok (Rmax (x * (NA / c_atomic c * charge * charge)) 0))).
Proof.
  intros El Re Hm HE Hv T L N. set (hi := transfer_max m c E v) in *.
  set (F := fun Q2 => match transfer_integrand nan t k m c E v Q2 with Ok y => y | _ => 0 end).
  exists F, (integrate nan qags default_integral lo hi (transfer_integrand nan t k m c E v) 4 0).
  assert (D : forall Q2, lo <= Q2 <= hi -> 0 < lo /\ exists y, transfer_integrand nan t k m c E v Q2 = Ok y)
    by (intros Q2 H; apply (defined_integrand t k m c E v Q2 lo); assumption).
  assert (L0 : 0 < lo) by (apply (D lo); lra).
  assert (HF : forall Q2, lo < Q2 < hi -> transfer_integrand nan t k m c E v Q2 = Ok (F Q2)).
  { intros Q2 H. destruct (D Q2 ltac:(lra)) as [_ [y Y]]. unfold F. rewrite Y. reflexivity. }
  split; [exact HF|]. split.
  - pose proof (value_log nan qags default_integral lo hi (transfer_integrand nan t k m c E v) 0 F default_roomy (conj L0 L) N HF) as V.
    replace (/ 10 ^ 6) with (e_precision default_integral); [exact V|].
    unfold default_integral, new_integral. cbn [e_precision]. destruct (/ 10 ^ 6 <=? 0); reflexivity.
  - unfold transfer_differential. destruct (Reqb_spec v 1) as [X|_]; [lra|]. cbn [andb]. rewrite T. fold hi.
    unfold done at 1. cbn [fbind]. destruct (Rltb_spec hi lo) as [X|_]; [lra|].
    destruct (integrate nan qags default_integral lo hi (transfer_integrand nan t k m c E v) 4 0) as [[[x g]| |]|]; cbn [fbind]; try reflexivity.
    destruct El as [Z A]. rewrite quo_value by lra. reflexivity.
Qed.
Lemma differential_nonneg t k m charge c E v y : transfer_differential nan qags t k m charge c E v = Some (Ok y) ->
  0 <= y.
Proof.
  unfold transfer_differential. intros H. destruct ((v =? 1) && (MPI <=? m)).
  - assert (0 = y) by (unfold done in H; congruence). lra.
  - destruct (transfer_min nan m E v) as [lo| |]; try discriminate H. unfold done at 1 in H. cbn [fbind] in H.
    destruct (transfer_max m c E v <? lo); [assert (0 = y) by (unfold done in H; congruence); lra|].
    destruct (integrate nan qags default_integral lo _ _ 4 0) as [[[x g]| |]|]; cbn [fbind] in H; try discriminate H.
    destruct (quo NA (c_atomic c)) as [n| |]; unfold done in H; cbn [fbind] in H; try discriminate H.
    assert (Rmax (x * (n * charge * charge)) 0 = y) by congruence. subst y. apply Rmax_r.
Qed.
Lemma differential_empty t k m charge c E v lo : v <> 1 \/ m < MPI -> transfer_min nan m E v = Ok lo -> transfer_max m c E v < lo ->
  transfer_differential nan qags t k m charge c E v = Some (Ok 0).
Proof.
  intros H T L. unfold transfer_differential. replace ((v =? 1) && (MPI <=? m)) with false.
  - rewrite T. unfold done at 1. cbn [fbind]. rewrite (proj2 (Rltb_true _ _) L). reflexivity.
  - symmetry. destruct H as [H|H].
    + rewrite (proj2 (Reqb_false v 1) H). reflexivity.
    + rewrite (proj2 (Rleb_false MPI m)) by lra. apply andb_false_r.
Qed.
Lemma differential_charge t k m charge c E v : transfer_differential nan qags t k m charge c E v =
  (flet y := transfer_differential nan qags t k m 1 c E v in done (Ok (charge * charge * y))).
Proof.
  unfold transfer_differential. destruct ((v =? 1) && (MPI <=? m)); [unfold done; cbn [fbind]; do 2 f_equal; ring|].
  destruct (transfer_min nan m E v) as [lo| |]; unfold done; cbn [fbind]; try reflexivity.
  destruct (transfer_max m c E v <? lo); [cbn [fbind]; do 2 f_equal; ring|].
  destruct (integrate nan qags default_integral lo _ _ 4 0) as [[[x g]| |]|]; cbn [fbind]; try reflexivity.
  destruct (quo NA (c_atomic c)) as [n| |]; cbn [fbind]; try reflexivity. do 2 f_equal.
  replace (x * (n * charge * charge)) with ((charge * charge) * (x * (n * 1 * 1))) by ring.
  rewrite <- RmaxRmult by apply Rle_0_sqr. rewrite Rmult_0_r. reflexivity.
Qed.
End Values.
