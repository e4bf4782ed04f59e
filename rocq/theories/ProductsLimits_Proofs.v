(** Proofs about the secondaries of stochastic losses, continued: losses within
    the kinematic limits, shared energies, and the calculator. *)
From Verif Require Import Prelude PreludeFacts Vec_Model Vec_Proofs Propagator_Model Propagate_Proofs Secondaries_Model Math_Model
  Particle_Model Decay_Spec Decay_Proofs Shapes_Spec Limits_Model Limits_Spec Limits_Proofs Products_Model Products_Spec Products_Proofs.
From Coq Require Import Lra Psatz.

Lemma MMU_pos : 0 < MMU. Proof. unfold MMU. lra. Qed.

(** ** Losses within the kinematic limits *)
Lemma c38_ionization nan ty m I l c rnd r0 v : let E := sl_parent_energy l in
  unit (sl_direction l) -> nth_error rnd 0 = Some r0 -> 0 < m <= E -> m <> ME -> 0 < I ->
  v_min (ionization_limits m I E) < v_max (ionization_limits m I E) -> in_limits (ionization_limits m I E) v -> sl_energy l = E * v ->
  exists ps, ionization nan ty m l c rnd = Ok ps /\ collision [ty; 11%Z] [m; ME] m l ps.
Proof.
  intros E U R0 Hm NE HI. unfold in_limits, ionization_limits. cbn [v_min v_max]. pose proof ME_pos as HM.
  match goal with |- context [if ?a <? ?b then _ else _] => destruct (Rltb_spec a b) end; [lra|].
  intros _ [V0 V1] HW. assert (0 < v). { eapply Rlt_le_trans; [|apply V0]. repeat apply Rdiv_lt_0_compat; lra. }
  assert (VK := Rle_trans _ _ _ V1 (Rmin_l _ _)). clear V1. set (g := E / m) in *. set (r := ME / m) in *.
  assert (G : g * m = E) by (apply div_mul; lra). assert (Q : r * m = ME) by (apply div_mul; lra).
  assert (G0 : 0 < g) by (apply Rdiv_lt_0_compat; lra). assert (Q0 : 0 < r) by (apply Rdiv_lt_0_compat; lra).
  assert (D : 0 < (1 + 2 * g * r + r * r) * E) by (apply Rmult_lt_0_compat; [nra|lra]).
  apply Rmult_le_compat_r with (r := (1 + 2 * g * r + r * r) * E) in VK; [|lra]. rewrite div_mul in VK by lra.
  assert (K : sl_energy l * (m * m + 2 * E * ME + ME * ME) <= 2 * ME * (E * E - m * m)).
  { rewrite HW. apply Rmult_le_compat_r with (r := m * m) in VK; [|nra].
    replace (v * ((1 + 2 * g * r + r * r) * E) * (m * m)) with (E * v * (m * m + 2 * (g * m) * (r * m) + r * m * (r * m))) in VK by ring.
    replace (2 * ME * (g * g - 1) * (m * m)) with (2 * ME * (g * m * (g * m) - m * m)) in VK by ring. rewrite G, Q in VK. lra. }
  assert (W0 : 0 < sl_energy l) by (rewrite HW; apply Rmult_lt_0_compat; lra).
  assert (S : m < E - sl_energy l).
  { destruct (Rlt_le_dec m (E - sl_energy l)) as [|C]; auto. exfalso.
    assert (E <> m). { intros X. subst m. assert (0 < sl_energy l * (E * E + 2 * E * ME + ME * ME)) by (apply Rmult_lt_0_compat; nra). lra. }
    assert ((E - m) * (m * m + 2 * E * ME + ME * ME) <= 2 * ME * (E * E - m * m)).
    { eapply Rle_trans; [|exact K]. apply Rmult_le_compat_r; [nra|lra]. }
    assert (0 < (E - m) * ((m - ME) * (m - ME))). { apply Rmult_lt_0_compat; [lra|]. assert (m - ME <> 0) by lra. nra. }
    nra. }
  apply (ionization_kinematics nan ty m l c rnd r0); auto; lra.
Qed.
(** Electrons and positrons. *)
Lemma c38_electrons nan ty l c rnd r0 v : let E := sl_parent_energy l in
  unit (sl_direction l) -> nth_error rnd 0 = Some r0 -> ME < E ->
  in_limits (moller_limits ME E) v \/ (in_limits (bhabha_limits ME E) v /\ v < v_max (bhabha_limits ME E)) ->
  0 < v -> sl_energy l = E * v ->
  exists ps, ionization nan ty ME l c rnd = Ok ps /\ collision [ty; 11%Z] [ME; ME] ME l ps.
Proof.
  intros E U R0 HE HV V0 HW. pose proof ME_pos as HM.
  assert (Q : ME / E * E = ME) by (apply div_mul; lra). assert (Q1 : ME / E < 1). { apply Rmult_lt_reg_r with E; lra. }
  assert (B : E * v < E - ME).
  { unfold in_limits, moller_limits, bhabha_limits in HV. cbn [v_min v_max] in HV.
    destruct (Rltb_spec (1 / 2 * (1 - ME / E)) 0); [lra|]. destruct (Rltb_spec (1 - ME / E) 0); [lra|].
    assert (v < 1 - ME / E) by lra. apply Rmult_lt_compat_l with (r := E) in H; lra. }
  apply (ionization_kinematics nan ty ME l c rnd r0); auto; fold E; rewrite ?HW; try lra; try (apply Rmult_lt_0_compat; lra).
  replace (2 * ME * (E * E - ME * ME)) with ((E - ME) * (2 * ME * (E + ME))) by ring.
  replace (E * v * (ME * ME + 2 * E * ME + ME * ME)) with (E * v * (2 * ME * (E + ME))) by ring.
  apply Rmult_le_compat_r; [|lra]. apply Rmult_le_pos; lra.
Qed.
(** A positron that gives away all its kinetic energy has no direction. *)
Lemma c38_bhabha_refuted : exists l, let E := sl_parent_energy l in
  unit (sl_direction l) /\ ME < E /\ in_limits (bhabha_limits ME E) (sl_energy l / E) /\
  forall nan c r, not_a_value nan -> forall ps, ionization nan (-11) ME l c [r] <> Ok ps.
Proof.
  exists (mksloss Ioniz ME (mkvec 0 0 0) (mkvec 0 0 1) 0 0 (2 * ME) 0). cbn [sl_parent_energy sl_energy sl_direction]. pose proof ME_pos as HM.
  split. { unfold unit, dot. cbn. ring. }
  split; [lra|]. split.
  { unfold in_limits, bhabha_limits. cbn [v_min v_max]. replace (ME / (2 * ME)) with (1 / 2) by (field; lra).
    destruct (Rltb_spec (1 - 1 / 2) 0); lra. }
  intros nan c r N ps H. unfold ionization in H. cbn [sl_parent_energy sl_energy sl_direction] in H.
  rewrite quotient_ok in H by lra. cbn [obind] in H. unfold at_index in H. cbn [nth_error obind] in H.
  unfold ionization_directions in H. replace (2 * ME * (1 - ME / (2 * ME))) with ME in H by (field; lra).
  replace (2 * ME * (ME / (2 * ME))) with ME in H by (field; lra).
  rewrite root_ok in H by nra. cbn [obind] in H. rewrite (root_ok _ ((ME + ME) * (ME - ME))) in H by nra. cbn [obind] in H.
  rewrite root_ok in H by nra. cbn [obind] in H.
  replace (ME - ME) with 0 in H by ring. rewrite Rmult_0_r, sqrt_0, Rmult_0_r in H. unfold quotient at 1 in H.
  destruct (Reqb_spec 0 0); [|lra].
  match type of H with context [obind (nan R) ?f] => destruct (obind (nan R) f) eqn:X end; cbn in H; try discriminate.
  destruct (not_value_bind _ _ _ N X).
Qed.
Lemma c38_compton nan l c rnd r0 v : let E := sl_parent_energy l in
  unit (sl_direction l) -> nth_error rnd 0 = Some r0 -> 0 < E -> in_limits (compton_limits E) v -> 0 < v -> sl_energy l = E * v ->
  exists ps, compton nan l c rnd = Ok ps /\ collision [22%Z; 11%Z] [0; ME] 0 l ps.
Proof.
  intros E U R0 HE. unfold in_limits, compton_limits. cbn [v_min v_max]. pose proof ME_pos as HM. intros [_ HV] V0 HW.
  replace (1 - 1 / (1 + 2 * E / ME)) with (2 * E / (2 * E + ME)) in HV by (field; split; lra).
  apply Rmult_le_compat_r with (r := 2 * E + ME) in HV; [|lra]. rewrite div_mul in HV by lra.
  apply (compton_kinematics nan l c rnd r0); auto; fold E; rewrite HW; nra.
Qed.

(** ** Shared energies *)
Lemma forall_two (P : particle -> Prop) a b : P a -> P b -> Forall P [a; b].
Proof. intros. apply Forall_cons; [|apply Forall_cons; [|apply Forall_nil]]; auto. Qed.
Lemma forall_three (P : particle -> Prop) a b c : P a -> P b -> P c -> Forall P [a; b; c].
Proof. intros. apply Forall_cons; [|apply forall_two]; auto. Qed.
Lemma split_two l t0 t1 d0 d1 e0 e1 e : unit d0 -> unit d1 -> e0 + e1 = e ->
  energy_split [t0; t1] l e [product t0 l d0 e0 0; product t1 l d1 e1 0].
Proof. intros. split; [reflexivity|]. split; [apply forall_two; cbn; auto|]. cbn. lra. Qed.
Lemma split_three l t0 t1 t2 e0 e1 e2 e x : unit (sl_direction l) -> e0 + e1 + e2 = e ->
  energy_split [t0; t1; t2] l e
    [product t0 l (sl_direction l) e0 x; product t1 l (sl_direction l) e1 0; product t2 l (sl_direction l) e2 0].
Proof. intros. split; [reflexivity|]. split; [apply forall_three; cbn; auto|]. cbn. lra. Qed.
Lemma above_two m0 m1 a b : m0 <= energy (p_state a) -> m1 <= energy (p_state b) -> above_masses [m0; m1] [a; b].
Proof. intros. apply Forall2_cons; [|apply Forall2_cons; [|apply Forall2_nil]]; auto. Qed.
Lemma above_three m0 m1 m2 a b c : m0 <= energy (p_state a) -> m1 <= energy (p_state b) -> m2 <= energy (p_state c) ->
  above_masses [m0; m1; m2] [a; b; c].
Proof. intros. apply Forall2_cons; [|apply above_two]; auto. Qed.

Lemma c38_brems ty l c rnd : unit (sl_direction l) -> exists ps,
  bremsstrahlung ty brems_no_deflection l c rnd = Ok ps /\ energy_split [ty; 22%Z] l (sl_parent_energy l) ps.
Proof. intros U. eexists. split; [reflexivity|]. apply split_two; auto. lra. Qed.
Lemma c38_photonuclear ty l c rnd : unit (sl_direction l) -> exists ps,
  photonuclear ty l c rnd = Ok ps /\ energy_split [ty; 81%Z] l (sl_parent_energy l) ps.
Proof. intros U. eexists. split; [reflexivity|]. apply split_two; auto. lra. Qed.
Lemma c38_photoproduction l c rnd : unit (sl_direction l) -> exists ps,
  photoproduction l c rnd = Ok ps /\ energy_split [81%Z] l (sl_energy l) ps.
Proof. intros U. eexists. split; [reflexivity|]. split; [reflexivity|]. split; [apply Forall_cons; [cbn; auto|apply Forall_nil]|]. cbn. lra. Qed.
Lemma c38_photoeffect l c rnd : unit (sl_direction l) -> exists ps,
  photoeffect l c rnd = Ok ps /\ energy_split [11%Z] l (sl_parent_energy l + ME - (t_charge c * ALPHA) ^ 2 * ME / 2) ps /\
  (above_masses [ME] ps <-> (t_charge c * ALPHA) ^ 2 * ME / 2 <= sl_parent_energy l).
Proof.
  intros U. eexists. split; [reflexivity|]. split.
  - split; [reflexivity|]. split; [apply Forall_cons; [cbn; auto|apply Forall_nil]|]. cbn [total_energy fold_right p_state product energy]. unfold binding_energy. lra.
  - unfold above_masses. split; intros H.
    + inversion_clear H as [|a b x y H0 H1]. cbn [p_state product energy] in H0. unfold binding_energy in H0. lra.
    + apply Forall2_cons; [|apply Forall2_nil]. cbn [p_state product energy]. unfold binding_energy. lra.
Qed.
Lemma c38_weak partner t l c rnd r0 v : unit (sl_direction l) -> nth_error rnd 0 = Some r0 ->
  from_table t c (sl_parent_energy l) r0 = Ok v -> exists ps,
  weak partner t l c rnd = Ok ps /\ energy_split [partner; 81%Z] l (sl_energy l) ps /\
  (0 <= v <= 1 -> 0 <= sl_energy l -> above_masses [0; 0] ps).
Proof.
  intros U R0 T. unfold weak, at_index. rewrite R0. cbn [obind]. rewrite T. cbn [obind]. eexists. split; [reflexivity|].
  split; [apply split_two; auto; ring|]. intros. apply above_two; cbn; nra.
Qed.

(** *** Bremsstrahlung with deflection *)
Lemma EGS4_cos m E : 0 < m < E -> 0 < cos (m / E) < 1.
Proof.
  intros H. assert (Q : m / E * E = m) by (apply div_mul; lra). assert (0 < m / E) by (apply Rdiv_lt_0_compat; lra).
  assert (m / E < 1) by (apply Rmult_lt_reg_r with E; lra). pose proof PI2_1. pose proof PI2_3_2.
  split; [apply cos_gt_0; lra|]. rewrite <- cos_0. apply cos_decreasing_1; lra.
Qed.
Lemma recoil_ok nan m d E k phi theta n u : unit d -> -1 <= phi <= 1 -> not_a_value nan ->
  recoil nan m d E k phi theta = Ok (n, u) ->
  unit n /\ unit u /\ dot d u = phi /\
  exists q, 0 < q /\ vadd (scale q n) (scale k u) = scale (sqrt ((E + m) * (E - m))) d.
Proof.
  intros U C N H. unfold recoil in H. unfold root in H. destruct (Rltb_spec ((E + m) * (E - m)) 0) as [|HP].
  { destruct (not_value_bind _ _ _ N H). }
  cbn [obind] in H. set (w := deflect d phi theta) in *. set (p := sqrt ((E + m) * (E - m))) in *.
  destruct (normalize (vsub (scale p d) (scale k w))) as [x|] eqn:X; [|destruct (N _ _ H)].
  injection H as <- <-. destruct (c29_deflect d phi theta U C) as (Uw & Dw & _). fold w in Uw, Dw.
  destruct (normalize_some _ _ X) as (Ux & Sx & Px). split; auto. split; auto. split; auto.
  eexists. split; [exact Px|]. rewrite Sx. unfold vadd, vsub, scale. cbn [vx vy vz]. f_equal; ring.
Qed.
Lemma recoil_moving d phi theta p k : unit d -> 0 < phi < 1 -> 0 < p ->
  normalize (vsub (scale p d) (scale k (deflect d phi theta))) = None -> False.
Proof.
  intros U C P. destruct (c29_deflect d phi theta U ltac:(lra)) as (Uw & Dw & _). set (w := deflect d phi theta) in *.
  unfold normalize. destruct (Reqb_spec (magnitude (vsub (scale p d) (scale k w))) 0) as [Z|]; [intros _|discriminate].
  pose proof (magnitude_sq (vsub (scale p d) (scale k w))) as Q. rewrite Z in Q.
  unfold unit in U, Uw.   unfold dot, vsub, scale in *. cbn [vx vy vz] in *.
  assert (X : p * p + k * k - 2 * (p * k) * phi = 0) by (rewrite <- Dw; nra).
  assert (0 < p * p * (1 - phi * phi)) by (apply Rmult_lt_0_compat; nra). assert (0 <= (k - p * phi) * (k - p * phi)) by apply Rle_0_sqr.
  nra.
Qed.
Lemma c38_brems_egs4 nan ty m l c rnd r0 : let E := sl_parent_energy l in
  not_a_value nan -> unit (sl_direction l) -> nth_error rnd 0 = Some r0 -> 0 < m < E -> 0 <= sl_energy l -> exists lepton photon,
  bremsstrahlung ty (brems_egs4 nan m) l c rnd = Ok [lepton; photon] /\
  energy_split [ty; 22%Z] l E [lepton; photon] /\
  dot (sl_direction l) (direction (p_state photon)) = cos (m / E) /\
  exists q, 0 < q /\ vadd (scale q (direction (p_state lepton))) (momentum_vec 0 (p_state photon)) = scale (sqrt (E * E - m * m)) (sl_direction l).
Proof.
  intros E N U R0 Hm HW. unfold bremsstrahlung, brems_egs4. fold E. rewrite quotient_ok by lra. cbn [obind]. unfold at_index. rewrite R0. cbn [obind].
  assert (C : 0 < cos (m / E) < 1) by (apply EGS4_cos; auto).
  destruct (recoil nan m (sl_direction l) E (sl_energy l) (cos (m / E)) (r0 * 2 * PI)) as [[n u]|e|b] eqn:X.
  - destruct (recoil_ok nan m (sl_direction l) E (sl_energy l) (cos (m / E)) (r0 * 2 * PI) n u U (COS_bound (m / E)) N X) as (Un & Uu & D & q & Pq & M).
    cbn [obind]. exists (product ty l n (E - sl_energy l) 0), (product 22 l u (sl_energy l) 0). split; [reflexivity|].
    split; [apply split_two; auto; ring|]. split; [exact D|]. exists q. split; auto. unfold momentum_vec. cbn [p_state product energy direction].
    rewrite Rmult_0_r, Rminus_0_r, sqrt_square, M by lra. f_equal. f_equal. ring.
  - exfalso. revert X. unfold recoil. rewrite root_ok by nra. cbn [obind].
    destruct (normalize _) eqn:Y; [discriminate|intros _]. revert Y. apply recoil_moving; auto. apply sqrt_lt_R0. nra.
  - exfalso. revert X. unfold recoil. rewrite root_ok by nra. cbn [obind].
    destruct (normalize _) eqn:Y; [discriminate|intros _]. revert Y. apply recoil_moving; auto. apply sqrt_lt_R0. nra.
Qed.

(** *** The angle of Koch and Motz *)
Lemma phi_candidate_range nan E0 rnd phi : not_a_value nan -> 0 < E0 -> 0 <= rnd <= 1 -> phi_candidate nan E0 rnd = Ok phi -> 0 <= phi <= PI.
Proof.
  intros N HE Hr. unfold phi_candidate. pose proof PI_RGT_0 as HP. set (b := (PI * E0) ^ 2).
  assert (B : 0 < PI * E0) by (apply Rmult_lt_0_compat; lra). assert (B2 : 0 < b) by (unfold b; nra).
  assert (D : 0 < 1 - rnd + 1 / b). { assert (0 < 1 / b) by (apply Rdiv_lt_0_compat; lra). lra. }
  rewrite quotient_ok by lra. cbn [obind]. set (q := rnd / (1 - rnd + 1 / b)).
  assert (Q0 : 0 <= q) by (apply div_pos; lra). rewrite root_ok by auto. cbn [obind]. intros [= <-].
  assert (Q1 : q <= b). { apply Rmult_le_reg_r with (1 - rnd + 1 / b); auto. unfold q. rewrite div_mul by lra.
    replace (b * (1 - rnd + 1 / b)) with (b * (1 - rnd) + 1) by (field; lra). nra. }
  assert (S1 : sqrt q <= PI * E0). { rewrite <- (sqrt_square (PI * E0)) by lra. apply sqrt_le_1_alt. unfold b in Q1. nra. }
  pose proof (sqrt_pos q). assert (I : 0 < 1 / E0) by (apply Rdiv_lt_0_compat; lra). split; [nra|].
  apply Rmult_le_reg_r with E0; auto. replace (1 / E0 * sqrt q * E0) with (sqrt q) by (field; lra). auto.
Qed.
Lemma koch_motz_phi_range nan fuel rs E E0 Z : not_a_value nan -> 0 < E0 -> (forall i, 0 <= rs i <= 1) -> forall i phi,
  koch_motz_phi nan fuel rs i E E0 Z = Some (Ok phi) -> 0 <= phi <= PI.
Proof.
  intros N HE HR. induction fuel as [|k IH]; intros i phi H; cbn [koch_motz_phi] in H; [discriminate|].
  destruct (phi_candidate nan E0 (rs i)) as [p| |] eqn:P; try discriminate.
  destruct (koch_N nan E E0 Z) as [n| |]; try discriminate.
  destruct (_ <? _); [exact (IH _ _ H)|]. injection H as <-. exact (phi_candidate_range nan E0 (rs i) p N HE (HR i) P).
Qed.
Lemma c38_koch_motz nan fuel gen m d E k c rnd n u : not_a_value nan -> unit d -> 0 < E -> (forall s i, 0 <= gen s i <= 1) ->
  brems_koch_motz nan fuel gen m d E k c rnd = Some (Ok (n, u)) ->
  unit n /\ unit u /\ exists phi q, 0 <= phi <= PI /\ dot d u = cos phi /\ 0 < q /\
    vadd (scale q n) (scale k u) = scale (sqrt (E * E - m * m)) d.
Proof.
  intros N U HE HG H. unfold brems_koch_motz in H. pose proof ME_pos as HM. destruct (at_index rnd 0) as [r0| |]; try discriminate.
  destruct (koch_motz_phi nan fuel (gen r0) 0 ((E - k) / ME) (E / ME) (t_charge c)) as [[phi| |]|] eqn:P; try discriminate.
  cbn [obind] in H. destruct (at_index rnd 1) as [r1| |]; try discriminate. cbn [obind] in H. injection H as H.
  assert (HP : 0 <= phi <= PI). { apply (koch_motz_phi_range nan fuel (gen r0) ((E - k) / ME) (E / ME) (t_charge c) N) with (i := 0%nat); auto.
    apply Rdiv_lt_0_compat; lra. }
  destruct (recoil_ok nan m d E k (cos phi) (r1 * 2 * PI) n u U (COS_bound phi) N H) as (Un & Uu & D & q & Pq & M).
  split; auto. split; auto. exists phi, q. repeat split; auto; try lra. rewrite M. f_equal. f_equal. ring.
Qed.

(** *** Pairs made by charged particles *)
Lemma root_half x : 0 <= x <= 1 -> x / 2 <= 1 - sqrt (1 - x).
Proof.
  intros H. pose proof (sqrt_pos (1 - x)) as P. pose proof (sqrt_sqrt (1 - x) ltac:(lra)) as Q. nra.
Qed.
Lemma c38_epair nan ty drawn m l c rnd v : let E := sl_parent_energy l in
  (forall c E v, draws (drawn c E v)) -> unit (sl_direction l) -> (3 <= length rnd)%nat -> 0 < m <= E -> 1 <= t_charge c ->
  v_min (epair_limits m (t_charge c) E) < v_max (epair_limits m (t_charge c) E) -> in_limits (epair_limits m (t_charge c) E) v ->
  sl_energy l = E * v ->
  exists ps, epair nan ty drawn m l c rnd = Ok ps /\ energy_split [ty; 11%Z; (-11)%Z] l E ps /\ above_masses [m; ME; ME] ps.
Proof.
  intros E HD U HL Hm HZ LT HV HW. pose proof ME_pos as HM.
  pose proof (proj2 (epair_ok m (t_charge c) E Hm HZ) LT v HV) as LV.
  unfold in_limits, epair_limits in LT, HV. cbn [v_min v_max] in LT, HV.
  match type of HV with context [if ?a <? ?b then _ else _] => destruct (Rltb_spec a b) end; [lra|]. destruct HV as [V0 V1].
  assert (V2 := Rle_trans _ _ _ V1 (Rmin_r _ _)). clear V1. set (q := m / E) in *. assert (Q : q * E = m) by (apply div_mul; lra).
  assert (Q0 : 0 < q) by (apply Rdiv_lt_0_compat; lra).
  assert (W : 4 * ME <= E * v). { apply Rmult_le_compat_r with (r := E) in V0; [|lra]. rewrite div_mul in V0; lra. }
  assert (VV : 0 < 1 - v) by nra.
  destruct rnd as [|r0 [|r1 [|r2 rnd]]]; cbn in HL; try lia. unfold epair. fold E. rewrite quotient_ok by lra. cbn [obind].
  replace (sl_energy l / E) with v by (rewrite HW; field; lra). unfold at_index. cbn [nth_error obind]. unfold epair_rho.
  assert (A1 : 0 < E * v) by lra. assert (A2 : 0 < E * E * (1 - v)) by (repeat apply Rmult_lt_0_compat; lra).
  rewrite !quotient_ok by lra. cbn [obind]. set (x := 4 * ME / (E * v)).
  assert (X : 0 <= x <= 1). { unfold x. split; [apply div_pos; lra|apply div_le_1; lra]. }
  rewrite root_ok by lra. cbn [obind]. set (y := 6 * m * m / (E * E * (1 - v))).
  assert (Y : 0 <= y <= 1). { unfold y. split; [apply div_pos; nra|apply div_le_1; auto]. rewrite <- Q. nra. }
  pose proof (sqrt_pos (1 - x)) as SP. pose proof (root_half x X) as RH. set (s := sqrt (1 - x)) in *.
  destruct (Rltb_spec (s * (1 - y)) 0); [nra|]. specialize (HD c E v (s * (1 - y)) r0 ltac:(nra)).
  destruct (drawn c E v (s * (1 - y)) r0) as [total limit]. cbn [snd] in HD.
  set (rho := if 0 <? total then limit else 0). assert (R0 : 0 <= rho <= s) by (unfold rho; destruct (0 <? total); nra).
  set (rho' := if r1 <? 1 / 2 then rho * -1 else rho). assert (R1 : - s <= rho' <= s) by (unfold rho'; destruct (r1 <? 1 / 2); lra).
  cbn [obind]. eexists. split; [reflexivity|].
  assert (XE : x * (E * v) = 4 * ME) by (unfold x; apply div_mul; lra).
  split; [apply split_three; auto; field|]. apply above_three; cbn; rewrite HW; nra.
Qed.
Lemma c38_mupair nan ty drawn l c rnd v m : let E := sl_parent_energy l in
  (forall c E v rho_max r, 0 <= rho_max -> 0 <= drawn c E v rho_max r <= rho_max) -> unit (sl_direction l) -> (3 <= length rnd)%nat ->
  0 < m <= E -> v_min (mupair_limits m E) < v_max (mupair_limits m E) -> in_limits (mupair_limits m E) v -> sl_energy l = E * v ->
  exists ps, mupair nan ty drawn l c rnd = Ok ps /\ energy_split [ty; 13%Z; (-13)%Z] l E ps /\ above_masses [m; MMU; MMU] ps.
Proof.
  intros E HD U HL Hm LT HV HW. pose proof MMU_pos as HM. pose proof (proj2 (mupair_ok m E Hm) LT v HV) as LV.
  unfold in_limits, mupair_limits in LT, HV. cbn [v_min v_max] in LT, HV.
  match type of HV with context [if ?a <? ?b then _ else _] => destruct (Rltb_spec a b) end; [lra|]. destruct HV as [V0 V1].
  assert (W : 2 * MMU <= E * v). { apply Rmult_le_compat_r with (r := E) in V0; [|lra]. rewrite div_mul in V0; lra. }
  destruct rnd as [|r0 [|r1 [|r2 rnd]]]; cbn in HL; try lia. unfold mupair. fold E. rewrite quotient_ok by lra. cbn [obind].
  replace (sl_energy l / E) with v by (rewrite HW; field; lra). unfold at_index. cbn [nth_error obind]. unfold mupair_rho.
  rewrite quotient_ok by lra. cbn [obind]. set (x := 2 * MMU / (v * E)).
  assert (X : 0 <= x <= 1). { unfold x. split; [apply div_pos; lra|apply div_le_1; lra]. }
  assert (XE : x * (v * E) = 2 * MMU) by (unfold x; apply div_mul; lra).
  destruct (Rltb_spec (1 - x) 0); [lra|]. specialize (HD c E v (1 - x) r0 ltac:(lra)). set (rho := drawn c E v (1 - x) r0) in *.
  set (rho' := if r1 <? 1 / 2 then - rho else rho). assert (R1 : - (1 - x) <= rho' <= 1 - x) by (unfold rho'; destruct (r1 <? 1 / 2); lra).
  cbn [obind]. eexists. split; [reflexivity|].
  split; [apply split_three; auto; field|]. apply above_three; cbn; rewrite HW; nra.
Qed.
(** Below the threshold the muon pair is made all the same. *)
Lemma c38_mupair_refuted nan ty drawn l c rnd : let E := sl_parent_energy l in
  (3 <= length rnd)%nat -> 0 < E -> 0 < sl_energy l < 2 * MMU -> exists a b c0,
  mupair nan ty drawn l c rnd = Ok [a; b; c0] /\ p_type b = 13%Z /\ p_type c0 = (-13)%Z /\
  energy (p_state b) < MMU /\ energy (p_state c0) < MMU.
Proof.
  intros E HL HE HW. destruct rnd as [|r0 [|r1 [|r2 rnd]]]; cbn in HL; try lia. unfold mupair. fold E. rewrite quotient_ok by lra. cbn [obind].
  unfold at_index. cbn [nth_error obind]. unfold mupair_rho. replace (sl_energy l / E * E) with (sl_energy l) by (field; lra).
  rewrite quotient_ok by lra. cbn [obind].
  assert (1 < 2 * MMU / sl_energy l). { apply Rmult_lt_reg_r with (sl_energy l); [lra|]. rewrite div_mul; lra. }
  destruct (Rltb_spec (1 - 2 * MMU / sl_energy l) 0); [|lra]. cbn [obind]. do 3 eexists. split; [reflexivity|]. cbn. repeat split; lra.
Qed.

(** *** Pairs made by photons *)
Lemma sauter_range nan e rnd : ME <= e -> 0 <= rnd <= 1 -> exists c, sauter_cos nan e rnd = Ok c /\ -1 <= c <= 1.
Proof.
  intros HE Hr. pose proof ME_pos as HM. unfold sauter_cos. rewrite root_ok by nra. cbn [obind].
  pose proof (sqrt_pos (e * e - ME * ME)) as P. pose proof (sqrt_sqrt (e * e - ME * ME) ltac:(nra)) as Q.
  set (p := sqrt (e * e - ME * ME)) in *. assert (p < e) by nra. set (s := 2 * rnd - 1). assert (S : -1 <= s <= 1) by (unfold s; lra).
  assert (D : 0 < p * s + e) by nra. rewrite quotient_ok by lra. eexists. split; [reflexivity|].
  assert (X : (e * s + p) / (p * s + e) * (p * s + e) = e * s + p) by (apply div_mul; lra).
  set (c := (e * s + p) / (p * s + e)) in *. split; apply Rmult_le_reg_r with (p * s + e); auto; rewrite X; nra.
Qed.
Lemma pair_of_opposite d c0 c1 r : unit d -> -1 <= c0 <= 1 -> -1 <= c1 <= 1 ->
  exists a b, @Ok (vec * vec) (opposite d c0 c1 r) = Ok (a, b) /\ unit a /\ unit b.
Proof.
  intros U C0 C1. destruct (opposite_unit d c0 c1 r U C0 C1) as [U0 U1]. exists (fst (opposite d c0 c1 r)), (snd (opposite d c0 c1 r)).
  rewrite <- surjective_pairing. auto.
Qed.
Lemma forward_ok nan m : 0 < m -> pair_directions_ok (pair_forward nan m).
Proof.
  intros Hm d E x r1 r2 r3 U HE _ _ _ _ _. unfold pair_forward. rewrite quotient_ok by lra. cbn [obind].
  assert (0 < E / m) by (apply Rdiv_lt_0_compat; lra). rewrite quotient_ok by lra. cbn [obind].
  pose proof (flip_range _ (COS_bound (1 / (E / m)))). apply pair_of_opposite; auto.
Qed.
Lemma sauter_ok nan : pair_directions_ok (pair_sauter nan).
Proof.
  intros d E x r1 r2 r3 U HE H0 H1 _ R2 R3. unfold pair_sauter.
  destruct (sauter_range nan (E * x) r2 H0 R2) as (c0 & -> & C0). cbn [obind].
  destruct (sauter_range nan (E * (1 - x)) r3 H1 R3) as (c1 & -> & C1). cbn [obind].
  apply pair_of_opposite; auto using flip_range.
Qed.
Lemma tsai_ok angle : pair_directions_ok (pair_tsai angle).
Proof. intros d E x r1 r2 r3 U _ _ _ _ _ _. apply pair_of_opposite; auto using flip_range, COS_bound. Qed.
Lemma c38_photo_pair t directions l c rnd r0 r1 r2 r3 x : let E := sl_parent_energy l in
  pair_directions_ok directions -> unit (sl_direction l) -> nth_error rnd 0 = Some r0 ->
  nth_error rnd 1 = Some r1 -> nth_error rnd 2 = Some r2 -> nth_error rnd 3 = Some r3 ->
  0 <= r1 <= 1 -> 0 <= r2 <= 1 -> 0 <= r3 <= 1 -> 2 * ME < E ->
  from_table t c E r0 = Ok x -> in_limits (photo_pair_limits E) x ->
  exists ps, photo_pair t directions l c rnd = Ok ps /\ energy_split [11%Z; (-11)%Z] l E ps /\ above_masses [ME; ME] ps.
Proof.
  intros E HD U R0 R1 R2 R3 H1 H2 H3 HE T HX. pose proof ME_pos. destruct (proj2 (photo_pair_ok E HE) x HX) as [X0 X1].
  unfold photo_pair, at_index. rewrite R0, R1, R2, R3. cbn [obind]. fold E. rewrite T. cbn [obind].
  destruct (HD (sl_direction l) E x r1 r2 r3) as (a & b & -> & Ua & Ub); auto; try lra. cbn [obind]. eexists. split; [reflexivity|].
  split; [apply split_two; auto; ring|]. apply above_two; cbn; lra.
Qed.
Lemma c38_photo_mupair nan t l c rnd r0 r1 x : let E := sl_parent_energy l in
  unit (sl_direction l) -> nth_error rnd 0 = Some r0 -> nth_error rnd 1 = Some r1 -> 0 < E ->
  from_table t c E r0 = Ok x ->
  exists ps, photo_mupair nan t l c rnd = Ok ps /\ energy_split [13%Z; (-13)%Z] l E ps.
Proof.
  intros E U R0 R1 HE T. pose proof MMU_pos as HM. unfold photo_mupair, at_index. rewrite R0, R1. cbn [obind]. fold E. rewrite T. cbn [obind].
  unfold pair_forward. rewrite quotient_ok by lra. cbn [obind]. assert (0 < E / MMU) by (apply Rdiv_lt_0_compat; lra). rewrite quotient_ok by lra. cbn [obind].
  pose proof (flip_range _ (COS_bound (1 / (E / MMU)))) as F. destruct (opposite_unit (sl_direction l) _ _ r1 U F F) as [U0 U1].
  eexists. split; [reflexivity|]. apply split_two; auto. ring.
Qed.
Lemma c38_photo_mupair_refuted nan t l c rnd r0 r1 : let E := sl_parent_energy l in
  nth_error rnd 0 = Some r0 -> nth_error rnd 1 = Some r1 -> 2 * MMU < (2 - SQRTE) * E ->
  from_table t c E r0 = Ok (v_min (photo_mupair_limits E)) ->
  exists a b, photo_mupair nan t l c rnd = Ok [a; b] /\ p_type b = (-13)%Z /\ energy (p_state b) < MMU.
Proof.
  intros E R0 R1 HE T. pose proof MMU_pos as HM. assert (0 < E) by (consts; lra).
  destruct (photo_mupair_refuted E HE) as [_ X]. set (x := v_min (photo_mupair_limits E)) in *.
  unfold photo_mupair, at_index. rewrite R0, R1. cbn [obind]. fold E. rewrite T. cbn [obind].
  unfold pair_forward. rewrite quotient_ok by lra. cbn [obind]. assert (0 < E / MMU) by (apply Rdiv_lt_0_compat; lra). rewrite quotient_ok by lra. cbn [obind].
  do 2 eexists. split; [reflexivity|]. cbn. split; auto. lra.
Qed.

(** ** The calculator *)
Lemma find_filter g ty k : itype_eqb (interaction_of k) ty = false ->
  find (fun x => itype_eqb (fst x) ty) (filter (fun x => negb (itype_eqb (fst x) (interaction_of k))) g) =
  find (fun x : itype * calculator => itype_eqb (fst x) ty) g.
Proof.
  intros N. induction g as [|x g IH]; cbn; auto. destruct (itype_eqb_spec (fst x) (interaction_of k)) as [E|E]; cbn.
  - rewrite E, N. exact IH.
  - rewrite IH. reflexivity.
Qed.
Lemma c54_add g k ty : find_generator (add_interaction g k) ty = if itype_eqb (interaction_of k) ty then Some k else find_generator g ty.
Proof.
  unfold find_generator, add_interaction. cbn [find fst]. destruct (itype_eqb (interaction_of k) ty) eqn:E; auto.
  rewrite find_filter by auto. reflexivity.
Qed.
Lemma nth_firstn {A} (l : list A) n i : (i < n)%nat -> nth_error (firstn n l) i = nth_error l i.
Proof. revert n i. induction l as [|x l IH]; intros [|n] [|i] H; cbn; auto; try lia. apply IH. lia. Qed.
Lemma c54_only_required nan k l c rnd : calculate nan k l c rnd = calculate nan k l c (firstn (required k) rnd).
Proof.
  destruct k; cbn [calculate required]; try reflexivity;
  unfold annihilation, compton, ionization, bremsstrahlung, brems_egs4, epair, mupair, photo_pair, photo_mupair, weak, at_index;
  rewrite !nth_firstn by lia; reflexivity.
Qed.
Lemma defined_Ok {A} (a : A) : defined (Ok a). Proof. intros u; discriminate. Qed.
Lemma defined_Throw {A} e : defined (@Throw A e). Proof. intros u; discriminate. Qed.
Lemma defined_bind {A B} (o : outcome A) (f : A -> outcome B) : defined o -> (forall a, defined (f a)) -> defined (obind o f).
Proof. intros H K u. destruct o as [a|e|w]; cbn; [apply K|discriminate|]. intros _. exact (H w eq_refl). Qed.
Lemma defined_at (rnd : list R) i : (i < length rnd)%nat -> defined (at_index rnd i).
Proof. intros H. unfold at_index. destruct (nth_error rnd i) eqn:E; [apply defined_Ok|]. apply nth_error_None in E. lia. Qed.
Section Defined.
Variable nan : forall A, outcome A.
Hypothesis Hnan : forall A, defined (nan A).
Lemma defined_quotient a b : defined (quotient nan a b).
Proof. unfold quotient. destruct (b =? 0); auto using defined_Ok. Qed.
Lemma defined_root a : defined (root nan a).
Proof. unfold root. destruct (a <? 0); auto using defined_Ok. Qed.
Lemma defined_rho m E r : defined (heitler_rho nan m E r).
Proof.
  unfold heitler_rho. apply defined_bind; [apply defined_quotient|]. intros g. destruct (g <=? 1); [apply defined_Ok|]. cbv zeta.
  apply defined_bind; [|intros; apply defined_Ok]. unfold bisection. destruct (_ <? _); [apply defined_Throw|]. destruct (_ <? _); apply defined_Ok.
Qed.
Ltac def := repeat first
  [ apply defined_Ok | apply defined_Throw | apply defined_quotient | apply defined_root | apply defined_rho
  | (apply defined_at; lia)
  | match goal with |- defined (obind _ _) => apply defined_bind; [|intros ?] end
  | match goal with |- defined (let '(_, _) := ?p in _) => destruct p end
  | match goal with |- defined (match ?p with (_, _) => _ end) => destruct p end
  | match goal with |- defined (if ?b then _ else _) => destruct b end ].
Lemma defined_calculate k l c rnd : tables_defined k -> (required k <= length rnd)%nat -> defined (calculate nan k l c rnd).
Proof.
  destruct k; cbn [calculate required tables_defined]; intros T H;
  unfold annihilation, heitler_directions, compton, compton_directions, ionization, ionization_directions, bremsstrahlung, brems_no_deflection,
    brems_egs4, recoil, epair, epair_rho, naive_epair, mupair, mupair_rho, photo_pair, pair_forward, pair_sauter, sauter_cos, pair_tsai,
    photo_mupair, photonuclear, photoproduction, weak, photoeffect, pair_forward;
  cbv zeta; def; auto.
  destruct (normalize _); [apply defined_Ok|apply Hnan].
Qed.
End Defined.
Lemma c54_sufficient nan g l c rnd n : (forall A u, nan A <> UB u) ->
  (forall ty k, find_generator g ty = Some k -> tables_defined k) ->
  required_random_numbers g (sl_type l) = Ok n -> (n <= length rnd)%nat -> forall u, calculate_secondaries nan g l c rnd <> UB u.
Proof.
  intros N T H L. unfold required_random_numbers in H. unfold calculate_secondaries. destruct (find_generator g (sl_type l)) as [k|] eqn:F; [|discriminate].
  injection H as <-. apply (defined_calculate nan N); auto. apply (T _ _ F).
Qed.
Lemma c54_missing nan g l c rnd : find_generator g (sl_type l) = None ->
  required_random_numbers g (sl_type l) = UB deref_end /\
  calculate_secondaries nan g l c rnd = if itype_eqb (sl_type l) Undefined then UB deref_end else Throw logic_error.
Proof.
  intros H. unfold required_random_numbers, calculate_secondaries. rewrite H. split; auto. destruct (sl_type l); reflexivity.
Qed.
Lemma c54_too_few nan k l c : sl_parent_energy l <> 0 -> In k [CCompton; CIonization 13 MMU; CAnnihilation ME; CBremsEGS4 13 MMU; CPhotoMuPair None] ->
  calculate nan k l c [] = UB out_of_bounds.
Proof.
  intros H. cbn [In]. intros [<-|[<-|[<-|[<-|[<-|[]]]]]]; cbn [calculate]; unfold compton, ionization, annihilation, bremsstrahlung, brems_egs4, photo_mupair;
  rewrite ?quotient_ok by auto; reflexivity.
Qed.

(** ** Tables *)
Lemma c54_tables nan l c rnd t r0 k : nth_error rnd 0 = Some r0 ->
  In k [CPhotoPairForward t; CPhotoPairSauter t; CPhotoMuPair t] \/ (exists angle, k = CPhotoPairTsai t angle) \/ (exists p, k = CWeak p t) ->
  (t = None -> calculate nan k l c rnd = Throw logic_error) /\
  (forall entries, t = Some entries -> ~ In (t_hash c) (map fst entries) -> calculate nan k l c rnd = Throw out_of_range).
Proof.
  intros R K. assert (A : at_index rnd 0 = Ok r0) by (unfold at_index; rewrite R; reflexivity).
  assert (N : t = None -> forall e r, from_table t c e r = Throw logic_error) by (intros -> e r; reflexivity).
  assert (U : forall entries, t = Some entries -> ~ In (t_hash c) (map fst entries) -> forall e r, from_table t c e r = Throw out_of_range).
  { intros entries -> NI e r. cbn [from_table]. destruct (find _ entries) as [x|] eqn:F; [|reflexivity]. exfalso. apply find_some in F. destruct F as (I & Q).
    apply N.eqb_eq in Q. apply NI. rewrite <- Q. apply in_map. exact I. }
  split; [intro T; specialize (N T)|intros entries T NI; specialize (U entries T NI); clear N; rename U into N];
    destruct K as [[<-|[<-|[<-|[]]]]|[(angle & ->)|(p & ->)]]; cbn [calculate]; unfold photo_pair, photo_mupair, weak; rewrite A; cbn [obind]; rewrite N; reflexivity.
Qed.
