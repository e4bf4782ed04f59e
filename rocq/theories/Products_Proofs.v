(** Proofs about the secondaries of stochastic losses. *)
From Verif Require Import Prelude PreludeFacts Vec_Model Vec_Proofs Propagator_Model Secondaries_Model Math_Model Math_Proofs Particle_Model
  Decay_Spec Shapes_Spec Limits_Model Limits_Spec Limits_Proofs Products_Model Products_Spec.
From Coq Require Import Lra Psatz.

Lemma ME_pos : 0 < ME. Proof. unfold ME. lra. Qed.
Lemma cos_Z x k : cos (x - 2 * PI * IZR k) = cos x /\ sin (x - 2 * PI * IZR k) = sin x.
Proof.
  destruct (Z_le_gt_dec 0 k) as [H|H].
  - rewrite <- (Z2Nat.id k H), <- INR_IZR_INZ. set (n := Z.to_nat k).
    rewrite <- (cos_period (x - 2 * PI * INR n) n), <- (sin_period (x - 2 * PI * INR n) n).
    replace (x - 2 * PI * INR n + 2 * INR n * PI) with x by ring. auto.
  - assert (E : IZR k = - INR (Z.to_nat (- k))). { rewrite INR_IZR_INZ, Z2Nat.id by lia. rewrite opp_IZR. ring. }
    rewrite E. set (n := Z.to_nat (- k)). replace (x - 2 * PI * - INR n) with (x + 2 * INR n * PI) by ring.
    rewrite cos_period, sin_period. auto.
Qed.
Lemma fmod_opposite x : cos (fmod (x + PI) (2 * PI)) = - cos x /\ sin (fmod (x + PI) (2 * PI)) = - sin x.
Proof. unfold fmod. destruct (cos_Z (x + PI) (truncate ((x + PI) / (2 * PI)))) as [-> ->]. rewrite neg_cos, neg_sin. auto. Qed.

Lemma flip_range c : -1 <= c <= 1 -> -1 <= flip c <= 1.
Proof. intros. unfold flip. destruct (Reqb_spec c (-1)); lra. Qed.
Lemma opposite_unit d c0 c1 rnd : unit d -> -1 <= c0 <= 1 -> -1 <= c1 <= 1 ->
  unit (fst (opposite d c0 c1 rnd)) /\ unit (snd (opposite d c0 c1 rnd)).
Proof. intros. unfold opposite. cbn [fst snd]. split; apply c29_deflect; auto. Qed.

Lemma opposite_momentum d c0 c1 rnd p0 p1 : unit d -> -1 <= c0 <= 1 -> -1 <= c1 <= 1 -> 0 <= p0 -> 0 <= p1 ->
  p0 * p0 * (1 - c0 * c0) = p1 * p1 * (1 - c1 * c1) ->
  vadd (scale p0 (fst (opposite d c0 c1 rnd))) (scale p1 (snd (opposite d c0 c1 rnd))) = scale (p0 * c0 + p1 * c1) d.
Proof.
  intros U H0 H1 P0 P1 E. unfold opposite. cbn [fst snd]. rewrite !deflect_form by auto. cbv zeta.
  destruct (fmod_opposite (rnd * 2 * PI)) as [-> ->].
  assert (S : p0 * sqrt (1 - c0 * c0) = p1 * sqrt (1 - c1 * c1)).
  { apply Rsqr_inj; try (apply Rmult_le_pos; auto; apply sqrt_pos). unfold Rsqr.
    replace (p0 * sqrt (1 - c0 * c0) * (p0 * sqrt (1 - c0 * c0))) with (p0 * p0 * (sqrt (1 - c0 * c0) * sqrt (1 - c0 * c0))) by ring.
    replace (p1 * sqrt (1 - c1 * c1) * (p1 * sqrt (1 - c1 * c1))) with (p1 * p1 * (sqrt (1 - c1 * c1) * sqrt (1 - c1 * c1))) by ring.
    rewrite !sqrt_sqrt by nra. exact E. }
  set (s0 := sqrt (1 - c0 * c0)) in *. set (s1 := sqrt (1 - c1 * c1)) in *.
  unfold vadd, scale. cbn [vx vy vz]. set (x := rotate_vector_x d). set (y := rotate_vector_y d).
  set (a := cos (rnd * 2 * PI)). set (b := sin (rnd * 2 * PI)).
  f_equal.
  - replace (_ + _) with (vx d * (p0 * c0 + p1 * c1) + (p0 * s0 - p1 * s1) * (a * vx x + b * vx y)) by ring. rewrite S. ring.
  - replace (_ + _) with (vy d * (p0 * c0 + p1 * c1) + (p0 * s0 - p1 * s1) * (a * vy x + b * vy y)) by ring. rewrite S. ring.
  - replace (_ + _) with (vz d * (p0 * c0 + p1 * c1) + (p0 * s0 - p1 * s1) * (a * vz x + b * vz y)) by ring. rewrite S. ring.
Qed.

(** A cosine that is a quotient. *)
Lemma cosine P p N : 0 < P -> 0 < p -> N * N <= P * P * (p * p) ->
  let c := N / (P * p) in -1 <= c <= 1 /\ p * c = N / P /\ p * p * (1 - c * c) = (P * P * (p * p) - N * N) / (P * P).
Proof.
  intros HP Hp H c. assert (E : c * (P * p) = N) by (unfold c; field; lra).
  assert (C : c * c <= 1).
  { apply Rmult_le_reg_r with (P * p * (P * p)); [repeat apply Rmult_lt_0_compat; lra|].
    replace (c * c * (P * p * (P * p))) with (c * (P * p) * (c * (P * p))) by ring. rewrite E. lra. }
  split; [nra|]. split; unfold c; field; lra.
Qed.

(** Two products. *)
Lemma two_products l m t0 t1 m0 m1 e0 e1 c0 c1 rnd : unit (sl_direction l) ->
  0 <= m0 <= e0 -> 0 <= m1 <= e1 -> e0 + e1 = sl_parent_energy l + ME -> -1 <= c0 <= 1 -> -1 <= c1 <= 1 ->
  (e0 * e0 - m0 * m0) * (1 - c0 * c0) = (e1 * e1 - m1 * m1) * (1 - c1 * c1) ->
  sqrt (e0 * e0 - m0 * m0) * c0 + sqrt (e1 * e1 - m1 * m1) * c1 = sqrt (sl_parent_energy l * sl_parent_energy l - m * m) ->
  collision [t0; t1] [m0; m1] m l
    [product t0 l (fst (opposite (sl_direction l) c0 c1 rnd)) e0 0; product t1 l (snd (opposite (sl_direction l) c0 c1 rnd)) e1 0].
Proof.
  intros U H0 H1 HE C0 C1 HT HL. destruct (opposite_unit (sl_direction l) c0 c1 rnd U C0 C1) as [U0 U1].
  split; [reflexivity|]. split.
  { unfold emitted. apply Forall_cons; [|apply Forall_cons; [|apply Forall_nil]]; cbn; auto. }
  split. { apply Forall2_cons; [|apply Forall2_cons; [|apply Forall2_nil]]; split; cbn; auto. }
  split. { cbn. lra. }
  unfold total_momentum, momentum_vec. cbn [p_state product energy direction].
  replace (vadd _ (vadd _ (mkvec 0 0 0))) with
    (vadd (scale (sqrt (e0 * e0 - m0 * m0)) (fst (opposite (sl_direction l) c0 c1 rnd)))
          (scale (sqrt (e1 * e1 - m1 * m1)) (snd (opposite (sl_direction l) c0 c1 rnd)))) by (unfold vadd; cbn; f_equal; ring).
  rewrite opposite_momentum; auto using sqrt_pos.
  - rewrite HL. reflexivity.
  - rewrite !sqrt_sqrt by nra. exact HT.
Qed.

Lemma quotient_ok nan a b : b <> 0 -> quotient nan a b = Ok (a / b).
Proof. intros. unfold quotient. destruct (Reqb_spec b 0); congruence. Qed.
Lemma root_ok nan a : 0 <= a -> root nan a = Ok (sqrt a).
Proof. intros. unfold root. destruct (Rltb_spec a 0); [lra|auto]. Qed.

(** ** Ionization *)
Lemma ionization_kinematics nan ty m l c rnd r0 : let E := sl_parent_energy l in let W := sl_energy l in
  unit (sl_direction l) -> nth_error rnd 0 = Some r0 -> 0 < m -> 0 < W -> m < E - W ->
  W * (m * m + 2 * E * ME + ME * ME) <= 2 * ME * (E * E - m * m) ->
  exists ps, ionization nan ty m l c rnd = Ok ps /\ collision [ty; 11%Z] [m; ME] m l ps.
Proof.
  intros E W U R0 Hm HW HE HK. pose proof ME_pos as HM. unfold ionization. fold E. fold W.
  rewrite quotient_ok by lra. cbn [obind]. unfold at_index. rewrite R0. cbn [obind].
  assert (V : E * (W / E) = W) by (field; lra).
  unfold ionization_directions. replace (E * (1 - W / E)) with (E - W) by lra. rewrite V.
  assert (A1 : 0 < (E + m) * (E - m)) by nra. assert (A2 : 0 < (E - W + m) * (E - W - m)) by nra.
  assert (A3 : 0 < (W + ME + ME) * (W + ME - ME)) by nra.
  rewrite !root_ok by lra. cbn [obind].
  set (P := sqrt ((E + m) * (E - m))). set (pf := sqrt ((E - W + m) * (E - W - m))). set (pe := sqrt ((W + ME + ME) * (W + ME - ME))).
  assert (QP : P * P = E * E - m * m) by (unfold P; rewrite sqrt_sqrt by lra; ring).
  assert (Qf : pf * pf = (E - W) * (E - W) - m * m) by (unfold pf; rewrite sqrt_sqrt by lra; ring).
  assert (Qe : pe * pe = (W + ME) * (W + ME) - ME * ME) by (unfold pe; rewrite sqrt_sqrt by lra; ring).
  assert (PP : 0 < P) by (apply sqrt_lt_R0; lra). assert (Pf : 0 < pf) by (apply sqrt_lt_R0; lra).
  assert (Pe : 0 < pe) by (apply sqrt_lt_R0; lra).
  rewrite !quotient_ok by (apply Rgt_not_eq, Rmult_lt_0_compat; auto). cbn [obind].
  set (N0 := (E + ME) * (E - W) - E * ME - m * m). set (N1 := (E + ME) * (W + ME) - E * ME - ME * ME).
  assert (T0 : P * P * (pf * pf) - N0 * N0 = W * (2 * ME * (E * E - m * m) - W * (m * m + 2 * E * ME + ME * ME))).
  { rewrite QP, Qf. unfold N0. ring. }
  assert (T1 : P * P * (pe * pe) - N1 * N1 = W * (2 * ME * (E * E - m * m) - W * (m * m + 2 * E * ME + ME * ME))).
  { rewrite QP, Qe. unfold N1. ring. }
  assert (TP : 0 <= W * (2 * ME * (E * E - m * m) - W * (m * m + 2 * E * ME + ME * ME))) by (apply Rmult_le_pos; lra).
  destruct (cosine P pf N0 PP Pf ltac:(lra)) as (C0 & L0 & S0). destruct (cosine P pe N1 PP Pe ltac:(lra)) as (C1 & L1 & S1).
  set (c0 := N0 / (P * pf)) in *. set (c1 := N1 / (P * pe)) in *.
  eexists. split; [cbn [opposite]; reflexivity|]. apply (two_products l m ty 11%Z m ME (E - W) (W + ME) c0 c1 r0); auto; try lra.
  - fold E. lra.
  - rewrite <- Qf, <- Qe, S0, S1, T0, T1. reflexivity.
  - rewrite <- Qf, <- Qe. fold E. rewrite <- QP, !sqrt_square by lra. rewrite L0, L1.
    apply Rmult_eq_reg_r with P; [|lra]. replace ((N0 / P + N1 / P) * P) with (N0 + N1) by (field; lra).
    rewrite QP. unfold N0, N1. ring.
Qed.

(** ** Compton scattering *)
Lemma compton_kinematics nan l c rnd r0 : let E := sl_parent_energy l in let W := sl_energy l in
  unit (sl_direction l) -> nth_error rnd 0 = Some r0 -> 0 < W < E -> W * (2 * E + ME) <= 2 * E * E ->
  exists ps, compton nan l c rnd = Ok ps /\ collision [22%Z; 11%Z] [0; ME] 0 l ps.
Proof.
  intros E W U R0 HW HK. pose proof ME_pos as HM. unfold compton. fold E. fold W.
  rewrite quotient_ok by lra. cbn [obind]. unfold at_index. rewrite R0. cbn [obind].
  assert (V : E * (W / E) = W) by (field; lra). unfold compton_directions.
  replace (E * (1 - W / E)) with (E - W) by lra. rewrite quotient_ok by lra. cbn [obind].
  replace (2 * (W / E) * E * ME + W / E * (W / E) * E * E) with ((W + ME) * (W + ME) - ME * ME) by (field; lra).
  assert (A : 0 < (W + ME) * (W + ME) - ME * ME) by nra. rewrite root_ok by lra. cbn [obind].
  set (pe := sqrt ((W + ME) * (W + ME) - ME * ME)).
  assert (Qe : pe * pe = (W + ME) * (W + ME) - ME * ME) by (unfold pe; rewrite sqrt_sqrt by lra; ring).
  assert (Pe : 0 < pe) by (apply sqrt_lt_R0; lra). rewrite quotient_ok by lra. cbn [obind].
  set (N0 := E * (E - W) - W * ME). set (N1 := W * (E + ME)).
  assert (T0 : E * E * ((E - W) * (E - W)) - N0 * N0 = W * ME * (2 * E * E - W * (2 * E + ME))) by (unfold N0; ring).
  assert (T1 : E * E * (pe * pe) - N1 * N1 = W * ME * (2 * E * E - W * (2 * E + ME))) by (rewrite Qe; unfold N1; ring).
  assert (TP : 0 <= W * ME * (2 * E * E - W * (2 * E + ME))) by (apply Rmult_le_pos; nra).
  destruct (cosine E (E - W) N0 ltac:(lra) ltac:(lra) ltac:(lra)) as (C0 & L0 & S0).
  destruct (cosine E pe N1 ltac:(lra) Pe ltac:(lra)) as (C1 & L1 & S1).
  replace (1 - W / E * ME / (E - W)) with (N0 / (E * (E - W))) by (unfold N0; field; lra).
  replace (W / E * (E + ME) / pe) with (N1 / (E * pe)) by (unfold N1; field; lra).
  set (c0 := N0 / (E * (E - W))) in *. set (c1 := N1 / (E * pe)) in *. rewrite V, (Rplus_comm ME W).
  eexists. split; [reflexivity|]. apply (two_products l 0 22%Z 11%Z 0 ME (E - W) (W + ME) c0 c1 r0); auto; try lra.
  - fold E. lra.
  - rewrite Rmult_0_r, Rminus_0_r, <- Qe, S0, S1, T0, T1. reflexivity.
  - rewrite Rmult_0_r, !Rminus_0_r, <- Qe, !sqrt_square by lra. fold E. rewrite sqrt_square by lra. rewrite L0, L1.
    unfold N0, N1. field. lra.
Qed.

(** ** Annihilation *)
Lemma heitler_rho_range nan E rnd : ME < E -> 0 <= rnd <= 1 ->
  exists rho, heitler_rho nan ME E rnd = Ok rho /\ 0 < rho < 1 /\ ME <= 2 * (E + ME) * (rho * (1 - rho)).
Proof.
  intros HE Hr. pose proof ME_pos as HM. unfold heitler_rho. rewrite quotient_ok by lra. cbn [obind].
  set (g := E / ME). assert (G : 1 < g). { unfold g. apply Rmult_lt_reg_r with ME; auto. unfold Rdiv. rewrite Rmult_assoc, Rinv_l by lra. lra. }
  destruct (Rleb_spec g 1); [lra|]. set (q := (g - 1) / (g + 1)).
  assert (Q : 0 < q < 1). { unfold q. split; [apply Rdiv_lt_0_compat; lra|]. apply Rmult_lt_reg_r with (g + 1); [lra|].
    unfold Rdiv. rewrite Rmult_assoc, Rinv_l by lra. lra. }
  set (a := sqrt q). assert (AA : a * a = q) by (apply sqrt_sqrt; lra). assert (A0 : 0 < a) by (apply sqrt_lt_R0; lra).
  assert (A1 : a < 1) by nra. set (lo := 1 / 2 * (1 - a)). set (hi := 1 / 2 * (1 + a)).
  match goal with |- context [bisection ?ff lo hi ?x ?k] => set (f := ff); set (acc := x) end.
  assert (FL : f lo * f hi <= 0).
  { unfold f, heitler_f. set (D := f_term _ _ hi - f_term _ _ lo).
    match goal with |- ?u * ?v <= 0 => replace (u * v) with (- (rnd * (1 - rnd) * (D * D))) by (unfold D; ring) end.
    assert (0 <= rnd * (1 - rnd)) by nra. assert (0 <= D * D) by nra. nra. }
  unfold bisection. destruct (Rltb_spec 0 (f lo * f hi)); [lra|].
  destruct (Rltb_spec hi lo); [unfold hi, lo in *; lra|]. cbn [obind].
  pose proof (bisection_loop_ok f acc 100 lo hi ltac:(unfold lo, hi; lra) FL) as B.
  destruct (bisection_loop f acc 100 lo hi) as [x y]. cbn [fst]. exists x. split; auto.
  assert (LX : lo <= x <= hi) by (cbn in B; lra). unfold lo, hi in LX. split; [lra|].
  assert (X : (1 - q) / 4 <= x * (1 - x)). { rewrite <- AA. assert (0 <= (x - 1 / 2 * (1 - a)) * (1 / 2 * (1 + a) - x)) by (apply Rmult_le_pos; lra). nra. }
  assert (EQ : (1 - q) / 4 = ME / (2 * (E + ME))). { unfold q, g. field. lra. }
  rewrite EQ in X. apply Rmult_le_reg_r with (/ (2 * (E + ME))); [apply Rinv_0_lt_compat; lra|].
  replace (2 * (E + ME) * (x * (1 - x)) * / (2 * (E + ME))) with (x * (1 - x)) by (field; lra). exact X.
Qed.
Lemma annihilation_kinematics nan l c rnd r0 r1 : let E := sl_parent_energy l in
  unit (sl_direction l) -> nth_error rnd 0 = Some r0 -> nth_error rnd 1 = Some r1 -> 0 <= r0 <= 1 -> ME < E ->
  exists ps, annihilation nan ME l c rnd = Ok ps /\ collision [22%Z; 22%Z] [0; 0] ME l ps.
Proof.
  intros E U R0 R1 Hr HE. pose proof ME_pos as HM. unfold annihilation. fold E. unfold at_index. rewrite R0, R1. cbn [obind].
  destruct (heitler_rho_range nan E r0 HE Hr) as (rho & -> & H01 & HB). cbn [obind]. unfold heitler_directions.
  assert (A : 0 < (E + ME) * (E - ME)) by nra. rewrite root_ok by lra. cbn [obind].
  set (P := sqrt ((E + ME) * (E - ME))). assert (QP : P * P = E * E - ME * ME) by (unfold P; rewrite sqrt_sqrt by lra; ring).
  assert (PP : 0 < P) by (apply sqrt_lt_R0; lra).
  rewrite !quotient_ok by (apply Rgt_not_eq, Rmult_lt_0_compat; lra). cbn [obind].
  set (S := E + ME). set (k0 := S * (1 - rho)). set (k1 := S * rho).
  set (N0 := S * (S * (1 - rho) - ME)). set (N1 := S * (S * rho - ME)).
  assert (K0 : 0 < k0) by (unfold k0, S; apply Rmult_lt_0_compat; lra). assert (K1 : 0 < k1) by (unfold k1, S; apply Rmult_lt_0_compat; lra).
  assert (T0 : P * P * (k0 * k0) - N0 * N0 = S * S * ME * (2 * S * (rho * (1 - rho)) - ME)) by (rewrite QP; unfold N0, k0, S; ring).
  assert (T1 : P * P * (k1 * k1) - N1 * N1 = S * S * ME * (2 * S * (rho * (1 - rho)) - ME)) by (rewrite QP; unfold N1, k1, S; ring).
  assert (TP : 0 <= S * S * ME * (2 * S * (rho * (1 - rho)) - ME)).
  { apply Rmult_le_pos; [repeat apply Rmult_le_pos; unfold S; lra|]. fold S in HB. lra. }
  destruct (cosine P k0 N0 PP K0 ltac:(lra)) as (C0 & L0 & S0). destruct (cosine P k1 N1 PP K1 ltac:(lra)) as (C1 & L1 & S1).
  replace ((k0 - ME) / ((1 - rho) * P)) with (N0 / (P * k0)) by (unfold N0, k0, S; field; lra).
  replace ((k1 - ME) / (rho * P)) with (N1 / (P * k1)) by (unfold N1, k1, S; field; lra).
  set (c0 := N0 / (P * k0)) in *. set (c1 := N1 / (P * k1)) in *.
  eexists. split; [reflexivity|]. apply (two_products l ME 22%Z 22%Z 0 0 k0 k1 c0 c1 r1); auto; try lra.
  - fold E. unfold k0, k1, S. ring.
  - rewrite Rmult_0_r, !Rminus_0_r, S0, S1, T0, T1. reflexivity.
  - rewrite Rmult_0_r, !Rminus_0_r, !sqrt_square by lra. fold E. rewrite <- QP, sqrt_square by lra. rewrite L0, L1.
    apply Rmult_eq_reg_r with P; [|lra]. replace ((N0 / P + N1 / P) * P) with (N0 + N1) by (field; lra).
    rewrite QP. unfold N0, N1, S. ring.
Qed.
