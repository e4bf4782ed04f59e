(** Vectors and directions (C29, C30, C37). *)
From Verif Require Import Prelude PreludeFacts Vec_Model Shapes_Spec.

Lemma sin2_cos2 t : sin t * sin t + cos t * cos t = 1.
Proof. exact (sin2_cos2 t). Qed.

(** ** atan2 *)
Lemma sqrt_ratio x y : 0 < x -> sqrt (1 + (y / x)²) = sqrt (x * x + y * y) / x.
Proof.
  intros Hx. replace (1 + (y / x)²) with ((x * x + y * y) / (x * x)) by (unfold Rsqr; field; lra).
  rewrite sqrt_div_alt by nra. rewrite sqrt_square by lra. auto.
Qed.
Lemma rho_pos x y : x <> 0 \/ y <> 0 -> 0 < sqrt (x * x + y * y).
Proof. intros H. apply sqrt_lt_R0. destruct H; nra. Qed.
Lemma atan2_polar x y : let rho := sqrt (x * x + y * y) in
  rho * cos (atan2 y x) = x /\ rho * sin (atan2 y x) = y.
Proof.
  intros rho. unfold atan2.
  assert (HP : forall x, 0 < x -> forall y, let rho := sqrt (x * x + y * y) in
    rho * cos (atan (y / x)) = x /\ rho * sin (atan (y / x)) = y).
  { clear. intros x Hx y rho. rewrite cos_atan, sin_atan, sqrt_ratio by auto. fold rho.
    assert (0 < rho) by (apply rho_pos; lra). split; field; lra. }
  destruct (Rltb_spec 0 x) as [H|H]; [apply HP; auto|].
  destruct (Rltb_spec x 0) as [H1|H1].
  - destruct (HP (- x) ltac:(lra) (- y)) as [A B].
    replace (- x * - x + - y * - y) with (x * x + y * y) in * by ring. fold rho in A, B.
    replace (- y / - x) with (y / x) in * by (field; lra).
    destruct (Rleb_spec 0 y).
    + rewrite neg_cos, neg_sin. split; lra.
    + unfold Rminus. rewrite <- (cos_period (atan (y / x) + - PI) 1), <- (sin_period (atan (y / x) + - PI) 1).
      replace (atan (y / x) + - PI + 2 * INR 1 * PI) with (atan (y / x) + PI) by (cbn; ring).
      rewrite neg_cos, neg_sin. split; lra.
  - assert (x = 0) by lra. subst x.
    destruct (Rltb_spec 0 y) as [H2|H2]; [|destruct (Rltb_spec y 0) as [H3|H3]].
    + assert (rho = y) by (unfold rho; replace (0 * 0 + y * y) with (y * y) by ring; apply sqrt_square; lra).
      rewrite cos_PI2, sin_PI2. split; lra.
    + assert (rho = - y) by (unfold rho; replace (0 * 0 + y * y) with (- y * - y) by ring; apply sqrt_square; lra).
      rewrite cos_neg, sin_neg, cos_PI2, sin_PI2. split; lra.
    + assert (rho = 0) by (unfold rho; replace (0 * 0 + y * y) with 0 by nra; apply sqrt_0).
      rewrite cos_0, sin_0. split; lra.
Qed.
Lemma atan2_range x y : - PI < atan2 y x <= PI.
Proof.
  pose proof PI_RGT_0. unfold atan2.
  assert (HA : forall t, - (PI / 2) < atan t < PI / 2) by (intros t; pose proof (atan_bound t); lra).
  destruct (Rltb_spec 0 x); [specialize (HA (y / x)); lra|].
  destruct (Rltb_spec x 0).
  - pose proof (HA (y / x)). destruct (Rleb_spec 0 y).
    + assert (atan (y / x) <= 0); [|lra].
      destruct (Req_dec y 0) as [->|Hy]; [unfold Rdiv; rewrite Rmult_0_l, atan_0; lra|].
      rewrite <- atan_0. left. apply atan_increasing.
      replace (y / x) with (- (y / - x)) by (field; lra).
      assert (0 < y / - x) by (apply Rdiv_lt_0_compat; lra). lra.
    + assert (0 < atan (y / x)); [|lra].
      rewrite <- atan_0. apply atan_increasing.
      replace (y / x) with (- y / - x) by (field; lra). apply Rdiv_lt_0_compat; lra.
  - destruct (Rltb_spec 0 y); [lra|]. destruct (Rltb_spec y 0); lra.
Qed.
Lemma angle_unique a b : - PI < a <= PI -> - PI < b <= PI -> cos a = cos b -> sin a = sin b -> a = b.
Proof.
  intros Ha Hb Hc Hs. pose proof PI_RGT_0.
  assert (HC : cos (a - b) = 1).
  { rewrite cos_minus, Hc, Hs. pose proof (sin2_cos2 b). lra. }
  replace (a - b) with (2 * ((a - b) / 2)) in HC by field. rewrite cos_2a_sin in HC.
  set (t := (a - b) / 2) in *. assert (sin t = 0) by nra.
  destruct (Rtotal_order t 0) as [H1|[H1|H1]].
  - assert (0 < sin (- t)) by (apply sin_gt_0; unfold t in *; lra). rewrite sin_neg in *. lra.
  - unfold t in H1. lra.
  - assert (0 < sin t) by (apply sin_gt_0; unfold t in *; lra). lra.
Qed.
Lemma atan2_unique rho a : 0 < rho -> - PI < a <= PI -> atan2 (rho * sin a) (rho * cos a) = a.
Proof.
  intros Hr Ha. pose proof (atan2_polar (rho * cos a) (rho * sin a)) as [A B].
  replace (rho * cos a * (rho * cos a) + rho * sin a * (rho * sin a)) with (rho * rho * (sin a * sin a + cos a * cos a)) in A, B by ring.
  rewrite sin2_cos2, Rmult_1_r, sqrt_square in A, B by lra.
  apply angle_unique; auto; [apply atan2_range| |].
  - apply (Rmult_eq_reg_l rho); lra.
  - apply (Rmult_eq_reg_l rho); lra.
Qed.

(** ** C30 *)
Lemma magnitude_nonneg a : 0 <= magnitude a.
Proof. apply sqrt_pos. Qed.
Lemma magnitude_sq a : magnitude a * magnitude a = dot a a.
Proof. unfold magnitude, dot. apply sqrt_sqrt. nra. Qed.
Lemma magnitude_zero a : magnitude a = 0 -> a = mkvec 0 0 0.
Proof.
  intros H. pose proof (magnitude_sq a) as E. rewrite H in E. unfold dot in E. destruct a as [x y z]. cbn in *.
  assert (x = 0) by nra. assert (y = 0) by nra. assert (z = 0) by nra. subst. auto.
Qed.
Lemma cosine_range a : magnitude a <> 0 -> -1 <= vz a / magnitude a <= 1.
Proof.
  intros H. pose proof (magnitude_nonneg a) as HN. pose proof (magnitude_sq a) as E. unfold dot in E.
  assert (0 < magnitude a) by lra.
  set (m := magnitude a) in *. split.
  - apply (Rmult_le_reg_r m); auto. replace (vz a / m * m) with (vz a) by (field; lra). nra.
  - apply (Rmult_le_reg_r m); auto. replace (vz a / m * m) with (vz a) by (field; lra). nra.
Qed.
Lemma c30_from_to a : from_spherical (to_spherical a) = a.
Proof.
  unfold to_spherical. destruct (Reqb_spec (magnitude a) 0) as [E|E].
  - rewrite (magnitude_zero a E). unfold from_spherical. cbn. f_equal; ring.
  - pose proof (cosine_range a E) as HC. pose proof (magnitude_nonneg a).
    unfold from_spherical. cbn [radius azimuth zenith]. rewrite cos_acos, sin_acos by auto.
    set (m := magnitude a) in *. set (rho := sqrt (vx a * vx a + vy a * vy a)).
    assert (HR : m * sqrt (1 - (vz a / m)²) = rho).
    { unfold rho. rewrite <- (sqrt_square m) at 1 by auto. rewrite <- sqrt_mult_alt by nra. f_equal.
      replace (m * m * (1 - (vz a / m)²)) with (m * m - vz a * vz a) by (unfold Rsqr; field; auto).
      unfold m. rewrite magnitude_sq. unfold dot. ring. }
    destruct (atan2_polar (vx a) (vy a)) as [A B]. fold rho in A, B.
    destruct a as [x y z]. cbn [vx vy vz] in *. f_equal.
    + rewrite <- A at 2. rewrite <- HR. ring.
    + rewrite <- B at 2. rewrite <- HR. ring.
    + field. auto.
Qed.
Lemma c30_range a : 0 <= radius (to_spherical a) /\ - PI < azimuth (to_spherical a) <= PI /\ 0 <= zenith (to_spherical a) <= PI /\
  radius (to_spherical a) = dist a (mkvec 0 0 0).
Proof.
  assert (HD : dist a (mkvec 0 0 0) = magnitude a).
  { unfold dist, sqdist, magnitude, dot, vsub. cbn. f_equal. ring. }
  rewrite HD. pose proof PI_RGT_0. unfold to_spherical. destruct (Reqb_spec (magnitude a) 0) as [E|E]; cbn.
  - repeat split; lra.
  - pose proof (magnitude_nonneg a). pose proof (atan2_range (vx a) (vy a)). pose proof (acos_bound (vz a / magnitude a)). tauto.
Qed.
Lemma from_spherical_dot s : dot (from_spherical s) (from_spherical s) = radius s * radius s.
Proof.
  destruct s as [r a z]. unfold dot, from_spherical. cbn.
  replace (r * cos a * sin z * (r * cos a * sin z) + r * sin a * sin z * (r * sin a * sin z) + r * cos z * (r * cos z))
    with (r * r * ((sin a * sin a + cos a * cos a) * (sin z * sin z) + cos z * cos z)) by ring.
  rewrite sin2_cos2, Rmult_1_l, sin2_cos2. ring.
Qed.
Lemma c30_to_from s : 0 < radius s -> - PI < azimuth s <= PI -> 0 < zenith s < PI -> to_spherical (from_spherical s) = s.
Proof.
  intros Hr Ha Hz. pose proof (from_spherical_dot s) as HD. pose proof (sin_gt_0 (zenith s) ltac:(lra) ltac:(lra)) as HS.
  assert (HM : magnitude (from_spherical s) = radius s).
  { unfold magnitude. change (sqrt (dot (from_spherical s) (from_spherical s)) = radius s). rewrite HD. apply sqrt_square. lra. }
  unfold to_spherical. rewrite HM. destruct (Reqb_spec (radius s) 0); [lra|].
  destruct s as [r a z]. cbn [radius azimuth zenith from_spherical vx vy vz] in *. f_equal.
  - replace (r * sin a * sin z) with ((r * sin z) * sin a) by ring.
    replace (r * cos a * sin z) with ((r * sin z) * cos a) by ring. apply atan2_unique; auto. apply Rmult_lt_0_compat; auto.
  - unfold from_spherical; cbn. replace (r * cos z / r) with (cos z) by (field; lra). apply acos_cos. lra.
Qed.

(** ** The rotated frame *)
Lemma direction_angles d : unit d -> exists ph th, azimuth (to_spherical d) = ph /\ zenith (to_spherical d) = th /\
  d = mkvec (cos ph * sin th) (sin ph * sin th) (cos th).
Proof.
  intros H. exists (azimuth (to_spherical d)), (zenith (to_spherical d)). split; auto. split; auto.
  rewrite <- (c30_from_to d) at 1. unfold from_spherical.
  assert (HR : radius (to_spherical d) = 1).
  { assert (HM : magnitude d = 1).
    { unfold magnitude. change (sqrt (dot d d) = 1). rewrite H. apply sqrt_1. }
    unfold to_spherical. rewrite HM. destruct (Reqb_spec 1 0); [lra|auto]. }
  rewrite HR. f_equal; ring.
Qed.
Lemma frame d : unit d -> let rx := rotate_vector_x d in let ry := rotate_vector_y d in
  unit rx /\ unit ry /\ dot d rx = 0 /\ dot d ry = 0 /\ dot rx ry = 0 /\ cross d rx = ry.
Proof.
  intros H rx ry. destruct (direction_angles d H) as (ph & th & H1 & H2 & H3).
  unfold rx, ry, rotate_vector_x, rotate_vector_y. rewrite H1, H2. rewrite H3 at 1 2 3.
  pose proof (sin2_cos2 ph) as E1. pose proof (sin2_cos2 th) as E2. unfold unit, dot, cross. cbn.
  set (a := cos ph) in *. set (b := sin ph) in *. set (c := cos th) in *. set (s := sin th) in *.
  split; [|split; [|split; [|split; [|split]]]].
  - replace (c * a * (c * a) + c * b * (c * b) + - s * - s) with (c * c * (b * b + a * a) + s * s) by ring.
    rewrite E1. lra.
  - lra.
  - replace (a * s * (c * a) + b * s * (c * b) + c * - s) with (s * c * (b * b + a * a - 1)) by ring. rewrite E1. ring.
  - ring.
  - ring.
  - f_equal.
    + replace (b * s * - s - c * (c * b)) with (- b * (s * s + c * c)) by ring. rewrite E2. ring.
    + replace (c * (c * a) - a * s * - s) with (a * (s * s + c * c)) by ring. rewrite E2. ring.
    + ring.
Qed.
Lemma combination_dot d rx ry a b c a' b' c' :
  unit d -> unit rx -> unit ry -> dot d rx = 0 -> dot d ry = 0 -> dot rx ry = 0 ->
  dot (mkvec (a * vx d + b * vx rx + c * vx ry) (a * vy d + b * vy rx + c * vy ry) (a * vz d + b * vz rx + c * vz ry))
      (mkvec (a' * vx d + b' * vx rx + c' * vx ry) (a' * vy d + b' * vy rx + c' * vy ry) (a' * vz d + b' * vz rx + c' * vz ry))
  = a * a' + b * b' + c * c'.
Proof.
  unfold unit. intros H1 H2 H3 H4 H5 H6.
  transitivity (a * a' * dot d d + b * b' * dot rx rx + c * c' * dot ry ry
    + (a * b' + b * a') * dot d rx + (a * c' + c * a') * dot d ry + (b * c' + c * b') * dot rx ry).
  - unfold dot. cbn. ring.
  - rewrite H1, H2, H3, H4, H5, H6. ring.
Qed.

(** ** C29 *)
Lemma deflect_components c t : -1 <= c <= 1 ->
  let sp := sqrt (Rmax 0 ((1 - c) * (1 + c))) in
  let tx := sp * cos t in let ty := sp * sin t in
  let tz0 := sqrt (Rmax (1 - tx * tx - ty * ty) 0) in
  sp = sqrt (1 - c * c) /\ sp * sp = 1 - c * c /\ (if c <? 0 then - tz0 else tz0) = c.
Proof.
  intros Hc sp tx ty tz0.
  assert (H0 : 0 <= (1 - c) * (1 + c)) by nra.
  assert (E : sp = sqrt (1 - c * c)).
  { unfold sp. rewrite Rmax_right by auto. f_equal. ring. }
  assert (E2 : sp * sp = 1 - c * c).
  { rewrite E. apply sqrt_sqrt. nra. }
  split; auto. split; auto.
  assert (E3 : 1 - tx * tx - ty * ty = c * c).
  { unfold tx, ty. replace (1 - sp * cos t * (sp * cos t) - sp * sin t * (sp * sin t))
      with (1 - sp * sp * (sin t * sin t + cos t * cos t)) by ring. rewrite sin2_cos2, E2. ring. }
  assert (E4 : tz0 = Rabs c).
  { unfold tz0. rewrite E3, Rmax_left by nra. apply sqrt_Rsqr_abs. }
  rewrite E4. destruct (Rltb_spec c 0); [rewrite Rabs_left|rewrite Rabs_right]; lra.
Qed.
Lemma deflect_form d c t : unit d -> -1 <= c <= 1 ->
  deflect d c t = let rx := rotate_vector_x d in let ry := rotate_vector_y d in
    let s := sqrt (1 - c * c) in
    mkvec (c * vx d + s * cos t * vx rx + s * sin t * vx ry)
          (c * vy d + s * cos t * vy rx + s * sin t * vy ry)
          (c * vz d + s * cos t * vz rx + s * sin t * vz ry).
Proof.
  intros Hd Hc. destruct (deflect_components c t Hc) as (E1 & E2 & E3). unfold deflect. cbv zeta.
  destruct (negb (c =? 1) || negb (t =? 0)) eqn:EB.
  - rewrite E3, E1. auto.
  - apply orb_false_iff in EB as [B1 B2]. apply negb_false_iff in B1, B2. apply Reqb_true in B1, B2. subst.
    replace (1 - 1 * 1) with 0 by ring. rewrite sqrt_0, !Rmult_0_l. destruct d. cbn. f_equal; ring.
Qed.
Lemma c29_deflect d c t : unit d -> -1 <= c <= 1 ->
  unit (deflect d c t) /\ dot d (deflect d c t) = c /\
  forall t', dot (deflect d c t) (deflect d c t') = c * c + (1 - c * c) * cos (t - t').
Proof.
  intros Hd Hc. destruct (frame d Hd) as (F1 & F2 & F3 & F4 & F5 & _).
  assert (HS : sqrt (1 - c * c) * sqrt (1 - c * c) = 1 - c * c) by (apply sqrt_sqrt; nra).
  assert (HG : forall t', dot (deflect d c t) (deflect d c t') = c * c + (1 - c * c) * cos (t - t')).
  { intros t'. rewrite !deflect_form by auto. cbv zeta. rewrite combination_dot by auto.
    rewrite cos_minus. set (s := sqrt (1 - c * c)) in *. rewrite <- HS. ring. }
  split; [|split]; auto.
  - unfold unit. rewrite HG. replace (t - t) with 0 by ring. rewrite cos_0. ring.
  - rewrite deflect_form by auto. cbv zeta.
    pose proof (combination_dot d (rotate_vector_x d) (rotate_vector_y d) 1 0 0 c (sqrt (1 - c * c) * cos t)
      (sqrt (1 - c * c) * sin t) Hd F1 F2 F3 F4 F5) as E.
    rewrite !Rmult_1_l, !Rmult_0_l, !Rplus_0_r in E. etransitivity; [|exact E]. unfold dot. cbn. ring.
Qed.
(** Azimuths turn in the positive sense around the direction. *)
Lemma c29_sense d c t t' : unit d -> -1 <= c <= 1 ->
  dot d (cross (deflect d c t) (deflect d c t')) = (1 - c * c) * sin (t' - t).
Proof.
  intros Hd Hc. destruct (frame d Hd) as (F1 & F2 & F3 & F4 & F5 & F6).
  assert (HS : sqrt (1 - c * c) * sqrt (1 - c * c) = 1 - c * c) by (apply sqrt_sqrt; nra).
  rewrite !deflect_form by auto. cbv zeta. set (s := sqrt (1 - c * c)) in *. rewrite sin_minus, <- HS.
  assert (HT : dot d (cross (rotate_vector_x d) (rotate_vector_y d)) = 1).
  { rewrite <- F6. unfold unit in *. set (r := rotate_vector_x d) in *.
    transitivity (dot d d * dot r r - dot d r * dot d r).
    - unfold dot, cross. cbn. ring.
    - rewrite Hd, F1, F3. ring. }
  transitivity (s * s * (sin t' * cos t - cos t' * sin t) * dot d (cross (rotate_vector_x d) (rotate_vector_y d))).
  - unfold dot, cross. cbn. ring.
  - rewrite HT. ring.
Qed.
Lemma c29_identity d c t : unit d -> c = 1 -> deflect d c t = d.
Proof.
  intros Hd ->. rewrite deflect_form by (auto; lra). cbv zeta. replace (1 - 1 * 1) with 0 by ring.
  rewrite sqrt_0, !Rmult_0_l. destruct d. cbn. f_equal; ring.
Qed.

(** ** C37 *)
Lemma direction_part d u v : unit d -> u * u + v * v <= 1 ->
  let w := sqrt (Rmax (1 - (u * u + v * v)) 0) in
  let r := vadd (vadd (scale w d) (scale u (rotate_vector_x d))) (scale v (rotate_vector_y d)) in
  unit r /\ dot d r = sqrt (1 - (u * u + v * v)).
Proof.
  intros Hd H w r. destruct (frame d Hd) as (F1 & F2 & F3 & F4 & F5 & _).
  assert (Ew : w = sqrt (1 - (u * u + v * v))) by (unfold w; rewrite Rmax_left; lra).
  assert (HS : w * w = 1 - (u * u + v * v)) by (rewrite Ew; apply sqrt_sqrt; lra).
  assert (Er : r = mkvec (w * vx d + u * vx (rotate_vector_x d) + v * vx (rotate_vector_y d))
     (w * vy d + u * vy (rotate_vector_x d) + v * vy (rotate_vector_y d))
     (w * vz d + u * vz (rotate_vector_x d) + v * vz (rotate_vector_y d))).
  { unfold r, vadd, scale. cbn [vx vy vz]. f_equal; ring. }
  rewrite Er. split.
  - unfold unit. rewrite combination_dot by auto. lra.
  - rewrite <- Ew. pose proof (combination_dot d (rotate_vector_x d) (rotate_vector_y d) 1 0 0 w u v Hd F1 F2 F3 F4 F5) as E.
    rewrite !Rmult_1_l, !Rmult_0_l, !Rplus_0_r in E. etransitivity; [|exact E]. unfold dot. cbn. ring.
Qed.
Lemma c37_scatter d o : unit d -> o_sx o * o_sx o + o_sy o * o_sy o <= 1 -> o_tx o * o_tx o + o_ty o * o_ty o <= 1 ->
  let '(mean, final) := scatter_initial_direction d o in
  unit mean /\ unit final /\
  dot d mean = sqrt (1 - (o_sx o * o_sx o + o_sy o * o_sy o)) /\
  dot d final = sqrt (1 - (o_tx o * o_tx o + o_ty o * o_ty o)).
Proof.
  intros Hd H1 H2. unfold scatter_initial_direction.
  destruct (direction_part d _ _ Hd H1) as [A B]. destruct (direction_part d _ _ Hd H2) as [C D]. auto.
Qed.
Lemma c37_zero d : unit d -> scatter_initial_direction d (mkoffset 0 0 0 0) = (d, d).
Proof.
  intros Hd. unfold scatter_initial_direction. cbn [o_sx o_sy o_tx o_ty].
  replace (1 - (0 * 0 + 0 * 0)) with 1 by ring. rewrite Rmax_left by lra. rewrite sqrt_1.
  unfold vadd, scale. cbn [vx vy vz]. destruct d. f_equal; cbn; f_equal; ring.
Qed.
Lemma c37_large_refuted : exists d o, unit d /\ forall mean final, scatter_initial_direction d o = (mean, final) -> ~ unit final.
Proof.
  exists (mkvec 1 0 0), (mkoffset 0 0 2 0).
  assert (Hd : unit (mkvec 1 0 0)) by (unfold unit, dot; cbn; ring).
  split; auto. intros mean final E HU. injection E as E1 E2. destruct (frame _ Hd) as (F1 & F2 & F3 & F4 & F5 & _).
  rewrite Rmax_right in E2 by lra. rewrite sqrt_0 in E2.
  pose proof (combination_dot _ _ _ 0 2 0 0 2 0 Hd F1 F2 F3 F4 F5) as E.
  assert (HF : dot final final = 0 * 0 + 2 * 2 + 0 * 0).
  { rewrite <- E, <- E2. unfold dot, vadd, scale. cbn [vx vy vz]. ring. }
  unfold unit in HU. lra.
Qed.
(** Vectors of other lengths are not turned but change their length. *)
Lemma c29_not_normalised_refuted : exists d c t, dot d d = 4 /\ -1 <= c <= 1 /\
  dot (deflect d c t) (deflect d c t) <> dot d d.
Proof.
  exists (mkvec 0 0 2), 0, 0. split; [unfold dot; cbn; ring|]. split; [lra|].
  assert (HM : magnitude (mkvec 0 0 2) = 2).
  { unfold magnitude. cbn. replace (0 * 0 + 0 * 0 + 2 * 2) with (2 * 2) by ring. apply sqrt_square. lra. }
  unfold deflect, rotate_vector_x, rotate_vector_y, to_spherical. rewrite HM.
  destruct (Reqb_spec 0 1) as [|_]; [lra|]. cbn [negb orb]. destruct (Reqb_spec 2 0) as [|_]; [lra|].
  cbn [azimuth zenith vx vy vz]. replace (2 / 2) with 1 by field. rewrite acos_1, cos_0, sin_0.
  replace ((1 - 0) * (1 + 0)) with 1 by ring. rewrite (Rmax_right 0 1) by lra. rewrite sqrt_1.
  replace (1 - 1 * 1 * (1 * 1) - 1 * 0 * (1 * 0)) with 0 by ring. rewrite (Rmax_left 0 0) by lra. rewrite sqrt_0.
  assert (E : atan2 0 0 = 0).
  { unfold atan2. destruct (Rltb_spec 0 0); [lra|]. auto. }
  rewrite E, cos_0, sin_0. destruct (Rltb_spec 0 0); [lra|]. unfold dot. cbn. lra.
Qed.
