(** Proofs about deflections. *)
From Coquelicot Require Rcomplements.
From Verif Require Import Prelude PreludeFacts Particle_Model Limits_Model Limits_Spec Math_Model Math_Proofs Vec_Model Geometry_Model Propagator_Model
  Deflection_Model Deflection_Spec.

Lemma yes_lt a b : a < b -> (a <? b) = true. Proof. apply Rltb_true. Qed.
Lemma no_lt a b : b <= a -> (a <? b) = false. Proof. apply Rltb_false. Qed.
Lemma yes_le a b : a <= b -> (a <=? b) = true. Proof. apply Rleb_true. Qed.
Lemma no_le a b : b < a -> (a <=? b) = false. Proof. apply Rleb_false. Qed.
Lemma no_eq a b : a <> b -> (a =? b) = false. Proof. apply Reqb_false. Qed.

Section Deflection.
Variable nan : forall A, outcome A.
Notation quotient := (quotient nan). Notation root := (root nan). Notation power := (power nan). Notation logarithm := (logarithm nan).

Lemma quotient_ok a b : b <> 0 -> quotient a b = Ok (a / b).
Proof. intro H. unfold Deflection_Model.quotient. rewrite no_eq by exact H. reflexivity. Qed.
Lemma root_ok a : 0 <= a -> root a = Ok (sqrt a).
Proof. intro H. unfold Deflection_Model.root. rewrite no_lt by exact H. reflexivity. Qed.
Lemma power_ok x y : 0 < x -> power x y = Ok (Rpower x y).
Proof. intro H. unfold Deflection_Model.power. rewrite yes_lt by exact H. reflexivity. Qed.
Lemma logarithm_ok x : 0 < x -> logarithm x = Ok (ln x).
Proof. intro H. unfold Deflection_Model.logarithm. rewrite yes_lt by exact H. reflexivity. Qed.
Lemma azimuth_range r : 0 <= r < 1 -> 0 <= 2 * PI * r < 2 * PI.
Proof. intro H. pose proof PI_RGT_0. split; nra. Qed.

(** ** Bremsstrahlung after Tsai *)
Lemma tsai_value m e_i e_f r0 r1 l : 0 < m -> 0 < e_f <= e_i -> 0 <= r0 <= 1 ->
  exists theta, brems_tsai nan m e_i e_f (r0 :: r1 :: l) = Ok (theta, 2 * PI * r1) /\ 0 <= theta /\
  let top := Rmin 1 ((e_i - e_f) / e_f) in
  theta <= top /\
  (e_f < e_i -> tsai_share m e_i e_f theta = r0 * tsai_share m e_i e_f top).
Proof.
  intros M H R0. unfold brems_tsai. cbn [number nth_error].
  destruct (Req_dec (e_i - e_f) 0) as [Z|Z].
  - rewrite Z. destruct (Reqb_spec 0 0) as [_|X]; [|lra]. rewrite yes_lt by lra. cbn [obind].
    rewrite quotient_ok by lra. cbn [obind]. set (rm := 1 * e_i * 1 / m). assert (0 < rm) by (unfold rm; apply Rdiv_lt_0_compat; nra).
    set (a := r0 * rm * rm / (1 + rm * rm)).
    assert (A : 0 <= a < 1).
    { assert (0 < rm * rm) by nra. unfold a. split; [apply Rcomplements.Rdiv_le_0_compat; nra|]. apply Rcomplements.Rlt_div_l; [lra|]. nra. }
    rewrite quotient_ok by lra. cbn [obind]. rewrite root_ok by (apply Rcomplements.Rdiv_le_0_compat; lra). cbn [obind].
    rewrite quotient_ok by lra. cbn [obind]. rewrite quotient_ok by lra. cbn [obind]. unfold around. cbn [number nth_error obind].
    replace (0 / e_f) with 0 by (field; lra). rewrite Rmult_0_l. exists 0. split; [reflexivity|]. split; [lra|]. rewrite Rmin_right by lra.
    split; [lra|]. intro. lra.
  - rewrite no_eq by exact Z. cbn [obind]. assert (E : 0 < e_i - e_f) by lra. set (eps := e_i - e_f) in *.
    rewrite quotient_ok by lra. cbn [obind].
    set (q := Rmin 1 (e_f / eps)). assert (Q : 0 < q) by (unfold q; apply Rmin_pos; [lra|apply Rdiv_lt_0_compat; lra]).
    set (rm := q * e_i * 1 / m). assert (Rm : 0 < rm) by (unfold rm; apply Rdiv_lt_0_compat; nra). assert (R2 : 0 < rm * rm) by nra.
    set (a := r0 * rm * rm / (1 + rm * rm)).
    assert (A : 0 <= a /\ a <= rm * rm / (1 + rm * rm)).
    { unfold a, Rdiv. assert (0 < / (1 + rm * rm)) by (apply Rinv_0_lt_compat; lra). split; [apply Rmult_le_pos; nra|]. apply Rmult_le_compat_r; nra. }
    assert (A1 : 1 - rm * rm / (1 + rm * rm) = / (1 + rm * rm)) by (field; nra).
    assert (A2 : 0 < / (1 + rm * rm)) by (apply Rinv_0_lt_compat; lra).
    rewrite quotient_ok by lra. cbn [obind]. assert (B0 : 0 <= a / (1 - a)) by (apply Rcomplements.Rdiv_le_0_compat; lra).
    rewrite root_ok by exact B0. cbn [obind]. rewrite quotient_ok by lra. cbn [obind]. rewrite quotient_ok by lra. cbn [obind].
    unfold around. cbn [number nth_error obind].
    set (r := sqrt (a / (1 - a))). assert (Hr : r * r = a / (1 - a)) by (apply sqrt_sqrt; exact B0). assert (0 <= r) by apply sqrt_pos.
    assert (Rle : r <= rm).
    { apply Rsqr_incr_0; [|assumption|lra]. unfold Rsqr. rewrite Hr. apply Rcomplements.Rle_div_l; [lra|].
      apply (Rmult_le_reg_r (/ (1 + rm * rm))); [lra|]. rewrite <- A1. replace (rm * rm * (1 - a)) with (rm * rm - rm * rm * a) by ring.
      assert (K : (1 + rm * rm) * (rm * rm / (1 + rm * rm)) = rm * rm) by (field; nra). rewrite A1.
      apply Rmult_le_compat_r; [lra|]. nra. }
    exists (eps / e_f * (m / e_i * r)). split; [reflexivity|].
    assert (P1 : 0 < eps / e_f) by (apply Rdiv_lt_0_compat; lra). assert (P2 : 0 < m / e_i) by (apply Rdiv_lt_0_compat; lra).
    assert (T : Rmin 1 (eps / e_f) = eps / e_f * (m / e_i * rm)).
    { unfold rm, q. destruct (Rle_dec eps e_f) as [L|L].
      - rewrite Rmin_right. 2:{ apply Rcomplements.Rle_div_l; lra. }
        rewrite Rmin_left. 2:{ apply Rcomplements.Rle_div_r; lra. } field. lra.
      - rewrite Rmin_left. 2:{ apply Rcomplements.Rle_div_r; lra. }
        rewrite Rmin_right. 2:{ apply Rcomplements.Rle_div_l; lra. } field. lra. }
    split; [apply Rmult_le_pos; [lra|apply Rmult_le_pos; lra]|]. cbv zeta. rewrite T. split.
    + apply Rmult_le_compat_l; [lra|]. apply Rmult_le_compat_l; lra.
    + intros _. unfold tsai_share. fold eps. cbv zeta. replace (eps / e_f * (m / e_i * r) * (e_f / eps) * (e_i / m)) with r by (field; lra).
      replace (eps / e_f * (m / e_i * rm) * (e_f / eps) * (e_i / m)) with rm by (field; lra).
      replace (r ^ 2) with (r * r) by ring. rewrite Hr. unfold a. field. split; [nra|].
      replace (1 + rm ^ 2 - r0 * rm ^ 2) with (1 + (1 - r0) * (rm * rm)) by ring. nra.
Qed.
(** ** Ionization *)
Lemma ionization_identity m e_i e_f : (e_i ^ 2 - m ^ 2) * (e_f ^ 2 - m ^ 2) - ((e_i + ME) * e_f - e_i * ME - m * m) ^ 2
  = (e_i - e_f) * (2 * ME * (e_i ^ 2 - m ^ 2) - (e_i - e_f) * (m ^ 2 + ME ^ 2 + 2 * ME * e_i)).
Proof. ring. Qed.
Lemma ME_pos : 0 < ME. Proof. unfold ME. lra. Qed.
Lemma ionization_most m I E v : 0 < m < E -> v_min (ionization_limits m I E) < v_max (ionization_limits m I E) -> v <= v_max (ionization_limits m I E) ->
  E * v * (m ^ 2 + ME ^ 2 + 2 * ME * E) <= 2 * ME * (E ^ 2 - m ^ 2).
Proof.
  intros H. unfold ionization_limits. cbn [v_min v_max]. destruct (Rltb_spec (Rmin (2 * ME * (E / m * (E / m) - 1) / ((1 + 2 * (E / m) * (ME / m) + ME / m * (ME / m)) * E)) (1 - m / E)) (I / 10 ^ 6 / E)) as [L|L]; [lra|].
  intros _ V. pose proof ME_pos.
  assert (V2 : v <= 2 * ME * (E / m * (E / m) - 1) / ((1 + 2 * (E / m) * (ME / m) + ME / m * (ME / m)) * E)) by (eapply Rle_trans; [exact V|apply Rmin_l]).
  assert (Q : 2 * ME * (E / m * (E / m) - 1) / ((1 + 2 * (E / m) * (ME / m) + ME / m * (ME / m)) * E)
    = 2 * ME * (E ^ 2 - m ^ 2) / ((m ^ 2 + ME ^ 2 + 2 * ME * E) * E)).
  { field. repeat split; try lra; nra. }
  rewrite Q in V2. apply Rcomplements.Rle_div_r in V2; [|assert (0 < m ^ 2 + ME ^ 2 + 2 * ME * E) by nra; nra]. nra.
Qed.
Lemma ionization_value m e_i e_f r0 l : 0 < m -> m < e_f <= e_i -> (e_i - e_f) * (m ^ 2 + ME ^ 2 + 2 * ME * e_i) <= 2 * ME * (e_i ^ 2 - m ^ 2) ->
  exists theta, ioniz_naive nan m e_i e_f (r0 :: l) = Ok (theta, 2 * PI * r0) /\ 0 <= theta <= PI /\ hits_electron m e_i e_f theta.
Proof.
  intros M H Q. unfold ioniz_naive. pose proof ME_pos.
  replace ((e_i + m) * (e_i - m)) with (e_i ^ 2 - m ^ 2) by ring. replace ((e_f + m) * (e_f - m)) with (e_f ^ 2 - m ^ 2) by ring.
  assert (Pi : 0 < e_i ^ 2 - m ^ 2) by nra. assert (Pf : 0 < e_f ^ 2 - m ^ 2) by nra.
  rewrite root_ok by lra. cbn [obind]. rewrite root_ok by lra. cbn [obind].
  set (p := sqrt (e_i ^ 2 - m ^ 2)). set (q := sqrt (e_f ^ 2 - m ^ 2)).
  assert (Hp : p * p = e_i ^ 2 - m ^ 2) by (apply sqrt_sqrt; lra). assert (Hq : q * q = e_f ^ 2 - m ^ 2) by (apply sqrt_sqrt; lra).
  assert (P : 0 < p) by (apply sqrt_lt_R0; lra). assert (P' : 0 < q) by (apply sqrt_lt_R0; lra). assert (PQ : 0 < p * q) by nra.
  rewrite quotient_ok by lra. cbn [obind]. set (N := (e_i + ME) * e_f - e_i * ME - m * m).
  pose proof (ionization_identity m e_i e_f) as Id. fold N in Id.
  assert (N2 : N ^ 2 <= (p * q) ^ 2). { replace ((p * q) ^ 2) with (p * p * (q * q)) by ring. rewrite Hp, Hq. nra. }
  assert (Nb : Rabs (N / (p * q)) <= 1).
  { unfold Rdiv. rewrite Rabs_mult, (Rabs_pos_eq (/ (p * q))) by (left; apply Rinv_0_lt_compat; lra).
    apply Rcomplements.Rle_div_l; [lra|]. rewrite Rmult_1_l. rewrite <- (Rabs_pos_eq (p * q)) by lra. apply Rsqr_le_abs_0. unfold Rsqr. nra. }
  unfold arc_cosine. rewrite yes_le by exact Nb. cbn [obind]. unfold around. cbn [number nth_error obind].
  exists (acos (N / (p * q))). split; [reflexivity|]. split; [pose proof (acos_bound (N / (p * q))); lra|].
  unfold hits_electron, momentum2. fold p q. rewrite cos_acos by (apply Rabs_le_inv in Nb; lra).
  replace (2 * p * q * (N / (p * q))) with (2 * N) by (field; lra). unfold N. ring.
Qed.

(** ** Exponential angles *)
Lemma exponential_value r rms : 0 <= r < 1 -> exists theta, exponential_angle nan r rms = Ok theta /\ 0 <= theta /\
  (rms = 0 -> theta = 0) /\ (rms <> 0 -> share_below rms theta = r).
Proof.
  intro H. unfold exponential_angle. rewrite yes_lt by lra. destruct (Reqb_spec rms 0) as [Z|Z].
  - exists 0. repeat split; lra.
  - assert (L : ln (1 - r) <= 0). { rewrite <- ln_1. destruct (Req_dec r 0) as [->|]; [right; apply f_equal; ring|left; apply ln_increasing; lra]. }
    assert (S : sample_from_exponential r (1 / (rms * rms)) = - ln (1 - r) * (rms * rms)) by (unfold sample_from_exponential; field; exact Z).
    rewrite S. assert (P : 0 <= - ln (1 - r) * (rms * rms)) by nra. rewrite root_ok by exact P.
    eexists. split; [reflexivity|]. split; [apply sqrt_pos|]. split; [lra|]. intros _. unfold share_below.
    replace ((sqrt (- ln (1 - r) * (rms * rms)) / rms) ^ 2) with (sqrt (- ln (1 - r) * (rms * rms)) * sqrt (- ln (1 - r) * (rms * rms)) / (rms * rms)) by (field; exact Z).
    rewrite sqrt_sqrt by exact P. replace (- (- ln (1 - r) * (rms * rms) / (rms * rms))) with (ln (1 - r)) by (field; exact Z).
    rewrite exp_ln by lra. ring.
Qed.
Lemma lost_part_range m e_i e_f : 0 < m < e_f -> e_f < e_i -> 0 < lost_part m e_i e_f < 1.
Proof.
  intros H L. unfold lost_part. split; [apply Rdiv_lt_0_compat; lra|]. apply Rcomplements.Rlt_div_l; lra.
Qed.
Lemma GeV m e_i e_f : lost_part (m / 1000) (e_i / 1000) (e_f / 1000) = lost_part m e_i e_f.
Proof.
  unfold lost_part. destruct (Req_dec (e_i - m) 0) as [Z|Z].
  - replace (e_i / 1000 - m / 1000) with ((e_i - m) / 1000) by field. rewrite Z. unfold Rdiv. rewrite !Rmult_0_l, Rinv_0. ring.
  - field. lra.
Qed.

Lemma epair_rms_value e_i e_f m : 0 < m < e_f -> e_f < e_i -> epair_rms nan e_i e_f m = Ok (epair_mean e_i (lost_part m e_i e_f)).
Proof.
  intros H L. pose proof (lost_part_range m e_i e_f H L) as N. unfold epair_rms. rewrite quotient_ok by lra. cbn [obind]. fold (lost_part m e_i e_f).
  set (nu := lost_part m e_i e_f) in *. rewrite power_ok by lra. cbn [obind]. rewrite quotient_ok by lra. cbn [obind].
  rewrite logarithm_ok by lra. cbn [obind]. rewrite !quotient_ok by lra. cbn [obind]. rewrite quotient_ok by lra. cbn [obind].
  rewrite quotient_ok by nra. cbn [obind]. apply f_equal. unfold epair_mean.
  replace (25 / 100) with (1 / 4) by field. set (mn := Rmin _ (1 / 10)). set (mn' := Rmin _ (1 / 10)).
  assert (mn = mn') as ->. { unfold mn, mn'. apply f_equal2; [|reflexivity]. field. lra. } field. lra.
Qed.
Lemma photo_rms_value e_i e_f m : 0 < m < e_f -> e_f < e_i -> photo_rms nan e_i e_f m = Ok (photo_mean e_i (lost_part m e_i e_f)).
Proof.
  intros H L. pose proof (lost_part_range m e_i e_f H L) as N. unfold photo_rms. rewrite quotient_ok by lra. cbn [obind]. fold (lost_part m e_i e_f).
  set (nu := lost_part m e_i e_f) in *. rewrite quotient_ok by nra. cbn [obind]. rewrite root_ok by lra. cbn [obind].
  assert (0 < sqrt e_i) by (apply sqrt_lt_R0; lra). rewrite power_ok. 2:{ apply Rmult_lt_0_compat; [apply Rmult_lt_0_compat|]; lra. } cbn [obind].
  rewrite quotient_ok by nra. cbn [obind]. reflexivity.
Qed.
Lemma epair_value m e_i e_f r0 r1 l : 0 < m < e_f -> e_f < e_i -> 0 <= r0 < 1 ->
  sampled_angle (epair_ginneken nan m e_i e_f (r0 :: r1 :: l)) (epair_mean (e_i / 1000) (lost_part m e_i e_f)) r0 r1.
Proof.
  intros H L R0. unfold epair_ginneken. rewrite epair_rms_value by lra. rewrite GeV. cbn [obind number nth_error].
  destruct (exponential_value r0 (epair_mean (e_i / 1000) (lost_part m e_i e_f)) R0) as (t & E & A). rewrite E. cbn [obind]. unfold around. cbn [number nth_error obind].
  exists t. split; [reflexivity|exact A].
Qed.
Lemma photo_value m e_i e_f r0 r1 l : 0 < m < e_f -> e_f < e_i -> 0 <= r0 < 1 ->
  sampled_angle (photo_ginneken nan m e_i e_f (r0 :: r1 :: l)) (photo_mean (e_i / 1000) (lost_part m e_i e_f)) r0 r1.
Proof.
  intros H L R0. unfold photo_ginneken. rewrite photo_rms_value by lra. rewrite GeV. cbn [obind number nth_error].
  destruct (exponential_value r0 (photo_mean (e_i / 1000) (lost_part m e_i e_f)) R0) as (t & E & A). rewrite E. cbn [obind]. unfold around. cbn [number nth_error obind].
  exists t. split; [reflexivity|exact A].
Qed.
End Deflection.
