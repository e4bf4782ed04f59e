(** Proofs about the deflection in photonuclear interactions. *)
From Coquelicot Require Rcomplements.
From Verif Require Import Prelude PreludeFacts Particle_Model Limits_Model Limits_Spec Math_Model Math_Proofs Vec_Model Geometry_Model Propagator_Model
  Deflection_Model Deflection_Spec Deflection_Proofs.

Section Borog.
Variable nan : forall A, outcome A.
Lemma MP_pos : 0 < MP. Proof. unfold MP. lra. Qed.

Lemma borog_value m e_i e_f r0 r1 l : 0 < m -> 0 < e_f < e_i -> least_transfer m e_i e_f <= most_transfer e_i e_f ->
  most_transfer e_i e_f + least_transfer m e_i e_f <= 4 * (e_i * e_f - m ^ 2) -> 0 < 4 * (e_i * e_f - m ^ 2) - 2 * least_transfer m e_i e_f -> 0 <= r0 <= 1 ->
  exists theta, photo_borog nan m e_i e_f (r0 :: r1 :: l) = Ok (theta, 2 * PI * r1) /\ 0 <= theta <= PI /\
    least_transfer m e_i e_f <= transfer m e_i e_f theta <= most_transfer e_i e_f /\
    borog_above e_i e_f (transfer m e_i e_f theta) = r0 * borog_above e_i e_f (least_transfer m e_i e_f).
Proof.
  intros M H T1 T2 D R0. pose proof MP_pos. unfold photo_borog. rewrite root_ok by lra. cbn [obind]. cbv zeta.
  rewrite quotient_ok by lra. cbn [obind]. set (m0 := sqrt (4 / 10) * 1000).
  assert (M0 : 0 < m0) by (unfold m0; apply Rmult_lt_0_compat; [apply sqrt_lt_R0; lra|lra]).
  rewrite quotient_ok. 2:{ replace (1 - (e_i - e_f) / e_i) with (e_f / e_i) by (field; lra). apply Rgt_not_eq, Rdiv_lt_0_compat; lra. }
  cbn [obind number nth_error].
  replace (m * m * ((e_i - e_f) / e_i) * ((e_i - e_f) / e_i) / (1 - (e_i - e_f) / e_i)) with (least_transfer m e_i e_f)
    by (unfold least_transfer; field; repeat split; lra).
  fold (most_transfer e_i e_f). unfold borog_above. cbv zeta. fold m0.
  replace ((e_i - e_f) ^ 2) with ((e_i - e_f) * (e_i - e_f)) by ring. replace (m0 ^ 2) with (m0 * m0) by ring.
  set (t1 := Rmin ((e_i - e_f) * (e_i - e_f)) (m0 * m0)). assert (Ht1 : 0 < t1) by (unfold t1; apply Rmin_pos; nra).
  set (tm := least_transfer m e_i e_f) in *. set (tx := most_transfer e_i e_f) in *.
  assert (Htm : 0 < tm). { unfold tm, least_transfer. apply Rdiv_lt_0_compat; [apply Rmult_lt_0_compat; apply pow_lt; lra|nra]. }
  assert (Htx : 0 < tx) by (unfold tx, most_transfer; nra).
  rewrite quotient_ok by nra. cbn [obind]. set (base := tx * (tm + t1) / (tm * (tx + t1))).
  assert (B1 : 1 <= base). { unfold base. apply Rcomplements.Rle_div_r; nra. }
  set (b := exp (r0 * ln base)).
  assert (Eb : (if r0 =? 0 then Ok 1 else power nan base r0) = Ok b).
  { destruct (Reqb_spec r0 0) as [->|Z].
    - unfold b. rewrite Rmult_0_l, exp_0. reflexivity.
    - rewrite power_ok by lra. reflexivity. }
  rewrite Eb. cbn [obind].
  assert (Lb : 0 <= ln base). { rewrite <- ln_1. destruct B1 as [B1|B1]; [left; apply ln_increasing; lra|right; rewrite <- B1; reflexivity]. }
  assert (Bb : 1 <= b <= base).
  { unfold b. split.
    - rewrite <- exp_0. destruct (Req_dec (r0 * ln base) 0) as [->|Z]; [right; reflexivity|left; apply exp_increasing]. nra.
    - rewrite <- (exp_ln base) at 2 by lra. destruct (Req_dec (r0 * ln base) (ln base)) as [->|Z]; [right; reflexivity|left; apply exp_increasing]. nra. }
  set (den := (tx + t1) * b - tx). assert (Den : t1 <= den) by (unfold den; nra).
  assert (Den2 : den * tm <= tx * t1).
  { assert (K : base * (tm * (tx + t1)) = tx * (tm + t1)) by (unfold base; field; split; nra).
    assert (b * (tm * (tx + t1)) <= base * (tm * (tx + t1))) by (apply Rmult_le_compat_r; [nra|lra]). unfold den. nra. }
  rewrite quotient_ok by lra. cbn [obind]. set (tp := tx * t1 / den).
  assert (Tp : tm <= tp <= tx).
  { unfold tp. split; [apply (Rcomplements.Rle_div_r tm (tx * t1) den); [lra|]; rewrite Rmult_comm; exact Den2|apply (Rcomplements.Rle_div_l (tx * t1) tx den); [lra|]; apply Rmult_le_compat_l; lra]. }
  replace (4 * (e_i * e_f - m * m) - 2 * tm) with (4 * (e_i * e_f - m ^ 2) - 2 * tm) by ring.
  set (dd := 4 * (e_i * e_f - m ^ 2) - 2 * tm) in *. rewrite quotient_ok by lra. cbn [obind]. set (s2 := (tp - tm) / dd).
  assert (S2 : 0 <= s2 <= 1).
  { unfold s2. split; [apply Rcomplements.Rdiv_le_0_compat; lra|apply Rcomplements.Rle_div_l; [lra|]]. unfold dd. lra. }
  rewrite root_ok by lra. cbn [obind].
  assert (Sq : 0 <= sqrt s2 <= 1) by (split; [apply sqrt_pos|rewrite <- sqrt_1; apply sqrt_le_1_alt; lra]).
  unfold arc_sine. rewrite yes_le by (rewrite Rabs_pos_eq; lra). cbn [obind]. unfold around. cbn [number nth_error obind].
  eexists. split; [reflexivity|].
  assert (Tr : transfer m e_i e_f (2 * asin (sqrt s2)) = tp).
  { unfold transfer. fold tm. fold dd. replace (2 * asin (sqrt s2) / 2) with (asin (sqrt s2)) by field. rewrite sin_asin by lra.
    replace (sqrt s2 ^ 2) with (sqrt s2 * sqrt s2) by ring. rewrite sqrt_sqrt by lra. unfold s2. field. lra. }
  rewrite Tr. split.
  - split.
    + assert (asin 0 <= asin (sqrt s2)); [|rewrite asin_0 in *; lra].
      destruct (Rlt_le_dec (asin (sqrt s2)) (asin 0)) as [L|L]; [|exact L]. exfalso.
      rewrite asin_0 in L. pose proof (asin_bound (sqrt s2)). assert (sin (asin (sqrt s2)) < 0) by (apply sin_lt_0_var; pose proof PI_RGT_0; lra).
      rewrite sin_asin in *; lra.
    + pose proof (asin_bound (sqrt s2)). lra.
  - split; [exact Tp|]. fold base.
    replace (tx * (tp + t1) / (tp * (tx + t1))) with b. 2:{ unfold tp, den. field. repeat split; try lra; unfold den in *; nra. }
    unfold b. apply ln_exp.
Qed.

(** Particles lighter than pions within the limits of the interaction *)
Lemma borog_light m M E v r0 r1 l : 0 < m < MPI -> MP <= M ->
  let lim := photonuclear_limits m M E in v_min lim < v_max lim -> v_min lim <= v <= v_max lim -> 0 < E -> 0 <= r0 <= 1 ->
  exists theta, photo_borog nan m E (E * (1 - v)) (r0 :: r1 :: l) = Ok (theta, 2 * PI * r1) /\ 0 <= theta <= PI /\
    least_transfer m E (E * (1 - v)) <= transfer m E (E * (1 - v)) theta <= most_transfer E (E * (1 - v)) /\
    borog_above E (E * (1 - v)) (transfer m E (E * (1 - v)) theta) = r0 * borog_above E (E * (1 - v)) (least_transfer m E (E * (1 - v))).
Proof.
  intros Hm HM lim L V HE R0. pose proof MP_pos as HP. unfold lim, photonuclear_limits in *. cbn [v_min v_max] in *.
  rewrite (yes_lt m MPI) in L, V by lra. cbv zeta in L, V.
  destruct (Rltb_spec (1 - M * (1 + m / M * (m / M)) / (2 * E)) ((MPI + MPI * MPI / (2 * M)) / E)) as [X|X]; [lra|].
  assert (V0 : 0 < v). { assert (0 < (MPI + MPI * MPI / (2 * M)) / E); [|lra]. apply Rdiv_lt_0_compat; [|lra]. assert (0 < MPI * MPI / (2 * M)) by (apply Rdiv_lt_0_compat; nra). lra. }
  set (f := E * (1 - v)).
  assert (F : (M ^ 2 + m ^ 2) / (2 * M) <= f).
  { unfold f. assert (K : E * (1 - (1 - M * (1 + m / M * (m / M)) / (2 * E))) = (M ^ 2 + m ^ 2) / (2 * M)) by (field; lra).
    rewrite <- K. apply Rmult_le_compat_l; lra. }
  assert (F2 : M ^ 2 + m ^ 2 <= 2 * M * f). { pose proof (proj1 (Rcomplements.Rle_div_l (M ^ 2 + m ^ 2) f (2 * M) ltac:(lra)) F). lra. }
  assert (FE : f < E) by (unfold f; nra). assert (Fp : M / 2 <= f) by nra.
  assert (mp : m <= MPI) by lra. assert (mM : m <= M) by (unfold MPI, MP in *; lra).
  assert (LT : least_transfer m E f <= 2 * m ^ 2 * (E - f) / M).
  { unfold least_transfer. apply Rcomplements.Rle_div_l; [nra|].
    apply (Rmult_le_reg_l M); [lra|].
    replace (M * (2 * m ^ 2 * (E - f) / M * (E * f))) with (2 * m ^ 2 * (E - f) * (E * f)) by (field; lra).
    assert (A1 : (E - f) * M <= E * (2 * f)) by nra. assert (0 <= m ^ 2 * (E - f)) by nra.
    replace (M * (m ^ 2 * (E - f) ^ 2)) with (m ^ 2 * (E - f) * ((E - f) * M)) by ring.
    replace (2 * m ^ 2 * (E - f) * (E * f)) with (m ^ 2 * (E - f) * (E * (2 * f))) by ring. apply Rmult_le_compat_l; lra. }
  assert (LT2 : 2 * m ^ 2 * (E - f) / M <= most_transfer E f).
  { unfold most_transfer. apply Rcomplements.Rle_div_l; [lra|]. assert (m ^ 2 <= MP * M). { assert (m <= MP) by (unfold MPI, MP in *; lra). nra. } nra. }
  assert (Big : most_transfer E f + 2 * m ^ 2 * (E - f) / M + (MP ^ 2 - 4 * MPI ^ 2) <= 4 * (E * f - m ^ 2)).
  { assert (S : 2 * m ^ 2 * (E - f) / M <= 2 * m ^ 2 * E / M).
    { unfold Rdiv. apply Rmult_le_compat_r; [left; apply Rinv_0_lt_compat; lra|]. nra. }
    assert (S2 : 2 * M * E + 2 * m ^ 2 * E / M <= 4 * E * f).
    { replace (2 * M * E + 2 * m ^ 2 * E / M) with (4 * E * ((M ^ 2 + m ^ 2) / (2 * M))) by (field; lra). apply Rmult_le_compat_l; lra. }
    unfold most_transfer. assert (2 * MP * f >= MP * M) by nra. assert (MP * M >= MP ^ 2) by nra. assert (m ^ 2 <= MPI ^ 2) by nra. nra. }
  assert (Pos : 0 < MP ^ 2 - 4 * MPI ^ 2) by (unfold MP, MPI; lra).
  apply borog_value; lra.
Qed.
(** Heavier particles with a final energy above their rest mass *)
Lemma borog_heavy m e_i e_f r0 r1 l : 626 <= m <= 2 * MP -> m <= e_f < e_i -> 0 <= r0 <= 1 ->
  exists theta, photo_borog nan m e_i e_f (r0 :: r1 :: l) = Ok (theta, 2 * PI * r1) /\ 0 <= theta <= PI /\
    least_transfer m e_i e_f <= transfer m e_i e_f theta <= most_transfer e_i e_f /\
    borog_above e_i e_f (transfer m e_i e_f theta) = r0 * borog_above e_i e_f (least_transfer m e_i e_f).
Proof.
  intros Hm H R0. pose proof MP_pos as HP.
  assert (LT : least_transfer m e_i e_f <= m * (e_i - e_f)).
  { unfold least_transfer. apply Rcomplements.Rle_div_l; [nra|].
    replace (m ^ 2 * (e_i - e_f) ^ 2) with (m * (e_i - e_f) * (m * (e_i - e_f))) by ring. apply Rmult_le_compat_l; [nra|]. nra. }
  assert (MP3 : 2 * MP <= 3 * 626) by (unfold MP; lra).
  assert (K : 4 * (m * (e_i - e_f)) <= 4 * (e_i * e_f - m ^ 2)) by nra.
  unfold most_transfer in *. apply borog_value; unfold most_transfer; try lra; try nra.
Qed.
End Borog.
(** Charged kaons: the argument of the arc sine exceeds one. *)
Lemma borog_kaon : exists m E v, m = MKAON /\ m < E * (1 - v) /\ v_min (photonuclear_limits m MP E) < v < v_max (photonuclear_limits m MP E) /\
  forall nan r1, (forall A (v : A), nan A <> Ok v) -> forall a, photo_borog nan m E (E * (1 - v)) [0; r1] <> Ok a.
Proof.
  exists MKAON, (10 ^ 4), (95 / 100). split; [reflexivity|]. split; [unfold MKAON; lra|]. split.
  - unfold photonuclear_limits. cbn [v_min v_max]. rewrite (no_lt MKAON MPI) by (unfold MKAON, MPI; lra).
    assert ((MPI + MPI * MPI / (2 * MP)) / 10 ^ 4 < 95 / 100) 
      by (assert (MPI * MPI / (2 * MP) < 11) by (apply Rcomplements.Rlt_div_l; unfold MPI, MP; lra); unfold MPI in *; lra).
    rewrite no_lt by lra. lra.
  - intros nan r1 N a. unfold photo_borog. rewrite root_ok by lra. cbn [obind]. cbv zeta. rewrite quotient_ok by lra. cbn [obind].
    replace (10 ^ 4 * (1 - 95 / 100)) with 500 by lra. rewrite quotient_ok by lra. cbn [obind number nth_error].
    replace (sqrt (4 / 10) * 1000 * (sqrt (4 / 10) * 1000)) with (sqrt (4 / 10) * sqrt (4 / 10) * 1000000) by ring. rewrite sqrt_sqrt by lra.
    rewrite (Rmin_right ((10 ^ 4 - 500) * (10 ^ 4 - 500))) by lra.
    destruct (Reqb_spec 0 0) as [_|X]; [|lra].
    rewrite quotient_ok by (unfold MKAON, MP; lra). cbn [obind]. rewrite quotient_ok by (unfold MKAON, MP; lra). cbn [obind].
    rewrite quotient_ok by (unfold MKAON, MP; lra). cbn [obind].
    match goal with |- context [root nan ?x] => assert (S : 1 < x) by (unfold MKAON, MP; lra); set (s := x) in * end.
    rewrite root_ok by lra. cbn [obind]. unfold arc_sine. rewrite no_le.
    + intro K. destruct (nan R) eqn:E; [exact (N _ _ E)|discriminate K|discriminate K].
    + rewrite Rabs_pos_eq by apply sqrt_pos. rewrite <- sqrt_1 at 1. apply sqrt_lt_1_alt. lra.
Qed.
Lemma borog_kaon_deflection : exists m E v, m = MKAON /\ m < E * (1 - v) /\ v_min (photonuclear_limits m MP E) < v < v_max (photonuclear_limits m MP E) /\
  forall (nan : forall A, outcome A) r1, (forall A (v : A), nan A <> Ok v) -> forall charge c a, deflection nan charge m PhotoBorog E (E * (1 - v)) [0; r1] c <> Ok a.
Proof.
  destruct borog_kaon as (m & E & v & H1 & H2 & H3 & H4). exists m, E, v.
  exact (conj H1 (conj H2 (conj H3 (fun nan r1 N _ _ a => H4 nan r1 N a)))).
Qed.
