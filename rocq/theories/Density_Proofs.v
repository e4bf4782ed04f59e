(** Densities (C21-C23). *)
From Verif Require Import Prelude PreludeFacts Vec_Model Geometry_Model Propagator_Model Shapes_Spec
  Function_Model Function_Spec Function_Proofs Spline_Model Spline_Spec Spline_Proofs
  Math_Model Math_Spec Math_Proofs Density_Model Density_Spec.
From Coquelicot Require Import Coquelicot.
Import List ListNotations.

(** ** Homogeneous *)
Lemma c21_homogeneous inf rho x d l : 
  exists g, d_calculate (homogeneous inf rho) x d l = Ok g /\ grammage (homogeneous inf rho) x d l g /\
    (rho <> 0 -> forall b, d_correct (homogeneous inf rho) x d g b = Ok l).
Proof.
  eexists. split; [reflexivity|]. split.
  - unfold grammage. cbn [d_evaluate homogeneous]. unfold homogeneous_integrate.
    replace (rho * l - rho * 0) with (scal (l - 0) rho) by (cbn; unfold mult; cbn; ring).
    apply (is_RInt_const 0 l rho).
  - intros H b. cbn. destruct (Reqb_spec rho 0); [contradiction|]. unfold homogeneous_integrate. f_equal. field. auto.
Qed.

(** ** Integrals of functions of the depth *)
Lemma cartesian_depth a p0 x d t :
  ax_depth (cartesian_axis a p0) (at_ x d t) = ax_depth (cartesian_axis a p0) x + t * dot a d.
Proof. cbn. unfold dot, vsub, at_, vadd, scale. cbn. ring. Qed.
Lemma cartesian_effective a p0 x d : ax_effective (cartesian_axis a p0) x d = Some (dot a d).
Proof. reflexivity. Qed.

Lemma line_integral (f F : R -> R) u delta l : delta <> 0 ->
  (forall z, derivable_pt_lim F z (f z)) -> (forall z, continuous f z) ->
  is_RInt (fun t => f (u + t * delta)) 0 l ((F (u + l * delta) - F u) / delta).
Proof.
  intros Hd HF HC.
  assert (H : is_RInt (fun t => f (u + t * delta)) 0 l
     (minus (F (u + l * delta) / delta) (F (u + 0 * delta) / delta))).
  { apply (is_RInt_derive (fun t => F (u + t * delta) / delta) (fun t => f (u + t * delta))).
    - intros t _. assert (HZ := HF (u + t * delta)). apply is_derive_Reals in HZ.
      replace (f (u + t * delta)) with (scal (delta * / delta) (f (u + t * delta)))
        by (cbn; unfold mult; cbn; field; auto).
      evar_last.
      + apply (is_derive_ext (fun t => scal (/ delta) (F (u + t * delta)))).
        * intros z. cbn. unfold mult. cbn. field. auto.
        * apply (is_derive_scal (fun t => F (u + t * delta)) t (/ delta)).
          apply (is_derive_comp F (fun t => u + t * delta)); [exact HZ|].
          auto_derive; auto.
      + cbn. unfold mult. cbn. field. auto.
    - intros t _. apply (continuous_comp (fun t => u + t * delta) f); [|apply HC].
      apply (continuous_plus (fun _ => u) (fun t => t * delta)); [apply continuous_const|].
      apply (continuous_mult (fun t => t) (fun _ => delta)); [apply continuous_id|apply continuous_const]. }
  replace ((F (u + l * delta) - F u) / delta) with (minus (F (u + l * delta) / delta) (F (u + 0 * delta) / delta)); auto.
  unfold minus, plus, opp. cbn. rewrite Rmult_0_l, Rplus_0_r. field. auto.
Qed.

(** ** Exponential density along a Cartesian axis *)
Section Exponential.
Variables (nan : outcome R) (ax : axis) (sigma d0 rho : R).
Let dn := exponential nan ax sigma d0 rho.
Hypotheses (Hs : sigma <> 0) (Hr : rho > 0).
Variables (x d : vec) (e : R).
Hypotheses (He : ax_effective ax x d = Some e) (Hd : e <> 0).
Let phi := exponential_depth ax sigma d0 x.
Let delta := e / sigma.

Lemma delta_nonzero : delta <> 0.
Proof. unfold delta, Rdiv. apply Rmult_integral_contrapositive_currified; auto. apply Rinv_neq_0_compat; auto. Qed.

Lemma exponential_calculate l :
  d_calculate dn x d l = Ok (rho * exp (phi + l * delta) / delta - rho * exp phi / delta).
Proof.
  unfold dn. cbn [d_calculate exponential]. unfold exponential_effective. rewrite He. fold delta.
  destruct (Reqb_spec delta 0) as [E|_]; [destruct (delta_nonzero E)|].
  unfold exponential_integrate. fold phi. rewrite Rmult_0_l, Rplus_0_r. auto.
Qed.

Lemma exponential_along t : ax_depth ax (at_ x d t) = ax_depth ax x + t * e ->
  d_evaluate dn (at_ x d t) = rho * exp (phi + t * delta).
Proof.
  intros HA. unfold dn. cbn [d_evaluate exponential]. unfold exponential_depth. rewrite HA.
  unfold phi, delta, exponential_depth. do 2 f_equal. field. auto.
Qed.

Lemma exponential_grammage l : (forall t, ax_depth ax (at_ x d t) = ax_depth ax x + t * e) ->
  exists g, d_calculate dn x d l = Ok g /\ grammage dn x d l g.
Proof.
  intros HA. rewrite exponential_calculate. eexists; split; [reflexivity|]. unfold grammage.
  apply (is_RInt_ext (fun t => rho * exp (phi + t * delta))).
  - intros t _. symmetry. apply exponential_along; auto.
  - replace (rho * exp (phi + l * delta) / delta - rho * exp phi / delta)
      with ((rho * exp (phi + l * delta) - rho * exp phi) / delta) by (field; apply delta_nonzero).
    apply (line_integral (fun z => rho * exp z) (fun z => rho * exp z) phi delta l delta_nonzero).
    + intros z. apply (derivable_pt_lim_scal exp rho z (exp z)). apply derivable_pt_lim_exp.
    + intros z. apply (continuous_mult (fun _ => rho) exp); [apply continuous_const|].
      apply continuity_pt_filterlim. apply derivable_continuous_pt, derivable_pt_exp.
Qed.

Lemma correct_arg l : 1 + exp (- phi) * (rho * exp (phi + l * delta) / delta - rho * exp phi / delta) * delta / rho
  = exp (l * delta).
Proof.
  replace (exp (- phi) * (rho * exp (phi + l * delta) / delta - rho * exp phi / delta) * delta / rho)
    with (exp (- phi) * exp (phi + l * delta) - exp (- phi) * exp phi).
  - rewrite <- !exp_plus. replace (- phi + (phi + l * delta)) with (l * delta) by ring.
    replace (- phi + phi) with 0 by ring. rewrite exp_0. ring.
  - pose proof delta_nonzero. field. split; lra.
Qed.

Lemma exponential_correct res b : d_correct dn x d res b =
  let arg := 1 + exp (- phi) * res * delta / rho in
  if arg <? 0 then Throw density_exception else if arg =? 0 then nan else Ok (1 / delta * ln arg).
Proof.
  unfold dn. cbn [d_correct exponential]. unfold exponential_effective. rewrite He. fold delta.
  destruct (Reqb_spec delta 0) as [E|_]; [destruct (delta_nonzero E)|]. fold phi. reflexivity.
Qed.

Lemma c21_exponential_inverse l b g : d_calculate dn x d l = Ok g -> d_correct dn x d g b = Ok l.
Proof.
  rewrite exponential_calculate. intros E. injection E as <-. rewrite exponential_correct. cbv zeta.
  rewrite correct_arg. pose proof (exp_pos (l * delta)).
  destruct (Rltb_spec (exp (l * delta)) 0); [lra|]. destruct (Reqb_spec (exp (l * delta)) 0); [lra|].
  rewrite ln_exp. f_equal. field. apply delta_nonzero.
Qed.

Lemma c21_exponential_inverse_back l b g : (forall v, nan <> Ok v) ->
  d_correct dn x d g b = Ok l -> d_calculate dn x d l = Ok g.
Proof.
  intros HN. rewrite exponential_correct, exponential_calculate. cbv zeta.
  set (arg := 1 + exp (- phi) * g * delta / rho).
  destruct (Rltb_spec arg 0); [discriminate|]. destruct (Reqb_spec arg 0); [intros E; destruct (HN _ E)|].
  intros E. injection E as <-. f_equal. replace (1 / delta * ln arg * delta) with (ln arg) by (field; apply delta_nonzero).
  rewrite exp_plus, exp_ln by lra. unfold arg.
  replace (exp phi * (1 + exp (- phi) * g * delta / rho)) with (exp phi + (exp phi * exp (- phi)) * g * delta / rho) by (field; lra).
  rewrite <- exp_plus. replace (phi + - phi) with 0 by ring. rewrite exp_0. pose proof delta_nonzero. field. split; lra.
Qed.

(** The grammage is not reached anywhere on the ray. *)
Lemma c21_exponential_throws b res : d_correct dn x d res b = Throw density_exception ->
  (forall e, nan <> Throw e) -> 0 <= res ->
  forall l g, d_calculate dn x d l = Ok g -> g < res.
Proof.
  rewrite exponential_correct. cbv zeta. set (arg := 1 + exp (- phi) * res * delta / rho).
  intros E HN Hres l g. rewrite exponential_calculate. intros Eg. injection Eg as <-.
  assert (Ha : arg < 0).
  { destruct (Rltb_spec arg 0); auto. destruct (Reqb_spec arg 0); [destruct (HN _ E)|discriminate]. }
  pose proof (exp_pos (- phi)). pose proof (exp_pos (l * delta)).
  set (g := rho * exp (phi + l * delta) / delta - rho * exp phi / delta).
  pose proof (correct_arg l) as HA. fold g in HA.
  assert (Hm : exp (- phi) * (res - g) * delta / rho < 0).
  { replace (exp (- phi) * (res - g) * delta / rho) with (arg - (1 + exp (- phi) * g * delta / rho))
      by (unfold arg; field; lra). rewrite HA. lra. }
  assert (Hdelta : delta < 0).
  { apply Rnot_le_lt. intros HC. unfold arg in Ha.
    assert (0 <= exp (- phi) * res * delta / rho); [|lra].
    unfold Rdiv. apply Rmult_le_pos; [|left; apply Rinv_0_lt_compat; auto].
    apply Rmult_le_pos; auto. apply Rmult_le_pos; lra. }
  apply Rnot_le_lt. intros HC.
  assert (0 <= exp (- phi) * (res - g) * delta / rho); [|lra].
  unfold Rdiv. apply Rmult_le_pos; [|left; apply Rinv_0_lt_compat; auto].
  replace (exp (- phi) * (res - g) * delta) with ((exp (- phi) * (g - res)) * (- delta)) by ring.
  apply Rmult_le_pos; [apply Rmult_le_pos|]; lra.
Qed.
End Exponential.

Lemma c21_exponential_integral nan a p0 sigma d0 rho x d l : sigma <> 0 -> dot a d <> 0 ->
  let dn := exponential nan (cartesian_axis a p0) sigma d0 rho in
  exists g, d_calculate dn x d l = Ok g /\ grammage dn x d l g.
Proof.
  intros Hs Hd. apply (exponential_grammage nan (cartesian_axis a p0) sigma d0 rho Hs x d (dot a d)); auto.
  intros t. apply cartesian_depth.
Qed.

Lemma c21_exponential_additive nan a p0 sigma d0 rho x d l1 l2 g1 g2 :
  let dn := exponential nan (cartesian_axis a p0) sigma d0 rho in
  sigma <> 0 -> dot a d <> 0 ->
  d_calculate dn x d l1 = Ok g1 -> d_calculate dn (at_ x d l1) d l2 = Ok g2 ->
  d_calculate dn x d (l1 + l2) = Ok (g1 + g2).
Proof.
  intros dn Hs Hd. unfold dn.
  rewrite (exponential_calculate nan _ sigma d0 rho Hs x d (dot a d)) by auto.
  rewrite (exponential_calculate nan _ sigma d0 rho Hs (at_ x d l1) d (dot a d)) by auto.
  rewrite (exponential_calculate nan _ sigma d0 rho Hs x d (dot a d)) by auto. intros E1 E2.
  injection E1 as <-. injection E2 as <-. f_equal.
  unfold exponential_depth. rewrite cartesian_depth.
  set (u := ax_depth (cartesian_axis a p0) x). set (e := dot a d) in *.
  replace ((u + l1 * e - d0) / sigma) with ((u - d0) / sigma + l1 * (e / sigma)) by (field; auto).
  replace ((u - d0) / sigma + (l1 + l2) * (e / sigma)) with ((u - d0) / sigma + l1 * (e / sigma) + l2 * (e / sigma)) by ring.
  field. split; auto.
Qed.

(** Along a level of constant density nothing works. *)
Lemma c21_horizontal_refuted : exists a p0 sigma d0 rho x d, dot a a = 1 /\ unit d /\ sigma <> 0 /\ rho > 0 /\
  forall nan, let dn := exponential nan (cartesian_axis a p0) sigma d0 rho in
    (forall l, grammage dn x d l (rho * l)) /\
    (forall l, d_calculate dn x d l = nan) /\
    (forall g b, d_correct dn x d g b = Throw density_exception).
Proof.
  exists (mkvec 0 0 1), (mkvec 0 0 0), 1, 0, 1, (mkvec 0 0 0), (mkvec 1 0 0).
  split; [unfold dot; cbn; ring|]. split; [unfold unit, dot; cbn; ring|]. split; [lra|]. split; [lra|].
  intros nan dn.
  assert (HE : exponential_effective (cartesian_axis (mkvec 0 0 1) (mkvec 0 0 0)) 1 (mkvec 0 0 0) (mkvec 1 0 0) = Some 0).
  { unfold exponential_effective. cbn. f_equal. unfold dot. cbn. field. }
  split; [|split].
  - intros l. unfold grammage. apply (is_RInt_ext (fun _ => 1)).
    + intros t _. unfold dn. cbn [d_evaluate exponential]. unfold exponential_depth. rewrite cartesian_depth.
      replace ((ax_depth (cartesian_axis (mkvec 0 0 1) (mkvec 0 0 0)) (mkvec 0 0 0) + t * dot (mkvec 0 0 1) (mkvec 1 0 0) - 0) / 1) with 0.
      * rewrite exp_0. apply eq_sym, Rmult_1_r.
      * cbn. unfold dot, vsub. cbn. field.
    + replace (1 * l) with (scal (l - 0) 1) by (cbn; unfold mult; cbn; ring). apply (is_RInt_const 0 l 1).
  - intros l. unfold dn. cbn [d_calculate exponential]. rewrite HE. destruct (Reqb_spec 0 0); [auto|lra].
  - intros g b. unfold dn. cbn [d_correct exponential]. rewrite HE. destruct (Reqb_spec 0 0); [auto|lra].
Qed.

(** ** Polynomial and spline densities *)
Section Profile.
Variables (nan : outcome R) (a p0 : vec) (rho : R) (dens anti : R -> R).
Let dn := profile_density nan (cartesian_axis a p0) rho dens anti.
Hypotheses (HF : forall z, derivable_pt_lim anti z (dens z)) (HC : forall z, continuous dens z).
Variables (x d : vec).
Hypothesis (Hd : dot a d <> 0).
Let delta := dot a d.
Let u := ax_depth (cartesian_axis a p0) x.

Lemma profile_calculate l :
  d_calculate dn x d l = Ok (rho * anti (u + l * delta) / (delta * delta) - rho * anti u / (delta * delta)).
Proof.
  unfold dn. cbn [d_calculate profile_density]. rewrite cartesian_effective. fold delta.
  destruct (Reqb_spec delta 0); [contradiction|]. unfold profile_integrate. fold u. rewrite Rmult_0_l, Rplus_0_r. auto.
Qed.

Lemma c22_scaled l : exists g, d_calculate dn x d l = Ok g /\ grammage dn x d l (dot a d * g).
Proof.
  rewrite profile_calculate. eexists; split; [reflexivity|]. unfold grammage.
  apply (is_RInt_ext (fun t => rho * dens (u + t * delta))).
  - intros t _. unfold dn. cbn [d_evaluate profile_density]. unfold profile_evaluate. rewrite cartesian_depth. auto.
  - fold delta.
    replace (delta * (rho * anti (u + l * delta) / (delta * delta) - rho * anti u / (delta * delta)))
      with ((rho * anti (u + l * delta) - rho * anti u) / delta) by (field; auto).
    apply (line_integral (fun z => rho * dens z) (fun z => rho * anti z) u delta l Hd).
    + intros z. apply (derivable_pt_lim_scal anti rho z (dens z)). apply HF.
    + intros z. apply (continuous_mult (fun _ => rho) dens); [apply continuous_const|apply HC].
Qed.

Lemma profile_correct res b : d_correct dn x d res b =
  match newton_raphson (profile_F (cartesian_axis a p0) rho anti delta x res)
          (profile_dF (cartesian_axis a p0) rho dens x d) nan 0 b (b / 2) 101 (/ 1000000) with
  | Throw math_exception => Throw density_exception
  | r => r
  end.
Proof.
  unfold dn. cbn [d_correct profile_density]. rewrite cartesian_effective. fold delta.
  destruct (Reqb_spec delta 0); [contradiction|]. auto.
Qed.
Lemma profile_F_calculate res l g : d_calculate dn x d l = Ok g ->
  profile_F (cartesian_axis a p0) rho anti delta x res l = res - g.
Proof.
  rewrite profile_calculate. intros E. injection E as <-. unfold profile_F, profile_integrate. fold u.
  rewrite Rmult_0_l, Rplus_0_r. lra.
Qed.

Lemma c22_correct_throws res b g : 0 < res -> d_calculate dn x d b = Ok g -> g < res ->
  d_correct dn x d res b = Throw density_exception.
Proof.
  intros Hres Hg Hlt. rewrite profile_correct. rewrite c27_newton_rejects; auto.
  rewrite (profile_F_calculate res b g Hg). 
  assert (E0 : d_calculate dn x d 0 = Ok 0).
  { rewrite profile_calculate. f_equal. rewrite Rmult_0_l, Rplus_0_r. ring. }
  rewrite (profile_F_calculate res 0 0 E0). nra.
Qed.
Lemma c22_correct_stays res b l : (forall v, nan <> Ok v) -> 0 < res -> 0 <= b -> d_correct dn x d res b = Ok l ->
  0 <= l <= b /\ exists g, d_calculate dn x d b = Ok g /\ res <= g.
Proof.
  intros HN Hres Hb. rewrite profile_correct.
  destruct (newton_raphson _ _ _ _ _ _ _ _) as [r|e|w] eqn:E; try (destruct e; discriminate); try discriminate.
  intros Er. injection Er as ->. apply c27_newton_bracket in E; auto.
  - destruct E as [HP [H1 H2]]. rewrite Rmin_left in H1 by auto. rewrite Rmax_right in H2 by auto. split; auto.
    rewrite profile_calculate. eexists; split; [reflexivity|].
    rewrite (profile_F_calculate res b _ (profile_calculate b)) in HP.
    assert (E0 : d_calculate dn x d 0 = Ok 0).
    { rewrite profile_calculate. f_equal. rewrite Rmult_0_l, Rplus_0_r. ring. }
    rewrite (profile_F_calculate res 0 0 E0) in HP. nra.
  - unfold between. rewrite Rmin_left, Rmax_right; lra.
Qed.
End Profile.

Lemma profile_additive nan a p0 rho dens anti x d l1 l2 g1 g2 :
  let dn := profile_density nan (cartesian_axis a p0) rho dens anti in
  dot a d <> 0 ->
  d_calculate dn x d l1 = Ok g1 -> d_calculate dn (at_ x d l1) d l2 = Ok g2 ->
  d_calculate dn x d (l1 + l2) = Ok (g1 + g2).
Proof.
  intros dn Hd. unfold dn. rewrite !profile_calculate by auto. intros E1 E2.
  injection E1 as <-. injection E2 as <-. f_equal. pose proof (cartesian_depth a p0 x d l1) as HD. cbn [ax_depth cartesian_axis] in HD |- *. rewrite HD.
  rewrite Rmult_plus_distr_r, Rplus_assoc. ring.
Qed.

(** The instances *)
Lemma polynomial_profile c : c <> [] ->
  (forall z, derivable_pt_lim (fun z => value (poly_evaluate (poly_antiderivative c 0) z)) z (value (poly_evaluate c z))) /\
  (forall z, continuous (fun z => value (poly_evaluate c z)) z).
Proof.
  intros Hc.
  assert (E : forall z, value (poly_evaluate c z) = polynomial c z) by (intros z; rewrite c24_evaluate; auto).
  split; intros z.
  - rewrite E. apply derivable_pt_lim_ext with (f := polynomial (poly_antiderivative c 0)).
    + intros y. rewrite c24_evaluate; [auto|]. unfold poly_antiderivative. discriminate.
    + apply c24_antiderivative.
  - apply (continuous_ext (polynomial c)); [intros y; symmetry; apply E|].
    apply continuity_pt_filterlim. apply derivable_continuous_pt.
    exists (polynomial (poly_derivative c) z). apply c24_derivative.
Qed.

Lemma c22_polynomial nan a p0 c rho x d l : c <> [] -> dot a d <> 0 ->
  let dn := polynomial_density nan (cartesian_axis a p0) c rho in
  exists g, d_calculate dn x d l = Ok g /\ grammage dn x d l (dot a d * g).
Proof. intros Hc Hd. destruct (polynomial_profile c Hc). apply c22_scaled; auto. Qed.
Lemma c22_polynomial_parallel nan a p0 c rho x d l : c <> [] -> dot a d = 1 ->
  let dn := polynomial_density nan (cartesian_axis a p0) c rho in
  exists g, d_calculate dn x d l = Ok g /\ grammage dn x d l g.
Proof.
  intros Hc Hd dn. destruct (c22_polynomial nan a p0 c rho x d l Hc ltac:(lra)) as (g & E & G).
  exists g. split; auto. rewrite Hd, Rmult_1_l in G. auto.
Qed.

Lemma grammage_unique dn x d l g g' : grammage dn x d l g -> grammage dn x d l g' -> g = g'.
Proof.
  intros H H'. unfold grammage in *.
  rewrite <- (is_RInt_unique (V := R_CompleteNormedModule) _ _ _ _ H).
  apply (is_RInt_unique (V := R_CompleteNormedModule) _ _ _ _ H').
Qed.

Lemma c22_refuted : exists a p0 c rho x d l, dot a a = 1 /\ unit d /\ rho > 0 /\ l > 0 /\ c <> [] /\
  forall nan, let dn := polynomial_density nan (cartesian_axis a p0) c rho in
    exists g true_g, d_calculate dn x d l = Ok g /\ grammage dn x d l true_g /\ 0 < true_g /\ g = 2 * true_g.
Proof.
  exists (mkvec 0 0 1), (mkvec 0 0 0), (1 :: nil), 1, (mkvec 0 0 0), (mkvec (sqrt 3 / 2) 0 (1 / 2)), 1.
  split; [unfold dot; cbn; ring|]. split.
  { unfold unit, dot; cbn. replace (sqrt 3 / 2 * (sqrt 3 / 2)) with (sqrt 3 * sqrt 3 / 4) by field.
    rewrite sqrt_sqrt by lra. field. }
  split; [lra|]. split; [lra|]. split; [discriminate|].
  intros nan dn. set (a := mkvec 0 0 1). set (x := mkvec 0 0 0). set (d := mkvec (sqrt 3 / 2) 0 (1 / 2)).
  assert (Hd : dot a d = 1 / 2) by (unfold dot; cbn; ring).
  destruct (c22_polynomial nan a x (1 :: nil) 1 x d 1 ltac:(discriminate) ltac:(lra)) as (g & E & G).
  exists g, (dot a d * g). split; auto. split; auto. rewrite Hd.
  assert (G1 : grammage dn x d 1 1).
  { unfold grammage. apply (is_RInt_ext (fun _ => 1)).
    - intros t _. unfold dn, polynomial_density. cbn. unfold profile_evaluate. cbn. ring.
    - replace 1 with (scal (1 - 0) 1) at 2 by (cbn; unfold mult; cbn; ring). apply (is_RInt_const 0 1 1). }
  pose proof (grammage_unique _ _ _ _ _ _ G G1) as HU. rewrite Hd in HU. lra.
Qed.

(** Splines *)
Lemma c22_spline nan nan1 nan2 a p0 xs ys s rho x d l : nodes xs ys ->
  linear_spline nan1 xs ys = Ok s \/
  (cubic_spline nan2 xs ys = Ok s /\ resolved xs) ->
  dot a d <> 0 ->
  exists dn g, spline_density nan (cartesian_axis a p0) s rho = Ok dn /\
    d_calculate dn x d l = Ok g /\ grammage dn x d l (dot a d * g).
Proof.
  intros HN HS Hd. destruct (c26_antiderivative_full nan1 nan2 xs ys s 0 HN HS) as (s' & F & E & _ & H1 & H2).
  unfold spline_density. rewrite E. cbn [obind].
  assert (HF : forall z, derivable_pt_lim (fun z => value (spline_evaluate s' z)) z (value (spline_evaluate s z))).
  { intros z. destruct (H2 z) as (y & Ey & D). rewrite Ey. cbn [value].
    apply derivable_pt_lim_ext with (f := F); auto. intros t. rewrite H1. auto. }
  assert (HC : forall z, continuous (fun z => value (spline_evaluate s z)) z).
  { intros z. apply continuity_pt_filterlim.
    destruct (built_spline nan1 nan2 xs ys s HN HS) as (W & J & _).
    apply (spline_continuity s W J). intros t. destruct (H2 t) as (y & Ey & _). rewrite Ey. auto. }
  eexists. destruct (c22_scaled nan a p0 rho _ _ HF HC x d Hd l) as (g & G1 & G2).
  exists g. split; [reflexivity|]. split; auto.
Qed.

(** The search in Correct divides 0 by 0 when the first guess is the answer. *)
Lemma c49_refuted : exists a p0 c rho x d border g l,
  dot a a = 1 /\ unit d /\ dot a d = 1 /\ rho > 0 /\ c <> [] /\ 0 < l < border /\
  forall nan, (forall e, nan <> Throw e) -> let dn := polynomial_density nan (cartesian_axis a p0) c rho in
    grammage dn x d l g /\ d_calculate dn x d l = Ok g /\ d_correct dn x d g border = nan.
Proof.
  exists (mkvec 0 0 1), (mkvec 0 0 0), (1 :: nil), 1, (mkvec 0 0 0), (mkvec 0 0 1), 2, 1, 1.
  split; [unfold dot; cbn; ring|]. split; [unfold unit, dot; cbn; ring|]. split; [unfold dot; cbn; ring|].
  split; [lra|]. split; [discriminate|]. split; [lra|].
  intros nan HT dn. set (a := mkvec 0 0 1). set (x := mkvec 0 0 0).
  assert (Hd : dot a a = 1) by (unfold dot; cbn; ring).
  destruct (c22_polynomial_parallel nan a x (1 :: nil) 1 x a 1 ltac:(discriminate) Hd) as (g & E & G).
  assert (Eg : g = 1).
  { unfold polynomial_density in E. rewrite profile_calculate in E by (rewrite Hd; lra).
    injection E as <-. rewrite !Hd. cbn. unfold dot; cbn. field. }
  subst g. split; [exact G|]. split; [exact E|].
  unfold dn, polynomial_density. rewrite profile_correct by (fold a; rewrite Hd; lra). fold a. rewrite Hd.
  assert (HF : forall l, profile_F (cartesian_axis a x) 1
      (fun z => value (poly_evaluate (poly_antiderivative (1 :: nil) 0) z)) 1 x 1 l = 1 - l).
  { intros l. unfold profile_F, profile_integrate. cbn. unfold dot. cbn. field. }
  assert (HD : forall l, profile_dF (cartesian_axis a x) 1 (fun z => value (poly_evaluate (1 :: nil) z)) x a l = 0).
  { intros l. unfold profile_dF, profile_evaluate. cbn. ring. }
  unfold newton_raphson. rewrite !HF, !HD. fold x a.
  destruct (Rltb_spec 0 ((1 - 0) * (1 - 2))); [lra|]. destruct (Reqb_spec (1 - 0) 0); [lra|].
  destruct (Reqb_spec (1 - 2) 0); [lra|]. destruct (Rltb_spec (1 - 0) 0); [lra|].
  change (101 - 1)%nat with (S 99). cbn [newton_loop]. unfold newton_step at 1.
  match goal with |- context [Rltb 0 ?u] => destruct (Rltb_spec 0 u) as [HH|_]; [lra|] end.
  match goal with |- context [Rltb ?u ?v] => destruct (Rltb_spec u v) as [HH|_] end.
  { exfalso. rewrite Rmult_0_r in HH. replace (2 * (1 - 2 / 2)) with 0 in HH by field. lra. }
  cbn [orb]. destruct (Reqb_spec 0 0); [|lra]. destruct nan as [v|ex|u]; cbn; auto. destruct (HT ex); auto.
Qed.

(** ** Axes *)
Lemma c23_cartesian a p0 x d : exists e, ax_effective (cartesian_axis a p0) x d = Some e /\
  derivable_pt_lim (fun t => ax_depth (cartesian_axis a p0) (at_ x d t)) 0 e.
Proof.
  eexists. split; [reflexivity|].
  apply derivable_pt_lim_ext with (f := fun t => ax_depth (cartesian_axis a p0) x + t * dot a d).
  - intros t. symmetry. apply cartesian_depth.
  - apply is_derive_Reals. auto_derive; [auto|ring].
Qed.
Lemma magnitude_dist x y : magnitude (vsub x y) = dist x y.
Proof. unfold dist, magnitude, sqdist. f_equal. Qed.
Lemma c23_radial_depth p0 x : ax_depth (radial_axis p0) x = dist x p0.
Proof. apply magnitude_dist. Qed.
Lemma c23_radial_sign p0 x d : x <> p0 -> exists e, ax_effective (radial_axis p0) x d = Some e /\
  derivable_pt_lim (fun t => ax_depth (radial_axis p0) (at_ x d t)) 0 (- e).
Proof.
  intros HX. cbn [ax_effective radial_axis]. unfold normalize. set (w := vsub x p0). set (q := dot w w).
  assert (Hq : 0 < q).
  { unfold q. apply Rnot_le_lt. intros HC. apply HX. unfold dot in HC.
    assert (vx w = 0 /\ vy w = 0 /\ vz w = 0) as (H1 & H2 & H3) by (splits; nra).
    unfold w, vsub in *. cbn in *. destruct x, p0. cbn in *. f_equal; lra. }
  assert (Hm : magnitude w = sqrt q) by reflexivity. rewrite Hm.
  assert (Hs : 0 < sqrt q) by (apply sqrt_lt_R0; auto).
  destruct (Reqb_spec (sqrt q) 0); [lra|]. eexists. split; [reflexivity|].
  apply derivable_pt_lim_ext with (f := fun t => sqrt (q + 2 * t * dot w d + t * t * dot d d)).
  - intros t. unfold ax_depth, radial_axis, magnitude. f_equal. unfold q, w, dot, at_, vadd, scale, vsub. cbn. ring.
  - apply is_derive_Reals. auto_derive.
    + rewrite !Rmult_0_r, !Rmult_0_l, !Rplus_0_r. auto.
    + replace (q + 2 * 0 * dot w d + 0 * 0 * dot d d) with q by ring. unfold dot, vneg. cbn. field. lra.
Qed.
Lemma c23_refuted : exists p0 x d e v, unit d /\ x <> p0 /\ ax_effective (radial_axis p0) x d = Some e /\
  derivable_pt_lim (fun t => ax_depth (radial_axis p0) (at_ x d t)) 0 v /\ e <> v.
Proof.
  exists (mkvec 0 0 0), (mkvec 1 0 0), (mkvec 1 0 0).
  assert (HX : mkvec 1 0 0 <> mkvec 0 0 0) by (intros E; injection E; lra).
  destruct (c23_radial_sign (mkvec 0 0 0) (mkvec 1 0 0) (mkvec 1 0 0) HX) as (e & E & D).
  exists e, (- e). split; [unfold unit, dot; cbn; ring|]. split; auto. split; auto. split; auto.
  cbn in E. unfold normalize, magnitude in E. cbn in E.
  replace ((1 - 0) * (1 - 0) + (0 - 0) * (0 - 0) + (0 - 0) * (0 - 0)) with 1 in E by ring.
  rewrite sqrt_1 in E. destruct (Reqb_spec 1 0); [lra|]. injection E as <-. unfold dot, vneg. cbn. lra.
Qed.

(** Hence exponential densities around a point are wrong. *)
Lemma c21_radial_refuted : exists p0 sigma d0 rho x d l, unit d /\ x <> p0 /\ sigma <> 0 /\ rho > 0 /\ l > 0 /\
  forall nan, let dn := exponential nan (radial_axis p0) sigma d0 rho in
    exists g true_g, d_calculate dn x d l = Ok g /\ grammage dn x d l true_g /\ g < true_g.
Proof.
  exists (mkvec 0 0 0), 1, 0, 1, (mkvec 1 0 0), (mkvec 1 0 0), 1.
  split; [unfold unit, dot; cbn; ring|]. split; [intros E; injection E; lra|]. split; [lra|]. split; [lra|]. split; [lra|].
  intros nan dn. set (x := mkvec 1 0 0).
  assert (He : ax_effective (radial_axis (mkvec 0 0 0)) x x = Some (-1)).
  { cbn. unfold normalize, magnitude. cbn.
    replace ((1 - 0) * (1 - 0) + (0 - 0) * (0 - 0) + (0 - 0) * (0 - 0)) with 1 by ring.
    rewrite sqrt_1. destruct (Reqb_spec 1 0); [lra|]. f_equal. unfold dot, vneg. cbn. field. }
  assert (HA : forall t, 0 <= t -> ax_depth (radial_axis (mkvec 0 0 0)) (at_ x x t) = 1 + t).
  { intros t Ht. cbn. unfold magnitude. cbn.
    match goal with |- sqrt ?u = _ => replace u with ((1 + t) * (1 + t)) by ring end. apply sqrt_square. lra. }
  assert (Hx : ax_depth (radial_axis (mkvec 0 0 0)) x = 1).
  { cbn. unfold magnitude. cbn. replace ((1 - 0) * (1 - 0) + (0 - 0) * (0 - 0) + (0 - 0) * (0 - 0)) with 1 by ring. apply sqrt_1. }
  eexists _, _. split; [|split].
  - unfold dn. apply (exponential_calculate nan _ 1 0 1 ltac:(lra) x x (-1) He ltac:(lra)).
  - unfold grammage.
    apply (is_RInt_ext (fun t => 1 * exp (1 + t * 1))).
    + intros t Ht. rewrite Rmin_left in Ht by lra. unfold dn. cbn [d_evaluate exponential]. unfold exponential_depth.
      rewrite HA by lra. replace ((1 + t - 0) / 1) with (1 + t * 1) by field. auto.
    + apply (line_integral (fun z => 1 * exp z) (fun z => 1 * exp z) 1 1 1 ltac:(lra)).
      * intros z. apply (derivable_pt_lim_scal exp 1 z (exp z)). apply derivable_pt_lim_exp.
      * intros z. apply (continuous_mult (fun _ => 1) exp); [apply continuous_const|].
        apply continuity_pt_filterlim. apply derivable_continuous_pt, derivable_pt_exp.
  - unfold exponential_depth. rewrite Hx.
    replace ((1 - 0) / 1 + 1 * (-1 / 1)) with 0 by field. replace ((1 - 0) / 1) with 1 by field.
    replace (1 + 1 * 1) with (1 + 1) by ring. rewrite exp_0, exp_plus.
    pose proof (exp_ineq1 1 ltac:(lra)). nra.
Qed.
