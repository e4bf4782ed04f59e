(** Property theorems about density distributions: C21, C22, C23, C49, C50, C51. *)
From Verif Require Import Prelude Vec_Model Propagator_Model Shapes_Spec Function_Model
  Spline_Model Spline_Spec Spline_Proofs Density_Model Density_Spec Density_Proofs Density_Examples
  DensityObj_Model DensityObj_Spec DensityObj_Proofs.

(** ** C21: homogeneous and exponential densities *)
Theorem C21_homogeneous : forall inf rho x d l,
  exists g, d_calculate (homogeneous inf rho) x d l = Ok g /\ grammage (homogeneous inf rho) x d l g /\
    (rho <> 0 -> forall b, d_correct (homogeneous inf rho) x d g b = Ok l).
Proof. exact c21_homogeneous. Qed.
Print Assumptions C21_homogeneous.

(** The exponential density along a Cartesian axis, for rays that are not
    perpendicular to the axis. *)
Theorem C21_exponential_grammage_partial : forall nan a p0 sigma d0 rho x d l, sigma <> 0 -> dot a d <> 0 ->
  let dn := exponential nan (cartesian_axis a p0) sigma d0 rho in
  exists g, d_calculate dn x d l = Ok g /\ grammage dn x d l g.
Proof. exact c21_exponential_integral. Qed.
Print Assumptions C21_exponential_grammage_partial.

(** Round trips, for every kind of axis. *)
Theorem C21_exponential_round_trip : forall nan ax sigma d0 rho, sigma <> 0 -> rho > 0 ->
  forall x d e, ax_effective ax x d = Some e -> e <> 0 ->
  forall l b g, d_calculate (exponential nan ax sigma d0 rho) x d l = Ok g ->
    d_correct (exponential nan ax sigma d0 rho) x d g b = Ok l.
Proof. exact c21_exponential_inverse. Qed.
Print Assumptions C21_exponential_round_trip.

Theorem C21_exponential_round_trip_back : forall nan ax sigma d0 rho, sigma <> 0 -> rho > 0 ->
  forall x d e, ax_effective ax x d = Some e -> e <> 0 ->
  forall l b g, (forall v, nan <> Ok v) ->
    d_correct (exponential nan ax sigma d0 rho) x d g b = Ok l ->
    d_calculate (exponential nan ax sigma d0 rho) x d l = Ok g.
Proof. exact c21_exponential_inverse_back. Qed.
Print Assumptions C21_exponential_round_trip_back.

(** The exception means that the grammage is not reached however far one goes. *)
Theorem C21_exponential_unreachable : forall nan ax sigma d0 rho, sigma <> 0 -> rho > 0 ->
  forall x d e, ax_effective ax x d = Some e -> e <> 0 ->
  forall b res, d_correct (exponential nan ax sigma d0 rho) x d res b = Throw density_exception ->
    (forall ex, nan <> Throw ex) -> 0 <= res ->
    forall l g, d_calculate (exponential nan ax sigma d0 rho) x d l = Ok g -> g < res.
Proof. exact c21_exponential_throws. Qed.
Print Assumptions C21_exponential_unreachable.

Theorem C21_exponential_additive : forall nan a p0 sigma d0 rho x d l1 l2 g1 g2,
  let dn := exponential nan (cartesian_axis a p0) sigma d0 rho in
  sigma <> 0 -> dot a d <> 0 ->
  d_calculate dn x d l1 = Ok g1 -> d_calculate dn (at_ x d l1) d l2 = Ok g2 ->
  d_calculate dn x d (l1 + l2) = Ok (g1 + g2).
Proof. exact c21_exponential_additive. Qed.
Print Assumptions C21_exponential_additive.

(** A ray perpendicular to the axis has a constant density, but neither
    conversion works. *)
Theorem C21_horizontal_refuted : exists a p0 sigma d0 rho x d, dot a a = 1 /\ unit d /\ sigma <> 0 /\ rho > 0 /\
  forall nan, let dn := exponential nan (cartesian_axis a p0) sigma d0 rho in
    (forall l, grammage dn x d l (rho * l)) /\
    (forall l, d_calculate dn x d l = nan) /\
    (forall g b, d_correct dn x d g b = Throw density_exception).
Proof. exact c21_horizontal_refuted. Qed.
Print Assumptions C21_horizontal_refuted.

(** With a radial axis the grammage is wrong. *)
Theorem C21_radial_refuted : exists p0 sigma d0 rho x d l, unit d /\ x <> p0 /\ sigma <> 0 /\ rho > 0 /\ l > 0 /\
  forall nan, let dn := exponential nan (radial_axis p0) sigma d0 rho in
    exists g true_g, d_calculate dn x d l = Ok g /\ grammage dn x d l true_g /\ g < true_g.
Proof. exact c21_radial_refuted. Qed.
Print Assumptions C21_radial_refuted.

Example C21_example : dot up up = 1 /\ unit slanted /\ dot up slanted <> 0 /\ -8 <> 0 /\ 1 / 1000 > 0 /\
  forall nan, ax_effective (cartesian_axis up ground) high slanted = Some (- (4 / 5)) /\
    exists g, d_calculate (atmosphere nan) high slanted 5 = Ok g.
Proof.
  split; [exact up_unit|]. split; [exact slanted_unit|]. rewrite slanted_up. split; [lra|]. split; [lra|]. split; [lra|].
  intros nan. split; [rewrite cartesian_effective, slanted_up; auto|].
  destruct (c21_exponential_integral nan up ground (-8) 0 (1 / 1000) high slanted 5) as (g & E & _); [lra|rewrite slanted_up; lra|].
  exists g. exact E.
Qed.

(** ** C22: polynomial and spline densities *)
(** Full statement: the grammage equals the line integral.  Proved: the line
    integral is the cosine between axis and direction times the answer. *)
Theorem C22_polynomial_partial : forall nan a p0 c rho x d l, c <> [] -> dot a d <> 0 ->
  let dn := polynomial_density nan (cartesian_axis a p0) c rho in
  exists g, d_calculate dn x d l = Ok g /\ grammage dn x d l (dot a d * g).
Proof. exact c22_polynomial. Qed.
Print Assumptions C22_polynomial_partial.

Theorem C22_polynomial_parallel_partial : forall nan a p0 c rho x d l, c <> [] -> dot a d = 1 ->
  let dn := polynomial_density nan (cartesian_axis a p0) c rho in
  exists g, d_calculate dn x d l = Ok g /\ grammage dn x d l g.
Proof. exact c22_polynomial_parallel. Qed.
Print Assumptions C22_polynomial_parallel_partial.

Theorem C22_spline_partial : forall nan nan1 nan2 a p0 xs ys s rho x d l, nodes xs ys ->
  linear_spline nan1 xs ys = Ok s \/ (cubic_spline nan2 xs ys = Ok s /\ resolved xs) ->
  dot a d <> 0 ->
  exists dn g, spline_density nan (cartesian_axis a p0) s rho = Ok dn /\
    d_calculate dn x d l = Ok g /\ grammage dn x d l (dot a d * g).
Proof. exact c22_spline. Qed.
Print Assumptions C22_spline_partial.

Theorem C22_additive : forall nan a p0 rho dens anti x d l1 l2 g1 g2,
  let dn := profile_density nan (cartesian_axis a p0) rho dens anti in
  dot a d <> 0 ->
  d_calculate dn x d l1 = Ok g1 -> d_calculate dn (at_ x d l1) d l2 = Ok g2 ->
  d_calculate dn x d (l1 + l2) = Ok (g1 + g2).
Proof. exact profile_additive. Qed.
Print Assumptions C22_additive.

(** At 60 degrees to the axis the grammage is twice too large. *)
Theorem C22_oblique_refuted : exists a p0 c rho x d l, dot a a = 1 /\ unit d /\ rho > 0 /\ l > 0 /\ c <> [] /\
  forall nan, let dn := polynomial_density nan (cartesian_axis a p0) c rho in
    exists g true_g, d_calculate dn x d l = Ok g /\ grammage dn x d l true_g /\ 0 < true_g /\ g = 2 * true_g.
Proof. exact c22_refuted. Qed.
Print Assumptions C22_oblique_refuted.

Example C22_example : dot up slanted <> 0 /\ dot up up = 1 /\ nodes heights values /\ resolved heights /\
  (forall nan, exists s, linear_spline nan heights values = Ok s) /\
  (forall nan, exists s, cubic_spline nan heights values = Ok s).
Proof.
  split; [rewrite slanted_up; lra|]. split; [exact up_unit|]. split; [exact heights_nodes|]. split; [exact heights_resolved|].
  split; [exact heights_linear|exact heights_cubic].
Qed.

(** ** C23: axes *)
Theorem C23_cartesian : forall a p0 x d, exists e, ax_effective (cartesian_axis a p0) x d = Some e /\
  derivable_pt_lim (fun t => ax_depth (cartesian_axis a p0) (at_ x d t)) 0 e.
Proof. exact c23_cartesian. Qed.
Print Assumptions C23_cartesian.

Theorem C23_radial_depth : forall p0 x, ax_depth (radial_axis p0) x = dist x p0.
Proof. exact c23_radial_depth. Qed.
Print Assumptions C23_radial_depth.

(** Full statement: the effective distance is the derivative of the depth.  It is
    its negative. *)
Theorem C23_radial_negated_partial : forall p0 x d, x <> p0 -> exists e, ax_effective (radial_axis p0) x d = Some e /\
  derivable_pt_lim (fun t => ax_depth (radial_axis p0) (at_ x d t)) 0 (- e).
Proof. exact c23_radial_sign. Qed.
Print Assumptions C23_radial_negated_partial.

Theorem C23_radial_refuted : exists p0 x d e v, unit d /\ x <> p0 /\ ax_effective (radial_axis p0) x d = Some e /\
  derivable_pt_lim (fun t => ax_depth (radial_axis p0) (at_ x d t)) 0 v /\ e <> v.
Proof. exact c23_refuted. Qed.
Print Assumptions C23_radial_refuted.

Example C23_example : high <> ground /\ unit slanted.
Proof. split; [intros E; injection E; lra|exact slanted_unit]. Qed.

(** ** C49: grammage to distance for polynomial and spline densities *)
Theorem C49_out_of_reach : forall nan a p0 rho dens anti x d, dot a d <> 0 ->
  let dn := profile_density nan (cartesian_axis a p0) rho dens anti in
  forall res b g, 0 < res -> d_calculate dn x d b = Ok g -> g < res ->
    d_correct dn x d res b = Throw density_exception.
Proof. exact c22_correct_throws. Qed.
Print Assumptions C49_out_of_reach.

Theorem C49_stays_inside : forall nan a p0 rho dens anti x d, dot a d <> 0 ->
  let dn := profile_density nan (cartesian_axis a p0) rho dens anti in
  forall res b l, (forall v, nan <> Ok v) -> 0 < res -> 0 <= b -> d_correct dn x d res b = Ok l ->
    0 <= l <= b /\ exists g, d_calculate dn x d b = Ok g /\ res <= g.
Proof. exact c22_correct_stays. Qed.
Print Assumptions C49_stays_inside.

(** Constant density 1 along the axis: the distance for grammage 1 is 1, but with
    the border at 2 the answer is not a number. *)
Theorem C49_inverse_refuted : exists a p0 c rho x d border g l,
  dot a a = 1 /\ unit d /\ dot a d = 1 /\ rho > 0 /\ c <> [] /\ 0 < l < border /\
  forall nan, (forall e, nan <> Throw e) -> let dn := polynomial_density nan (cartesian_axis a p0) c rho in
    grammage dn x d l g /\ d_calculate dn x d l = Ok g /\ d_correct dn x d g border = nan.
Proof. exact c49_refuted. Qed.
Print Assumptions C49_inverse_refuted.

Example C49_example : dot up up <> 0 /\ forall nan,
  d_calculate (unit_profile nan) ground up 2 = Ok 2 /\ d_correct (unit_profile nan) ground up 2 2 = Ok 2.
Proof.
  split; [rewrite up_unit; lra|]. intros nan. split; [apply unit_profile_grammage|apply unit_profile_correct].
Qed.

(** ** C50: comparison of densities *)
(** Full statement: equal densities give equal answers.  Proved when the axes are
    of the same class with the same direction, and equal addresses hold the same
    spline. *)
Theorem C50_equal_partial : forall x y, density_eqb x y = true -> parallel (do_axis x) (do_axis y) ->
  same_pointees (do_kind x) (do_kind y) -> forall nan, density_of nan x = density_of nan y.
Proof. exact c50_equal. Qed.
Print Assumptions C50_equal_partial.

Theorem C50_axis_ignored_refuted : exists x y, density_eqb x y = true /\ do_kind x = Exponential 1 0 /\
  forall nan, exists dx dy p, density_of nan x = Ok dx /\ density_of nan y = Ok dy /\ d_evaluate dx p <> d_evaluate dy p.
Proof. exact c50_refuted. Qed.
Print Assumptions C50_axis_ignored_refuted.

Theorem C50_same_splines_refuted : exists x y, density_eqb x y = false /\ do_axis x = do_axis y /\ do_rho x = do_rho y /\
  (exists s p i q j, do_kind x = Splines p i s /\ do_kind y = Splines q j s) /\
  forall nan, density_of nan x = density_of nan y.
Proof. exact c50_splines_refuted. Qed.
Print Assumptions C50_same_splines_refuted.

Example C50_example :
  let x := mkdobj (Cartesian up ground) 1 (Polynomial [1; 2]) in density_eqb x x = true /\ parallel (do_axis x) (do_axis x).
Proof. exact self_equal. Qed.

(** ** C51: ownership *)
Theorem C51_no_copies_partial : forall ops, proper [] ops -> no_spline_copies [] ops ->
  exists m, density_run ([], []) ops = Ok m.
Proof. exact c51_safe. Qed.
Print Assumptions C51_no_copies_partial.

Theorem C51_double_free_refuted : exists ops, proper [] ops /\ density_run ([], []) ops = UB double_free /\
  ~ (exists i, In (Query i) ops).
Proof. exact c51_double_free_refuted. Qed.
Print Assumptions C51_double_free_refuted.

Theorem C51_dangling_refuted : exists ops, proper [] ops /\ density_run ([], []) ops = UB use_after_free.
Proof. exact c51_dangling_refuted. Qed.
Print Assumptions C51_dangling_refuted.

Example C51_example : let ops := [Create true; Create false; Clone 1; Query 0; Destroy 1; Query 2; Destroy 0; Destroy 2] in
  proper [] ops /\ no_spline_copies [] ops.
Proof. cbn. auto 20. Qed.
