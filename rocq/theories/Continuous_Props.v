(** Theorems about continuous losses. *)
From Coq Require Import Lra.
From Verif Require Import Prelude Particle_Model Limits_Model Cross_Model Photo_Model Integral_Model Utility_Model Ionization_Model
  Continuous_Model Continuous_Spec Ionization_Proofs Continuous_Proofs Cross_Examples Integral_Examples Continuous_Examples.

(** ** C62: the continuous and the sampled losses share out one mean loss *)
(** Positrons: the formula of Berger and Seltzer for the losses below the cut and
    the cross section of Bhabha above it always add up to the same loss, unless the
    formula has been replaced by zero.  A larger cut never gives a smaller
    continuous loss. *)
Theorem C62_bhabha : forall nan qags m E, sound_material m -> ME < E -> exists sigma : R -> R,
  (forall v, 0 < v <= 1 - ME / E -> bhabha nan ME m E v = Ok (sigma v) /\ 0 < sigma v) /\
  (forall a b, 0 < a <= b -> b <= 1 - ME / E -> integrable (fun v => v * sigma v) a b) /\
  forall c1 c2, accepted c1 -> accepted c2 -> exists x1 x2,
    continuous_loss nan qags (bhabha_scheme nan c1 ME m) (bhabha_parametrization nan c1 ME m) c1 E = Some (Ok x1) /\
    continuous_loss nan qags (bhabha_scheme nan c2 ME m) (bhabha_parametrization nan c2 ME m) c2 E = Some (Ok x2) /\
    0 <= x1 /\ 0 <= x2 /\
    (0 < x1 -> 0 < x2 -> x1 + stochastic_part E sigma (bhabha_limits ME) c1 = x2 + stochastic_part E sigma (bhabha_limits ME) c2) /\
    (get_cut c1 E <= get_cut c2 E -> x1 <= x2).
Proof. exact bhabha_partition. Qed.
Print Assumptions C62_bhabha.
(** Electrons: the same with the cross section of Moller. *)
Theorem C62_moller : forall nan qags m E, sound_material m -> ME < E -> exists sigma : R -> R,
  (forall v, 0 < v <= 1 / 2 * (1 - ME / E) -> moller nan ME m E v = Ok (sigma v) /\ 0 < sigma v) /\
  (forall a b, 0 < a <= b -> b <= 1 / 2 * (1 - ME / E) -> integrable (fun v => v * sigma v) a b) /\
  forall c1 c2, accepted c1 -> accepted c2 -> exists x1 x2,
    continuous_loss nan qags (moller_scheme nan c1 ME m) (moller_parametrization nan c1 ME m) c1 E = Some (Ok x1) /\
    continuous_loss nan qags (moller_scheme nan c2 ME m) (moller_parametrization nan c2 ME m) c2 E = Some (Ok x2) /\
    0 <= x1 /\ 0 <= x2 /\
    (0 < x1 -> 0 < x2 -> x1 + stochastic_part E sigma (moller_limits ME) c1 = x2 + stochastic_part E sigma (moller_limits ME) c2) /\
    (get_cut c1 E <= get_cut c2 E -> x1 <= x2).
Proof. exact moller_partition. Qed.
Print Assumptions C62_moller.
(** The formula depends on the cut given to the parametrization, the sampled losses
    on the one given to the cross section: with different cuts the sum changes. *)
Theorem C62_own_cut_refuted : forall nan qags c, exists m E own1 own2 x1 x2,
  sound_material m /\ ME < E /\ accepted own1 /\ accepted own2 /\
  continuous_loss nan qags (bhabha_scheme nan own1 ME m) (bhabha_parametrization nan own1 ME m) c E = Some (Ok x1) /\
  continuous_loss nan qags (bhabha_scheme nan own2 ME m) (bhabha_parametrization nan own2 ME m) c E = Some (Ok x2) /\
  0 < x1 /\ x1 < x2.
Proof. exact own_cut_refuted. Qed.
Print Assumptions C62_own_cut_refuted.
Example C62_formula_example : forall nan qags, sound_material water_ionization /\ ME < slow /\
  accepted (relative_cut (1 / 10)) /\ accepted (relative_cut (1 / 5)) /\ exists x1 x2,
  continuous_loss nan qags (bhabha_scheme nan (relative_cut (1 / 10)) ME water_ionization)
    (bhabha_parametrization nan (relative_cut (1 / 10)) ME water_ionization) (relative_cut (1 / 10)) slow = Some (Ok x1) /\
  continuous_loss nan qags (bhabha_scheme nan (relative_cut (1 / 5)) ME water_ionization)
    (bhabha_parametrization nan (relative_cut (1 / 5)) ME water_ionization) (relative_cut (1 / 5)) slow = Some (Ok x2) /\
  0 < x1 /\ 0 < x2.
Proof. exact formula_example. Qed.

(** Bethe, Bloch and Rossi: moving the cut moves the losses between the old and the
    new cut to the other part.  [e1] and [e2] are the errors of the numerical
    integrals of the correction for inelastic scattering.  The cuts are inside the
    kinematic limits and the logarithm is positive. *)
Theorem C62_rossi_partial : forall nan qags mass charge m E, sound_material m -> 0 < mass < E -> charge <> 0 ->
  let lim := ionization_limits mass (mat_I m) E in
  exists sigma F : R -> R,
  (forall v, v_min lim <= v < v_max lim -> rossi nan mass charge m E v = Ok (sigma v) /\ rossi_dedx nan mass charge m E v = Ok (F v)) /\
  (forall v, v_min lim <= v < v_max lim -> integrable (fun v => v * sigma v) (v_min lim) v /\ integrable F (v_min lim) v) /\
  forall c1 c2 l1 l2 e1 e2,
    v_min lim < get_cut c1 E < v_max lim -> v_min lim < get_cut c2 E < v_max lim ->
    ionization_loss nan c1 mass charge m E = Ok l1 -> 0 < l1 -> ionization_loss nan c2 mass charge m E = Ok l2 -> 0 < l2 ->
    deviates F (v_min lim) (get_cut c1 E) e1 (integral nan qags fine_integral (v_min lim) (get_cut c1 E) (rossi_dedx nan mass charge m E) 4) ->
    deviates F (v_min lim) (get_cut c2 E) e2 (integral nan qags fine_integral (v_min lim) (get_cut c2 E) (rossi_dedx nan mass charge m E) 4) ->
    exists x1 x2,
      continuous_loss nan qags (rossi_scheme nan c1 mass charge m) (rossi_parametrization nan mass charge m) c1 E = Some (Ok x1) /\
      continuous_loss nan qags (rossi_scheme nan c2 mass charge m) (rossi_parametrization nan mass charge m) c2 E = Some (Ok x2) /\
      x2 - x1 = lost_between E sigma (get_cut c1 E) (get_cut c2 E) + E * (e2 - e1).
Proof. exact rossi_moves. Qed.
Print Assumptions C62_rossi_partial.
Example C62_rossi_example : forall nan qags,
  let c := absolute_cut (potential * (1 + / 10 ^ 12)) in
  let lim := ionization_limits MMU (mat_I water_ionization) slow_muon in
  accepted c /\ v_min lim < get_cut c slow_muon < v_max lim /\
  (exists l, ionization_loss nan c MMU (-1) water_ionization slow_muon = Ok l /\ 0 < l) /\
  (exists x, integral nan qags fine_integral (v_min lim) (get_cut c slow_muon) (rossi_dedx nan MMU (-1) water_ionization slow_muon) 4 = Some (Ok x)).
Proof. intros nan qags. apply above_example. lra. Qed.
(** With a cut below the smallest loss all losses are sampled.  There is still a
    continuous loss. *)
Theorem C62_below_refuted : forall nan qags, exists m E c x, sound_material m /\ MMU < E /\ accepted c /\
  get_cut c E < v_min (ionization_limits MMU (mat_I m) E) /\
  continuous_loss nan qags (rossi_scheme nan c MMU (-1) m) (rossi_parametrization nan MMU (-1) m) c E = Some (Ok x) /\ 0 < x.
Proof. exact below_refuted. Qed.
Print Assumptions C62_below_refuted.

(** Losses that are integrated numerically: the sum of both parts differs from the
    mean loss by the energy times the error of the integral. *)
Theorem C62_plain : forall nan qags kin differential c E sigma e, is_differential kin differential E sigma ->
  let a := v_min (kin E) in
  let b := get_cut_within c (kin E) E in
  let p := standard kin differential in
  deviates (fun v => v * sigma v) a b e (integral nan qags default_integral a b (p_dedx p E) 2) ->
  exists x, continuous_loss nan qags Plain p c E = Some (Ok x) /\
    x + stochastic_part E sigma kin c = lost_between E sigma a (v_max (kin E)) + E * e.
Proof. exact plain_shared. Qed.
Print Assumptions C62_plain.
Theorem C62_logarithmic : forall nan qags kin differential c E sigma e, is_differential kin differential E sigma ->
  let a := v_min (kin E) in
  let b := get_cut_within c (kin E) E in
  let p := standard kin differential in
  deviates (fun v => v * sigma v) a b e (integral nan qags fine_integral a b (p_dedx p E) 4) ->
  exists x, continuous_loss nan qags Logarithmic p c E = Some (Ok x) /\
    x + stochastic_part E sigma kin c = lost_between E sigma a (v_max (kin E)) + E * e.
Proof. exact logarithmic_shared. Qed.
Print Assumptions C62_logarithmic.
(** Compton scattering is integrated in ln (1 - v). *)
Theorem C62_reflected : forall nan qags kin differential c E sigma e, is_differential kin differential E sigma ->
  let a := v_min (kin E) in
  let b := get_cut_within c (kin E) E in
  let p := standard kin differential in
  0 <= a -> v_max (kin E) < 1 -> (forall v, a <= v <= v_max (kin E) -> continuity_pt sigma v) ->
  deviates (fun t => exp t * ((1 - exp t) * sigma (1 - exp t))) (ln (1 - b)) (ln (1 - a)) e
    (integral nan qags default_integral (ln (1 - b)) (ln (1 - a)) (fun t => olet y := p_dedx p E (1 - exp t) in Ok (exp t * y)) 2) ->
  exists x, continuous_loss nan qags Reflected p c E = Some (Ok x) /\
    x + stochastic_part E sigma kin c = lost_between E sigma a (v_max (kin E)) + E * e.
Proof. exact reflected_shared. Qed.
Print Assumptions C62_reflected.
(** Pair production: three integrals when the cross section rises towards the end of
    the range, the last two of them in 1 - v *)
Theorem C62_split : forall nan qags kin differential c E sigma, is_differential kin differential E sigma ->
  let a := v_min (kin E) in
  let b := get_cut_within c (kin E) E in
  let p := standard kin differential in
  let reverse := fun v => olet y := differential E (1 - v) in Ok ((1 - v) * y) in
  let near := b * (1 - HALF_PRECISION) in
  let r := Rmin (Rmax (1 - b) COMPUTER_PRECISION) (1 - 8 / 10) in
  forall e1 e2 e3 g1 g2 g3 x1 x2 x3,
  0 < a < 8 / 10 -> v_max (kin E) <= 1 -> 8 / 10 < near -> 2 * (8 / 10 * sigma (8 / 10)) < near * sigma near ->
  integrate nan qags default_integral a (8 / 10) (p_dedx p E) 4 0 = Some (Ok (x1, g1)) ->
  x1 = integral_of (fun v => v * sigma v) a (8 / 10) + e1 ->
  integrate nan qags g1 (1 - b) r reverse 2 0 = Some (Ok (x2, g2)) ->
  x2 = integral_of (fun v => (1 - v) * sigma (1 - v)) (1 - b) r + e2 ->
  integrate nan qags g2 r (1 - 8 / 10) reverse 4 0 = Some (Ok (x3, g3)) ->
  x3 = integral_of (fun v => (1 - v) * sigma (1 - v)) r (1 - 8 / 10) + e3 ->
  exists x, continuous_loss nan qags Split p c E = Some (Ok x) /\
    x + stochastic_part E sigma kin c = lost_between E sigma a (v_max (kin E)) + E * (e1 + e2 + e3).
Proof. exact split_shared. Qed.
Print Assumptions C62_split.
(** ... and one integral otherwise *)
Theorem C62_whole : forall nan qags kin differential c E sigma e, is_differential kin differential E sigma ->
  let a := v_min (kin E) in
  let b := get_cut_within c (kin E) E in
  let p := standard kin differential in
  let near := b * (1 - HALF_PRECISION) in
  near <= 8 / 10 \/ (a < 8 / 10 /\ near * sigma near <= 2 * (8 / 10 * sigma (8 / 10))) ->
  deviates (fun v => v * sigma v) a b e (integral nan qags default_integral a b (p_dedx p E) 4) ->
  exists x, continuous_loss nan qags Split p c E = Some (Ok x) /\
    x + stochastic_part E sigma kin c = lost_between E sigma a (v_max (kin E)) + E * e.
Proof. exact whole_shared. Qed.
Print Assumptions C62_whole.
(** The second moment, which continuous randomization uses *)
Theorem C62_variance : forall nan qags kin differential c E sigma e, is_differential kin differential E sigma ->
  let a := v_min (kin E) in
  let b := get_cut_within c (kin E) E in
  let d := v_max (kin E) in
  let p := standard kin differential in
  integrable (fun v => v * v * sigma v) a d ->
  deviates (fun v => v * v * sigma v) a b e
    (integral nan qags default_integral a b (fun v => olet y := p_differential p E v in Ok (v * v * y)) 2) ->
  exists x, continuous_variance nan qags p c E = Some (Ok x) /\
    x + E * E * integral_of (fun v => v * v * sigma v) b d = E * E * integral_of (fun v => v * v * sigma v) a d + E * E * e.
Proof. exact variance_shared. Qed.
Print Assumptions C62_variance.
Example C62_integral_example : forall nan,
  is_differential narrow tenth 1 (fun v => v ^ 10) /\ is_differential wide tenth 1 (fun v => v ^ 10) /\
  get_cut_within (relative_cut (1 / 4)) (narrow 1) 1 = 1 / 4 /\
  (exists e, deviates (fun v => v * v ^ 10) 0 (1 / 4) e
     (integral nan exactly_one default_integral 0 (1 / 4) (p_dedx (standard narrow tenth) 1) 2)) /\
  (exists e, deviates (fun v => v * v * v ^ 10) 0 (1 / 4) e
     (integral nan exactly_one default_integral 0 (1 / 4) (fun v => olet y := p_differential (standard narrow tenth) 1 v in Ok (v * v * y)) 2)) /\
  (exists e, deviates (fun t => exp t * ((1 - exp t) * (1 - exp t) ^ 10)) (ln (1 - 1 / 4)) (ln (1 - 0)) e
     (integral nan exactly_one default_integral (ln (1 - 1 / 4)) (ln (1 - 0))
        (fun t => olet y := p_dedx (standard narrow tenth) 1 (1 - exp t) in Ok (exp t * y)) 2)) /\
  get_cut_within (relative_cut (1 / 2)) (wide 1) 1 = 1 / 2 /\
  (exists e, deviates (fun v => v * v ^ 10) (1 / 10) (1 / 2) e
     (integral nan exactly_one default_integral (1 / 10) (1 / 2) (p_dedx (standard wide tenth) 1) 4)) /\
  get_cut_within (relative_cut (1 / 10)) (wide 1) 1 = 1 / 10 /\
  deviates (fun v => v * v ^ 10) (1 / 10) (1 / 10) 0
    (integral nan exactly_one fine_integral (1 / 10) (1 / 10) (p_dedx (standard wide tenth) 1) 4).
Proof. exact integral_example. Qed.
Example C62_split_example : forall nan,
  get_cut_within (relative_cut 1) (wide 1) 1 = 1 /\ Rmin (Rmax (1 - 1) COMPUTER_PRECISION) (1 - 8 / 10) = COMPUTER_PRECISION /\
  8 / 10 < 1 * (1 - HALF_PRECISION) /\
  2 * (8 / 10 * (8 / 10) ^ 10) < 1 * (1 - HALF_PRECISION) * (1 * (1 - HALF_PRECISION)) ^ 10 /\
  exists e1 e2 e3 g1 g2 g3 x1 x2 x3,
  integrate nan exactly_one default_integral (1 / 10) (8 / 10) (p_dedx (standard wide tenth) 1) 4 0 = Some (Ok (x1, g1)) /\
  x1 = integral_of (fun v => v * v ^ 10) (1 / 10) (8 / 10) + e1 /\
  integrate nan exactly_one g1 (1 - 1) COMPUTER_PRECISION (fun v => olet y := tenth 1 (1 - v) in Ok ((1 - v) * y)) 2 0 = Some (Ok (x2, g2)) /\
  x2 = integral_of (fun v => (1 - v) * (1 - v) ^ 10) (1 - 1) COMPUTER_PRECISION + e2 /\
  integrate nan exactly_one g2 COMPUTER_PRECISION (1 - 8 / 10) (fun v => olet y := tenth 1 (1 - v) in Ok ((1 - v) * y)) 4 0 = Some (Ok (x3, g3)) /\
  x3 = integral_of (fun v => (1 - v) * (1 - v) ^ 10) COMPUTER_PRECISION (1 - 8 / 10) + e3.
Proof. exact split_case. Qed.
(** Without a cut all losses are sampled.  When the smallest loss is zero, as for
    bremsstrahlung, their rate is computed as zero, whatever the cross section. *)
Theorem C62_uncut_refuted : forall nan qags kin differential E, v_min (kin E) = 0 ->
  sampled_rate nan qags (standard kin differential) None E = Some (Ok 0).
Proof. exact uncut_rate. Qed.
Print Assumptions C62_uncut_refuted.
Example C62_uncut_example : v_min (narrow 1) = 0 /\ v_max (narrow 1) = 1 / 2 /\ tenth 1 (1 / 4) = Ok ((1 / 4) ^ 10).
Proof. repeat split. Qed.
