(** Property C60: the deflection of the particle by a stochastic loss. *)
From Verif Require Import Prelude Particle_Model Limits_Model Vec_Model Geometry_Model Propagator_Model Deflection_Model Deflection_Spec
  Deflection_Proofs Borog_Proofs Ginneken_Proofs Deflector_Proofs.

(** Bremsstrahlung after Tsai: every loss gives an angle, the angles follow the
    spectrum up to the largest one, which is below one radian. *)
Theorem C60_brems_tsai : forall (nan : forall A, outcome A) charge m e_i e_f r0 r1 l c, 0 < m -> 0 < e_f <= e_i -> 0 <= r0 <= 1 ->
  exists theta, deflection nan charge m BremsTsai e_i e_f (r0 :: r1 :: l) c = Ok (theta, 2 * PI * r1) /\ 0 <= theta /\
  let top := Rmin 1 ((e_i - e_f) / e_f) in
  theta <= top /\ (e_f < e_i -> tsai_share m e_i e_f theta = r0 * tsai_share m e_i e_f top).
Proof. intros nan charge m e_i e_f r0 r1 l c. exact (tsai_value nan m e_i e_f r0 r1 l). Qed.
Print Assumptions C60_brems_tsai.

(** Ionization: within the limits of the parametrizations the angle is the one of
    a collision with an electron at rest. *)
Theorem C60_ionization : forall (nan : forall A, outcome A) charge m I E v r0 l c, 0 < m < E -> m <> ME ->
  let lim := ionization_limits m I E in v_min lim < v_max lim -> 0 <= v <= v_max lim ->
  exists theta, deflection nan charge m IonizNaive E (E * (1 - v)) (r0 :: l) c = Ok (theta, 2 * PI * r0) /\ 0 <= theta <= PI /\
    hits_electron m E (E * (1 - v)) theta.
Proof. intros nan charge m I E v r0 l c. exact (ionization_within nan m I E v r0 l). Qed.
Print Assumptions C60_ionization.
Theorem C60_ionization_positron : forall (nan : forall A, outcome A) charge E v r0 l c, ME < E -> 0 <= v < v_max (bhabha_limits ME E) ->
  exists theta, deflection nan charge ME IonizNaive E (E * (1 - v)) (r0 :: l) c = Ok (theta, 2 * PI * r0) /\ 0 <= theta <= PI /\
    hits_electron ME E (E * (1 - v)) theta.
Proof. intros nan charge E v r0 l c. exact (bhabha_within nan E v r0 l). Qed.
Print Assumptions C60_ionization_positron.
Theorem C60_ionization_electron : forall (nan : forall A, outcome A) charge E v r0 l c, ME < E -> 0 <= v <= v_max (moller_limits ME E) ->
  exists theta, deflection nan charge ME IonizNaive E (E * (1 - v)) (r0 :: l) c = Ok (theta, 2 * PI * r0) /\ 0 <= theta <= PI /\
    hits_electron ME E (E * (1 - v)) theta.
Proof. intros nan charge E v r0 l c. exact (moller_within nan E v r0 l). Qed.
Print Assumptions C60_ionization_electron.
(** At the end of the range of a positron there is no angle. *)
Theorem C60_ionization_stop_refuted : forall (nan : forall A, outcome A) charge E rnd c, ME < E -> (forall A (a : A), nan A <> Ok a) ->
  forall a, deflection nan charge ME IonizNaive E (E * (1 - v_max (bhabha_limits ME E))) rnd c <> Ok a.
Proof. intros nan charge E rnd c. exact (bhabha_end nan E rnd). Qed.
Print Assumptions C60_ionization_stop_refuted.

(** Pair production and photonuclear interaction after Van Ginneken *)
Theorem C60_epair : forall (nan : forall A, outcome A) charge m e_i e_f r0 r1 l c, 0 < m < e_f -> e_f < e_i -> 0 <= r0 < 1 ->
  sampled_angle (deflection nan charge m EpairGinneken e_i e_f (r0 :: r1 :: l) c) (epair_mean (e_i / 1000) (lost_part m e_i e_f)) r0 r1.
Proof. intros nan charge m e_i e_f r0 r1 l c. exact (epair_value nan m e_i e_f r0 r1 l). Qed.
Print Assumptions C60_epair.
Theorem C60_photonuclear : forall (nan : forall A, outcome A) charge m e_i e_f r0 r1 l c, 0 < m < e_f -> e_f < e_i -> 0 <= r0 < 1 ->
  sampled_angle (deflection nan charge m PhotoGinneken e_i e_f (r0 :: r1 :: l) c) (photo_mean (e_i / 1000) (lost_part m e_i e_f)) r0 r1.
Proof. intros nan charge m e_i e_f r0 r1 l c. exact (photo_value nan m e_i e_f r0 r1 l). Qed.
Print Assumptions C60_photonuclear.

(** Photonuclear interaction after Borog and Petrukhin: light and heavy particles *)
Theorem C60_borog_light : forall (nan : forall A, outcome A) charge m M E v r0 r1 l c, 0 < m < MPI -> MP <= M ->
  let lim := photonuclear_limits m M E in v_min lim < v_max lim -> v_min lim <= v <= v_max lim -> 0 < E -> 0 <= r0 <= 1 ->
  exists theta, deflection nan charge m PhotoBorog E (E * (1 - v)) (r0 :: r1 :: l) c = Ok (theta, 2 * PI * r1) /\ 0 <= theta <= PI /\
    least_transfer m E (E * (1 - v)) <= transfer m E (E * (1 - v)) theta <= most_transfer E (E * (1 - v)) /\
    borog_above E (E * (1 - v)) (transfer m E (E * (1 - v)) theta) = r0 * borog_above E (E * (1 - v)) (least_transfer m E (E * (1 - v))).
Proof. intros nan charge m M E v r0 r1 l c. exact (borog_light nan m M E v r0 r1 l). Qed.
Print Assumptions C60_borog_light.
Theorem C60_borog_heavy : forall (nan : forall A, outcome A) charge m e_i e_f r0 r1 l c, 626 <= m <= 2 * MP -> m <= e_f < e_i -> 0 <= r0 <= 1 ->
  exists theta, deflection nan charge m PhotoBorog e_i e_f (r0 :: r1 :: l) c = Ok (theta, 2 * PI * r1) /\ 0 <= theta <= PI /\
    least_transfer m e_i e_f <= transfer m e_i e_f theta <= most_transfer e_i e_f /\
    borog_above e_i e_f (transfer m e_i e_f theta) = r0 * borog_above e_i e_f (least_transfer m e_i e_f).
Proof. intros nan charge m e_i e_f r0 r1 l c. exact (borog_heavy nan m e_i e_f r0 r1 l). Qed.
Print Assumptions C60_borog_heavy.
(** A kaon within the limits gets no angle. *)
Theorem C60_borog_refuted : exists m E v, m = MKAON /\ m < E * (1 - v) /\ v_min (photonuclear_limits m MP E) < v < v_max (photonuclear_limits m MP E) /\
  forall (nan : forall A, outcome A) r1, (forall A (v : A), nan A <> Ok v) -> forall charge c a, deflection nan charge m PhotoBorog E (E * (1 - v)) [0; r1] c <> Ok a.
Proof. exact borog_kaon_deflection. Qed.
Print Assumptions C60_borog_refuted.

(** Bremsstrahlung after Van Ginneken: small losses, medium losses, large losses *)
Theorem C60_brems_low : forall (nan : forall A, outcome A) m Z e_i e_f r0 r1 l, 0 < m < e_f -> e_f < e_i -> 0 < Z -> lost_part m e_i e_f <= 1 / 2 -> 0 <= r0 < 1 ->
  forall charge c, charge c = Ok Z ->
  sampled_angle (deflection nan charge m BremsGinneken e_i e_f (r0 :: r1 :: l) c) (brems_mean_low (e_i / 1000) (lost_part m e_i e_f) Z) r0 r1.
Proof. exact ginneken_low_deflection. Qed.
Print Assumptions C60_brems_low.
Theorem C60_brems_high : forall (nan : forall A, outcome A) m Z e_i e_f r0 r1 l, 0 < m < e_f -> e_f < e_i -> 1 / 2 < lost_part m e_i e_f ->
  brems_mean_high (e_i / 1000) (lost_part m e_i e_f) < 2 / 10 -> 0 <= r0 < 1 -> forall charge c, charge c = Ok Z ->
  sampled_angle (deflection nan charge m BremsGinneken e_i e_f (r0 :: r1 :: l) c) (brems_mean_high (e_i / 1000) (lost_part m e_i e_f)) r0 r1.
Proof. exact ginneken_high_deflection. Qed.
Print Assumptions C60_brems_high.
(** Full statement: there is an angle with a mean of at least 0.2.  It is false
    (next theorem): the calculator may throw. *)
Theorem C60_brems_top_partial : forall (nan : forall A, outcome A) m Z e_i e_f r0 r1 l, 0 < m < e_f -> e_f < e_i -> 1 / 2 < lost_part m e_i e_f ->
  2 / 10 <= brems_mean_high (e_i / 1000) (lost_part m e_i e_f) -> 0 <= r0 < 1 -> forall charge c, charge c = Ok Z ->
  deflection nan charge m BremsGinneken e_i e_f (r0 :: r1 :: l) c = Throw invalid_argument \/
  exists mean, 2 / 10 <= mean /\ sampled_angle (deflection nan charge m BremsGinneken e_i e_f (r0 :: r1 :: l) c) mean r0 r1.
Proof. exact ginneken_top_deflection. Qed.
Print Assumptions C60_brems_top_partial.
Theorem C60_brems_exception_refuted : forall (nan : forall A, outcome A) rnd, exists e_i e_f, 1000 <= e_i <= 4000 /\ MMU < e_f < e_i /\
  forall charge c Z, charge c = Ok Z -> deflection nan charge MMU BremsGinneken e_i e_f rnd c = Throw invalid_argument.
Proof. exact ginneken_exception_deflection. Qed.
Print Assumptions C60_brems_exception_refuted.

(** The zenith is not confined to half a turn. *)
Theorem C60_zenith_refuted : forall (nan : forall A, outcome A) charge c m e_i e_f theta r1, 0 < m < e_f -> e_f < e_i ->
  epair_mean (e_i / 1000) (lost_part m e_i e_f) <> 0 -> 0 <= theta ->
  exists r0, 0 <= r0 < 1 /\ deflection nan charge m EpairGinneken e_i e_f [r0; r1] c = Ok (theta, 2 * PI * r1).
Proof. intros nan charge c m e_i e_f theta r1. exact (epair_any nan m e_i e_f theta r1). Qed.
Print Assumptions C60_zenith_refuted.

(** Random numbers: the announced count is enough, only the first ones count, and
    without them there is no angle. *)
Theorem C60_numbers_enough : forall (nan : forall A, outcome A) charge m d e_i e_f rnd c, (forall A, defined (nan A)) -> defined (charge c) ->
  (required d <= length rnd)%nat -> defined (deflection nan charge m d e_i e_f rnd c).
Proof. exact enough_numbers. Qed.
Print Assumptions C60_numbers_enough.
Theorem C60_numbers_used : forall (nan : forall A, outcome A) charge m d e_i e_f rnd c,
  deflection nan charge m d e_i e_f (firstn (required d) rnd) c = deflection nan charge m d e_i e_f rnd c.
Proof. exact first_numbers. Qed.
Print Assumptions C60_numbers_used.
Theorem C60_numbers_needed : forall (nan : forall A, outcome A) charge m d e_i e_f rnd c a,
  deflection nan charge m d e_i e_f rnd c = Ok a -> (required d <= length rnd)%nat.
Proof. exact too_few. Qed.
Print Assumptions C60_numbers_needed.

(** The object that keeps the calculators: the last calculator registered for a
    type answers, and its zenith is multiplied by the factor of that type. *)
Theorem C60_calculator : forall (nan : forall A, outcome A) multiple charge m ds k factors t n f,
  sc_stochastic (make_scattering nan multiple charge m ds k factors) t = Some (n, f) ->
  exists d, last_for ds t d /\ n = required d /\ forall e_i e_f rnd c q, factor_for factors t q ->
    f e_i e_f rnd c = (olet a := deflection nan charge m d e_i e_f rnd c in Ok (fst a * q, snd a)).
Proof. exact stochastic_query. Qed.
Print Assumptions C60_calculator.
Theorem C60_no_calculator : forall (nan : forall A, outcome A) multiple charge m ds k factors t,
  sc_stochastic (make_scattering nan multiple charge m ds k factors) t = None <-> forall d, In d ds -> type_of d <> t.
Proof. exact stochastic_none. Qed.
Print Assumptions C60_no_calculator.
Theorem C60_multiple : forall (nan : forall A, outcome A) f charge m ds k factors,
  exists g, sc_multiple (make_scattering nan (Some f) charge m ds k factors) = Some g /\
  forall grammage e_i e_f rnd, g grammage e_i e_f rnd = (olet o := f grammage e_i e_f rnd in Ok (mkoffset (o_sx o * k) (o_sy o * k) (o_tx o * k) (o_ty o * k))).
Proof. exact multiple_query. Qed.
Print Assumptions C60_multiple.
