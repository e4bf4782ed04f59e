(** Theorems about differential cross sections. *)
From Coq Require Import Lra.
From Verif Require Import Prelude Particle_Model Limits_Model Cross_Model Photo_Model Products_Model Ionization_Model Differential_Model
  Continuous_Spec Differential_Spec Differential_Proofs Brems_Proofs Screening_Proofs Light_Proofs Cross_Examples Continuous_Examples Differential_Examples.

(** ** C63: differential cross sections are numbers and not negative *)
(** Compton scattering: the formula of Klein and Nishina, everywhere positive, and
    the kinematic limits are the losses that belong to an angle. *)
Theorem C63_compton : forall nan c E v, 0 < E -> 0 < c_charge c -> 0 < c_atomic c ->
  v_min (compton_limits E) <= v <= v_max (compton_limits E) ->
  klein_nishina nan c E v = Ok (klein_nishina_formula c E v) /\ 0 < klein_nishina_formula c E v /\ -1 <= compton_angle E v <= 1.
Proof. exact klein_nishina_result. Qed.
Print Assumptions C63_compton.
Example C63_compton_example : 0 < 10 * ME /\
  v_min (compton_limits (10 * ME)) <= 1 / 2 <= v_max (compton_limits (10 * ME)) /\ compton_angle (10 * ME) (1 / 2) = 9 / 10.
Proof. exact compton_example. Qed.
(** Annihilation: the rate is the integral of the distribution of Heitler over the
    shares that one of the photons can have, and it is positive. *)
Theorem C63_annihilation : forall nan mass weight c E, 0 < mass < E -> 0 < weight -> 0 < c_charge c -> 0 < c_atomic c ->
  exists x, heitler_rate nan mass weight c E = Ok x /\ 0 < x.
Proof. exact heitler_rate_positive. Qed.
Print Assumptions C63_annihilation.
Theorem C63_annihilation_rate : forall nan mass weight c E, 0 < mass < E -> weight <> 0 -> c_atomic c <> 0 ->
  let g := E / mass in
  heitler_rate nan mass weight c E = Ok (NA * c_charge c / c_atomic c * (PI * RE ^ 2) / (g - 1) / weight *
    integral_of (annihilation_density g) (1 / 2 * (1 - annihilation_limit g)) (1 / 2 * (1 + annihilation_limit g))).
Proof. exact heitler_rate_value. Qed.
Print Assumptions C63_annihilation_rate.
Example C63_annihilation_example : 0 < ME < 10 * ME /\ 0 < c_charge oxygen_c /\ 0 < c_atomic oxygen_c.
Proof. pose proof Ionization_Proofs.ME_pos. cbn. lra. Qed.

(** Bremsstrahlung.  [lorenz] is the cut of that name, if it is switched on; the
    mass is at least the one of an electron. *)
Theorem C63_complete_screening : forall nan lorenz mass charge c E, ME <= mass -> charge <> 0 -> 0 < E -> element c ->
  never_negative (brems_limits lorenz mass (c_charge c) E) (bremsstrahlung nan false (fun _ => complete_screening nan c) None mass charge c E).
Proof. exact complete_result. Qed.
Print Assumptions C63_complete_screening.
Theorem C63_andreev : forall nan lorenz mass charge c E, ME <= mass -> charge <> 0 -> 0 < E -> element c ->
  never_negative (brems_limits lorenz mass (c_charge c) E) (bremsstrahlung nan false (andreev nan mass c) None mass charge c E).
Proof. exact andreev_result. Qed.
Print Assumptions C63_andreev.
Theorem C63_sandrock : forall nan lorenz mass charge c E, ME <= mass -> charge <> 0 -> 0 < E -> element c ->
  never_negative (brems_limits lorenz mass (c_charge c) E) (bremsstrahlung nan false (sandrock nan mass c) None mass charge c E).
Proof. exact sandrock_result. Qed.
Print Assumptions C63_sandrock.
(** Kelner, Kokoulin and Petrukhin do not clamp; for electrons and particles at least
    fifty times as heavy that is not needed. *)
Theorem C63_kelner : forall nan lorenz mass charge c E, ME <= mass -> charge <> 0 -> 0 < E -> element c -> lepton mass ->
  never_negative (brems_limits lorenz mass (c_charge c) E) (bremsstrahlung nan false (kelner nan mass c) None mass charge c E).
Proof. exact kelner_result. Qed.
Print Assumptions C63_kelner.
(** Petrukhin and Shestakov: for light elements only *)
Theorem C63_petrukhin : forall nan lorenz mass charge c E, ME <= mass -> charge <> 0 -> 0 < E -> element c -> c_charge c <= 10 ->
  never_negative (brems_limits lorenz mass (c_charge c) E) (bremsstrahlung nan false (petrukhin_shestakov nan mass c) None mass charge c E).
Proof. exact petrukhin_result. Qed.
Print Assumptions C63_petrukhin.
Example C63_brems_example : element oxygen_c /\ c_charge oxygen_c <= 10 /\ element lead_c /\ lepton MMU /\ ME <= MMU /\ lepton ME /\
  0 < v_max (brems_limits None MMU (c_charge oxygen_c) (10 ^ 5)) /\ 0 < v_max (brems_limits None MMU (c_charge lead_c) (10 ^ 5)) /\
  0 < v_max (brems_limits None ME (c_charge lead_c) 10).
Proof. exact brems_example. Qed.
(** With a factor for elements above neon the cross section is negative for the
    largest losses at every energy from 73 m^2 / m_e on. *)
Theorem C63_petrukhin_refuted : forall nan mass charge c E, ME <= mass -> charge <> 0 -> element c ->
  10 < c_charge c -> 73 * mass ^ 2 / ME <= E ->
  let lim := brems_limits None mass (c_charge c) E in
  exists v x, v_min lim < v <= v_max lim /\ bremsstrahlung nan false (petrukhin_shestakov nan mass c) None mass charge c E v = Ok x /\ x < 0.
Proof. exact petrukhin_refuted. Qed.
Print Assumptions C63_petrukhin_refuted.
Example C63_petrukhin_example : element iron_c /\ 10 < c_charge iron_c /\ 73 * MMU ^ 2 / ME <= 2 * 10 ^ 6.
Proof. exact petrukhin_example. Qed.
(** With screening by electrons the limits reach up to the whole kinetic energy.  In
    the heaviest elements the cross section is negative there at every energy from
    50 MeV on. *)
Theorem C63_electron_screening_refuted : forall nan correction charge c E, charge <> 0 -> element c -> 80 <= c_charge c -> 50 <= E ->
  let lim := brems_default_limits ME E in
  exists v x, v_min lim < v <= v_max lim /\ bremsstrahlung nan true (electron_screening nan correction ME c) None ME charge c E v = Ok x /\ x < 0.
Proof. exact screening_refuted. Qed.
Print Assumptions C63_electron_screening_refuted.
(** It is not negative below 50 MeV, nor for charges up to 40.  [correction] is the table
    of correction factors. *)
Theorem C63_electron_screening_partial : forall nan correction charge c E, charge <> 0 -> element c ->
  (E < 50 -> exists y, correction (ln (c_charge c)) (E - ME) = Ok y /\ 0 <= y) -> ME < E -> E < 50 \/ c_charge c <= 40 ->
  never_negative (brems_default_limits ME E) (bremsstrahlung nan true (electron_screening nan correction ME c) None ME charge c E).
Proof. exact screening_result. Qed.
Print Assumptions C63_electron_screening_partial.
Example C63_electron_screening_light : element oxygen_c /\ c_charge oxygen_c <= 40 /\ ME < 1000.
Proof. split; [exact oxygen_element|]. unfold ME. cbn. lra. Qed.
(** The two screening functions stay below the complete screening of Tsai, which the
    first one reaches when there is no momentum transfer, up to one part in a hundred. *)
Theorem C63_screening_functions : forall nan x, 0 <= x -> exists p1 p2, screening_functions nan x = Ok (p1, p2) /\
  p2 <= p1 <= 4 * ln (18415 / 100) + 1 / 100 /\ p1 - p2 <= 1 /\ (x = 0 -> Rabs (p1 - 4 * ln (18415 / 100)) <= 1 / 100).
Proof. exact screening_values. Qed.
Print Assumptions C63_screening_functions.
Example C63_electron_screening_example : element lead_c /\ 80 <= c_charge lead_c.
Proof. exact screening_example. Qed.

(** Ionization: positrons and electrons *)
Theorem C63_bhabha : forall nan m E, sound_material m -> ME < E -> never_negative (bhabha_limits ME E) (bhabha nan ME m E).
Proof. exact bhabha_never_negative. Qed.
Print Assumptions C63_bhabha.
Theorem C63_moller : forall nan m E, sound_material m -> ME < E -> never_negative (moller_limits ME E) (moller nan ME m E).
Proof. exact moller_never_negative. Qed.
Print Assumptions C63_moller.
(** Bethe, Bloch and Rossi: the correction for inelastic scattering contains minus the
    square of a logarithm that grows without bound towards the largest loss.  For
    every particle, medium and energy that allows a loss at all the cross section is
    negative somewhere. *)
Theorem C63_rossi_refuted : forall nan mass charge m E, sound_material m -> 0 < mass < E -> charge <> 0 ->
  let lim := ionization_limits mass (mat_I m) E in v_min lim < v_max lim ->
  exists v x, v_min lim < v < v_max lim /\ rossi nan mass charge m E v = Ok x /\ x < 0.
Proof. exact rossi_negative. Qed.
Print Assumptions C63_rossi_refuted.
Example C63_rossi_example : sound_material water_ionization /\ 0 < MMU < 10 ^ 5 /\
  v_min (ionization_limits MMU (mat_I water_ionization) (10 ^ 5)) < v_max (ionization_limits MMU (mat_I water_ionization) (10 ^ 5)).
Proof. exact rossi_example. Qed.
