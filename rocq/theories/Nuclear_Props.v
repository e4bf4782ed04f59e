(** Theorems about nuclear interactions of photons and of charged particles. *)
From Coq Require Import Lra.
From Verif Require Import Prelude Propagator_Model Particle_Model Limits_Model Cross_Model Photo_Model Products_Model Nuclear_Model
  Interpolant_Model Interpolant_Spec Rhode_Model Cross_Spec Differential_Spec Nuclear_Spec Nuclear_Proofs Rhode_Proofs Cross_Examples Differential_Examples Nuclear_Examples.

(** ** C66: photoproduction sets in where pions can be made *)
Theorem C66_zeus : forall c E, element c -> has_threshold c E (zeus c E).
Proof. exact zeus_threshold. Qed.
Print Assumptions C66_zeus.
Theorem C66_bezrukov_bugaev : forall nan c E, element c -> 0 < E -> has_threshold c E (bezrukov_bugaev nan c E).
Proof. exact bugaev_threshold. Qed.
Print Assumptions C66_bezrukov_bugaev.
Theorem C66_caldwell : forall nan c E, element c -> 0 < E -> has_threshold c E (caldwell nan c E).
Proof. exact caldwell_threshold. Qed.
Print Assumptions C66_caldwell.
Theorem C66_kokoulin : forall nan c E, element c -> 0 < E -> has_threshold c E (kokoulin nan c E).
Proof. exact kokoulin_threshold. Qed.
Print Assumptions C66_kokoulin.
Theorem C66_heck : forall nan c E, element c -> 0 < E -> has_threshold c E (heck nan c E).
Proof. exact heck_threshold. Qed.
Print Assumptions C66_heck.
(** Rhode interpolates a table: in every history of readings, by all copies of the
    parametrization. *)
Theorem C66_rhode : forall nan, exists t f, rhode_interpolant = Ok t /\ reads nan t f /\
  forall c E, element c -> 0 < E -> has_threshold c E (rhode nan (fun q => Ok (f q)) c E).
Proof. exact c66_rhode. Qed.
Print Assumptions C66_rhode.
Example C66_example : element oxygen_c /\ makes_pion oxygen_c 1000 /\ ~ makes_pion oxygen_c 100.
Proof. exact pions_example. Qed.
(** The nucleons of an atom shadow each other, except for hydrogen: the cross section
    of the atom is positive and at most the one of its nucleons, and at least a
    quarter of it. *)
Theorem C66_shadowing : forall nan c E nucleon x, element c -> nucleon c E = Ok x -> 0 <= x ->
  exists y, atom_cross_section nan nucleon c E = Ok y /\ c_atomic c * x / 4 <= y <= c_atomic c * x /\
    (c_charge c = 1 -> y = c_atomic c * x) /\ (0 < x -> c_charge c <> 1 -> y < c_atomic c * x).
Proof. exact atom_bounds. Qed.
Print Assumptions C66_shadowing.
Theorem C66_shadowing_c7 : forall c E nucleon x, element c -> nucleon c E = Ok x -> 0 <= x ->
  exists y, atom_cross_section_c7 nucleon c E = Ok y /\ x <= y <= c_atomic c * x.
Proof. exact atom_c7_bounds. Qed.
Print Assumptions C66_shadowing_c7.
Theorem C66_atom : forall nan nucleon c E, element c -> 0 < E -> has_threshold c E (nucleon c E) ->
  has_threshold c E (atom_cross_section nan nucleon c E) /\ has_threshold c E (atom_cross_section_c7 nucleon c E).
Proof. exact atom_threshold. Qed.
Print Assumptions C66_atom.
(** The rate in a medium is the sum over the atoms in a gram; it is positive from the
    lower energy limit on, which is where the first component can make pions, and zero
    below. *)
Theorem C66_rate : forall nan atom registry inf m cut E sigma, sound_medium m -> (forall c, In c (m_components m) -> atom c E = Ok (sigma c)) ->
  x_dNdx (production_cross nan atom registry inf m cut) E =
    Ok (rsum (map (fun c => mass_share m c * (NA / c_atomic c) * (sigma c / 10 ^ 30)) (m_components m))).
Proof. exact production_total. Qed.
Print Assumptions C66_rate.
Theorem C66_lower_limit : forall nan atom registry inf m cut E, sound_medium m -> (forall c, In c (m_components m) -> element c) -> 0 < E < inf ->
  (forall c, In c (m_components m) -> has_threshold c E (atom c E)) ->
  let cross := production_cross nan atom registry inf m cut in
  (x_lower cross <= E <-> exists c, In c (m_components m) /\ makes_pion c E) /\
  exists r, x_dNdx cross E = Ok r /\ (x_lower cross <= E -> 0 < r) /\ (E < x_lower cross -> r = 0).
Proof. exact production_threshold. Qed.
Print Assumptions C66_lower_limit.
Example C66_rate_example : sound_medium water /\ (forall c, In c (m_components water) -> element c) /\ 0 < 1000 < 10 ^ 20 /\
  (forall nan c, In c (m_components water) -> has_threshold c 1000 (atom_cross_section nan zeus c 1000)).
Proof. exact production_example. Qed.

(** ** C63: differential cross sections are numbers and not negative *)
(** Photonuclear interactions of charged particles that are lighter than a pion, in
    the approximation of real photons and without the hard component, for every cross
    section of a photon that sets in where pions can be made *)
Theorem C63_photonuclear : forall nan nucleon mass charge c E, element c -> 0 < mass < MPI -> charge <> 0 -> 0 < E ->
  (forall e, 0 < e -> has_threshold c e (nucleon c e)) ->
  never_negative (photonuclear_limits mass (mean_nucleon c) E) (real_photon nan nucleon soft mass charge c E).
Proof. exact photonuclear_positive. Qed.
Print Assumptions C63_photonuclear.
Example C63_photonuclear_example : 0 < MMU < MPI /\ -1 <> 0 /\
  v_min (photonuclear_limits MMU (mean_nucleon oxygen_c) (10 ^ 6)) < 1 / 2 <= v_max (photonuclear_limits MMU (mean_nucleon oxygen_c) (10 ^ 6)) /\
  (forall e, 0 < e -> has_threshold oxygen_c e (zeus oxygen_c e)).
Proof. exact real_photon_example. Qed.
(** For a tau lepton in hydrogen it is negative within the limits, at every energy ... *)
Theorem C63_photonuclear_tau_refuted : forall nan nucleon charge c E x, element c -> c_charge c = 1 -> charge <> 0 -> MTAU <= E ->
  nucleon c (9 / 10 * E) = Ok x -> 0 < x ->
  let lim := photonuclear_limits MTAU (mean_nucleon c) E in
  v_min lim < 9 / 10 <= v_max lim /\ exists y, real_photon nan nucleon soft MTAU charge c E (9 / 10) = Ok y /\ y < 0.
Proof. exact photonuclear_tau. Qed.
Print Assumptions C63_photonuclear_tau_refuted.
(** ... and for every particle that is not lighter than a pion it is not a number at
    the upper limit. *)
Theorem C63_photonuclear_limit_refuted : forall nan nucleon hard mass charge c E x, element c -> MPI <= mass -> 0 < E -> production_cutoff c <= E ->
  nucleon c E = Ok x -> 0 < x -> (forall A (a : A), nan A <> Ok a) ->
  let lim := photonuclear_limits mass (mean_nucleon c) E in
  v_max lim = 1 /\ forall y, real_photon nan nucleon hard mass charge c E (v_max lim) <> Ok y.
Proof. exact photonuclear_limit. Qed.
Print Assumptions C63_photonuclear_limit_refuted.
Example C63_tau_example : element hydrogen_c /\ c_charge hydrogen_c = 1 /\ MTAU <= 10 ^ 6 /\ MPI <= MTAU /\ production_cutoff hydrogen_c <= 10 ^ 6 /\
  (exists x, zeus hydrogen_c (9 / 10 * 10 ^ 6) = Ok x /\ 0 < x) /\ exists x, zeus hydrogen_c (10 ^ 6) = Ok x /\ 0 < x.
Proof. exact tau_example. Qed.
