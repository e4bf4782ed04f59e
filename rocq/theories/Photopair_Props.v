(** Theorems about pair production by photons and about the suppression of Landau,
    Pomeranchuk and Migdal. *)
From Coq Require Import Lra.
From Verif Require Import Prelude Particle_Model Limits_Model Cross_Model Photo_Model Products_Model Differential_Model Photopair_Model
  Differential_Spec Photopair_Spec Brems_Proofs Lpm_Proofs LpmBound_Proofs Photopair_Proofs Cross_Examples Differential_Examples Photopair_Examples.

(** ** C63: differential cross sections are numbers and not negative *)
(** Koch and Motz: up to iron, and for all elements below 50 MeV, provided that the
    energy is at least twenty electron masses; [data] is the tabulated cross section
    and [total] the integral that it is compared with. *)
Theorem C63_koch_motz : forall nan c, element c -> forall data total E n d, 20 * ME <= E -> E < 50 \/ c_charge c <= 26 ->
  total E = Ok n -> data E = Ok d -> 0 < n -> 0 <= d ->
  never_negative (photo_pair_limits E) (koch_motz nan data total None c E).
Proof. exact koch_motz_positive. Qed.
Print Assumptions C63_koch_motz.
Example C63_koch_motz_example : element iron_c /\ c_charge iron_c <= 26 /\ 20 * ME <= 100 /\ 50 < 100 /\
  v_min (photo_pair_limits 100) < v_max (photo_pair_limits 100).
Proof. exact koch_motz_example. Qed.
(** At four electron masses it changes its sign within the limits, for every element,
    so that whatever it is scaled with some of its values are negative ... *)
Theorem C63_koch_motz_low_refuted : forall nan c, element c -> forall data total n d,
  total (4 * ME) = Ok n -> data (4 * ME) = Ok d -> n <> 0 -> d <> 0 ->
  let lim := photo_pair_limits (4 * ME) in
  exists x y, v_min lim <= x <= v_max lim /\ koch_motz nan data total None c (4 * ME) x = Ok y /\ y < 0.
Proof. exact low_energy_refuted. Qed.
Print Assumptions C63_koch_motz_low_refuted.
(** ... and for heavy elements it is negative at its limit for all energies above
    50 MeV. *)
Theorem C63_koch_motz_heavy_refuted : forall nan c, element c -> forall data total E, 80 <= c_charge c -> 50 < E ->
  exists y, koch_motz nan data total None c E (v_min (photo_pair_limits E)) = Ok y /\ y < 0.
Proof. exact heavy_refuted. Qed.
Print Assumptions C63_koch_motz_heavy_refuted.
Example C63_koch_motz_refuted_example : element lead_c /\ 80 <= c_charge lead_c.
Proof. exact screening_example. Qed.
(** Tsai, but not at the lower limit: there the result is infinite. *)
Theorem C63_tsai : forall nan dilog c k, element c -> 0 < k -> never_negative (photo_pair_limits k) (tsai nan dilog None c k).
Proof. exact tsai_result. Qed.
Print Assumptions C63_tsai.
Theorem C63_tsai_limit_refuted : forall nan dilog c k, element c -> 2 * ME < k -> forall suppression, (forall A (a : A), nan A <> Ok a) ->
  forall y, tsai nan dilog suppression c k (v_min (photo_pair_limits k)) <> Ok y.
Proof. exact tsai_at_limit. Qed.
Print Assumptions C63_tsai_limit_refuted.
Example C63_tsai_example : element oxygen_c /\ 5 <= c_charge oxygen_c /\ 2 * ME < 10 ^ 6 /\ ME / 10 ^ 6 < 1 / 4 < 1 / 2 /\
  1000 * ME <= 10 ^ 6 * (1 / 4) * (1 - 1 / 4) /\ v_min (photo_pair_limits (10 ^ 6)) < v_max (photo_pair_limits (10 ^ 6)).
Proof. exact tsai_example. Qed.

(** ** C64: the effect of Landau, Pomeranchuk and Migdal *)
(** The factor is positive and never exceeds one by more than five percent.  It is
    less than one for muons and all heavier particles, and for every particle below
    the energy where the effect sets in. *)
Theorem C64_bremsstrahlung_factor : forall nan mass m density c E v, ME <= mass -> element c -> 0 < density -> 0 < E -> 0 < v < 1 ->
  0 < l_energy m -> 0 <= l_sum_charge m * l_mol_density m ->
  exists x, brems_suppression nan mass m density c E v = Ok x /\ 0 < x < 21 / 20 /\
    (MMU <= mass \/ 64 * (density * E * (1 - v)) <= l_energy m * v -> x < 1).
Proof. exact c64_brems. Qed.
Print Assumptions C64_bremsstrahlung_factor.
Theorem C64_pair_factor : forall nan m density c E x, element c -> 0 < density -> 0 < E -> 0 < x < 1 ->
  0 < l_energy m -> 0 <= l_sum_charge m * l_mol_density m ->
  exists f, pair_suppression nan m density c E x = Ok f /\ 0 < f < 21 / 20 /\
    (64 * (density * E * x * (1 - x)) <= l_energy m -> f < 1).
Proof. exact c64_pairs. Qed.
Print Assumptions C64_pair_factor.
(** It multiplies the cross section, whatever the parametrization is. *)
Theorem C64_bremsstrahlung : forall nan screening parametrization mass charge m density c E v x,
  ME <= mass -> element c -> 0 < density -> 0 < E -> 0 < v < 1 -> 0 < l_energy m -> 0 <= l_sum_charge m * l_mol_density m ->
  bremsstrahlung nan screening parametrization None mass charge c E v = Ok x ->
  exists f, 0 < f < 21 / 20 /\ (MMU <= mass \/ 64 * (density * E * (1 - v)) <= l_energy m * v -> f < 1) /\
    bremsstrahlung nan screening parametrization (Some (brems_suppression nan mass m density c)) mass charge c E v = Ok (x * f).
Proof. exact suppressed_bremsstrahlung. Qed.
Print Assumptions C64_bremsstrahlung.
Theorem C64_pairs : forall nan data total m density c E x y,
  element c -> 0 < density -> 50 < E -> 0 < x < 1 -> 0 < l_energy m -> 0 <= l_sum_charge m * l_mol_density m ->
  koch_motz nan data total None c E x = Ok y ->
  exists f, 0 < f < 21 / 20 /\ (64 * (density * E * x * (1 - x)) <= l_energy m -> f < 1) /\
    koch_motz nan data total (Some (pair_suppression nan m density c)) c E x = Ok (y * f).
Proof. exact suppressed_koch_motz. Qed.
Print Assumptions C64_pairs.
Example C64_example : element oxygen_c /\ 0 < l_energy water_lpm /\ 0 <= l_sum_charge water_lpm * l_mol_density water_lpm /\
  64 * (1 * 10 ^ 6 * (1 - 1 / 10)) <= l_energy water_lpm * (1 / 10) /\ 64 * (1 * 10 ^ 6 * (1 / 10) * (1 - 1 / 10)) <= l_energy water_lpm.
Proof. exact weak_example. Qed.
(** Muons far above the energy where the effect sets in. *)
Example C64_muon_example : MMU <= MMU /\ element lead_c /\ 0 < l_energy lead_lpm /\ 0 <= l_sum_charge lead_lpm * l_mol_density lead_lpm /\
  l_energy lead_lpm * (1 / 10) < 64 * (1 * (100 * l_energy lead_lpm) * (1 - 1 / 10)).
Proof. exact strong_example. Qed.
(** But it is no suppression everywhere: in every heavy element, where the effect
    sets in, the factor for electrons exceeds one. *)
Theorem C64_enhancement_refuted : forall nan m density c, element c -> 80 <= c_charge c -> 0 < density -> 0 < l_energy m ->
  0 <= l_sum_charge m * l_mol_density m -> l_sum_charge m * l_mol_density m * density <= 10 ^ 26 ->
  exists x, brems_suppression nan ME m density c (l_energy m / (24336 / 100 * density)) (1 / 10) = Ok x /\ 101 / 100 < x.
Proof. exact enhancement. Qed.
Print Assumptions C64_enhancement_refuted.
Example C64_refuted_example : ME <= ME /\ element lead_c /\ 80 <= c_charge lead_c /\ 0 < l_energy lead_lpm /\
  0 < l_sum_charge lead_lpm * l_mol_density lead_lpm /\ l_sum_charge lead_lpm * l_mol_density lead_lpm * 1 <= 10 ^ 26 /\
  1000 * 1 <= l_energy lead_lpm.
Proof. exact lpm_example. Qed.

(** ** C65: the two particles of a pair are exchangeable *)
Theorem C65_limits : forall E, 0 < E -> exchangeable_limits (photo_pair_limits E) /\ exchangeable_limits (photo_muon_pair_limits E).
Proof. exact limits_exchange. Qed.
Print Assumptions C65_limits.
Theorem C65_koch_motz : forall nan data total c E, exchangeable (photo_pair_limits E) (koch_motz nan data total None c E).
Proof. exact koch_motz_symmetric. Qed.
Print Assumptions C65_koch_motz.
Theorem C65_muon_pairs : forall nan c E, element c -> 0 < E -> let lim := photo_muon_pair_limits E in
  never_negative lim (photo_muon_pair nan c E) /\ exchangeable lim (photo_muon_pair nan c E).
Proof. exact muon_result. Qed.
Print Assumptions C65_muon_pairs.
Example C65_example : element oxygen_c /\ v_min (photo_muon_pair_limits 1000) < 1 / 4 < v_max (photo_muon_pair_limits 1000).
Proof. exact muon_pair_example. Qed.
(** Tsai: the conversion to the share of the energy is the one of a single particle,
    so that the particle with the smaller share is always preferred. *)
Theorem C65_tsai_refuted : forall nan dilog c k x, element c -> 5 <= c_charge c -> ME / k < x < 1 / 2 -> 2 * ME < k ->
  1000 * ME <= k * x * (1 - x) ->
  exists a b, tsai nan dilog None c k x = Ok a /\ tsai nan dilog None c k (1 - x) = Ok b /\ 0 < b < a.
Proof. exact tsai_refuted. Qed.
Print Assumptions C65_tsai_refuted.
(** The suppression looks at the share of one particle: in every medium there are
    energies where it halves the cross section for one of two exchanged shares and
    leaves the other one. *)
Theorem C65_lpm_refuted : forall nan m density c, element c -> 0 < density -> 1000 * density <= l_energy m ->
  0 < l_sum_charge m * l_mol_density m -> l_sum_charge m * l_mol_density m * density <= 10 ^ 26 ->
  exists E x f g, 2 * ME < E /\ v_min (photo_pair_limits E) < x < 1 / 2 /\
    pair_suppression nan m density c E x = Ok f /\ pair_suppression nan m density c E (1 - x) = Ok g /\ f < 1 / 2 /\ 9 / 10 < g.
Proof. exact lpm_skew. Qed.
Print Assumptions C65_lpm_refuted.
