(** Property C61: multiple scattering. *)
From Coq Require Import String.
From Verif Require Import Prelude Particle_Model Limits_Model Vec_Model Cross_Model Photo_Model Integral_Model Utility_Model
  Decay_Spec Multiple_Model Multiple_Spec Multiple_Proofs Gauss_Proofs Moliere_Proofs MoliereAngle_Proofs MoliereSample_Proofs MoliereDensity_Proofs.
Notation length := List.length.

(** Every random number gives a number of standard deviations, and the numbers of
    r and 1 - r are opposite. *)
Theorem C61_quantile : forall (nan : forall A, outcome A) p, not_a_value nan -> 0 < p < 1 ->
  exists z, normalppf nan p = Ok z /\ normalppf nan (1 - p) = Ok (- z).
Proof. exact c61_quantile. Qed.
Print Assumptions C61_quantile.

(** Highland: the width is that of the formula, and zero without matter. *)
Theorem C61_highland_width : forall (nan : forall A, outcome A) h grammage E, 0 < h_length h -> 0 <= h_mass h < E -> 0 <= grammage ->
  exists w, theta0 nan h grammage E = Ok w /\ 0 <= w /\ (grammage = 0 -> w = 0) /\
  (0 < grammage -> w = Rmax (highland_width (h_charge h) (h_mass h) E (grammage / h_length h)) 0).
Proof. exact c61_highland. Qed.
Print Assumptions C61_highland_width.
(** More matter or less energy never narrow it. *)
Theorem C61_highland_monotone : forall (nan : forall A, outcome A) h g1 g2 E1 E2 w1 w2, 0 < h_length h -> 0 <= h_mass h < E1 -> E1 <= E2 ->
  0 <= g1 <= g2 -> theta0 nan h g1 E2 = Ok w1 -> theta0 nan h g2 E1 = Ok w2 -> w1 <= w2.
Proof. exact c61_highland_mono. Qed.
Print Assumptions C61_highland_monotone.
(** Four random numbers always give a scattering, and the opposite numbers the
    opposite one. *)
Theorem C61_highland_mirror : forall (nan : forall A, outcome A) h g E r0 r1 r2 r3, not_a_value nan -> 0 < h_length h -> 0 <= h_mass h < E ->
  0 <= g -> 0 < r0 < 1 -> 0 < r1 < 1 -> 0 < r2 < 1 -> 0 < r3 < 1 ->
  exists o, highland_offset nan h g E r0 r1 r2 r3 = Ok o /\ highland_offset nan h g E (1 - r0) (1 - r1) (1 - r2) (1 - r3) = Ok (mirror o).
Proof. exact c61_highland_both. Qed.
Print Assumptions C61_highland_mirror.

(** Highland with the integral over the energies: the width follows the formula,
    cut to the range from 0 to 1. *)
Theorem C61_integral_width : forall (nan : forall A, outcome A) qags h c g ei ef I c', 0 < h_length h -> 0 < g ->
  calculate nan qags c ei ef = Some (Ok (I, c')) ->
  theta0_integral nan qags h c g ei ef
  = Some (Ok (Rmin (Rmax (integrated_width (h_charge h) (Rmax I 0) (h_length h) (g / h_length h)) 0) 1, c')).
Proof. exact c61_integral. Qed.
Print Assumptions C61_integral_width.
Theorem C61_integral_range : forall (nan : forall A, outcome A) qags h c g ei ef t c', not_a_value nan -> 0 < h_length h -> 0 <= g ->
  theta0_integral nan qags h c g ei ef = Some (Ok (t, c')) -> 0 <= t <= 1.
Proof. exact c61_integral_range. Qed.
Print Assumptions C61_integral_range.
(** The integrand refers to the object it was made for: a copy that outlives the
    original has no defined width. *)
Theorem C61_copy_refuted : forall (nan : forall A, outcome A) qags alive owner f lower h g ei ef, alive owner = false -> 0 < ef < ei ->
  negligible (ln ef) (ln ei) = false ->
  theta0_integral nan qags h (new_direct (captured alive owner f) lower) g ei ef = Some (UB use_after_free).
Proof. exact c61_destroyed. Qed.
Print Assumptions C61_copy_refuted.

(** Moliere: the reduced angles that are accepted solve his equation, wherever it
    has a solution, to thirty digits. *)
Theorem C61_moliere_root : forall (nan : forall A, outcome A) mass m s0 s E g p s', not_a_value nan -> proper_medium m -> 0 <= mass < E -> 0 <= g ->
  new_moliere nan mass m = Ok s0 -> used nan s0 s -> prefactor nan s E g = Ok (p, s') -> p <> 0 ->
  mo_chi_c s' = characteristic_angle2 mass E g (m_components m) /\
  Forall2 (fun c b => 45 / 10 <= b /\
             forall B, moliere_root (moliere_b mass E g (m_components m) (c_charge c)) B -> B <= b <= B * (1 + / 10 ^ 30))
    (m_components m) (mo_B s').
Proof. exact c61_root. Qed.
Print Assumptions C61_moliere_root.
(** But a value is accepted also where it has none. *)
Theorem C61_moliere_root_refuted : forall (nan : forall A, outcome A) mass m c E, not_a_value nan -> proper_medium m -> m_components m = [c] ->
  0 <= mass < E ->
  exists g s0 p s' b, 0 < g /\ new_moliere nan mass m = Ok s0 /\ prefactor nan s0 E g = Ok (p, s') /\ 0 < p /\ mo_B s' = [b] /\
  57 / 10 <= b <= 58 / 10 /\ moliere_b mass E g [c] (c_charge c) < 1 /\ forall B, 0 < B -> B - ln B <> moliere_b mass E g [c] (c_charge c).
Proof. exact c61_no_root. Qed.
Print Assumptions C61_moliere_root_refuted.
(** Thick matter scatters; matter so thin that the expansion does not hold does
    not, and neither does no matter. *)
Theorem C61_moliere_thickness : forall (nan : forall A, outcome A) mass m s0 s E g, not_a_value nan -> proper_medium m -> 0 <= mass < E ->
  new_moliere nan mass m = Ok s0 -> used nan s0 s ->
  (0 < g -> Forall (fun c => 3 <= moliere_b mass E g (m_components m) (c_charge c)) (m_components m) ->
   exists p s', prefactor nan s E g = Ok (p, s') /\ 0 < p) /\
  (0 < g -> Forall (fun c => 1 <= moliere_b mass E g (m_components m) (c_charge c)) (m_components m) ->
   Exists (fun c => moliere_b mass E g (m_components m) (c_charge c) <= 26 / 10) (m_components m) ->
   exists s', prefactor nan s E g = Ok (0, s')) /\
  (g = 0 -> exists s', prefactor nan s E g = Ok (0, s')).
Proof. exact c61_scatters. Qed.
Print Assumptions C61_moliere_thickness.
Theorem C61_moliere_straight : forall (nan : forall A, outcome A) t s E g s', prefactor nan s E g = Ok (0, s') -> forall r0 r1 r2 r3,
  returned (moliere_offset nan t s g E r0 r1 r2 r3) = Ok (mkoffset 0 0 0 0) /\ returned (moliere_angle nan t s g E r0) = Ok 0 /\
  returned (moliere_angle_2d nan t s g E r0 r1) = Ok 0.
Proof. exact c61_straight. Qed.
Print Assumptions C61_moliere_straight.
(** What was computed before does not change what is returned. *)
Theorem C61_moliere_history : forall (nan : forall A, outcome A) t mass m s0 s g E r0 r1 r2 r3, proper_medium m ->
  new_moliere nan mass m = Ok s0 -> used nan s0 s ->
  returned (moliere_offset nan t s g E r0 r1 r2 r3) = returned (moliere_offset nan t s0 g E r0 r1 r2 r3) /\
  returned (moliere_angle nan t s g E r0) = returned (moliere_angle nan t s0 g E r0) /\
  returned (moliere_angle_2d nan t s g E r0 r1) = returned (moliere_angle_2d nan t s0 g E r0 r1).
Proof. exact c61_history. Qed.
Print Assumptions C61_moliere_history.
(** Opposite random numbers give the opposite scattering. *)
Theorem C61_moliere_mirror : forall (nan : forall A, outcome A) c1 c2 C1 c2l s2l s g E r0 r1 r2 r3 o s', not_a_value nan ->
  0 < r0 < 1 -> 0 < r1 < 1 -> 0 < r2 < 1 -> 0 < r3 < 1 ->
  moliere_offset nan (moliere_series c1 c2 C1 c2l s2l) s g E r0 r1 r2 r3 = Ok (o, s') ->
  moliere_offset nan (moliere_series c1 c2 C1 c2l s2l) s g E (1 - r0) (1 - r1) (1 - r2) (1 - r3) = Ok (mirror o, s').
Proof. exact c61_moliere_mirror. Qed.
Print Assumptions C61_moliere_mirror.
(** An angle is the end of Newton's iteration for the share of the random number;
    it stops when the change is small or, which is why the theorem is partial,
    after a hundred steps wherever it is then. *)
Theorem C61_moliere_iteration_partial : forall (nan : forall A, outcome A) t s p r z, not_a_value nan -> get_random nan t s p r = Ok z ->
  exists q n y, normalppf nan r = Ok q /\ (1 <= n <= 100)%nat /\ iteration nan t s (r - 1 / 2) n (p * q / SQRT2) y z /\
  (n = 100%nat \/ small_change y z).
Proof. exact c61_iteration. Qed.
Print Assumptions C61_moliere_iteration_partial.
(** The density of the angle is the derivative of its share, in the range of the
    power series; beyond it both are fits and the theorem does not speak. *)
Theorem C61_moliere_density_partial : forall (nan : forall A, outcome A) c1 c2 C1 c2l s2l mass m s0 s E g p s', not_a_value nan ->
  proper_medium m -> 0 <= mass < E -> 0 <= g -> new_moliere nan mass m = Ok s0 -> used nan s0 s ->
  prefactor nan s E g = Ok (p, s') -> p <> 0 ->
  exists F f, (forall theta, angle_share nan (moliere_series c1 c2 C1 c2l s2l) s' theta = Ok (F theta)) /\
  (forall theta, angle_density nan (moliere_series c1 c2 C1 c2l s2l) s' theta = Ok (f theta)) /\
  forall theta, Forall (fun B => theta * theta < 12 * (mo_chi_c s' * B)) (mo_B s') -> derivable_pt_lim F theta (f theta).
Proof. exact c61_density_used. Qed.
Print Assumptions C61_moliere_density_partial.
(** The component that sets the first guess is the heaviest one if there are at
    most two, but not in the sea water of Antares. *)
Theorem C61_heaviest_partial : forall (nan : forall A, outcome A) mass m s0, proper_medium m -> (length (m_components m) <= 2)%nat ->
  new_moliere nan mass m = Ok s0 -> largest (map (mass_share (m_components m)) (m_components m)) (mo_index s0).
Proof. exact c61_heaviest. Qed.
Print Assumptions C61_heaviest_partial.
Theorem C61_heaviest_refuted : forall (nan : forall A, outcome A) mass, exists s0, new_moliere nan mass antares_water = Ok s0 /\ mo_index s0 = 6%nat /\
  ~ largest (map (mass_share (m_components antares_water)) (m_components antares_water)) (mo_index s0) /\
  largest (map (mass_share (m_components antares_water)) (m_components antares_water)) 1.
Proof. exact c61_heaviest_antares. Qed.
Print Assumptions C61_heaviest_refuted.

(** Equal Highland objects have equal fields; the two kinds of Highland compare
    equal. *)
Theorem C61_equality_highland : forall a b, scatterer_equal (Highland a) (Highland b) = Ok true -> a = b.
Proof. exact c61_equal_highland. Qed.
Print Assumptions C61_equality_highland.
Theorem C61_equality_kind_refuted : forall h, scatterer_equal (Highland h) (HighlandIntegral h) = Ok true.
Proof. exact c61_equal_integral. Qed.
Print Assumptions C61_equality_kind_refuted.
(** Comparing a Highland with a Moliere of the same mass is undefined, the other
    way round it is false. *)
Theorem C61_equality_class_refuted : forall h m, h_mass h = mo_mass m ->
  scatterer_equal (Highland h) (Moliere m) = UB null_deref /\ scatterer_equal (Moliere m) (Highland h) = Ok false.
Proof. exact c61_equal_classes. Qed.
Print Assumptions C61_equality_class_refuted.
(** Using a Moliere object makes it unequal to a new one. *)
Theorem C61_equality_used_refuted : forall (nan : forall A, outcome A) mass m s0 E g, proper_medium m -> 0 <= mass < E -> 0 < g -> not_a_value nan ->
  new_moliere nan mass m = Ok s0 ->
  scatterer_equal (Moliere s0) (Moliere s0) = Ok true /\
  forall p s, prefactor nan s0 E g = Ok (p, s) -> scatterer_equal (Moliere s) (Moliere s0) = Ok false.
Proof. exact c61_equal_used. Qed.
Print Assumptions C61_equality_used_refuted.
