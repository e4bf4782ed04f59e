(** Theorems about the production of electron and muon pairs by charged particles. *)
From Coq Require Import Lra.
From Verif Require Import Prelude Particle_Model Limits_Model Cross_Model Photo_Model Products_Model Differential_Model Integral_Model Utility_Model Continuous_Model Pairs_Model
  Integral_Spec Differential_Spec Pairs_Spec Pairs_Proofs Rho_Proofs Cross_Examples Pairs_Examples.

(** ** C68: electron pairs *)
(** Within the limits of the loss there are asymmetries, up to the largest one. *)
Theorem C68_asymmetry : forall nan mass Z E v, 0 < mass -> 0 < E -> v_min (epair_limits mass Z E) < v < v_max (epair_limits mass Z E) ->
  epair_rho_max nan mass E v = Ok (largest_asymmetry mass E v) /\ 0 < largest_asymmetry mass E v < 1 /\ 0 < v < 1.
Proof. exact c68_asymmetry. Qed.
Print Assumptions C68_asymmetry.
(** For the other losses there is none, or the same bounds hold. *)
Theorem C68_asymmetry_range : forall nan mass E v, 0 < E -> 0 < v < 1 -> exists r, epair_rho_max nan mass E v = Ok r /\ 0 <= r < 1.
Proof. exact c68_asymmetry_range. Qed.
Print Assumptions C68_asymmetry_range.
(** The integrand at 1 - rho is the cross section of Kelner, Kokoulin and Petrukhin for
    the asymmetry rho up to one part in ten thousand, which is due to the short
    expression for large xi. *)
Theorem C68_formula : forall nan mass charge c E v rho, element c -> 0 < mass -> 0 < E -> 0 < v < 1 -> 0 <= rho < 1 ->
  exists y, kelner_pair nan None mass charge c E v (1 - rho) = Ok y /\
  Rabs (y - kelner_formula mass charge (c_charge c) (log_constant c) E v rho) <= kelner_formula mass charge (c_charge c) (log_constant c) E v rho / 10 ^ 4.
Proof. exact c68_formula. Qed.
Print Assumptions C68_formula.
(** The suppression by the medium multiplies it with a factor. *)
Theorem C68_suppressed : forall nan mass charge c E v rho, element c -> 0 < mass -> 0 < E -> 0 < v < 1 -> 0 <= rho < 1 ->
  exists y, 0 <= y /\ kelner_pair nan None mass charge c E v (1 - rho) = Ok y /\ forall e density, 0 < e -> 0 < density ->
  kelner_pair nan (Some (e, density)) mass charge c E v (1 - rho) = Ok (pair_suppressed (suppression_parameter e density E v rho) mass v rho y).
Proof. exact c68_suppressed. Qed.
Print Assumptions C68_suppressed.
(** The cross section for a loss is the integral over the asymmetries from 0 to the
    largest one, computed with x = 1 - rho and the logarithm of x.  If the
    largest asymmetry is closer to 1 than 10^-10, the interval is divided there and the
    logarithm is used in the upper part only. *)
Theorem C68_integral : forall nan qags mass charge c E v, element c -> 0 < mass -> 0 < E ->
  v_min (epair_limits mass (c_charge c) E) < v < v_max (epair_limits mass (c_charge c) E) ->
  let top := largest_asymmetry mass E v in top <= 1 - COMPUTER_PRECISION ->
  exists F r, (forall rho, 0 <= rho < 1 -> kelner_pair nan None mass charge c E v (1 - rho) = Ok (F rho)) /\
  computed qags (fun t => exp t * F (1 - exp t)) (ln (1 - top)) (ln 1) 3 (midpoint_sum (fun t => exp t * F (1 - exp t)) (ln (1 - top)) (ln 1)) 12 5 IPREC r /\
  epair_differential nan qags (kelner_pair nan None mass charge c E v) mass c E v = (flet (x, _) := (r : run (R * engine)) in done (Ok (NA / c_atomic c * x))).
Proof. exact c68_integral. Qed.
Print Assumptions C68_integral.
Theorem C68_integral_top : forall nan qags mass charge c E v, element c -> 0 < mass -> 0 < E ->
  v_min (epair_limits mass (c_charge c) E) < v < v_max (epair_limits mass (c_charge c) E) ->
  let top := largest_asymmetry mass E v in let cut := COMPUTER_PRECISION in 1 - cut < top ->
  exists F r1 r2, (forall rho, 0 <= rho < 1 -> kelner_pair nan None mass charge c E v (1 - rho) = Ok (F rho)) /\
  (computed qags (fun x => F (1 - x)) (1 - top) cut 3 (midpoint_sum (fun x => F (1 - x)) (1 - top) cut) 12 5 IPREC r1 \/
   top - (1 - cut) <= cut * cut /\ exists g, r1 = Some (Ok (0, g))) /\
  (forall x g, r1 = Some (Ok (x, g)) ->
   computed qags (fun t => exp t * F (1 - exp t)) (ln cut) (ln 1) 3 (midpoint_sum (fun t => exp t * F (1 - exp t)) (ln cut) (ln 1)) 12 5 IPREC (r2 g)) /\
  epair_differential nan qags (kelner_pair nan None mass charge c E v) mass c E v =
    (flet (x, g) := (r1 : run (R * engine)) in flet (y, _) := (r2 g : run (R * engine)) in done (Ok (NA / c_atomic c * (x + y)))).
Proof. exact c68_integral_top. Qed.
Print Assumptions C68_integral_top.
Example C68_top_example : element oxygen_c /\ 0 < MMU /\ 0 < 10 ^ 14 /\
  v_min (epair_limits MMU (c_charge oxygen_c) (10 ^ 14)) < 1 / 2 < v_max (epair_limits MMU (c_charge oxygen_c) (10 ^ 14)) /\
  1 - COMPUTER_PRECISION < largest_asymmetry MMU (10 ^ 14) (1 / 2).
Proof. exact electron_pair_top. Qed.
Example C68_example : element oxygen_c /\ 0 < MMU /\ 0 < 10 ^ 6 /\
  v_min (epair_limits MMU (c_charge oxygen_c) (10 ^ 6)) < 1 / 1000 < v_max (epair_limits MMU (c_charge oxygen_c) (10 ^ 6)) /\
  largest_asymmetry MMU (10 ^ 6) (1 / 1000) <= 1 - COMPUTER_PRECISION.
Proof. exact electron_pair_case. Qed.
(** The parametrization for electrons is positive up to an asymmetry of its own, but it
    takes its argument for rho, not for 1 - rho: there is a loss within the limits whose
    cross section is zero although it is positive for every allowed asymmetry. *)
Theorem C68_electron_asymmetry : forall nan charge c E v rho, element c -> charge <> 0 -> 0 < E -> 0 < v < 1 -> 2 * ME < v * E -> 0 <= rho < 1 ->
  exists y, electron_pair nan None charge c E v rho = Ok y /\ (rho < largest_pair_asymmetry ME E v -> 0 < y) /\ (largest_pair_asymmetry ME E v <= rho -> y = 0).
Proof. exact electron_integrand. Qed.
Print Assumptions C68_electron_asymmetry.
Theorem C68_electron_refuted : forall nan qags c, (forall h lo hi, lo < hi -> (forall t, lo < t < hi -> h t = Ok 0) -> qags h lo hi = Ok 0) -> element c ->
  exists E v, v_min (epair_limits ME (c_charge c) E) < v < v_max (epair_limits ME (c_charge c) E) /\
  epair_differential nan qags (electron_pair nan None (-1) c E v) ME c E v = Some (Ok 0) /\
  forall rho, 0 <= rho <= largest_asymmetry ME E v -> exists y, electron_pair nan None (-1) c E v rho = Ok y /\ 0 < y.
Proof. exact c68_electron. Qed.
Print Assumptions C68_electron_refuted.
Example C68_routine_example : exists qags : (R -> outcome R) -> R -> R -> outcome R,
  forall h lo hi, lo < hi -> (forall t, lo < t < hi -> h t = Ok 0) -> qags h lo hi = Ok 0.
Proof. exact zero_routine. Qed.

(** ** C69: muon pairs *)
Theorem C69_range : forall nan E v, 0 < E -> 0 < v -> 2 * MMU < v * E ->
  muon_pair_rho_max nan E v = Ok (Some (largest_pair_asymmetry MMU E v)) /\ 0 < largest_pair_asymmetry MMU E v < 1.
Proof. exact c69_range. Qed.
Print Assumptions C69_range.
Theorem C69_limits : forall mass E v, 0 <= mass -> 0 < E -> v_min (mupair_limits mass E) < v < v_max (mupair_limits mass E) -> 0 < v < 1 /\ 2 * MMU < v * E.
Proof. exact c69_limits. Qed.
Print Assumptions C69_limits.
Theorem C69_defined : forall nan mass charge c E v, element c -> 0 < mass -> charge <> 0 -> 0 < E -> 0 < v < 1 -> 2 * MMU < v * E ->
  forall r, 0 <= r < 1 -> exists y, muon_pair nan mass charge c E v r = Ok y /\ 0 <= y.
Proof. exact c69_defined. Qed.
Print Assumptions C69_defined.
(** A muon makes pairs of every asymmetry below the largest one, and of no other. *)
Theorem C69_muon : forall nan mass charge c E v, element c -> 0 < mass -> charge <> 0 -> 0 < E -> 0 < v < 1 -> 2 * MMU < v * E ->
  forall r, mass = MMU -> 0 <= r < 1 -> exists y, muon_pair nan mass charge c E v r = Ok y /\
  (r < largest_pair_asymmetry MMU E v -> 0 < y) /\ (largest_pair_asymmetry MMU E v <= r -> y = 0).
Proof. exact c69_same. Qed.
Print Assumptions C69_muon.
Example C69_example : element oxygen_c /\ v_min (mupair_limits MMU (10 ^ 4)) < 1 / 2 < v_max (mupair_limits MMU (10 ^ 4)) /\
  1 / 2 < largest_pair_asymmetry MMU (10 ^ 4) (1 / 2) < 99 / 100.
Proof. exact muon_pair_case. Qed.
(** For a lighter particle the cross section does not vanish at the largest asymmetry;
    for a heavier one it vanishes for asymmetries that are allowed, and for a tau of
    10 GeV that loses half of its energy for all of them. *)
Theorem C69_light_refuted : forall nan mass charge c E v, element c -> 0 < mass -> charge <> 0 -> 0 < E -> 0 < v < 1 -> 2 * MMU < v * E ->
  mass < MMU -> exists y, muon_pair nan mass charge c E v (largest_pair_asymmetry MMU E v) = Ok y /\ 0 < y.
Proof. exact c69_light. Qed.
Print Assumptions C69_light_refuted.
Theorem C69_tau_refuted : forall nan qags c, (forall h lo hi, lo < hi -> (forall t, lo < t < hi -> h t = Ok 0) -> qags h lo hi = Ok 0) -> element c ->
  exists E v, v_min (mupair_limits MTAU E) < v < v_max (mupair_limits MTAU E) /\
  muon_pair_differential nan qags (muon_pair nan MTAU (-1) c E v) c E v = Some (Ok 0).
Proof. exact c69_tau. Qed.
Print Assumptions C69_tau_refuted.
