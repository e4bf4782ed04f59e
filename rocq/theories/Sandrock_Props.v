(** C68 for the parametrization of Sandrock, Soedingrekso and Rhode. *)
From Verif Require Import Prelude Particle_Model Limits_Model Cross_Model Photo_Model Products_Model Differential_Model Integral_Model Utility_Model Continuous_Model Pairs_Model Sandrock_Model
  Integral_Spec Differential_Spec Pairs_Spec Dilog_Spec Sandrock_Spec Rho_Proofs Sandrock_Proofs Cross_Examples Pairs_Examples Dilog_Examples Sandrock_Examples.

(** The integrand at 1 - rho is the published cross section for the asymmetry rho, with a
    dilogarithm that is correct up to 10^-14.  Missing: xi above 10^12, where less
    than 10^-8 of the energy of a muon is left. *)
Theorem C68_sandrock_partial : forall nan f, dilogarithm f -> exists d, (forall x, Rabs (d x - f x) <= 1 / 10 ^ 14) /\
  forall mass charge c E v rho, element c -> 0 < mass -> 0 < E -> 0 < v < 1 -> 0 <= rho < 1 -> kelner_xi mass v rho <= 10 ^ 12 ->
  sandrock_pair nan None mass charge c E v (1 - rho) = Ok (sandrock_formula d mass charge (c_charge c) (c_atomic c) (log_constant c) E v rho).
Proof. exact c68_sandrock. Qed.
Print Assumptions C68_sandrock_partial.
Example C68_sandrock_example : dilogarithm spence /\ element oxygen_c /\ 0 < MMU /\ 0 < 10 ^ 6 /\ 0 < 1 / 2 < 1 /\ 0 <= 0 < 1 /\ kelner_xi MMU (1 / 2) 0 <= 10 ^ 12.
Proof. exact symmetric_case. Qed.
(** It is always a number and not negative, and the suppression by the medium multiplies
    it with a factor. *)
Theorem C68_sandrock_number : forall nan mass charge c E v rho, element c -> 0 < mass -> 0 < E -> 0 < v < 1 -> 0 <= rho < 1 ->
  exists y, 0 <= y /\ sandrock_pair nan None mass charge c E v (1 - rho) = Ok y /\ forall e density, 0 < e -> 0 < density ->
  sandrock_pair nan (Some (e, density)) mass charge c E v (1 - rho) = Ok (pair_suppressed (suppression_parameter e density E v rho) mass v rho y).
Proof. exact c68_sandrock_number. Qed.
Print Assumptions C68_sandrock_number.
(** The correction to the logarithms of the electron is positive, so that the second of
    the two expressions in the code, which subtracts half of it where it should be added,
    is not needed. *)
Theorem C68_sandrock_correction : forall f mass v rho, dilogarithm f -> 0 < mass -> 0 < v < 1 -> 0 <= rho < 1 -> 0 < electron_delta f mass v rho.
Proof. exact electron_delta_positive. Qed.
Print Assumptions C68_sandrock_correction.
(** The cross section for a loss is the integral over the asymmetries from 0 to the
    largest one, as for the other parametrization (C68_integral, C68_integral_top). *)
Theorem C68_sandrock_integral : forall nan qags mass charge c E v, element c -> 0 < mass -> 0 < E ->
  v_min (epair_limits mass (c_charge c) E) < v < v_max (epair_limits mass (c_charge c) E) ->
  let top := largest_asymmetry mass E v in top <= 1 - COMPUTER_PRECISION ->
  exists F r, (forall rho, 0 <= rho < 1 -> sandrock_pair nan None mass charge c E v (1 - rho) = Ok (F rho)) /\
  computed qags (fun t => exp t * F (1 - exp t)) (ln (1 - top)) (ln 1) 3 (midpoint_sum (fun t => exp t * F (1 - exp t)) (ln (1 - top)) (ln 1)) 12 5 IPREC r /\
  epair_differential nan qags (sandrock_pair nan None mass charge c E v) mass c E v = (flet (x, _) := (r : run (R * engine)) in done (Ok (NA / c_atomic c * x))).
Proof. exact c68_sandrock_integral. Qed.
Print Assumptions C68_sandrock_integral.
Theorem C68_sandrock_integral_top : forall nan qags mass charge c E v, element c -> 0 < mass -> 0 < E ->
  v_min (epair_limits mass (c_charge c) E) < v < v_max (epair_limits mass (c_charge c) E) ->
  let top := largest_asymmetry mass E v in let cut := COMPUTER_PRECISION in 1 - cut < top ->
  exists F r1 r2, (forall rho, 0 <= rho < 1 -> sandrock_pair nan None mass charge c E v (1 - rho) = Ok (F rho)) /\
  (computed qags (fun x => F (1 - x)) (1 - top) cut 3 (midpoint_sum (fun x => F (1 - x)) (1 - top) cut) 12 5 IPREC r1 \/
   top - (1 - cut) <= cut * cut /\ exists g, r1 = Some (Ok (0, g))) /\
  (forall x g, r1 = Some (Ok (x, g)) ->
   computed qags (fun t => exp t * F (1 - exp t)) (ln cut) (ln 1) 3 (midpoint_sum (fun t => exp t * F (1 - exp t)) (ln cut) (ln 1)) 12 5 IPREC (r2 g)) /\
  epair_differential nan qags (sandrock_pair nan None mass charge c E v) mass c E v =
    (flet (x, g) := (r1 : run (R * engine)) in flet (y, _) := (r2 g : run (R * engine)) in done (Ok (NA / c_atomic c * (x + y)))).
Proof. exact c68_sandrock_integral_top. Qed.
Print Assumptions C68_sandrock_integral_top.
Example C68_sandrock_top_example : element oxygen_c /\ 0 < MMU /\ 0 < 10 ^ 14 /\
  v_min (epair_limits MMU (c_charge oxygen_c) (10 ^ 14)) < 1 / 2 < v_max (epair_limits MMU (c_charge oxygen_c) (10 ^ 14)) /\
  1 - COMPUTER_PRECISION < largest_asymmetry MMU (10 ^ 14) (1 / 2).
Proof. exact electron_pair_top. Qed.
Example C68_sandrock_integral_example : element oxygen_c /\ 0 < MMU /\ 0 < 10 ^ 6 /\
  v_min (epair_limits MMU (c_charge oxygen_c) (10 ^ 6)) < 1 / 1000 < v_max (epair_limits MMU (c_charge oxygen_c) (10 ^ 6)) /\
  largest_asymmetry MMU (10 ^ 6) (1 / 1000) <= 1 - COMPUTER_PRECISION.
Proof. exact electron_pair_case. Qed.
