(** Theorems about the suppression of electron pairs by the medium. *)
From Verif Require Import Prelude Particle_Model Limits_Model Cross_Model Pairs_Model Sandrock_Model
  Differential_Spec Pairs_Spec Suppression_Proofs Cross_Examples Suppression_Examples.

(** ** C91: the effect only suppresses *)
(** With the effect the cross section for an asymmetry is a number that is not greater
    than the one without; it is positive if that one is; and it tends to that one where
    the parameter of the effect is large. *)
Theorem C91_suppresses : forall pair nan mass charge c E v rho, pair = kelner_pair \/ pair = sandrock_pair ->
  element c -> 0 < mass -> 0 < E -> 0 < v < 1 -> 0 <= rho < 1 ->
  exists y, 0 <= y /\ pair nan None mass charge c E v (1 - rho) = Ok y /\ forall e density, 0 < e -> 0 < density ->
  exists z, pair nan (Some (e, density)) mass charge c E v (1 - rho) = Ok z /\ 0 <= z <= y /\ (0 < y -> 0 < z) /\
  (1 - 1 / (6 * suppression_parameter e density E v rho * (kelner_xi mass v rho + 1))) * y <= z.
Proof. exact c91_suppresses. Qed.
Print Assumptions C91_suppresses.
(** It is not greater in a denser medium. *)
Theorem C91_denser : forall pair nan mass charge c E v rho e density density', pair = kelner_pair \/ pair = sandrock_pair ->
  element c -> 0 < mass -> 0 < E -> 0 < v < 1 -> 0 <= rho < 1 -> 0 < e -> 0 < density < density' ->
  exists y z, pair nan (Some (e, density)) mass charge c E v (1 - rho) = Ok y /\
  pair nan (Some (e, density')) mass charge c E v (1 - rho) = Ok z /\ z <= y.
Proof. exact c91_denser. Qed.
Print Assumptions C91_denser.
(** Both hold for the parametrization for electrons, too, whose argument is rho. *)
Theorem C91_electron : forall nan charge c E v rho, element c -> charge <> 0 -> 0 < E -> 0 < v < 1 -> 2 * ME < v * E -> 0 <= rho < 1 ->
  exists y, 0 <= y /\ electron_pair nan None charge c E v rho = Ok y /\ forall e density, 0 < e -> 0 < density ->
  exists z, electron_pair nan (Some (e, density)) charge c E v rho = Ok z /\ 0 <= z <= y /\ (0 < y -> 0 < z) /\
  (1 - 1 / (6 * suppression_parameter e density E v rho * (kelner_xi ME v rho + 1))) * y <= z /\
  forall density', density < density' -> exists w, electron_pair nan (Some (e, density')) charge c E v rho = Ok w /\ w <= z.
Proof. exact c91_electron. Qed.
Print Assumptions C91_electron.
(** The factor itself lies strictly between 0 and 1 and grows with the parameter. *)
Theorem C91_factor : forall mass v rho s, 0 < mass -> 0 < v < 1 -> 0 <= rho < 1 -> 0 < s ->
  0 < pair_suppression_factor s mass v rho < 1 /\
  forall s', s < s' -> pair_suppression_factor s mass v rho < pair_suppression_factor s' mass v rho.
Proof. exact c91_factor. Qed.
Print Assumptions C91_factor.
(** Where the code does not compute the factor, this changes the cross section by less
    than one part in 10^10. *)
Theorem C91_skipped : forall mass v rho y s, 0 < mass -> 0 < v < 1 -> 0 <= rho < 1 -> 0 <= y ->
  10 ^ 10 < 6 * s * (kelner_xi mass v rho + 1) ->
  Rabs (pair_suppressed s mass v rho y - y * pair_suppression_factor s mass v rho) <= y / 10 ^ 10.
Proof. exact c91_skipped. Qed.
Print Assumptions C91_skipped.
Example C91_example : element oxygen_c /\ 0 < MMU /\ 0 < 10 ^ 9 /\ 0 < 1 / 2 < 1 /\ 0 <= 1 / 3 < 1 /\ 0 < 10 ^ 8 /\ 0 < 1 < 2 /\
  suppression_parameter (10 ^ 8) 1 (10 ^ 9) (1 / 2) (1 / 3) < 1 / 2.
Proof. exact suppression_case. Qed.
Example C91_electron_example : element oxygen_c /\ -1 <> 0 /\ 0 < 10 ^ 9 /\ 0 < 1 / 2 < 1 /\ 2 * ME < 1 / 2 * 10 ^ 9 /\ 0 <= 1 / 3 < 1 /\ 0 < 10 ^ 8 /\ 0 < 1 < 2.
Proof. exact electron_suppression_case. Qed.
