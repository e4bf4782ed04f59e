(** Tables that correct cross sections below 50 MeV (C63, C71, C88). *)
From Verif Require Import Prelude Particle_Model Cross_Model Photo_Model Limits_Model Differential_Model Photopair_Model Decay_Spec Differential_Spec
  Interpolant_Model Interpolant_Spec Weak_Tables Tabulated_Tables Tabulated_Model Tabulated_Spec.
From Verif Require Import Bilinear_Proofs Crossing_Proofs Tabulated_Proofs Cross_Examples Photopair_Examples Differential_Examples Tabulated_Examples.

(** With two points at a time in both directions, the value is composed of those at the
    four corners of the cell. *)
Theorem C71_grid_line : forall nan x1 x2 y g f, tabular_grid x1 x2 y -> increasing x1 -> increasing x2 -> make_grid x1 x2 y 2 false 2 false = Ok g -> reads_grid nan g f ->
  forall i k q1 q2, (i + 1 < length x1)%nat -> nth i x1 0 <= q1 <= nth (i + 1) x1 0 -> (k + 1 < length x2)%nat -> nth k x2 0 <= q2 <= nth (k + 1) x2 0 ->
  exists s t, 0 <= s <= 1 /\ 0 <= t <= 1 /\ q1 = (1 - s) * nth i x1 0 + s * nth (i + 1) x1 0 /\ q2 = (1 - t) * nth k x2 0 + t * nth (k + 1) x2 0 /\
    f q1 q2 = (1 - s) * ((1 - t) * nth k (nth i y []) 0 + t * nth (k + 1) (nth i y []) 0) +
              s * ((1 - t) * nth k (nth (i + 1) y []) 0 + t * nth (k + 1) (nth (i + 1) y []) 0).
Proof. exact grid_line. Qed.
Print Assumptions C71_grid_line.

(** Bremsstrahlung of electrons and positrons: the factor from the table is at least
    0.7, also for kinetic energies below the first node, and within the table at most 81. *)
Theorem C63_screening_factor : forall nan g f c T, screening_table = Ok g -> reads_grid nan g f -> element c -> T <= 12500 ->
  7 / 10 <= f (ln (c_charge c)) T /\ (1 / 1000 <= T -> f (ln (c_charge c)) T <= 81).
Proof. exact (fun nan g f c T G F el H => screening_range nan g f (ln (c_charge c)) T G F (charge_logarithm c el) H). Qed.
Print Assumptions C63_screening_factor.
(** With this table, whatever has been read from it before, the cross section is not
    negative below 50 MeV, nor for charges up to 40 above. *)
Theorem C63_screening_table_partial : forall nan g g' charge c E, charge <> 0 -> element c -> screening_table = Ok g -> used nan g g' -> ME < E ->
  E < 50 \/ c_charge c <= 40 ->
  never_negative (brems_default_limits ME E) (bremsstrahlung nan true (electron_screening nan (look_up nan g') ME c) None ME charge c E).
Proof. exact screening_tabulated. Qed.
Print Assumptions C63_screening_table_partial.
Example C63_screening_table_example : element lead_c /\ ME < 10 < 50 /\ exists g, screening_table = Ok g.
Proof. exact electron_example. Qed.
Example C63_screening_table_unused : forall nan g, used nan g g.
Proof. exact unused. Qed.

(** Pair production of photons: the cross section that is corrected with the table is not
    negative from twenty electron masses on; [total] is what it is compared with. *)
Theorem C63_koch_motz_table : forall nan c g g' total E n, element c -> pair_table = Ok g -> used nan g g' -> 20 * ME <= E -> E < 50 \/ c_charge c <= 26 ->
  total E = Ok n -> 0 < n -> never_negative (photo_pair_limits E) (koch_motz nan (look_up nan g' (c_charge c)) total None c E).
Proof. exact koch_motz_tabulated. Qed.
Print Assumptions C63_koch_motz_table.
(** When it is compared with the exact integral, this also holds close to the threshold,
    where the uncorrected cross section and its integral are both negative. *)
Theorem C63_koch_motz_exact : forall nan c g g' total E n, element c -> pair_table = Ok g -> used nan g g' -> 2 * ME < E <= 5 / 2 * ME \/ 20 * ME <= E < 50 ->
  total E = Ok n -> total_in_barn c (photo_pair_limits E) (koch_motz_raw nan None c E) n ->
  never_negative (photo_pair_limits E) (koch_motz nan (look_up nan g' (c_charge c)) total None c E).
Proof. exact koch_motz_exact. Qed.
Print Assumptions C63_koch_motz_exact.

(** The table can be made, and in every history the answers are those of one function,
    which has the tabulated values. *)
Theorem C88_answers : forall nan, exists g f, pair_table = Ok g /\ reads_grid nan g f /\
  (forall j k, (j < 100)%nat -> (k < 17)%nat -> f (INR (j + 1)) (decimal_number (nth k pair_energies (D 1 0))) = decimal_number (nth k (nth j pair_cross_sections []) (D 1 0))) /\
  forall g' Z E, used nan g g' -> look_up nan g' Z E = Ok (f Z E).
Proof. exact c88_answers. Qed.
Print Assumptions C88_answers.
Example C88_oxygen : nth 8 pair_energies (D 1 0) = D 1000004907 45 /\ nth 8 (nth 7 pair_cross_sections []) (D 1 0) = D 145000223 44.
Proof. exact oxygen_table. Qed.
(** The tabulated cross section is positive, ... *)
Theorem C88_positive : forall nan g f, pair_table = Ok g -> reads_grid nan g f -> forall Z E, 1 <= Z <= 100 -> 2 * ME <= E <= 99 -> 0 < f Z E.
Proof. exact pair_positive. Qed.
Print Assumptions C88_positive.
(** ... grows with the energy of the photon ... *)
Theorem C88_energy : forall nan g f, pair_table = Ok g -> reads_grid nan g f -> forall Z E E', 1 <= Z <= 100 -> 2 * ME <= E -> E < E' -> E' <= 99 -> f Z E < f Z E'.
Proof. exact pair_rise. Qed.
Print Assumptions C88_energy.
(** ... and with the charge of the nucleus. *)
Theorem C88_charge : forall nan g f, pair_table = Ok g -> reads_grid nan g f -> forall Z Z' E, 1 <= Z -> Z < Z' -> Z' <= 100 -> 2 * ME < E <= 99 -> f Z E < f Z' E.
Proof. exact pair_charge. Qed.
Print Assumptions C88_charge.
Example C88_energies_met : (1 <= 8 <= 100) /\ 2 * ME <= 10 /\ 10 < 20 /\ 20 <= 99.
Proof. unfold Particle_Model.ME. lra. Qed.
(** The total of the corrected cross section is the tabulated one, if [total] is the one
    of the uncorrected cross section and not zero. *)
Theorem C88_total : forall nan c g g' f total E n, element c -> pair_table = Ok g -> reads_grid nan g f -> used nan g g' -> 2 * ME < E <= 50 ->
  total E = Ok n -> n <> 0 -> total_in_barn c (photo_pair_limits E) (koch_motz_raw nan None c E) n ->
  total_in_barn c (photo_pair_limits E) (koch_motz nan (look_up nan g' (c_charge c)) total None c E) (f (c_charge c) E).
Proof. exact c88_total. Qed.
Print Assumptions C88_total.
(** The uncorrected cross section has a total, ... *)
Theorem C88_total_exists : forall nan c, element c -> forall E, 2 * ME < E < 50 -> exists n, total_in_barn c (photo_pair_limits E) (koch_motz_raw nan None c E) n.
Proof. exact total_exists. Qed.
Print Assumptions C88_total_exists.
Example C88_total_example : forall nan, element oxygen_c /\ 2 * ME < 20 * ME < 50 /\
  exists n, 0 < n /\ total_in_barn oxygen_c (photo_pair_limits (20 * ME)) (koch_motz_raw nan None oxygen_c (20 * ME)) n.
Proof. exact oxygen_total. Qed.
(** ... but for every element it is zero at some energy, where the corrected cross section
    is not defined. *)
Theorem C88_total_refuted : forall nan c, element c -> exists E, 5 / 2 * ME < E < 20 * ME /\ total_in_barn c (photo_pair_limits E) (koch_motz_raw nan None c E) 0 /\
  forall data total d v y, not_a_value nan -> total E = Ok 0 -> data E = Ok d -> koch_motz nan data total None c E v <> Ok y.
Proof. exact total_zero. Qed.
Print Assumptions C88_total_refuted.
