(** Properties C38 and C54: the secondaries of stochastic losses. *)
From Verif Require Import Prelude PreludeFacts Vec_Model Propagator_Model Secondaries_Model Particle_Model Decay_Spec Shapes_Spec
  Limits_Model Limits_Spec Limits_Proofs Products_Model Products_Spec Products_Proofs ProductsLimits_Proofs Products_Examples.
From Coq Require Import Lra.

(** ** C38: energy and momentum *)
(** Ionization by a particle that is not an electron: energy and momentum are
    conserved for every loss within the kinematic limits. *)
Theorem C38_ionization : forall nan ty m I l c rnd r0 v, let E := sl_parent_energy l in
  unit (sl_direction l) -> nth_error rnd 0 = Some r0 -> 0 < m <= E -> m <> ME -> 0 < I ->
  v_min (ionization_limits m I E) < v_max (ionization_limits m I E) -> in_limits (ionization_limits m I E) v -> sl_energy l = E * v ->
  exists ps, ionization nan ty m l c rnd = Ok ps /\ collision [ty; 11%Z] [m; ME] m l ps.
Proof. exact c38_ionization. Qed.
Print Assumptions C38_ionization.
Theorem C38_ionization_electrons : forall nan ty l c rnd r0 v, let E := sl_parent_energy l in
  unit (sl_direction l) -> nth_error rnd 0 = Some r0 -> ME < E ->
  in_limits (moller_limits ME E) v \/ (in_limits (bhabha_limits ME E) v /\ v < v_max (bhabha_limits ME E)) ->
  0 < v -> sl_energy l = E * v ->
  exists ps, ionization nan ty ME l c rnd = Ok ps /\ collision [ty; 11%Z] [ME; ME] ME l ps.
Proof. exact c38_electrons. Qed.
Print Assumptions C38_ionization_electrons.
(** A positron that gives away all its kinetic energy, which the limits allow,
    has no direction: 0/0. *)
Theorem C38_bhabha_end_refuted : exists l, let E := sl_parent_energy l in
  unit (sl_direction l) /\ ME < E /\ in_limits (bhabha_limits ME E) (sl_energy l / E) /\
  forall nan c r, not_a_value nan -> forall ps, ionization nan (-11) ME l c [r] <> Ok ps.
Proof. exact c38_bhabha_refuted. Qed.
Print Assumptions C38_bhabha_end_refuted.
Theorem C38_compton : forall nan l c rnd r0 v, let E := sl_parent_energy l in
  unit (sl_direction l) -> nth_error rnd 0 = Some r0 -> 0 < E -> in_limits (compton_limits E) v -> 0 < v -> sl_energy l = E * v ->
  exists ps, compton nan l c rnd = Ok ps /\ collision [22%Z; 11%Z] [0; ME] 0 l ps.
Proof. exact c38_compton. Qed.
Print Assumptions C38_compton.
Theorem C38_annihilation : forall nan l c rnd r0 r1, let E := sl_parent_energy l in
  unit (sl_direction l) -> nth_error rnd 0 = Some r0 -> nth_error rnd 1 = Some r1 -> 0 <= r0 <= 1 -> ME < E ->
  exists ps, annihilation nan ME l c rnd = Ok ps /\ collision [22%Z; 22%Z] [0; 0] ME l ps.
Proof. exact annihilation_kinematics. Qed.
Print Assumptions C38_annihilation.
Example C38_example_collisions : forall nan,
  (exists ps, ionization nan 13 MMU (loss0 Ioniz) hydrogen [1 / 7] = Ok ps /\ collision [13%Z; 11%Z] [MMU; ME] MMU (loss0 Ioniz) ps) /\
  (exists ps, ionization nan 11 ME (loss0 Ioniz) hydrogen [1 / 7] = Ok ps /\ collision [11%Z; 11%Z] [ME; ME] ME (loss0 Ioniz) ps) /\
  (exists ps, compton nan (loss0 Compton) hydrogen [1 / 7] = Ok ps /\ collision [22%Z; 11%Z] [0; ME] 0 (loss0 Compton) ps) /\
  (exists ps, annihilation nan ME (loss0 Annihilation) hydrogen [1 / 3; 1 / 7] = Ok ps /\
     collision [22%Z; 22%Z] [0; 0] ME (loss0 Annihilation) ps).
Proof.
  intros nan. split; [|split; [|split]].
  - eapply (C38_ionization nan 13 MMU 75 (loss0 Ioniz)); try reflexivity; auto using loss0_unit, hundredth;
      try apply loss0_ionization; cbn; consts; lra.
  - eapply (C38_ionization_electrons nan 11 (loss0 Ioniz)); try reflexivity; auto using loss0_unit, hundredth;
      try (left; apply loss0_electrons); cbn; consts; lra.
  - eapply (C38_compton nan (loss0 Compton)); try reflexivity; auto using loss0_unit, hundredth; try apply loss0_compton; cbn; consts; lra.
  - eapply (C38_annihilation nan (loss0 Annihilation)); try reflexivity; auto using loss0_unit; cbn; consts; lra.
Qed.

(** The energy of the primary is shared among the products, and every product
    has at least its rest mass. *)
Theorem C38_epair : forall nan ty drawn m l c rnd v, let E := sl_parent_energy l in
  (forall c E v, draws (drawn c E v)) -> unit (sl_direction l) -> (3 <= length rnd)%nat -> 0 < m <= E -> 1 <= t_charge c ->
  v_min (epair_limits m (t_charge c) E) < v_max (epair_limits m (t_charge c) E) -> in_limits (epair_limits m (t_charge c) E) v ->
  sl_energy l = E * v ->
  exists ps, epair nan ty drawn m l c rnd = Ok ps /\ energy_split [ty; 11%Z; (-11)%Z] l E ps /\ above_masses [m; ME; ME] ps.
Proof. exact c38_epair. Qed.
Print Assumptions C38_epair.
Theorem C38_mupair : forall nan ty drawn l c rnd v m, let E := sl_parent_energy l in
  (forall c E v rho_max r, 0 <= rho_max -> 0 <= drawn c E v rho_max r <= rho_max) -> unit (sl_direction l) -> (3 <= length rnd)%nat ->
  0 < m <= E -> v_min (mupair_limits m E) < v_max (mupair_limits m E) -> in_limits (mupair_limits m E) v -> sl_energy l = E * v ->
  exists ps, mupair nan ty drawn l c rnd = Ok ps /\ energy_split [ty; 13%Z; (-13)%Z] l E ps /\ above_masses [m; MMU; MMU] ps.
Proof. exact c38_mupair. Qed.
Print Assumptions C38_mupair.
(** For a loss below two muon masses a pair comes out all the same. *)
Theorem C38_mupair_below_threshold_refuted : forall nan ty drawn l c rnd, let E := sl_parent_energy l in
  (3 <= length rnd)%nat -> 0 < E -> 0 < sl_energy l < 2 * MMU -> exists a b c0,
  mupair nan ty drawn l c rnd = Ok [a; b; c0] /\ p_type b = 13%Z /\ p_type c0 = (-13)%Z /\
  energy (p_state b) < MMU /\ energy (p_state c0) < MMU.
Proof. exact c38_mupair_refuted. Qed.
Print Assumptions C38_mupair_below_threshold_refuted.
Theorem C38_photo_pair : forall t directions l c rnd r0 r1 r2 r3 x, let E := sl_parent_energy l in
  pair_directions_ok directions -> unit (sl_direction l) -> nth_error rnd 0 = Some r0 ->
  nth_error rnd 1 = Some r1 -> nth_error rnd 2 = Some r2 -> nth_error rnd 3 = Some r3 ->
  0 <= r1 <= 1 -> 0 <= r2 <= 1 -> 0 <= r3 <= 1 -> 2 * ME < E ->
  from_table t c E r0 = Ok x -> in_limits (photo_pair_limits E) x ->
  exists ps, photo_pair t directions l c rnd = Ok ps /\ energy_split [11%Z; (-11)%Z] l E ps /\ above_masses [ME; ME] ps.
Proof. exact c38_photo_pair. Qed.
Print Assumptions C38_photo_pair.
(** All the parametrizations of the directions meet the condition. *)
Theorem C38_pair_forward : forall nan m, 0 < m -> pair_directions_ok (pair_forward nan m).
Proof. exact forward_ok. Qed.
Print Assumptions C38_pair_forward.
Theorem C38_pair_sauter : forall nan, pair_directions_ok (pair_sauter nan).
Proof. exact sauter_ok. Qed.
Print Assumptions C38_pair_sauter.
Theorem C38_pair_tsai : forall angle, pair_directions_ok (pair_tsai angle).
Proof. exact tsai_ok. Qed.
Print Assumptions C38_pair_tsai.
Theorem C38_photo_mupair_partial : forall nan t l c rnd r0 r1 x, let E := sl_parent_energy l in
  unit (sl_direction l) -> nth_error rnd 0 = Some r0 -> nth_error rnd 1 = Some r1 -> 0 < E -> from_table t c E r0 = Ok x ->
  exists ps, photo_mupair nan t l c rnd = Ok ps /\ energy_split [13%Z; (-13)%Z] l E ps.
Proof. exact c38_photo_mupair. Qed.
Print Assumptions C38_photo_mupair_partial.
(** What is missing is false: a muon can have less than its rest mass. *)
Theorem C38_photo_mupair_refuted : forall nan t l c rnd r0 r1, let E := sl_parent_energy l in
  nth_error rnd 0 = Some r0 -> nth_error rnd 1 = Some r1 -> 2 * MMU < (2 - SQRTE) * E ->
  from_table t c E r0 = Ok (v_min (photo_mupair_limits E)) ->
  exists a b, photo_mupair nan t l c rnd = Ok [a; b] /\ p_type b = (-13)%Z /\ energy (p_state b) < MMU.
Proof. exact c38_photo_mupair_refuted. Qed.
Print Assumptions C38_photo_mupair_refuted.
Example C38_example_pairs : forall nan,
  (exists ps, epair nan 13 (fun _ _ _ => middle) MMU (loss0 Epair) hydrogen [1 / 2; 1 / 3; 0] = Ok ps /\
     energy_split [13%Z; 11%Z; (-11)%Z] (loss0 Epair) 1000 ps /\ above_masses [MMU; ME; ME] ps) /\
  (exists ps, photo_pair third (pair_sauter nan) (loss0 Photopair) hydrogen [1 / 2; 1 / 3; 1 / 4; 1] = Ok ps /\
     energy_split [11%Z; (-11)%Z] (loss0 Photopair) 1000 ps /\ above_masses [ME; ME] ps).
Proof.
  intros nan. split.
  - apply (C38_epair nan 13 (fun _ _ _ => middle) MMU (loss0 Epair) hydrogen [1 / 2; 1 / 3; 0] (1 / 100));
      auto using loss0_unit, hundredth; try apply loss0_epair; try (cbn; consts; lra).
    intros _ _ _. exact middle_draws.
  - apply (C38_photo_pair third (pair_sauter nan) (loss0 Photopair) hydrogen _ (1 / 2) (1 / 3) (1 / 4) 1 (1 / 3));
      auto using loss0_unit; try apply third_limits; try (cbn; lra). apply C38_pair_sauter.
Qed.
Theorem C38_bremsstrahlung : forall ty l c rnd, unit (sl_direction l) -> exists ps,
  bremsstrahlung ty brems_no_deflection l c rnd = Ok ps /\ energy_split [ty; 22%Z] l (sl_parent_energy l) ps.
Proof. exact c38_brems. Qed.
Print Assumptions C38_bremsstrahlung.
(** With deflection: the photon leaves at the angle m/E, and the lepton goes in
    the direction of the momentum that is left. *)
Theorem C38_bremsstrahlung_deflected : forall nan ty m l c rnd r0, let E := sl_parent_energy l in
  not_a_value nan -> unit (sl_direction l) -> nth_error rnd 0 = Some r0 -> 0 < m < E -> 0 <= sl_energy l -> exists lepton photon,
  bremsstrahlung ty (brems_egs4 nan m) l c rnd = Ok [lepton; photon] /\
  energy_split [ty; 22%Z] l E [lepton; photon] /\
  dot (sl_direction l) (direction (p_state photon)) = cos (m / E) /\
  exists q, 0 < q /\ vadd (scale q (direction (p_state lepton))) (momentum_vec 0 (p_state photon)) = scale (sqrt (E * E - m * m)) (sl_direction l).
Proof. exact c38_brems_egs4. Qed.
Print Assumptions C38_bremsstrahlung_deflected.
(** The directions of Koch and Motz, if the rejection loop ends and no 0/0
    comes up. *)
Theorem C38_koch_motz_partial : forall nan fuel gen m d E k c rnd n u, not_a_value nan -> unit d -> 0 < E -> (forall s i, 0 <= gen s i <= 1) ->
  brems_koch_motz nan fuel gen m d E k c rnd = Some (Ok (n, u)) ->
  unit n /\ unit u /\ exists phi q, 0 <= phi <= PI /\ dot d u = cos phi /\ 0 < q /\
    vadd (scale q n) (scale k u) = scale (sqrt (E * E - m * m)) d.
Proof. exact c38_koch_motz. Qed.
Print Assumptions C38_koch_motz_partial.
Theorem C38_photonuclear : forall ty l c rnd, unit (sl_direction l) -> exists ps,
  photonuclear ty l c rnd = Ok ps /\ energy_split [ty; 81%Z] l (sl_parent_energy l) ps.
Proof. exact c38_photonuclear. Qed.
Print Assumptions C38_photonuclear.
Theorem C38_photoproduction : forall l c rnd, unit (sl_direction l) -> exists ps,
  photoproduction l c rnd = Ok ps /\ energy_split [81%Z] l (sl_energy l) ps.
Proof. exact c38_photoproduction. Qed.
Print Assumptions C38_photoproduction.
(** The electron takes the energy of the photon less the binding energy; it has
    less than its rest mass if the photon could not free it. *)
Theorem C38_photoeffect : forall l c rnd, unit (sl_direction l) -> exists ps,
  photoeffect l c rnd = Ok ps /\ energy_split [11%Z] l (sl_parent_energy l + ME - (t_charge c * ALPHA) ^ 2 * ME / 2) ps /\
  (above_masses [ME] ps <-> (t_charge c * ALPHA) ^ 2 * ME / 2 <= sl_parent_energy l).
Proof. exact c38_photoeffect. Qed.
Print Assumptions C38_photoeffect.
Theorem C38_weak : forall partner t l c rnd r0 v, unit (sl_direction l) -> nth_error rnd 0 = Some r0 ->
  from_table t c (sl_parent_energy l) r0 = Ok v -> exists ps,
  weak partner t l c rnd = Ok ps /\ energy_split [partner; 81%Z] l (sl_energy l) ps /\
  (0 <= v <= 1 -> 0 <= sl_energy l -> above_masses [0; 0] ps).
Proof. exact c38_weak. Qed.
Print Assumptions C38_weak.
(** The naive pair production reports no products at all: the energy is gone. *)
Theorem C38_naive_epair_refuted : exists l, 0 < sl_energy l < sl_parent_energy l /\
  forall c rnd, naive_epair l c rnd = Ok [] /\ total_energy [] = 0.
Proof. exact c38_naive_epair. Qed.
Print Assumptions C38_naive_epair_refuted.
Example C38_example_brems : forall nan, not_a_value nan -> exists lepton photon,
  bremsstrahlung 13 (brems_egs4 nan MMU) (loss0 Brems) hydrogen [1 / 2] = Ok [lepton; photon] /\
  energy_split [13%Z; 22%Z] (loss0 Brems) 1000 [lepton; photon].
Proof.
  intros nan N. destruct (C38_bremsstrahlung_deflected nan 13 MMU (loss0 Brems) hydrogen [1 / 2] (1 / 2)) as (a & b & H & K & _);
    auto using loss0_unit; try (cbn; consts; lra). exists a, b. auto.
Qed.

(** ** C54: the calculator of secondaries *)
(** The calculator that was registered last for an interaction type is used. *)
Theorem C54_last_registered : forall g k ty,
  find_generator (add_interaction g k) ty = if itype_eqb (interaction_of k) ty then Some k else find_generator g ty.
Proof. exact c54_add. Qed.
Print Assumptions C54_last_registered.
(** With the number of random numbers it asks for, no calculation has undefined
    behaviour. *)
Theorem C54_random_numbers_suffice : forall nan g l c rnd n, (forall A u, nan A <> UB u) ->
  (forall ty k, find_generator g ty = Some k -> tables_defined k) ->
  required_random_numbers g (sl_type l) = Ok n -> (n <= length rnd)%nat -> forall u, calculate_secondaries nan g l c rnd <> UB u.
Proof. exact c54_sufficient. Qed.
Print Assumptions C54_random_numbers_suffice.
(** More random numbers do not change the products. *)
Theorem C54_only_required : forall nan k l c rnd, calculate nan k l c rnd = calculate nan k l c (firstn (required k) rnd).
Proof. exact c54_only_required. Qed.
Print Assumptions C54_only_required.
(** Too few are read past their end. *)
Theorem C54_too_few_refuted : forall nan k l c, sl_parent_energy l <> 0 ->
  In k [CCompton; CIonization 13 MMU; CAnnihilation ME; CBremsEGS4 13 MMU; CPhotoMuPair None] ->
  calculate nan k l c [] = UB out_of_bounds.
Proof. exact c54_too_few. Qed.
Print Assumptions C54_too_few_refuted.
(** Without a calculator for the type the calculation throws, but asking for the
    number of random numbers, which comes first, is undefined behaviour. *)
Theorem C54_missing_refuted : forall nan g l c rnd, find_generator g (sl_type l) = None ->
  required_random_numbers g (sl_type l) = UB deref_end /\
  calculate_secondaries nan g l c rnd = if itype_eqb (sl_type l) Undefined then UB deref_end else Throw logic_error.
Proof. exact c54_missing. Qed.
Print Assumptions C54_missing_refuted.
(** Calculators with tables refuse to answer without a table and for a component
    that is not in it. *)
Theorem C54_tables : forall nan l c rnd t r0 k, nth_error rnd 0 = Some r0 ->
  In k [CPhotoPairForward t; CPhotoPairSauter t; CPhotoMuPair t] \/ (exists angle, k = CPhotoPairTsai t angle) \/ (exists p, k = CWeak p t) ->
  (t = None -> calculate nan k l c rnd = Throw logic_error) /\
  (forall entries, t = Some entries -> ~ In (t_hash c) (map fst entries) -> calculate nan k l c rnd = Throw out_of_range).
Proof. exact c54_tables. Qed.
Print Assumptions C54_tables.
Example C54_tables_example : ~ In (t_hash hydrogen) (map fst [(N.succ (t_hash hydrogen), fun _ _ : R => Ok (1 / 2))]).
Proof. cbn [map fst In]. intros [H|[]]. lia. Qed.
Example C54_example : forall nan, let g := add_interaction (add_interaction (add_interaction [] CNaiveEpair) CCompton) (CEpair 13 (fun _ _ _ => middle) MMU) in
  required_random_numbers g Epair = Ok 3%nat /\ required_random_numbers g Brems = UB deref_end /\
  calculate_secondaries nan g (loss0 Compton) hydrogen [] = UB out_of_bounds.
Proof. intros nan. cbv zeta. split; [reflexivity|]. split; [reflexivity|]. apply C54_too_few_refuted; [cbn; lra|cbn; auto]. Qed.
