(** Theorems about nuclear interactions with a momentum transfer. *)
From Verif Require Import Prelude Particle_Model Limits_Model Cross_Model Photo_Model Differential_Spec Integral_Model Integral_Spec
  Nuclear_Model Nuclear_Spec Transfer_Model Transfer_Spec Transfer_Proofs Transfer_Examples.

(** ** C73: the photonuclear cross sections that integrate over the momentum transfer *)
(** Every transfer that is possible for the particle and that leaves the nucleon with a
    pion lies between the limits of the integral ... *)
Theorem C73_range : forall nan m c E v Q2, element c -> 0 < m <= E -> possible m E v Q2 -> inelastic c E v Q2 ->
  exists lo, transfer_min nan m E v = Ok lo /\ 0 < lo < Q2 /\ Q2 <= transfer_max m c E v.
Proof. exact covers. Qed.
Print Assumptions C73_range.
(** ... of which the upper one is the exact threshold of the pion ... *)
Theorem C73_upper_limit : forall m c E v Q2, element c -> 0 < E -> (Q2 <= transfer_max m c E v <-> inelastic c E v Q2).
Proof. exact inelastic_iff. Qed.
Print Assumptions C73_upper_limit.
(** ... and the lower one is below what is possible. *)
Theorem C73_lower_limit_refuted : forall nan m E v lo, 0 < m -> 0 < E -> 0 < v -> m <= E * (1 - v) ->
  transfer_min nan m E v = Ok lo -> ~ possible m E v lo.
Proof. exact low_impossible. Qed.
Print Assumptions C73_lower_limit_refuted.
Example C73_range_example : element oxygen /\ 0 < MMU <= 10 ^ 6 /\ possible MMU (10 ^ 6) (1 / 10) (10 ^ 5) /\ inelastic oxygen (10 ^ 6) (1 / 10) (10 ^ 5).
Proof. exact (conj (proj1 oxygen_element) muon_transfer). Qed.

(** The integrand is a number everywhere between the limits ... *)
Theorem C73_defined : forall nan t k m c E v Q2 lo, element c -> real_nucleus c -> 0 < m -> 0 < E ->
  v_min (photonuclear_limits m (nucleon_weight c) E) <= v < 1 -> transfer_min nan m E v = Ok lo -> lo <= Q2 <= transfer_max m c E v ->
  0 < lo /\ exists y, transfer_integrand nan t k m c E v Q2 = Ok y.
Proof. exact defined_integrand. Qed.
Print Assumptions C73_defined.
(** ... and for possible transfers it is not negative, and positive unless the particle
    has no spin, ... *)
Theorem C73_integrand_partial : forall nan t k m c E v Q2, element c -> real_nucleus c -> 0 < m <= E -> possible m E v Q2 -> inelastic c E v Q2 ->
  t <> BlockDurandHa -> Q2 <= 2 ^ 1024 ->
  exists y, transfer_integrand nan t k m c E v Q2 = Ok y /\ 0 <= y /\ (t <> RenoSarcevicSu -> 0 < y).
Proof. exact physical_integrand. Qed.
Print Assumptions C73_integrand_partial.
Example C73_integrand_example : element oxygen /\ real_nucleus oxygen /\ element hydrogen /\ real_nucleus hydrogen /\ (10 : R) ^ 5 <= 2 ^ 1024.
Proof.
  refine (conj (proj1 oxygen_element) (conj (proj2 oxygen_element) (conj (proj1 hydrogen_element) (conj (proj2 hydrogen_element) _)))).
  apply Rle_trans with (10 ^ 20); [lra|exact small_power].
Qed.
(** ... but not with the structure function of Block, Durand and Ha ... *)
Theorem C73_block_refuted : forall nan k c, element c -> real_nucleus c ->
  exists E v Q2 y, MMU < E <= 10 ^ 14 /\ possible MMU E v Q2 /\ inelastic c E v Q2 /\
    transfer_integrand nan BlockDurandHa k MMU c E v Q2 = Ok y /\ y < 0.
Proof. exact block_negative. Qed.
Print Assumptions C73_block_refuted.
(** ... nor at the lower limit: always for particles without spin ... *)
Theorem C73_spin_zero_refuted : forall nan k m c E v lo, element c -> real_nucleus c -> 0 < m -> 0 < E ->
  v_min (photonuclear_limits m (nucleon_weight c) E) <= v < 1 -> transfer_min nan m E v = Ok lo -> lo <= transfer_max m c E v ->
  exists y, transfer_integrand nan RenoSarcevicSu k m c E v lo = Ok y /\ y < 0.
Proof. exact spin_zero_negative. Qed.
Print Assumptions C73_spin_zero_refuted.
(** ... and sometimes for taus. *)
Theorem C73_tau_refuted : forall nan t k c, of_abramowicz t -> element c -> real_nucleus c -> exists E v lo y,
  v_min (photonuclear_limits MTAU (nucleon_weight c) E) <= v < 1 /\ MTAU <= E * (1 - v) /\
  transfer_min nan MTAU E v = Ok lo /\ lo < transfer_max MTAU c E v /\ transfer_integrand nan t k MTAU c E v lo = Ok y /\ y < 0.
Proof. exact tau_negative. Qed.
Print Assumptions C73_tau_refuted.
(** A tau can lose so much that less than its mass is left: no transfer is possible, but
    the range is not empty and the integrand positive throughout. *)
Theorem C73_stopped_refuted : forall nan t k c, of_abramowicz t -> element c -> real_nucleus c -> exists E v lo,
  v_min (photonuclear_limits MTAU (nucleon_weight c) E) <= v < 1 /\ E * (1 - v) < MTAU /\
  transfer_min nan MTAU E v = Ok lo /\ lo < transfer_max MTAU c E v /\
  forall Q2, lo <= Q2 <= transfer_max MTAU c E v -> exists y, transfer_integrand nan t k MTAU c E v Q2 = Ok y /\ 0 < y.
Proof. exact stopped_positive. Qed.
Print Assumptions C73_stopped_refuted.

(** The cross section is the integral, in the logarithm of the transfer, times the number
    of atoms in a gram and the square of the charge, or zero when that is negative. *)
Theorem C73_value : forall nan qags t k m charge c E v lo, element c -> real_nucleus c -> 0 < m -> 0 < E ->
  v_min (photonuclear_limits m (nucleon_weight c) E) <= v < 1 -> transfer_min nan m E v = Ok lo ->
  lo < transfer_max m c E v -> negligible (ln lo) (ln (transfer_max m c E v)) = false ->
  exists F r, (forall Q2, lo < Q2 < transfer_max m c E v -> transfer_integrand nan t k m c E v Q2 = Ok (F Q2)) /\
    @computed engine qags (fun s => exp s * F (exp s)) (ln lo) (ln (transfer_max m c E v)) 3
      (midpoint_sum (fun s => exp s * F (exp s)) (ln lo) (ln (transfer_max m c E v))) 12 5 (/ 10 ^ 6) r /\
    transfer_differential nan qags t k m charge c E v =
      (flet (x, _) := r in done (Ok (Rmax (x * (NA / c_atomic c * charge * charge)) 0))).
Proof. exact differential_value. Qed.
Print Assumptions C73_value.
Example C73_value_example : forall nan, exists lo,
  v_min (photonuclear_limits MMU (nucleon_weight oxygen) (10 ^ 6)) <= 1 / 10 < 1 /\
  transfer_min nan MMU (10 ^ 6) (1 / 10) = Ok lo /\ lo < transfer_max MMU oxygen (10 ^ 6) (1 / 10) /\
  negligible (ln lo) (ln (transfer_max MMU oxygen (10 ^ 6) (1 / 10))) = false.
Proof. exact muon_range. Qed.
Theorem C73_nonnegative : forall nan qags t k m charge c E v y,
  transfer_differential nan qags t k m charge c E v = Some (Ok y) -> 0 <= y.
Proof. exact differential_nonneg. Qed.
Print Assumptions C73_nonnegative.
Theorem C73_empty : forall nan qags t k m charge c E v lo, v <> 1 \/ m < MPI -> transfer_min nan m E v = Ok lo ->
  transfer_max m c E v < lo -> transfer_differential nan qags t k m charge c E v = Some (Ok 0).
Proof. exact differential_empty. Qed.
Print Assumptions C73_empty.
Theorem C73_charge : forall nan qags t k m charge c E v, transfer_differential nan qags t k m charge c E v =
  (flet y := transfer_differential nan qags t k m 1 c E v in done (Ok (charge * charge * y))).
Proof. exact differential_charge. Qed.
Print Assumptions C73_charge.

(** ** C74: shadowing *)
Theorem C74_positive : forall nan k c x nu, element c -> real_nucleus c -> 0 < x < 1 -> 0 < nu ->
  exists y, shadow nan k c x nu = Ok y /\ 0 < y.
Proof. exact shadow_value. Qed.
Print Assumptions C74_positive.
Theorem C74_hydrogen : forall nan k c x nu, c_charge c = 1 -> shadow nan k c x nu = Ok 1.
Proof. exact shadow_hydrogen. Qed.
Print Assumptions C74_hydrogen.
(** The shadowing of Dutta, Reno, Sarcevic and Seckel lets no more through than without
    it, except between x = 0.039 and x = 0.04. *)
Theorem C74_bounded_partial : forall nan c x nu, element c -> 0 < x <= 39 / 1000 \/ 4 / 100 <= x ->
  exists y, shadow nan DuttaRenoSarcevicSeckel c x nu = Ok y /\ 0 < y <= 1.
Proof. exact dutta_bounded. Qed.
Print Assumptions C74_bounded_partial.
Theorem C74_bounded_refuted : forall nan c nu, element c -> c_charge c <> 1 ->
  exists y, shadow nan DuttaRenoSarcevicSeckel c (395 / 10 ^ 4) nu = Ok y /\ 1 < y.
Proof. exact dutta_exceeds. Qed.
Print Assumptions C74_bounded_refuted.
