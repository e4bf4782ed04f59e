(** C83: sampled losses lie between the cut and the largest possible loss. *)
From Coq Require Import Permutation.
From Verif Require Import Prelude Propagator_Model Limits_Model Particle_Model Cross_Model Function_Model Integral_Model Continuous_Model
  Differential_Model Sampling_Model Limits_Spec Cross_Spec Utility_Spec Differential_Spec Sampling_Spec Sampling_Proofs
  SamplingDirect_Proofs Sampling_Examples PreludeFacts Trapezoid_Proofs Cross_Examples Cross_Props.

(** ** Losses from the integral over the differential cross section *)
(** All but Compton scattering, where the limits are far enough apart or equal *)
Theorem C83_direct_partial : forall nan qags, (forall A (x : A), nan A <> Ok x) ->
  forall s p cut E rate v, s <> LogCompton ->
  let lim := integration_limits (p_limits p) cut E in
  ordered lim -> (0 < v_min lim -> resolved lim /\ not_negative lim (p_differential p E)) ->
  upper_direct nan qags s p cut E rate = Some (Ok v) -> in_limits lim v.
Proof. exact direct_generic. Qed.
Print Assumptions C83_direct_partial.
Theorem C83_direct_compton : forall nan qags, (forall A (x : A), nan A <> Ok x) ->
  forall p cut E rate v,
  let lim := integration_limits (p_limits p) cut E in
  ordered lim -> not_negative lim (p_differential p E) ->
  upper_direct nan qags LogCompton p cut E rate = Some (Ok v) -> in_limits lim v.
Proof. exact direct_compton. Qed.
Print Assumptions C83_direct_compton.
(** Limits that are more than one part in a hundred million apart will do. *)
Theorem C83_resolved : forall lim, / 10 ^ 25 <= v_min lim -> v_max lim <= 1 -> v_min lim * (1 + / 10 ^ 8) <= v_max lim -> resolved lim.
Proof. exact resolved_realistic. Qed.
Print Assumptions C83_resolved.
(** Closer ones do not: a negative loss is returned, whatever the rate. *)
Theorem C83_close_refuted : forall nan qags, constants_exact 1 qags ->
  exists p E, let lim := integration_limits (p_limits p) None E in
  0 < v_min lim < v_max lim /\ not_negative lim (p_differential p E) /\
  (forall rate, 0 < rate -> exists v, upper_direct nan qags Relative p None E rate = Some (Ok v) /\ v < 0).
Proof. exact narrow_refuted. Qed.
Print Assumptions C83_close_refuted.
(** If losses start at zero, none can be sampled. *)
Theorem C83_no_cut : forall nan qags s p cut E rate, s <> LogCompton ->
  let lim := integration_limits (p_limits p) cut E in
  v_min lim <= 0 < v_max lim -> upper_direct nan qags s p cut E rate = Some (Throw invalid_argument).
Proof. exact direct_no_cut. Qed.
Print Assumptions C83_no_cut.
(** The sampled loss is the one up to which the rate is the given one: for spectra
    that fall off like the inverse of the loss. *)
Theorem C83_inverse_partial : forall nan qags k, 0 < k -> constants_exact k qags ->
  forall f a b rate, (forall v, 0 < v -> f v = Ok (k / v)) -> 0 < a < b -> b - a > a / 10 ^ 10 ->
  Rabs (ln a) / 10 ^ 10 < ln b - ln a -> 0 < rate < k * (ln b - ln a) ->
  exists v, place_loss nan qags f a b (- rate) = Some (Ok v) /\ 0 < v /\ Rabs (ln v - (ln a + rate / k)) < / 10 ^ 6.
Proof. exact flat_place. Qed.
Print Assumptions C83_inverse_partial.

(** Bremsstrahlung of electrons, muons and tau leptons: the particle keeps its rest mass. *)
Theorem C83_bremsstrahlung_partial : forall nan qags p k mass charge c E rate v, (forall A (x : A), nan A <> Ok x) ->
  ME <= mass <= E -> charge <> 0 -> element c -> lepton mass ->
  p_limits p = brems_limits None mass (c_charge c) ->
  p_differential p = bremsstrahlung nan false (kelner nan mass c) None mass charge c ->
  let lim := integration_limits (p_limits p) (Some k) E in
  (0 < v_min lim -> resolved lim) ->
  upper_direct nan qags Relative p (Some k) E rate = Some (Ok v) -> in_limits lim v /\ mass <= E * (1 - v).
Proof. exact kelner_sampled. Qed.
Print Assumptions C83_bremsstrahlung_partial.
Theorem C83_compton : forall nan qags p cut c E rate v, (forall A (x : A), nan A <> Ok x) ->
  0 < E -> 0 < c_charge c -> 0 < c_atomic c -> p_limits p = compton_limits ->
  p_differential p = klein_nishina nan c ->
  let lim := integration_limits (p_limits p) cut E in
  upper_direct nan qags LogCompton p cut E rate = Some (Ok v) -> in_limits lim v /\ 0 < E * (1 - v).
Proof. exact compton_sampled. Qed.
Print Assumptions C83_compton.
(** The spectrum 1 / v between 0.001 and 0.5: half of the rate is found. *)
Example C83_direct_example : forall nan qags, constants_exact 1 qags ->
  let lim := integration_limits (p_limits ordinary) None 1000 in
  ordered lim /\ 0 < v_min lim /\ resolved lim /\ not_negative lim (p_differential ordinary 1000) /\
  exists v, upper_direct nan qags Relative ordinary None 1000 ((ln (1 / 2) - ln (/ 1000)) / 2) = Some (Ok v).
Proof.
  intros nan qags Ex. cbv zeta. split; [unfold ordered; cbn; lra|]. split; [cbn; lra|]. split; [apply ordinary_resolved|].
  split; [apply ordinary_nonneg|].
  assert (L : ln (/ 1000) < ln (1 / 2)) by (apply ln_increasing; lra).
  destruct (flat_place nan qags 1 ltac:(lra) Ex (fun v => Ok (1 / v)) (/ 1000) (1 / 2) ((ln (1 / 2) - ln (/ 1000)) / 2)) as (v & V & _).
  - intros; reflexivity.
  - lra.
  - lra.
  - destruct (ordinary_resolved 1) as [H|H]; cbn in H; [lra|exact H].
  - lra.
  - exists v. exact V.
Qed.

(** ** Losses from tables *)
Theorem C83_table : forall nan s kin cut table low find E, s <> LogCompton ->
  let lim := integration_limits kin cut E in
  0 < v_min lim <= v_max lim -> places lim (dn_upper (dndx_interpolant nan s kin cut table low find) E).
Proof. exact table_range. Qed.
Print Assumptions C83_table.
(** The tables of Compton scattering, if a node between zero and one is found *)
Theorem C83_compton_table_partial : forall nan kin cut table low find E, (forall A (x : A), nan A <> Ok x) ->
  let lim := integration_limits kin cut E in
  ordered lim -> v_max lim < 1 -> (forall rate, exists u, find E rate = Ok u /\ 0 <= u <= 1) ->
  places lim (dn_upper (dndx_interpolant nan LogCompton kin cut table low find) E).
Proof. exact compton_table_range. Qed.
Print Assumptions C83_compton_table_partial.

(** ** Losses of a cross section and of a list of them *)
Theorem C83_components : forall nan order make_n make_e make_e2 m cut lower t x lim E, (forall l, Permutation (order l) l) ->
  new_cross_section nan order make_n make_e make_e2 m cut false lower t = Ok x ->
  (forall c calc, In c (m_components m) -> make_n c = Ok calc -> places (lim (c_hash c)) (dn_upper calc E)) ->
  forall h, places (lim h) (x_loss (as_cross nan x) h E).
Proof. exact cross_section_places. Qed.
Print Assumptions C83_components.
Theorem C83_medium : forall nan make_n make_e make_e2 m cut lower t x lim E,
  new_cross_section_medium make_n make_e make_e2 m cut false lower t = Ok x ->
  (forall calc, make_n = Ok calc -> places lim (dn_upper calc E)) ->
  forall h, places lim (x_loss (as_cross nan x) h E).
Proof. exact medium_places. Qed.
Print Assumptions C83_medium.
Theorem C83_multiplied : forall nan x k h E lim, places lim (x_loss x h E) -> places lim (x_loss (multiplied nan x k) h E).
Proof. exact multiplied_places. Qed.
Print Assumptions C83_multiplied.
(** The loss that is made in a step is one of a target of one of the cross sections. *)
Theorem C83_chosen : forall cross E rnd out lim, 0 <= rnd ->
  (forall x l h r, In x cross -> x_per_target x E = Ok l -> In (h, r) l -> 0 <= r) ->
  (forall x, In x cross -> places_targets x E (lim x)) ->
  energy_stochastic_loss cross E rnd = Ok out ->
  out = mkloss Undefined 0%N 0 \/
  exists x l h r, In x cross /\ x_per_target x E = Ok l /\ In (h, r) l /\ loss_type out = x_type x /\ in_limits (lim x h) (v_loss out).
Proof. exact chosen_range. Qed.
Print Assumptions C83_chosen.
(** Water with tables at 20 GeV and a cut at 500 MeV: a loss is sampled. *)
Example C83_example : forall nan, exists x out, x0 nan = Ok x /\
  (forall h, places (integration_limits kin0 (Some cut0) 20000) (x_loss (as_cross nan x) h 20000)) /\
  (forall l h r, x_per_target (as_cross nan x) 20000 = Ok l -> In (h, r) l -> 0 <= r) /\
  energy_stochastic_loss [as_cross nan x] 20000 (1 / 2) = Ok out /\ loss_type out = Brems /\ 25 / 1000 <= v_loss out <= 9 / 10.
Proof.
  intro nan. destruct (C10_example nan) as (x & l & r & X & Rl & F & Nt & H & S & I). exists x.
  assert (P : forall l, Permutation (@rev (N * (R * dndx_calc)) l) l) by (intro; apply Permutation_sym, Permutation_rev).
  destruct (proj1 I (below (map r_rate l) 1 - 1 / 2 * rsum (map r_rate l))) as (v & V & B & _).
  { exact (proj1 (C10_chosen_target 20000 l (1 / 2) 0 r F Nt S)). }
  exists (mkloss (x_type (r_cross r)) (r_hash r) v). split; [exact X|]. split; [|split; [|split; [|split; [|exact B]]]].
  - refine (C83_components nan _ _ _ _ _ _ _ _ _ (fun _ => integration_limits kin0 (Some cut0) 20000) _ P X _).
    intros c calc _ Q. injection Q as <-. apply C83_table; [discriminate|]. rewrite limits0. cbn. lra.
  - intros t h q T J. unfold rates in Rl. rewrite T in Rl. cbn [obind] in Rl. injection Rl as <-. rewrite app_nil_r, map_map in F.
    rewrite Forall_forall in F. apply F. apply in_map_iff. exists (h, q). split; [reflexivity|exact J].
  - unfold energy_stochastic_loss. rewrite Rl. cbn [obind]. destruct (C10_chosen_target 20000 l (1 / 2) 0 r F Nt S) as (_ & ->). rewrite V. reflexivity.
  - cbn [loss_type]. unfold rates in Rl. apply obind_Ok in Rl. destruct Rl as (t & _ & Rl). injection Rl as <-. rewrite app_nil_r in Nt.
    apply nth_error_In, in_map_iff in Nt. destruct Nt as (e & <- & _). cbn [r_cross as_cross x_type].
    unfold x0, new_cross_section in X. inv_ok. reflexivity.
Qed.
(** A muon of 1 TeV in oxygen *)
Example C83_bremsstrahlung_example : let lim := integration_limits (brems_limits None MMU 8) (Some cut0) (10 ^ 6) in
  element oxygen_c /\ lepton MMU /\ 0 < v_min lim /\ resolved lim.
Proof.
  assert (C : 0 <= cube_root 8 <= 8) by apply cube_root_8.
  assert (V : 1 / 2 <= v_max (brems_limits None MMU 8 (10 ^ 6)) <= 1).
  { unfold brems_limits. cbn [v_max]. set (z := cube_root 8) in *. unfold MMU, SQRTE. rewrite ltb_no; nra. }
  assert (L : v_min (integration_limits (brems_limits None MMU 8) (Some cut0) (10 ^ 6)) = 5 / 10 ^ 4).
  { unfold integration_limits, get_cut_within, get_cut. cbn [v_min ecut vcut cut0].
    change (v_min (brems_limits None MMU 8 (10 ^ 6))) with 0. unfold Rmin, Rmax. repeat destruct (Rle_dec _ _); lra. }
  cbv zeta. split; [unfold element; cbn; lra|]. split; [right; unfold MMU, ME; lra|]. split; [rewrite L; lra|].
  apply C83_resolved; rewrite ?L; cbn [integration_limits v_max]; lra.
Qed.
