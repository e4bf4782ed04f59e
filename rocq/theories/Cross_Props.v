(** Properties C10 to C14 and C16: energy cuts, cross sections, the sampling of
    interactions.  [nan] is what arithmetic gives that leaves the real numbers. *)
From Verif Require Import Prelude PreludeFacts Propagator_Model Limits_Model Particle_Model Math_Model Cross_Model Photo_Model
  Cross_Spec Cross_Proofs Transform_Proofs Components_Proofs Photo_Proofs Cross_Examples.
From Coq Require Import Permutation.

(** ** C10: the sampled loss *)
(** Exactly one target's interval contains the random number times the total
    rate, whatever the random number below one. *)
Theorem C10_one_target : forall l rnd, Forall (Rle 0) l -> 0 < rsum l -> 0 <= rnd < 1 ->
  exists k, in_slot l k (rnd * rsum l) /\ (forall j, in_slot l j (rnd * rsum l) -> j = k).
Proof. exact c10_covered. Qed.
Print Assumptions C10_one_target.
(** That target is chosen, and its loss is sampled with a rate in (0, rate]. *)
Theorem C10_chosen_target : forall E l rnd k r, Forall (Rle 0) (map r_rate l) -> nth_error l k = Some r ->
  in_slot (map r_rate l) k (rnd * rsum (map r_rate l)) ->
  let y := below (map r_rate l) (S k) - rnd * rsum (map r_rate l) in
  0 < y <= r_rate r /\
  sample_loss E l rnd = olet v := x_loss (r_cross r) (r_hash r) E y in Ok (mkloss (x_type (r_cross r)) (r_hash r) v).
Proof. exact c10_slot. Qed.
Print Assumptions C10_chosen_target.
(** Where the sampling of the loss inverts the cumulated rate, the sampled loss
    is at most v0 for a share of the random numbers in proportion to the rate
    for losses up to v0. *)
Theorem C10_distribution : forall E l rnd k r a b v0 y0, Forall (Rle 0) (map r_rate l) -> nth_error l k = Some r ->
  in_slot (map r_rate l) k (rnd * rsum (map r_rate l)) ->
  inverts (x_loss (r_cross r) (r_hash r) E) (x_cumulative (r_cross r) E (r_hash r)) a b (r_rate r) ->
  a <= v0 <= b -> x_cumulative (r_cross r) E (r_hash r) v0 = Ok y0 ->
  exists v, sample_loss E l rnd = Ok (mkloss (x_type (r_cross r)) (r_hash r) v) /\ a <= v <= b /\
    (v <= v0 <-> below (map r_rate l) (S k) - y0 <= rnd * rsum (map r_rate l)).
Proof. exact c10_distribution. Qed.
Print Assumptions C10_distribution.
(** The tables do so if finding a node inverts the table, *)
Theorem C10_tables_invert : forall nan s kin cut table low find E,
  let lim := integration_limits kin cut E in
  let c := dndx_interpolant nan s kin cut table low find in
  usable s (v_min lim) (v_max lim) -> low <= E ->
  (forall u, 0 <= u <= 1 -> 0 <= table E u) ->
  (forall u v, 0 <= u < v -> v <= 1 -> table E u < table E v) ->
  (forall y, 0 < y <= table E 1 -> exists u, find E y = Ok u /\ 0 <= u <= 1 /\ table E u = y) ->
  dn_rate c E = Ok (table E 1) /\
  inverts (dn_upper c E) (dn_cumulative c E) (v_min lim) (v_max lim) (table E 1).
Proof. exact interpolant_inverts. Qed.
Print Assumptions C10_tables_invert.
(** and a cross section does if the calculators of its components do. *)
Theorem C10_cross_section_inverts : forall nan order make_n make_e make_e2 m cut only lower t x,
  (forall l, Permutation (order l) l) -> sound_medium m ->
  new_cross_section nan order make_n make_e make_e2 m cut only lower t = Ok x ->
  forall E c calc a b top, only_continuous cut = false -> distinct_components m -> only = false ->
  In c (m_components m) -> make_n c = Ok calc -> inverts (dn_upper calc E) (dn_cumulative calc E) a b top ->
  inverts (x_loss (as_cross nan x) (c_hash c) E) (x_cumulative (as_cross nan x) E (c_hash c)) a b (top * mass_share m c).
Proof. exact c10_inverts. Qed.
Print Assumptions C10_cross_section_inverts.
Theorem C10_no_rate : forall E l rnd, Forall (Rle 0) (map r_rate l) -> rsum (map r_rate l) = 0 ->
  sample_loss E l rnd = Ok (mkloss Undefined 0%N 0).
Proof. exact c10_none. Qed.
Print Assumptions C10_no_rate.
(** With the random number one the loop runs off the list: the interval of
    random numbers has to be half-open. *)
Theorem C10_random_number_one : forall E l, Forall (Rle 0) (map r_rate l) -> 0 < rsum (map r_rate l) ->
  sample_loss E l 1 = Throw logic_error.
Proof. exact c10_one. Qed.
Print Assumptions C10_random_number_one.
Example C10_example : forall nan, exists x l r, x0 nan = Ok x /\ rates [as_cross nan x] 20000 = Ok l /\
  Forall (Rle 0) (map r_rate l) /\ nth_error l 0 = Some r /\ r_hash r = 2%N /\
  in_slot (map r_rate l) 0 (1 / 2 * rsum (map r_rate l)) /\
  inverts (x_loss (r_cross r) (r_hash r) 20000) (x_cumulative (r_cross r) 20000 (r_hash r)) (25 / 1000) (9 / 10) (r_rate r).
Proof.
  intros nan. destruct (x0_ok nan) as (x & X). exists x. unfold x0 in X. pose proof X as Y.
  pose proof (fun l => Permutation_sym (@Permutation_rev (N * (R * dndx_calc)) l)) as P.
  assert (T1 := c14_target nan _ _ _ _ _ _ _ _ _ _ P water_sound X 20000 hydrogen_c 2 eq_refl water_distinct (or_introl eq_refl)).
  assert (T2 := c14_target nan _ _ _ _ _ _ _ _ _ _ P water_sound X 20000 oxygen_c 72 eq_refl water_distinct (or_intror (or_introl eq_refl))).
  assert (I2 := c10_inverts nan _ _ _ _ _ _ _ _ _ _ P water_sound X 20000 oxygen_c (calc0 nan oxygen_c) (25 / 1000) (9 / 10) 72
    eq_refl water_distinct eq_refl (or_intror (or_introl eq_refl)) eq_refl).
  assert (K : exists a b, cs_dndx x = Some [(2%N, a); (1%N, b)]).
  { clear -X. unfold new_cross_section, build_dndx_components in X. cbn [only_continuous ecut cut0 andb] in X.
    cbn [water m_components build_dndx_loop] in X. inv_ok. cbn. eauto. }
  destruct K as (a & b & K).
  eexists. eexists. split; [exact X|].
  unfold rates. cbn [as_cross x_per_target]. unfold cs_per_target. rewrite K. cbn [map fst targets].
  cbn [as_cross x_dNdx_target c_hash hydrogen_c oxygen_c] in T1, T2.
  rewrite T2, T1; [|exists (calc0 nan hydrogen_c); split; [reflexivity|]; rewrite (proj1 (calc0_inverts nan _ (or_introl eq_refl))); apply f_equal; cbn; lra
                   |exists (calc0 nan oxygen_c); split; [reflexivity|]; rewrite (proj1 (calc0_inverts nan _ (or_intror eq_refl))); apply f_equal; cbn; lra].
  cbn [obind map fst snd app]. split; [reflexivity|].
  assert (S1 : 0 < mass_share water hydrogen_c < 12 / 100) by (unfold mass_share, component_mass; cbn; lra).
  assert (S2 : 88 / 100 < mass_share water oxygen_c) by (unfold mass_share, component_mass; cbn; lra).
  cbn [map r_rate nth_error].
  split; [repeat constructor; nra|]. split; [reflexivity|]. split; [reflexivity|]. split.
  - unfold in_slot, below. cbn. split; [lia|]. nra.
  - cbn [r_cross r_hash r_rate]. apply I2.
    pose proof (proj2 (calc0_inverts nan _ (or_intror eq_refl))) as V. cbn [c_charge oxygen_c] in V.
    replace (8 * (8 + 1)) with 72 in V by lra. exact V.
Qed.

(** ** C11: the mean free path *)
(** The rates of cross sections, of multiplied ones and of photon interactions
    without a differential cross section are additive (C14). *)
Theorem C11_mean_free_path : forall cross E l, (forall x, In x cross -> additive x E) -> rates cross E = Ok l ->
  let total := rsum (map r_rate l) in
  (total <> 0 -> exists d, mean_free_path cross None E = Ok (Fin d) /\ d * total = 1) /\
  (total = 0 -> mean_free_path cross None E = Ok PInf).
Proof. exact c11_mean_free_path. Qed.
Print Assumptions C11_mean_free_path.
(** With a table of the total rates: a positive length or infinity *)
Theorem C11_table : forall cross low f E,
  mean_free_path cross (Some (low, f)) E = Ok PInf /\ (E < low \/ f E <= 0) \/
  low <= E /\ exists d, mean_free_path cross (Some (low, f)) E = Ok (Fin d) /\ 0 < d /\ d * f E = 1.
Proof. exact c11_table. Qed.
Print Assumptions C11_table.
Example C11_example : forall nan, exists x l, x0 nan = Ok x /\ additive (as_cross nan x) 20000 /\
  rates [as_cross nan x] 20000 = Ok l /\ 0 < rsum (map r_rate l).
Proof.
  intros nan. destruct (C10_example nan) as (x & l & r & X & L & F & _ & _ & S & _). exists x, l.
  split; [exact X|]. split; [apply as_cross_additive|]. split; [exact L|].
  pose proof (rsum_nonneg _ F) as P. destruct S as (_ & S1 & S2). unfold below in *.
  destruct (Req_dec (rsum (map r_rate l)) 0) as [Z|]; [|lra]. exfalso. rewrite Z in *.
  pose proof (below_mono (map r_rate l) 1 (length (map r_rate l)) F) as B.
  destruct l as [|r0 l0]; [cbn in *; lra|]. specialize (B ltac:(cbn; lia)). rewrite below_all in B. unfold below in B. lra.
Qed.

(** ** C12: energy cuts *)
Theorem C12_accepts : forall e v cr, (exists c, new_energy_cut e v cr = Ok c) <-> valid_cut e v.
Proof. exact c12_accepts. Qed.
Print Assumptions C12_accepts.
Theorem C12_rejects : forall e v cr, ~ valid_cut e v -> new_energy_cut e v cr = Throw invalid_argument.
Proof. exact c12_rejects. Qed.
Print Assumptions C12_rejects.
Theorem C12_keeps : forall e v cr c, new_energy_cut e v cr = Ok c -> c = mkcut e v cr.
Proof. exact c12_keeps. Qed.
Print Assumptions C12_keeps.
(** A loss is below the cut iff neither its fraction nor its amount exceeds the
    limits; between kinematic limits the cut stays between them. *)
Theorem C12_both_limits : forall c E v, 0 < E -> v <= get_cut c E <-> small c E v.
Proof. exact c12_small. Qed.
Print Assumptions C12_both_limits.
Theorem C12_within : forall c lim E, 0 < E -> v_min lim <= v_max lim ->
  let k := get_cut_within c lim E in
  v_min lim <= k <= v_max lim /\
  (forall v, v_min lim < v <= v_max lim -> v <= k <-> small c E v).
Proof. exact c12_within. Qed.
Print Assumptions C12_within.
(** The stochastic losses are those which are not small. *)
Theorem C12_stochastic : forall kin c E, 0 < E -> v_min (kin E) <= v_max (kin E) ->
  let s := integration_limits kin (Some c) E in
  v_min s = get_cut_within c (kin E) E /\ v_max s = v_max (kin E) /\
  (forall v, v_min (kin E) < v <= v_max (kin E) -> v_min s < v <-> ~ small c E v).
Proof. exact c12_ranges. Qed.
Print Assumptions C12_stochastic.
Theorem C12_monotone : forall c c' lim E, 0 < E -> ext_le (ecut c) (ecut c') -> vcut c <= vcut c' ->
  get_cut_within c lim E <= get_cut_within c' lim E.
Proof. exact c12_monotone. Qed.
Print Assumptions C12_monotone.
Theorem C12_energy : forall c E E', 0 < E <= E' -> match ecut c with Fin e => 0 <= e | PInf => True end ->
  get_cut c E' <= get_cut c E.
Proof. exact c12_energy. Qed.
Print Assumptions C12_energy.
Example C12_example : valid_cut (Fin 500) (5 / 100) /\ valid_cut PInf 1 /\ ~ valid_cut (Fin 0) (1 / 2) /\ ~ valid_cut PInf 0 /\
  integration_limits kin0 (Some cut0) 20000 = mklimits (25 / 1000) (9 / 10) /\
  small cut0 20000 (2 / 100) /\ ~ small cut0 20000 (3 / 100) /\ ext_le (Fin 500) PInf.
Proof. unfold valid_cut, small. cbn. repeat split; try lra; apply limits0. Qed.

(** ** C13: the spacing of the tables *)
Theorem C13_inverse : forall nan s vc vm, usable s vc vm ->
  (forall v, 0 <= v <= 1 -> exists x, transform_loss nan s vc vm v = Ok x /\ vc <= x <= vm /\
     retransform_loss nan s vc vm x = Ok v) /\
  (forall x, vc <= x <= vm -> exists v, retransform_loss nan s vc vm x = Ok v /\ 0 <= v <= 1 /\
     transform_loss nan s vc vm v = Ok x).
Proof. exact c13_inverse. Qed.
Print Assumptions C13_inverse.
Theorem C13_ends : forall nan s vc vm, usable s vc vm ->
  transform_loss nan s vc vm 0 = Ok vc /\ transform_loss nan s vc vm 1 = Ok vm /\
  retransform_loss nan s vc vm vc = Ok 0 /\ retransform_loss nan s vc vm vm = Ok 1.
Proof. exact c13_ends. Qed.
Print Assumptions C13_ends.
Theorem C13_increasing : forall nan s vc vm u v x y, usable s vc vm -> 0 <= u < v -> v <= 1 ->
  transform_loss nan s vc vm u = Ok x -> transform_loss nan s vc vm v = Ok y -> x < y.
Proof. exact c13_increasing. Qed.
Print Assumptions C13_increasing.
(** An empty range: the tables of Compton scattering divide by zero there, the
    others do not. *)
Theorem C13_empty_range : forall nan v c, 0 < v -> 0 < c -> forall u, transform_relative_loss nan c v v u = Ok v.
Proof. exact c13_empty_relative. Qed.
Print Assumptions C13_empty_range.
Theorem C13_compton_empty_range_refuted : forall nan v, (forall A a, nan A <> Ok a) -> v < 1 ->
  forall r, retransform_loss nan LogCompton v v v <> Ok r.
Proof. exact c13_empty_log. Qed.
Print Assumptions C13_compton_empty_range_refuted.
(** Without a cut a parametrization whose losses start at zero has no tables. *)
Theorem C13_no_cut_refuted : forall nan vm u c, (forall A a, nan A <> Ok a) -> 0 < vm -> 0 <= u < 1 ->
  forall r, transform_relative_loss nan c 0 vm u <> Ok r.
Proof. exact c13_no_cut. Qed.
Print Assumptions C13_no_cut_refuted.
Example C13_example : usable Relative (25 / 1000) (9 / 10) /\ usable RelativeIonization (25 / 1000) (9 / 10) /\
  usable LogCompton 0 (9 / 10) /\ forall A (a : A), UB null_deref <> Ok a.
Proof. cbn. repeat split; try lra; discriminate. Qed.

(** ** C14: sums over the components *)
(** The rate in a medium: the rates of its components, weighted with their
    share in the mass; the order of the map does not matter. *)
Theorem C14_rates : forall nan order make_n make_e make_e2 m cut only lower t x,
  (forall l, Permutation (order l) l) -> sound_medium m ->
  new_cross_section nan order make_n make_e make_e2 m cut only lower t = Ok x ->
  forall E f, only_continuous cut = false -> distinct_components m ->
  (forall c, In c (m_components m) -> exists calc, make_n c = Ok calc /\ dn_rate calc E = Ok (f c)) ->
  x_dNdx (as_cross nan x) E = Ok (rsum (map (fun c => f c * mass_share m c) (m_components m))) /\
  exists l, x_per_target (as_cross nan x) E = Ok l /\
    Permutation l (map (fun c => (c_hash c, f c * mass_share m c)) (m_components m)).
Proof. exact c14_rates. Qed.
Print Assumptions C14_rates.
Theorem C14_target : forall nan order make_n make_e make_e2 m cut only lower t x,
  (forall l, Permutation (order l) l) -> sound_medium m ->
  new_cross_section nan order make_n make_e make_e2 m cut only lower t = Ok x ->
  forall E c f, only_continuous cut = false -> distinct_components m -> In c (m_components m) ->
  (exists calc, make_n c = Ok calc /\ dn_rate calc E = Ok f) ->
  x_dNdx_target (as_cross nan x) E (c_hash c) = Ok (f * mass_share m c).
Proof. exact c14_target. Qed.
Print Assumptions C14_target.
(** A target that is not in the medium: a null pointer is dereferenced. *)
Theorem C14_unknown_target : forall nan order make_n make_e make_e2 m cut only lower t x,
  (forall l, Permutation (order l) l) ->
  new_cross_section nan order make_n make_e make_e2 m cut only lower t = Ok x ->
  forall E h, only_continuous cut = false -> distinct_components m ->
  ~ In h (map c_hash (m_components m)) -> x_dNdx_target (as_cross nan x) E h = UB null_deref.
Proof. exact c14_unknown. Qed.
Print Assumptions C14_unknown_target.
(** The mean loss and its variance *)
Theorem C14_mean_loss : forall nan order make_n make_e make_e2 m cut only lower t x,
  sound_medium m ->
  new_cross_section nan order make_n make_e make_e2 m cut only lower t = Ok x ->
  forall E g, cut <> None ->
  (forall c, In c (m_components m) -> (exists f, make_e c = Ok (Some f) /\ f E = Ok (g c)) \/ make_e c = Ok None /\ g c = 0) ->
  x_dEdx (as_cross nan x) E = Ok (rsum (map (fun c => g c * mass_share m c) (m_components m))).
Proof. exact c14_continuous. Qed.
Print Assumptions C14_mean_loss.
Theorem C14_variance : forall nan order make_n make_e make_e2 m cut only lower t x,
  sound_medium m ->
  new_cross_section nan order make_n make_e make_e2 m cut only lower t = Ok x ->
  forall E g k, cut = Some k -> cut_cont_rand k = true ->
  (forall c, In c (m_components m) -> exists f, make_e2 c = Ok f /\ f E = Ok (g c)) ->
  x_dE2dx (as_cross nan x) E = Ok (rsum (map (fun c => g c * mass_share m c) (m_components m))).
Proof. exact c14_variance. Qed.
Print Assumptions C14_variance.
(** A cut that leaves no stochastic losses *)
Theorem C14_only_continuous : forall nan order make_n make_e make_e2 m cut only lower t x,
  new_cross_section nan order make_n make_e make_e2 m cut only lower t = Ok x ->
  forall E, only_continuous cut = true ->
  x_dNdx (as_cross nan x) E = Ok 0 /\ x_per_target (as_cross nan x) E = Ok [] /\
  forall h y, x_loss (as_cross nan x) h E y = Throw logic_error.
Proof. exact c14_continuous_only. Qed.
Print Assumptions C14_only_continuous.
(** Ionization is calculated for the medium as a whole. *)
Theorem C14_medium : forall nan make_n make_e make_e2 m cut lower t x calc E r,
  new_cross_section_medium make_n make_e make_e2 m cut false lower t = Ok x -> only_continuous cut = false ->
  make_n = Ok calc -> dn_rate calc E = Ok r ->
  x_dNdx (as_cross nan x) E = Ok r /\ x_per_target (as_cross nan x) E = Ok [(m_hash m, r)] /\
  x_dNdx_target (as_cross nan x) E (m_hash m) = Ok r /\
  (forall y, x_loss (as_cross nan x) (m_hash m) E y = dn_upper calc E y) /\
  (forall f s, cut <> None -> make_e = Ok (Some f) -> f E = Ok s -> x_dEdx (as_cross nan x) E = Ok s).
Proof. exact c14_medium. Qed.
Print Assumptions C14_medium.
Theorem C14_shares : forall m, sound_medium m -> rsum (map (mass_share m) (m_components m)) = 1.
Proof. exact shares_sum. Qed.
Print Assumptions C14_shares.
(** The total rate is the sum of the rates per target. *)
Theorem C14_additive : forall nan x E, additive (as_cross nan x) E.
Proof. exact as_cross_additive. Qed.
Print Assumptions C14_additive.
Theorem C14_additive_multiplied : forall nan x k E, additive x E -> additive (multiplied nan x k) E.
Proof. exact multiplied_additive. Qed.
Print Assumptions C14_additive_multiplied.
Theorem C14_additive_direct : forall nan rate_of registry cutoff checked m lower t cut E,
  additive (direct nan rate_of registry cutoff checked m lower t cut) E.
Proof. exact direct_additive. Qed.
Print Assumptions C14_additive_direct.
(** A medium that names a component twice: all of it counts for the mean loss,
    but one half for the rate. *)
Theorem C14_duplicates_refuted : forall nan, exists m x,
  sound_medium m /\
  new_cross_section nan (fun l => l) (fun _ => Ok unit_calc) (fun _ => Ok (Some (fun _ => Ok 1))) (fun _ => Ok (fun _ => Ok 1))
    m (Some cut0) false 105 Brems = Ok x /\
  rsum (map (fun c => 1 * mass_share m c) (m_components m)) = 1 /\
  forall E, x_dEdx (as_cross nan x) E = Ok 1 /\ x_dNdx (as_cross nan x) E = Ok (1 / 2).
Proof. exact duplicates_refuted. Qed.
Print Assumptions C14_duplicates_refuted.
(** The photoelectric effect: the rate of a target is positive above its
    cut-off and zero below it, *)
Theorem C14_photoeffect : forall nan registry m lower cut E, sound_medium m ->
  (forall c, In c (m_components m) -> 1 <= c_charge c <= 300) ->
  exists f, (forall c, In c (m_components m) ->
      (photoeffect_cutoff c < E -> 0 < f c /\ exists r, photoeffect_rate nan E c = Ok r /\ f c = r * mass_share m c) /\
      (E <= photoeffect_cutoff c -> f c = 0)) /\
    x_per_target (photoeffect nan registry m lower cut) E = Ok (map (fun c => (c_hash c, f c)) (m_components m)).
Proof. exact photoeffect_targets. Qed.
Print Assumptions C14_photoeffect.
(** and asked for by the hash of the target it is the same above the cut-off,
    but not a number below it. *)
Theorem C14_photoeffect_target_refuted : forall nan registry m lower cut E c, sound_medium m -> In c (m_components m) ->
  1 <= c_charge c <= 137 -> registry (c_hash c) = Ok c -> 0 < E ->
  (photoeffect_cutoff c < E -> exists r, photoeffect_rate nan E c = Ok r /\
     x_dNdx_target (photoeffect nan registry m lower cut) E (c_hash c) = Ok (r * mass_share m c)) /\
  (E <= photoeffect_cutoff c -> (forall A a, nan A <> Ok a) ->
     forall r, x_dNdx_target (photoeffect nan registry m lower cut) E (c_hash c) <> Ok r).
Proof. exact photoeffect_asked. Qed.
Print Assumptions C14_photoeffect_target_refuted.
Example C14_example : forall nan, sound_medium water /\ distinct_components water /\ (exists x, x0 nan = Ok x) /\
  only_continuous (Some cut0) = false /\ only_continuous (Some (mkcut PInf 1 false)) = true /\
  (forall c, In c (m_components water) -> dn_rate (calc0 nan c) 20000 = Ok (c_charge c * (c_charge c + 1))) /\
  (forall c, In c (m_components water) -> 1 <= c_charge c <= 137) /\
  photoeffect_cutoff hydrogen_c < 1 / 1000 <= photoeffect_cutoff (mkcomponent 5 26 (55845 / 1000) 1).
Proof.
  intros nan. split; [apply water_sound|]. split; [apply water_distinct|]. split; [apply x0_ok|]. split; [reflexivity|].
  split; [cbn; now destruct (Reqb_spec 1 1)|].
  split; [intros c [<-|[<-|[]]]; apply calc0_inverts; auto|].
  split; [intros c [<-|[<-|[]]]; cbn; lra|].
  unfold photoeffect_cutoff. cbn [c_charge hydrogen_c]. unfold ALPHA, ME. lra.
Qed.

(** ** C16: multipliers *)
Theorem C16_scaled : forall nan x k, k <> 0 -> scaled k x (multiplied nan x k).
Proof. exact c16_scaled. Qed.
Print Assumptions C16_scaled.
(** One positive multiplier for all cross sections: the same losses are
    sampled, and the mean free path is divided by it. *)
Theorem C16_same_losses : forall nan cross k E rnd, 0 < k ->
  energy_stochastic_loss (map (fun x => multiplied nan x k) cross) E rnd = energy_stochastic_loss cross E rnd.
Proof. exact c16_same_loss. Qed.
Print Assumptions C16_same_losses.
Theorem C16_mean_free_path : forall nan cross k E, 0 < k ->
  mean_free_path (map (fun x => multiplied nan x k) cross) None E =
  olet d := mean_free_path cross None E in Ok (match d with Fin d => Fin (d / k) | PInf => PInf end).
Proof. exact c16_mean_free_path. Qed.
Print Assumptions C16_mean_free_path.
(** A multiplier of zero switches a cross section off. *)
Theorem C16_zero : forall nan x cross E rnd t l, x_per_target x E = Ok t -> rates cross E = Ok l ->
  Forall (Rle 0) (map r_rate l) -> 0 <= rnd ->
  energy_stochastic_loss (multiplied nan x 0 :: cross) E rnd = energy_stochastic_loss cross E rnd.
Proof. exact c16_zero. Qed.
Print Assumptions C16_zero.
Example C16_example : forall nan, exists x l, rates [as_cross nan x] 20000 = Ok l /\ Forall (Rle 0) (map r_rate l) /\
  exists d, mean_free_path [as_cross nan x] None 20000 = Ok (Fin d).
Proof.
  intros nan. destruct (C10_example nan) as (x & l & r & X & L & F & _). exists x, l. split; [exact L|]. split; [exact F|].
  destruct (C11_example nan) as (x' & l' & X' & A & L' & P). assert (x' = x) by congruence. subst.
  destruct (C11_mean_free_path [as_cross nan x] 20000 l') as (H & _); auto.
  - intros y [<-|[]]; auto.
  - destruct H as (d & -> & _); [lra|]. eauto.
Qed.
