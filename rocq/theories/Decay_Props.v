(** Properties C32-C34, C52, C53: decays. *)
From Verif Require Import Prelude Vec_Model Propagator_Model Particle_Model Particle_Spec Particle_Proofs Shapes_Spec
  Decay_Model Decay_Spec Decay_Proofs ManyBody_Proofs Leptonic_Proofs DecayAll_Proofs DecayDraws_Proofs Decay_Examples.

(** ** C32: two-body decays *)
Theorem C32_conserved : forall nan reg, not_a_value nan -> forall first second parent c r1 r2 ps,
  registered reg first -> registered reg second -> 0 <= pd_mass first -> 0 <= pd_mass second ->
  pd_mass first + pd_mass second <= pd_mass parent -> 0 < pd_mass parent <= energy c -> unit (direction c) -> 0 <= r2 <= 1 ->
  two_body_decay nan reg first second parent c r1 r2 = Ok ps ->
  decay_products [first; second] (pd_mass parent) c ps.
Proof. exact c32_conserved. Qed.
Print Assumptions C32_conserved.

(** There are products unless one of them comes to rest in the laboratory. *)
Theorem C32_answers : forall nan reg first second parent c r1 r2,
  registered reg first -> registered reg second -> 0 <= pd_mass first -> 0 <= pd_mass second ->
  pd_mass first + pd_mass second <= pd_mass parent -> 0 < pd_mass parent <= energy c -> unit (direction c) -> 0 <= r2 <= 1 ->
  rest_energy (pd_mass parent) (pd_mass first) (pd_mass second) * pd_mass parent <> energy c * pd_mass first ->
  rest_energy (pd_mass parent) (pd_mass second) (pd_mass first) * pd_mass parent <> energy c * pd_mass second ->
  exists ps, two_body_decay nan reg first second parent c r1 r2 = Ok ps.
Proof. exact c32_answers. Qed.
Print Assumptions C32_answers.

(** Below the threshold the products have more energy than the parent. *)
Theorem C32_below_threshold_refuted : forall nan reg first second parent c r1 r2, not_a_value nan ->
  registered reg first -> registered reg second -> 0 < pd_mass first -> 0 < pd_mass second ->
  pd_mass parent < pd_mass first + pd_mass second -> Rabs (pd_mass first - pd_mass second) < pd_mass parent ->
  pd_mass parent < energy c -> unit (direction c) -> 0 <= r2 <= 1 ->
  exists ps, two_body_decay nan reg first second parent c r1 r2 = Ok ps /\
    total_energy ps = energy c * ((pd_mass first + pd_mass second) / pd_mass parent) /\ energy c < total_energy ps.
Proof. exact c32_below_threshold. Qed.
Print Assumptions C32_below_threshold_refuted.

Example C32_example : forall nan, not_a_value nan -> exists ps,
  two_body_decay nan reg0 PiMinusDef NuTauDef TauMinusDef (flying MTAU) (1 / 4) (1 / 3) = Ok ps /\
  decay_products [PiMinusDef; NuTauDef] (pd_mass TauMinusDef) (flying MTAU) ps.
Proof.
  intros nan N. destruct (pion_nu_runs nan) as (ps & H). exists ps. split; auto. revert H.
  apply C32_conserved; auto; try (cbn; constants; lra).
  - rewrite reg0_run. apply standard_registered. cbn [In standard_particles]. tauto.
  - rewrite reg0_run. apply standard_registered. cbn [In standard_particles]. tauto.
  - unfold unit, dot. cbn. ring.
Qed.

(** ** C33: many-body decays *)
(** For any number of daughters, with and without rejection sampling, for any
    matrix element and any weight limits. *)
Theorem C33_conserved : forall nan reg, not_a_value nan -> forall daughters par element parent c rnd,
  (2 <= length daughters)%nat -> Forall (registered reg) daughters -> Forall (fun d => 0 <= pd_mass d) daughters ->
  mass_sum (map pd_mass daughters) <= pd_mass parent -> (forall i, 0 <= rnd i <= 1) ->
  forall uniform fuel k out, 0 < pd_mass parent <= energy c -> unit (direction c) ->
  many_body_decay nan reg daughters par element parent c rnd uniform fuel k = Some (Ok out) ->
  decay_products daughters (pd_mass parent) c out.
Proof. exact c33_conserved. Qed.
Print Assumptions C33_conserved.

(** The only failure is a particle that comes to rest (NaN). *)
Theorem C33_only_nan : forall reg daughters par element parent c rnd,
  (2 <= length daughters)%nat -> Forall (registered reg) daughters -> Forall (fun d => 0 <= pd_mass d) daughters ->
  mass_sum (map pd_mass daughters) <= pd_mass parent -> (forall i, 0 <= rnd i <= 1) ->
  forall uniform fuel k x, 0 < pd_mass parent <= energy c -> unit (direction c) ->
  many_body_decay marked reg daughters par element parent c rnd uniform fuel k = Some x ->
  fine x.
Proof. exact c33_only_nan. Qed.
Print Assumptions C33_only_nan.

Example C33_example : forall nan par element, not_a_value nan -> exists ps,
  many_body_decay nan reg0 [GammaDef; GammaDef; GammaDef] par element heavy (flying 10) halves false 1 0 = Some (Ok ps) /\
  decay_products [GammaDef; GammaDef; GammaDef] 10 (flying 10) ps.
Proof.
  intros nan par element N. destruct (photons_run nan par element N) as (ps & H). exists ps. split; auto. revert H.
  apply (C33_conserved nan reg0 N [GammaDef; GammaDef; GammaDef] par element heavy); auto; try (cbn; lra).
  - cbn. lia.
  - repeat (apply Forall_cons; [apply gamma_registered|]). apply Forall_nil.
  - repeat (apply Forall_cons; [cbn; lra|]). apply Forall_nil.
  - intros; unfold halves; lra.
  - unfold unit, dot. cbn. ring.
Qed.

(** ** C34: leptonic decays *)
(** For both channels: [rate_at] and [differential_at] are any functions. *)
Theorem C34_conserved : forall nan reg rate_at differential_at lepton neutrino anti_neutrino parent c r0 r1 r2 r3 r4,
  0 < pd_mass lepton < pd_mass parent -> pd_mass neutrino = 0 /\ pd_mass anti_neutrino = 0 ->
  Forall (registered reg) [lepton; neutrino; anti_neutrino] -> pd_mass parent <= energy c /\ unit (direction c) ->
  0 <= r2 <= 1 /\ 0 <= r4 <= 1 ->
  forall out, not_a_value nan ->
  leptonic_decay nan reg rate_at differential_at lepton neutrino anti_neutrino parent c r0 r1 r2 r3 r4 = Ok out ->
  decay_products [lepton; neutrino; anti_neutrino] (pd_mass parent) c out.
Proof. exact c34_conserved. Qed.
Print Assumptions C34_conserved.

(** The root search never fails; the result can only be NaN because the
    neutrinos have no energy in their rest frame or a product comes to rest. *)
Theorem C34_approximate_only_nan : forall reg lepton neutrino anti_neutrino parent c r0 r1 r2 r3 r4,
  0 < pd_mass lepton < pd_mass parent -> pd_mass neutrino = 0 /\ pd_mass anti_neutrino = 0 ->
  Forall (registered reg) [lepton; neutrino; anti_neutrino] -> pd_mass parent <= energy c /\ unit (direction c) ->
  0 <= r0 <= 1 /\ 0 <= r2 <= 1 /\ 0 <= r4 <= 1 ->
  fine (leptonic_decay marked reg approx_rate approx_differential lepton neutrino anti_neutrino parent c r0 r1 r2 r3 r4).
Proof. exact c34_approx_only_nan. Qed.
Print Assumptions C34_approximate_only_nan.

(** With the exact spectrum for leptons so light that the start value of the root
    search, 1/2 of the largest energy, is above their rest mass (all predefined
    ones): otherwise the derivative is NaN there. *)
Theorem C34_exact_only_nan_light : forall reg lepton neutrino anti_neutrino parent c r0 r1 r2 r3 r4,
  0 < pd_mass lepton < pd_mass parent -> pd_mass neutrino = 0 /\ pd_mass anti_neutrino = 0 ->
  Forall (registered reg) [lepton; neutrino; anti_neutrino] -> pd_mass parent <= energy c /\ unit (direction c) ->
  0 <= r0 <= 1 /\ 0 <= r2 <= 1 /\ 0 <= r4 <= 1 ->
  4 * pd_mass lepton * pd_mass parent <= pd_mass parent * pd_mass parent + pd_mass lepton * pd_mass lepton ->
  let m := pd_mass lepton in let M := pd_mass parent in let emax := (M * M + m * m) / (2 * M) in
  fine (leptonic_decay marked reg (rate m M emax) (differential m M emax) lepton neutrino anti_neutrino parent c r0 r1 r2 r3 r4).
Proof. exact c34_exact_only_nan. Qed.
Print Assumptions C34_exact_only_nan_light.

(** The cumulated spectrum is strictly increasing and the second function is its
    derivative, so that every random number stands for one energy. *)
Theorem C34_exact_spectrum : forall m M, 0 < m < M -> let emax := (M * M + m * m) / (2 * M) in
  (forall rs x y, m / emax <= x < y -> y <= 1 -> rate m M emax x rs < rate m M emax y rs) /\
  (forall rs x, m / emax < x -> derivable_pt_lim (fun x => rate m M emax x rs) x (differential m M emax x)).
Proof. exact c34_spectrum. Qed.
Print Assumptions C34_exact_spectrum.

Example C34_example : forall nan, not_a_value nan -> exists ps,
  leptonic_decay nan reg0 approx_rate approx_differential EMinusDef NuMuDef NuEBarDef MuMinusDef (flying MMU)
    half_random (1 / 2) (1 / 3) (1 / 4) (1 / 5) = Ok ps /\
  decay_products [EMinusDef; NuMuDef; NuEBarDef] (pd_mass MuMinusDef) (flying MMU) ps.
Proof.
  intros nan N. destruct (muon_runs nan (1 / 2) (1 / 3) (1 / 4) (1 / 5) N) as (ps & H); try lra. exists ps. split; auto. revert H.
  apply C34_conserved; auto; try (cbn; constants; lra).
  - rewrite reg0_run. repeat (apply Forall_cons || apply Forall_nil); apply standard_registered; cbn [In standard_particles]; tauto.
  - split; [cbn; constants; lra|]. unfold unit, dot. cbn. ring.
Qed.

(** ** C52: the weights of the rejection sampling *)
Theorem C52_weights : forall nan ds M rs, (2 <= length ds)%nat -> Forall (fun d => 0 <= pd_mass d) ds ->
  mass_sum (map pd_mass ds) <= M -> 0 < M -> Forall (fun r => 0 <= r <= 1) rs -> (length rs + 2 = length ds)%nat ->
  exists norm par k, calculate_normalization nan (map pd_mass ds) M = Ok norm /\
    estimate_max_weight nan (map pd_mass ds) norm M = Ok par /\
    calculate_kinematics nan (map pd_mass ds) (normalization par) M rs = Ok k /\
    weight_min par = 0 /\ 0 <= k_weight k <= weight_max par.
Proof. exact c52_weights. Qed.
Print Assumptions C52_weights.
(** Events are accepted with a probability that is proportional to their weight:
    the first event whose weight is at least its random number times the largest
    weight. *)
Theorem C52_acceptance : forall nan reg daughters par element parent c rnd fuel k out, weight_min par = 0 ->
  many_body_decay nan reg daughters par element parent c rnd true fuel k = Some (Ok out) ->
  exists ps, accepted (weighted_event nan reg daughters par element parent c rnd) (length daughters - 2 + 2 * (length daughters - 1)) rnd (weight_max par) k
    (map (fun d => product d c (direction c) (energy c)) daughters) ps /\ to_lab nan reg parent c ps = Ok out.
Proof. exact decay_accepted. Qed.
Print Assumptions C52_acceptance.
Example C52_acceptance_example : forall nan, not_a_value nan -> exists ps,
  many_body_decay nan reg0 [GammaDef; GammaDef; GammaDef] (mkparams 1 25 0) (fun _ _ => 2) heavy (flying 10) halves true 1 0 = Some (Ok ps).
Proof. exact photons_accepted. Qed.

Example C52_example : exists br ds u s e, In (br, ManyBody ds u s e) (pd_decays TauMinusDef) /\ length ds = 5%nat /\
  Forall (fun d => 0 <= pd_mass d) ds /\ mass_sum (map pd_mass ds) <= pd_mass TauMinusDef.
Proof. exact c52_example. Qed.

(** ** C53: decays of the predefined particles *)
Theorem C53_table : forall nan reg elements par parent c rnd fuel ps, not_a_value nan ->
  Forall (fun x => open_channel reg (pd_mass parent) (snd x)) (pd_decays parent) ->
  0 < pd_mass parent <= energy c -> unit (direction c) -> (forall i, 0 <= rnd i <= 1) ->
  decay_particle nan reg elements par parent c rnd fuel = Some (Ok ps) ->
  exists br ch, In (br, ch) (pd_decays parent) /\ decay_products (daughters_of ch) (pd_mass parent) c ps.
Proof. exact c53_table. Qed.
Print Assumptions C53_table.

(** Muons and taus, in any program. *)
Theorem C53_muons_and_taus : forall nan ops d elements par c rnd fuel ps, not_a_value nan ->
  In d [MuMinusDef; MuPlusDef; TauMinusDef; TauPlusDef] ->
  pd_mass d <= energy c -> unit (direction c) -> (forall i, 0 <= rnd i <= 1) ->
  decay_particle nan (opened (fst (registry_run None ops))) elements par d c rnd fuel = Some (Ok ps) ->
  exists br ch, In (br, ch) (pd_decays d) /\ decay_products (daughters_of ch) (pd_mass d) c ps.
Proof. exact c53_predefined. Qed.
Print Assumptions C53_muons_and_taus.

Theorem C53_only_nan : forall ops d elements par c rnd fuel x,
  In d [MuMinusDef; MuPlusDef; TauMinusDef; TauPlusDef] ->
  pd_mass d <= energy c -> unit (direction c) -> (forall i, 0 <= rnd i <= 1) ->
  decay_particle marked (opened (fst (registry_run None ops))) elements par d c rnd fuel = Some x ->
  fine x.
Proof. exact c53_predefined_fine. Qed.
Print Assumptions C53_only_nan.

Theorem C53_charge : forall d br ch, In d [MuMinusDef; MuPlusDef; TauMinusDef; TauPlusDef] ->
  In (br, ch) (pd_decays d) -> total_charge (daughters_of ch) = pd_charge d.
Proof. exact c53_charge. Qed.
Print Assumptions C53_charge.
(** The random number that selects the channel is not used for the decay. *)
Theorem C53_channel_number : forall nan reg rnd rnd' elements par parent c fuel,
  select_channel (pd_decays parent) (rnd 0%nat) = select_channel (pd_decays parent) (rnd' 0%nat) ->
  (forall i, (1 <= i)%nat -> rnd i = rnd' i) ->
  decay_particle nan reg elements par parent c rnd fuel = decay_particle nan reg elements par parent c rnd' fuel.
Proof. exact particle_numbers. Qed.
Print Assumptions C53_channel_number.
Example C53_channel_example : select_channel (pd_decays MuMinusDef) (1 / 4) = select_channel (pd_decays MuMinusDef) (3 / 4).
Proof. unfold select_channel. cbn. repeat destruct (_ <? _); reflexivity. Qed.

(** Refuted for the other predefined particles with a lifetime: a pion decays
    into nothing. *)
Theorem C53_pion_refuted : forall nan reg elements par c rnd fuel, pd_lifetime PiPlusDef <> None /\
  decay_particle nan reg elements par PiPlusDef c rnd fuel = Some (Ok []).
Proof. exact c53_pion_refuted. Qed.
Print Assumptions C53_pion_refuted.

Example C53_example : forall nan elements par fuel, not_a_value nan -> exists ps,
  decay_particle nan (opened (fst (registry_run None []))) elements par MuMinusDef (flying MMU) muon_random fuel = Some (Ok ps) /\
  length ps = 3%nat.
Proof. exact c53_example. Qed.
