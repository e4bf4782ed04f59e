(** Property C86: many-body decays with a matrix element. *)
From Verif Require Import Prelude Vec_Model Shapes_Spec Propagator_Model Particle_Model Particle_Spec Decay_Model Decay_Spec Weights_Model Weights_Spec
  Weights_Proofs Decay_Examples Weights_Examples.

(** The limits of the weights are the least and the largest weight of as many
    events as asked for, at least one, of an equal parent at rest, whatever the
    channel decayed before. *)
Theorem C86_limits : forall nan reg daughters statistic e cache parent rnd k par cache' k',
  remembered nan reg daughters statistic (Some e) cache ->
  get_params nan reg daughters statistic (Some e) cache parent rnd k = Ok (par, cache', k') ->
  exists first rnd' i norm ws, pdef_eqb parent first = true /\
    calculate_normalization nan (map pd_mass daughters) (pd_mass first) = Ok norm /\ normalization par = norm /\
    length ws = Z.to_nat (Z.max 1 statistic) /\
    successive (sample_event nan reg daughters (Some e) norm first rnd') (numbers_per_event daughters) i
      (map (fun d => mkparticle (pd_type d) blank) daughters) ws /\
    Forall (fun w => weight_min par <= w <= weight_max par) ws /\ In (weight_min par) ws /\ In (weight_max par) ws.
Proof. exact c86_limits. Qed.
Print Assumptions C86_limits.
(** They are found once: afterwards they stay the same and take no random number. *)
Theorem C86_remembered : forall nan reg daughters statistic element cache parent rnd k par cache' k' rnd' k0,
  get_params nan reg daughters statistic element cache parent rnd k = Ok (par, cache', k') ->
  get_params nan reg daughters statistic element cache' parent rnd' k0 = Ok (par, cache', k0).
Proof. exact remembered_params. Qed.
Print Assumptions C86_remembered.
Theorem C86_kept : forall nan reg daughters statistic element cache parent rnd k par cache' k' other q,
  get_params nan reg daughters statistic element cache parent rnd k = Ok (par, cache', k') ->
  recall cache other = Some q -> recall cache' other = Some q.
Proof. exact get_keeps. Qed.
Print Assumptions C86_kept.
Example C86_limits_example : forall nan, not_a_value nan -> exists par k, remembered nan reg0 photons 1000 (Some (fun _ _ => 1)) [(heavy, par)] /\
  get_params nan reg0 photons 1000 (Some (fun _ _ => 1)) [] heavy halves 0 = Ok (par, [(heavy, par)], k) /\
  get_params nan reg0 photons 1000 (Some (fun _ _ => 1)) [(heavy, par)] heavy halves k = Ok (par, [(heavy, par)], k) /\ 0 < weight_min par.
Proof. exact sampled_example. Qed.

(** Without a matrix element no random number is used, and the limits are the ones
    of C52. *)
Theorem C86_default : forall nan reg daughters statistic cache parent rnd k par cache' k',
  remembered nan reg daughters statistic None cache ->
  get_params nan reg daughters statistic None cache parent rnd k = Ok (par, cache', k') ->
  k' = k /\ exists norm, calculate_normalization nan (map pd_mass daughters) (pd_mass parent) = Ok norm /\
    estimate_max_weight nan (map pd_mass daughters) norm (pd_mass parent) = Ok par.
Proof. exact c86_default. Qed.
Print Assumptions C86_default.
Example C86_default_example : forall nan, exists par, get_params nan reg0 photons 1000 None [] heavy halves 0 = Ok (par, [(heavy, par)], O).
Proof. exact default_example. Qed.

(** Every decay with uniform sampling is one accepted with the probability
    (weight - least) / (largest - least).  Missing: proportional to the weight. *)
Theorem C86_acceptance_partial : forall nan reg daughters par element parent c rnd fuel k out,
  many_body_decay nan reg daughters par element parent c rnd true fuel k = Some (Ok out) ->
  exists ps, accepted_between (weighted_event nan reg daughters par element parent c rnd) (numbers_per_event daughters) rnd
      (weight_min par) (weight_max par) k (map (fun d => product d c (direction c) (energy c)) daughters) ps /\
    to_lab nan reg parent c ps = Ok out.
Proof. exact decay_between. Qed.
Print Assumptions C86_acceptance_partial.
(** An event with a positive weight below the sampled ones never happens: already
    with a constant matrix element, for which all events of the phase space have to
    be possible. *)
Theorem C86_proportional_refuted : forall nan, not_a_value nan -> exists par cache k w out,
  get_params nan reg0 photons 1000 (Some (fun _ _ => 1)) [] heavy halves 0 = Ok (par, cache, k) /\
  weighted_event nan reg0 photons par (fun _ _ => 1) heavy (flying 10) tenth_first 0
    (map (fun d => product d (flying 10) (direction (flying 10)) (energy (flying 10))) photons) = Ok (w, out) /\ 0 < w /\
  forall rnd k ps, (forall i, 0 <= rnd i) ->
    ~ (w - weight_min par >= rnd (k + numbers_per_event photons)%nat * (weight_max par - weight_min par)) /\
    forall out', accepted_between (weighted_event nan reg0 photons par (fun _ _ => 1) heavy (flying 10) rnd) (numbers_per_event photons) rnd
        (weight_min par) (weight_max par) k ps out' ->
      exists i ps' w', weighted_event nan reg0 photons par (fun _ _ => 1) heavy (flying 10) rnd i ps' = Ok (w', out') /\ w < w'.
Proof. exact c86_proportional_refuted. Qed.
Print Assumptions C86_proportional_refuted.

(** If the matrix element looks at the types, energies and directions of the
    products only, then a decay in flight is the decay at rest seen from another
    frame: with the same random numbers the products have the same energies in the
    rest frame of the parent ... *)
Theorem C86_motion_partial : forall nan reg, not_a_value nan -> forall daughters par element parent rnd uniform fuel k c c' out out',
  (2 <= length daughters)%nat -> Forall (registered reg) daughters ->
  Forall (fun d => 0 <= pd_mass d) daughters -> mass_sum (map pd_mass daughters) <= pd_mass parent -> (forall i, 0 <= rnd i <= 1) ->
  (forall s s' ps qs, map seen ps = map seen qs -> element s ps = element s' qs) ->
  0 < pd_mass parent <= energy c -> unit (direction c) -> 0 < pd_mass parent <= energy c' -> unit (direction c') ->
  many_body_decay nan reg daughters par element parent c rnd uniform fuel k = Some (Ok out) ->
  many_body_decay nan reg daughters par element parent c' rnd uniform fuel k = Some (Ok out') ->
  rest_energies (pd_mass parent) (map pd_mass daughters) c out = rest_energies (pd_mass parent) (map pd_mass daughters) c' out'.
Proof. exact c86_rest_energies. Qed.
Print Assumptions C86_motion_partial.
(** ... and come from the same event in that frame. *)
Theorem C86_event_partial : forall nan reg daughters par element parent rnd uniform fuel k c c',
  (forall s s' ps qs, map seen ps = map seen qs -> element s ps = element s' qs) ->
  (exists ps qs, map seen ps = map seen qs /\
     many_body_decay nan reg daughters par element parent c rnd uniform fuel k = Some (to_lab nan reg parent c ps) /\
     many_body_decay nan reg daughters par element parent c' rnd uniform fuel k = Some (to_lab nan reg parent c' qs)) \/
  (many_body_decay nan reg daughters par element parent c rnd uniform fuel k = many_body_decay nan reg daughters par element parent c' rnd uniform fuel k /\
   forall out, many_body_decay nan reg daughters par element parent c rnd uniform fuel k <> Some (Ok out)).
Proof. exact c86_motion. Qed.
Print Assumptions C86_event_partial.
Example C86_motion_example : forall nan, not_a_value nan -> exists par slow fast,
  many_body_decay nan reg0 photons par (fun _ _ => 1) heavy still tenth_first true 2 0 = Some (Ok slow) /\
  many_body_decay nan reg0 photons par (fun _ _ => 1) heavy (flying 10) tenth_first true 2 0 = Some (Ok fast).
Proof. exact in_flight_example. Qed.
(** With a matrix element that also looks at the parent, the distribution of the
    products depends on the motion of the parent, even if the matrix element is a
    Lorentz invariant: here it is the same number for every decay. *)
Theorem C86_motion_refuted : forall nan, not_a_value nan -> exists element par cache k slow fast,
  (forall c out, 10 <= energy c -> unit (direction c) -> decay_products photons 10 c out -> element c out = 100) /\
  get_params nan reg0 photons 1000 (Some element) [] heavy halves 0 = Ok (par, cache, k) /\
  many_body_decay nan reg0 photons par element heavy still tenth_first true 2 0 = Some (Ok slow) /\
  many_body_decay nan reg0 photons par element heavy (flying 10) tenth_first true 2 0 = Some (Ok fast) /\
  nth 2 (rest_energies 10 [0; 0; 0] still slow) 0 <> nth 2 (rest_energies 10 [0; 0; 0] (flying 10) fast) 0.
Proof. exact c86_motion_refuted. Qed.
Print Assumptions C86_motion_refuted.
