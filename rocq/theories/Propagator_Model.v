(** Model of [Propagator] (detail/PROPOSAL/Propagator.cxx) over an arbitrary
    environment: the propagation utilities, densities and geometries are
    records of functions that may return anything, throw or run into undefined
    behaviour.  The global random generator is an arbitrary infinite stream
    [rs : nat -> R] read through a counter. *)
From Verif Require Import Prelude Vec_Model Geometry_Model.

(** InteractionType, PROPOSAL/particle/Particle.h:39-57 *)
Inductive itype :=
| Undefined | Particle | Brems | Ioniz | Epair | Photonuclear | MuPair | Hadrons
| ContinuousEnergyLoss | WeakInt | Compton | DecayType | Annihilation | Photopair
| Photoproduction | PhotoMuPair | Photoeffect.

Definition itype_eq_dec (a b : itype) : {a = b} + {a <> b}.
Proof. decide equality. Defined.
Definition itype_eqb (a b : itype) : bool := if itype_eq_dec a b then true else false.

(** ParticleState, PROPOSAL/particle/Particle.h:93-120.  The particle type is
    constant during a propagation and not modelled. *)
Record pstate := mkpstate {
  position : vec;
  direction : vec;
  energy : R;
  time : R;
  propagated_distance : R
}.

(** Interaction::Loss, PROPOSAL/propagation_utility/Interaction.h *)
Record loss := mkloss { loss_type : itype; loss_hash : N; v_loss : R }.

(** Scattering, PROPOSAL/scattering/Scattering.h:110-157.  [sc_multiple] is
    [m_scatter_ptr] ([None] = nullptr); it receives displacement, initial and
    final energy and the four random numbers.  [sc_stochastic t] is
    [stochastic_deflection.find(t)]: the required number of random numbers and
    the sampler, which returns (zenith, azimuth). *)
Record scattering := mkscattering {
  sc_multiple : option (R -> R -> R -> list R -> outcome offset);
  sc_stochastic : itype -> option (nat * (R -> R -> list R -> N -> outcome (R * R)))
}.

(** PropagationUtility::Collection, PROPOSAL/propagation_utility/
    PropagationUtility.h; interaction_calc, displacement_calc and time_calc are
    never null (PropagationUtility.cxx:80-90), the others are optional. *)
Record utility := mkutility {
  u_lower_lim : R;                                   (* displacement_calc->GetLowerLim *)
  u_decay : option (R -> R -> R -> outcome R);       (* decay_calc->EnergyDecay(E, rnd, density) *)
  u_interaction : R -> R -> outcome R;               (* interaction_calc->EnergyInteraction(E, rnd) *)
  u_sample_loss : R -> R -> outcome loss;            (* Rates + SampleLoss (E, rnd) *)
  u_cont_rand : option (R -> R -> R -> R -> outcome R); (* cont_rand->EnergyRandomize *)
  u_upper_limit : R -> R -> outcome R;               (* UpperLimitTrackIntegral *)
  u_track_integral : R -> R -> outcome R;            (* SolveTrackIntegral *)
  u_time : R -> R -> R -> R -> outcome R;            (* time_calc->TimeElapsed *)
  u_scattering : option scattering
}.

(** Density_distr, PROPOSAL/density_distr/density_distr.h: virtual methods
    Evaluate, Correct(position, direction, grammage, max_distance) and
    Calculate(position, direction, distance). *)
Record density := mkdensity {
  d_evaluate : vec -> R;
  d_correct : vec -> vec -> R -> R -> outcome R;
  d_calculate : vec -> vec -> R -> outcome R
}.

(** Sector = tuple<Geometry, PropagationUtility, Density_distr>,
    PROPOSAL/Propagator.h:12-13 *)
Record sector := mksector { s_geometry : geometry; s_utility : utility; s_density : density }.

Definition hierarchy (s : sector) : N := g_hierarchy (s_geometry s).

(** Propagator.cxx:337-360.  Dereferencing the end iterator of an empty vector
    is undefined behaviour. *)
Definition get_current_sector (sectors : list sector) (p d : vec) : outcome sector :=
  let potential := filter (fun s => is_inside (s_geometry s) p d) sectors in
  match max_element (fun a b => N.ltb (hierarchy a) (hierarchy b)) potential with
  | Some s => Ok s
  | None => UB deref_end
  end.

(** Secondaries::GetCurrentSector, detail/PROPOSAL/Secondaries.cxx: the same
    selection but an empty candidate list throws std::logic_error. *)
Definition secondaries_get_current_sector (sectors : list sector) (p d : vec) : outcome sector :=
  let potential := filter (fun s => is_inside (s_geometry s) p d) sectors in
  match potential with
  | [] => Throw logic_error
  | _ =>
    match max_element (fun a b => N.ltb (hierarchy a) (hierarchy b)) potential with
    | Some s => Ok s
    | None => UB deref_end
    end
  end.

(** Propagator.cxx:305-321 *)
Definition calculate_distance_to_border (sectors : list sector) (p d : vec) (g : geometry) : R :=
  fold_left
    (fun distance_border s =>
       let g' := s_geometry s in
       if N.ltb (g_hierarchy g) (g_hierarchy g') then
         let tmp := fst (g_distance_to_border g' p d) in
         if 0 <=? tmp then Rmin distance_border tmp else distance_border
       else distance_border)
    sectors (fst (g_distance_to_border g p d)).

(** enum Type, PROPOSAL/Propagator.h:74-78; the order is the array index *)
Inductive event_kind := Decay | MinimalE | Stochastic.

(** Propagator.cxx:323-328: std::max_element over the array indexed by [Type] *)
Definition maximize (e_decay e_min e_stochastic : R) : event_kind :=
  match max_element (fun a b => snd a <? snd b)
          [(Decay, e_decay); (MinimalE, e_min); (Stochastic, e_stochastic)] with
  | Some (k, _) => k
  | None => Decay (* unreachable: the array has three elements *)
  end.

(** enum AdvancementType without InvalidStep, PROPOSAL/Propagator.h:79-84 *)
Inductive advancement := ReachedInteraction | ReachedMaxDistance | ReachedBorder.

(** A distance that may be the constant INF (IEEE infinity). *)
Inductive ext := Fin (r : R) | PInf.

(** The random-number cache of AdvanceParticle, Propagator.cxx:176-183: four
    slots initialised with the sentinel -1 and a running index [i].
    [slots] is only read and written at indices 0..3. *)
Record cache := mkcache { slots : nat -> R; cache_i : nat }.
Definition empty_cache : cache := mkcache (fun _ => -1) 0.
Definition set_slot (f : nat -> R) (k : nat) (r : R) : nat -> R :=
  fun j => if Nat.eqb j k then r else f j.

Section Env.
Variable rs : nat -> R.          (* the random stream *)
Variable sectors : list sector.  (* sector_list *)

(** Propagator.cxx:179-183.  [n] is the number of values already drawn from
    the random generator. *)
Definition cached_rnd (c : cache) (n : nat) : R * cache * nat :=
  let k := Nat.modulo (cache_i c) 4 in
  if slots c k =? -1 then
    let c' := mkcache (set_slot (slots c) k (rs n)) (S (cache_i c)) in
    (slots c' k, c', S n)
  else (slots c k, mkcache (slots c) (S (cache_i c)), n).

(** [m] successive calls of the lambda, e.g. PropagationUtility.cxx:147-149 *)
Fixpoint cached_rnds (m : nat) (c : cache) (n : nat) : list R * cache * nat :=
  match m with
  | O => ([], c, n)
  | S m' =>
    let '(r, c1, n1) := cached_rnd c n in
    let '(l, c2, n2) := cached_rnds m' c1 n1 in
    (r :: l, c2, n2)
  end.

(** Propagator.cxx:210-212 and 269-271: overwrite all four slots. *)
Definition resample (c : cache) (n : nat) : cache * nat :=
  (mkcache (fun j => match j with
                     | O => rs n | S O => rs (S n) | S (S O) => rs (S (S n))
                     | _ => rs (S (S (S n))) end)
           (cache_i c), (n + 4)%nat).

(** PropagationUtility.cxx:141-158.  MultipleScatteringRandomNumbers is 4 or 0
    (Scattering.h:121-125). *)
Definition directions_scatter (u : utility) (displacement e_i e_f : R) (d : vec)
    (c : cache) (n : nat) : outcome (vec * vec) * cache * nat :=
  match u_scattering u with
  | None => (Ok (d, d), c, n)
  | Some sc =>
    match sc_multiple sc with
    | Some ms =>
      let '(l, c', n') := cached_rnds 4 c n in
      (match ms displacement e_i e_f l with
       | Ok o => Ok (scatter_initial_direction d o)
       | Throw e => Throw e
       | UB w => UB w
       end, c', n')
    | None => (Ok (scatter_initial_direction d (mkoffset 0 0 0 0)), c, n)
    end
  end.

(** PropagationUtility.cxx:116-125; the random numbers come from the cache. *)
Definition energy_randomize (u : utility) (e_i e_f : R) (c : cache) (n : nat) (min_energy : R)
    : outcome R * cache * nat :=
  match u_cont_rand u with
  | None => (Ok e_f, c, n)
  | Some cr =>
    let '(r, c', n') := cached_rnd c n in
    (cr e_i e_f r min_energy, c', n')
  end.

(** try { Correct } catch (DensityException) { INF },
    Propagator.cxx:196-200 and 218-222 *)
Definition correct_or_inf (dn : density) (p d : vec) (grammage max_distance : R) : outcome ext :=
  match d_correct dn p d grammage max_distance with
  | Ok x => Ok (Fin x)
  | Throw density_exception => Ok PInf
  | Throw e => Throw e
  | UB w => UB w
  end.

(** Local variables of AdvanceParticle that survive an iteration:
    [energy] and [distance] use the sentinel -1, [backscatter],
    [grammage_next_interaction], the (possibly replaced) sector, the cache and
    the number of draws.  [grammage] is always assigned before it is read. *)
Record adv := mkadv {
  a_energy : R;
  a_distance : ext;
  a_grammage_next : R;
  a_sector : sector;
  a_backscatter : bool;
  a_cache : cache;
  a_draws : nat
}.

(** The values with which the do-while loop is left. *)
Record adv_done := mkadv_done {
  f_type : advancement;
  f_distance : R;
  f_grammage : R;
  f_energy : R;
  f_mean : vec;
  f_new : vec;
  f_sector : sector;
  f_cache : cache;
  f_draws : nat
}.

Definition ext_is (x : ext) (r : R) : bool :=
  match x with Fin y => y =? r | PInf => false end.

(** Propagator.cxx:193-228: grammage, energy and distance of the proposed step.
    Result: (grammage, energy, distance, cache, draws). *)
Definition propose (st : pstate) (e_next max_distance : R) (a : adv)
    : outcome (R * R * ext * cache * nat) :=
  let u := s_utility (a_sector a) in
  let dn := s_density (a_sector a) in
  if negb (a_energy a =? -1) && ext_is (a_distance a) (-1) then
    olet grammage := u_track_integral u (energy st) (a_energy a) in
    olet dist := correct_or_inf dn (position st) (direction st) grammage max_distance in
    Ok (grammage, a_energy a, dist, a_cache a, a_draws a)
  else if (a_energy a =? -1) && negb (ext_is (a_distance a) (-1)) then
    match a_distance a with
    | PInf => UB uninitialised (* never: the distance is finite here, see lemma *)
    | Fin x =>
      olet grammage_step := d_calculate dn (position st) (direction st) x in
      if grammage_step <? a_grammage_next a then
        olet e := u_upper_limit u (energy st) grammage_step in
        Ok (grammage_step, e, Fin x, a_cache a, a_draws a)
      else
        let '(c, n) := resample (a_cache a) (a_draws a) in
        olet dist := correct_or_inf dn (position st) (direction st) (a_grammage_next a) max_distance in
        Ok (a_grammage_next a, e_next, dist, c, n)
    end
  else Throw logic_error.

(** One iteration of the do-while loop, Propagator.cxx:190-291; [num_steps] is
    the value after the increment in line 191, [max_steps] is
    PropagationSettings::ADVANCE_PARTICLE_MAX_STEPS (Constants.cxx:38). *)
Definition advance_iteration (max_steps : nat) (st : pstate) (e_next max_distance : R)
    (num_steps : nat) (a : adv) : outcome (adv + adv_done) :=
  olet (grammage, e, dist, c0, n0) := propose st e_next max_distance a in
  let u := s_utility (a_sector a) in
  let dn := s_density (a_sector a) in
  let g := s_geometry (a_sector a) in
  let '(dirs, c, n) := directions_scatter u grammage (energy st) e (direction st) c0 n0 in
  olet (mean, new) := dirs in
  let border := calculate_distance_to_border sectors (position st) mean g in
  let inside := is_inside g (position st) mean in
  let next_try :=
    mkadv (-1) (Fin (Rmin border max_distance)) (a_grammage_next a) (a_sector a)
          (a_backscatter a) c n in
  let finish t d := mkadv_done t d grammage e mean new (a_sector a) c n in
  if Nat.ltb max_steps num_steps then
    olet g' := d_calculate dn (position st) (direction st) border in
    olet e' := u_upper_limit u (energy st) g' in
    Ok (inr (mkadv_done ReachedBorder border g' e' mean new (a_sector a) c n))
  else if negb inside then
    olet s' := get_current_sector sectors (position st) mean in
    olet gn := u_track_integral (s_utility s') (energy st) e_next in
    let '(c', n') := if a_backscatter a then resample c n else (c, n) in
    Ok (inl (mkadv e_next (Fin (-1)) gn s' true c' n'))
  else
    match dist with
    | PInf => Ok (inl next_try)
    | Fin x =>
      if (x <=? border) && (x <=? max_distance) && (e =? e_next) then
        Ok (inr (finish ReachedInteraction x))
      else if (x <=? border) && (x =? max_distance) then
        Ok (inr (finish ReachedMaxDistance x))
      else if Rabs (x - border) <=? PARTICLE_POSITION_RESOLUTION then
        Ok (inr (finish ReachedBorder border))
      else Ok (inl next_try)
    end.

(** The do-while loop, Propagator.cxx:190-291.  [None]: out of fuel. *)
Fixpoint advance_loop (fuel : nat) (max_steps : nat) (st : pstate) (e_next max_distance : R)
    (num_steps : nat) (a : adv) : option (outcome adv_done) :=
  match fuel with
  | O => None
  | S fuel' =>
    match advance_iteration max_steps st e_next max_distance (S num_steps) a with
    | Ok (inr f) => Some (Ok f)
    | Ok (inl a') => advance_loop fuel' max_steps st e_next max_distance (S num_steps) a'
    | Throw x => Some (Throw x)
    | UB w => Some (UB w)
    end
  end.

(** Propagator.cxx:162-174: initial values of the local variables. *)
Definition advance_init (st : pstate) (e_next : R) (s : sector) (n : nat) : outcome adv :=
  olet gn := u_track_integral (s_utility s) (energy st) e_next in
  Ok (mkadv e_next (Fin (-1)) gn s false empty_cache n).

(** Propagator.cxx:293-302: update of the particle state. *)
Definition advance_finish (st : pstate) (min_energy_step : bool) (min_energy : R) (f : adv_done)
    : outcome (pstate * advancement * sector * nat) :=
  let u := s_utility (f_sector f) in
  let dn := s_density (f_sector f) in
  olet dt := u_time u (energy st) (f_energy f) (f_grammage f) (d_evaluate dn (position st)) in
  let pos' := vadd (position st) (scale (f_distance f) (f_mean f)) in
  let dist' := propagated_distance st + f_distance f in
  if min_energy_step && (match f_type f with ReachedInteraction => true | _ => false end) then
    Ok (mkpstate pos' (f_new f) (f_energy f) (time st + dt) dist',
        f_type f, f_sector f, f_draws f)
  else
    let '(re, _, n) := energy_randomize u (energy st) (f_energy f) (f_cache f) (f_draws f) min_energy in
    olet e' := re in
    Ok (mkpstate pos' (f_new f) e' (time st + dt) dist', f_type f, f_sector f, n).

(** Propagator::AdvanceParticle, Propagator.cxx:153-303.  [num_steps] is an
    [int] in C++; its overflow needs more than 2^31 iterations and is not
    modelled. *)
Definition advance_particle (fuel max_steps : nat) (st : pstate) (e_next final_distance : R)
    (s : sector) (min_energy_step : bool) (min_energy : R) (n : nat)
    : option (outcome (pstate * advancement * sector * nat)) :=
  match advance_init st e_next s n with
  | Throw x => Some (Throw x)
  | UB w => Some (UB w)
  | Ok a =>
    match advance_loop fuel max_steps st e_next (final_distance - propagated_distance st) 0 a with
    | None => None
    | Some r => Some (olet f := r in advance_finish st min_energy_step min_energy f)
    end
  end.

(** PropagationUtility.cxx:101-108 with the draws made explicit *)
Definition energy_decay (u : utility) (e dens : R) (n : nat) : outcome R * nat :=
  match u_decay u with
  | Some f => (f e (rs n) dens, S n)
  | None => (Ok 0, n)
  end.

(** PropagationUtility.cxx:110-114 *)
Definition energy_interaction (u : utility) (e : R) (n : nat) : outcome R * nat :=
  (u_interaction u e (rs n), S n).

Fixpoint draws (m n : nat) : list R :=
  match m with O => [] | S m' => rs n :: draws m' (S n) end.

(** PropagationUtility.cxx:160-176.  The requested deflection angles are
    (zenith, azimuth); a type without deflection gives (0, 0)
    (Scattering.h:135-144). *)
Definition direction_deflect (u : utility) (t : itype) (e_i e_f : R) (d : vec) (h : N) (n : nat)
    : outcome vec * nat :=
  match u_scattering u with
  | None => (Ok d, n)
  | Some sc =>
    match sc_stochastic sc t with
    | None => (Ok (deflect d (cos 0) 0), n)
    | Some (m, f) =>
      (match f e_i e_f (draws m n) h with
       | Ok (zen, azi) => Ok (deflect d (cos zen) azi)
       | Throw e => Throw e
       | UB w => UB w
       end, (n + m)%nat)
    end
  end.

(** Propagator::DoStochasticInteraction, Propagator.cxx:141-151 *)
Definition do_stochastic_interaction (st : pstate) (u : utility) (n : nat)
    : outcome (pstate * loss * nat) :=
  olet l := u_sample_loss u (energy st) (rs n) in
  let e' := energy st * (1 - v_loss l) in
  let '(rd, n') := direction_deflect u (loss_type l) (energy st) e' (direction st) (loss_hash l) (S n) in
  olet d' := rd in
  Ok (mkpstate (position st) d' e' (time st) (propagated_distance st), l, n').

(** Secondaries: three parallel vectors track_, types_, target_hashes_
    (PROPOSAL/Secondaries.h); sectors_ and primary_def_ are not needed here. *)
Record track := mktrack { tr_states : list pstate; tr_types : list itype; tr_hashes : list N }.
Definition empty_track : track := mktrack [] [] [].

(** Secondaries::push_back, Secondaries.cxx:33-39; target_hash defaults to 0 *)
Definition push_back (t : track) (st : pstate) (ty : itype) (h : N) : track :=
  mktrack (tr_states t ++ [st]) (tr_types t ++ [ty]) (tr_hashes t ++ [h]).

(** Variables of Propagate that survive an iteration of the while loop. *)
Record prop := mkprop {
  p_track : track;
  p_state : pstate;
  p_sector : sector;
  p_draws : nat
}.

(** Ghost record of what happened in one iteration (not in the C++ code; it is
    discarded by [propagate] and only used to state properties). *)
Record event := mkevent {
  ev_kind : event_kind;          (* next_interaction_type *)
  ev_advancement : advancement;  (* advancement_type *)
  ev_min_energy : R;             (* InteractionEnergy[MinimalE] *)
  ev_energy : R;                 (* state.energy at the end of the iteration *)
  ev_hierarchy_i : N;            (* hierarchy of the sector before ... *)
  ev_hierarchy_f : N             (* ... and after a reported border *)
}.

(** One iteration of the while loop of Propagate, Propagator.cxx:74-137.  The
    boolean is [continue_propagation]. *)
Definition propagate_iteration (fuel max_steps : nat) (max_distance min_energy : R) (cond : N)
    (p : prop) : option (outcome (prop * event * bool)) :=
  let st := p_state p in
  let s := p_sector p in
  let u := s_utility s in
  let e_min := Rmax min_energy (u_lower_lim u) in
  let '(rd, n1) := energy_decay u (energy st) (d_evaluate (s_density s) (position st)) (p_draws p) in
  match rd with
  | Throw x => Some (Throw x)
  | UB w => Some (UB w)
  | Ok e_decay =>
    let '(ri, n2) := energy_interaction u (energy st) n1 in
    match ri with
    | Throw x => Some (Throw x)
    | UB w => Some (UB w)
    | Ok e_stoch =>
      let k := maximize e_decay e_min e_stoch in
      let e_next := match k with Decay => e_decay | MinimalE => e_min | Stochastic => e_stoch end in
      match advance_particle fuel max_steps st e_next max_distance s
              (match k with MinimalE => true | _ => false end) e_min n2 with
      | None => None
      | Some (Throw x) => Some (Throw x)
      | Some (UB w) => Some (UB w)
      | Some (Ok (st1, at1, s1, n3)) =>
        let t1 := push_back (p_track p) st1 ContinuousEnergyLoss 0 in
        let ev e hf := mkevent k at1 e_min e (hierarchy s1) hf in
        Some (
          match at1 with
          | ReachedInteraction =>
            match k with
            | Stochastic =>
              olet (st2, l, n4) := do_stochastic_interaction st1 (s_utility s1) n3 in
              let t2 := if itype_eqb (loss_type l) Undefined then t1
                        else push_back t1 st2 (loss_type l) (loss_hash l) in
              Ok (mkprop t2 st2 s1 n4, ev (energy st2) (hierarchy s1), negb (energy st2 <=? e_min))
            | Decay =>
              Ok (mkprop (push_back t1 st1 DecayType 0) st1 s1 n3, ev (energy st1) (hierarchy s1), false)
            | MinimalE => Ok (mkprop t1 st1 s1 n3, ev (energy st1) (hierarchy s1), false)
            end
          | ReachedBorder =>
            olet s2 := get_current_sector sectors (position st1) (direction st1) in
            Ok (mkprop t1 st1 s2 n3, ev (energy st1) (hierarchy s2),
                negb (N.ltb cond (hierarchy s1) && N.ltb (hierarchy s2) cond))
          | ReachedMaxDistance => Ok (mkprop t1 st1 s1 n3, ev (energy st1) (hierarchy s1), false)
          end)
      end
    end
  end.

(** The while loop, Propagator.cxx:74-137; [inner] is the fuel for
    AdvanceParticle.  The ghost events are collected but not part of the
    result of [propagate]. *)
Fixpoint propagate_loop (fuel inner max_steps : nat) (max_distance min_energy : R) (cond : N)
    (p : prop) : option (outcome (prop * list event)) :=
  match fuel with
  | O => None
  | S fuel' =>
    match propagate_iteration inner max_steps max_distance min_energy cond p with
    | None => None
    | Some (Throw x) => Some (Throw x)
    | Some (UB w) => Some (UB w)
    | Some (Ok (p', ev, false)) => Some (Ok (p', [ev]))
    | Some (Ok (p', ev, true)) =>
      match propagate_loop fuel' inner max_steps max_distance min_energy cond p' with
      | Some (Ok (p'', evs)) => Some (Ok (p'', ev :: evs))
      | r => r
      end
    end
  end.

(** Propagator.cxx:61-66 *)
Definition propagate_init (st : pstate) : outcome prop :=
  olet s := get_current_sector sectors (position st) (direction st) in
  Ok (mkprop (push_back empty_track st ContinuousEnergyLoss 0) st s 0).

(** Propagator::Propagate with the ghost event list, Propagator.cxx:58-139 *)
Definition propagate_events (fuel max_steps : nat) (st : pstate) (max_distance min_energy : R) (cond : N)
    : option (outcome (track * list event)) :=
  match propagate_init st with
  | Throw x => Some (Throw x)
  | UB w => Some (UB w)
  | Ok p =>
    match propagate_loop fuel (S max_steps) max_steps max_distance min_energy cond p with
    | Some (Ok (p', evs)) => Some (Ok (p_track p', evs))
    | Some (Throw x) => Some (Throw x)
    | Some (UB w) => Some (UB w)
    | None => None
    end
  end.

(** Propagator::Propagate, Propagator.cxx:58-139.  The inner loop gets
    [S max_steps] units of fuel, which is proved to suffice. *)
Definition propagate (fuel max_steps : nat) (st : pstate) (max_distance min_energy : R) (cond : N)
    : option (outcome track) :=
  match propagate_events fuel max_steps st max_distance min_energy cond with
  | Some (Ok (t, _)) => Some (Ok t)
  | Some (Throw x) => Some (Throw x)
  | Some (UB w) => Some (UB w)
  | None => None
  end.

End Env.
