(** Model of the decay channels (detail/PROPOSAL/decay/): relativistic boosts,
    two-body, many-body and leptonic decays, and of Secondaries::GetDecayProducts.
    [nan] is the outcome of arithmetic that leaves the real numbers (0/0, the
    root of a negative number); in C++ the calculation goes on with NaN or
    infinity. *)
From Verif Require Import Prelude Vec_Model Propagator_Model Math_Model Particle_Model.

Section Decay.
Variables (nan : forall A, outcome A) (reg : registry).

Definition or_nan {A} (x : option A) : outcome A := match x with Some a => Ok a | None => nan A end.
(** A quotient; division by zero gives NaN or an infinity. *)
Definition quot (a b : R) : outcome R := if b =? 0 then nan R else Ok (a / b).

(** DecayChannel::Boost, DecayChannel.cxx:54-71.  A particle brought to rest
    gets the direction 0/0. *)
Definition boost (p : particle) (dir : vec) (gamma betagamma : R) : outcome particle :=
  olet n := or_nan (normalize dir) in
  olet q := get_momentum (nan R) reg p in
  let v := scale q (direction (p_state p)) in
  let correction := (gamma - 1) * dot v n - betagamma * energy (p_state p) in
  let v := vadd v (scale correction n) in
  olet p := set_momentum reg p (magnitude v) in
  olet u := or_nan (normalize v) in
  Ok (with_direction p u).
(** DecayChannel.cxx:74-80 *)
Fixpoint boost_all (ps : list particle) (dir : vec) (gamma betagamma : R) : outcome (list particle) :=
  match ps with
  | [] => Ok []
  | p :: ps =>
    olet p := boost p dir gamma betagamma in
    olet ps := boost_all ps dir gamma betagamma in
    Ok (p :: ps)
  end.

(** DecayChannel::Momentum, DecayChannel.cxx:83-106 (without the log messages) *)
Definition decay_momentum (m1 m2 m3 : R) : outcome R :=
  let kaellen := (m1 - m2 - m3) * (m1 + m2 + m3) * (m1 - m2 + m3) * (m1 + m2 - m3) in
  if 0 <? kaellen then quot (sqrt kaellen) (2 * m1) else Ok 0.

(** DecayChannel::GenerateRandomDirection, DecayChannel.cxx:109-116; [r1] and
    [r2] are the two random numbers in the order they are drawn. *)
Definition random_direction (r1 r2 : R) : vec :=
  let phi := 2 * PI * r1 in
  let cos_theta := 2 * r2 - 1 in
  let sin_theta := sqrt ((1 - cos_theta) * (1 + cos_theta)) in
  mkvec (sin_theta * cos phi) (sin_theta * sin phi) cos_theta.

(** A decay product at the point and time of the decay: ParticleState(type,
    position, direction, energy, time, 0) *)
Definition product (d : pdef) (c : pstate) (dir : vec) (e : R) : particle :=
  mkparticle (pd_type d) (mkpstate (position c) dir e (time c) 0).

(** The last step of every Decay: TwoBodyPhaseSpace.cxx:57-61,
    ManyBodyPhaseSpace.cxx:141-145, LeptonicDecayChannel.cxx:163-167 *)
Definition to_lab (parent : pdef) (c : pstate) (ps : list particle) : outcome (list particle) :=
  let m := pd_mass parent in
  let primary_momentum := sqrt (Rmax ((energy c + m) * (energy c - m)) 0) in
  olet gamma := quot (energy c) m in
  olet betagamma := quot primary_momentum m in
  boost_all ps (vneg (direction c)) gamma betagamma.

(** TwoBodyPhaseSpace::Decay, TwoBodyPhaseSpace.cxx:41-64 *)
Definition two_body_decay (first second parent : pdef) (c : pstate) (r1 r2 : R) : outcome (list particle) :=
  let p0 := product first c (direction c) (energy c) in
  let p1 := product second c (direction c) (energy c) in
  olet momentum := decay_momentum (pd_mass parent) (pd_mass first) (pd_mass second) in
  let dir := random_direction r1 r2 in
  olet p0 := set_momentum reg (with_direction p0 dir) momentum in
  olet p1 := set_momentum reg (with_direction p1 (vneg dir)) momentum in
  to_lab parent c [p0; p1].

(** [std::sort] of doubles *)
Fixpoint insert_sorted (x : R) (l : list R) : list R :=
  match l with
  | [] => [x]
  | y :: l' => if x <=? y then x :: l else y :: insert_sorted x l'
  end.
Definition sort (l : list R) : list R := fold_right insert_sorted [] l.

(** ManyBodyPhaseSpace::PhaseSpaceKinematics, ManyBodyPhaseSpace.h:56-61 *)
Record kinematics := mkkin { k_masses : list R; k_momenta : list R; k_weight : R }.

Definition sum_masses (ms : list R) : R := fold_left Rplus ms 0.
(** The virtual masses, ManyBodyPhaseSpace.cxx:312-318: [acc] is
    [intermediate_mass], [q] is the free energy. *)
Fixpoint virtual_masses (acc q : R) (ms rs : list R) : list R :=
  match ms, rs with
  | m :: ms, r :: rs => let acc := acc + m in (acc + r * q) :: virtual_masses acc q ms rs
  | _, _ => []
  end.
(** The momenta and their product, ManyBodyPhaseSpace.cxx:320-331; [v] is the
    previous virtual mass, [vs] and [ms] the following ones and the masses of the
    daughters that go with them. *)
Fixpoint chain_momenta (v : R) (vs ms : list R) (weight : R) : outcome (list R * R) :=
  match vs, ms with
  | v' :: vs, m :: ms =>
    olet p := decay_momentum v' v m in
    olet rest := chain_momenta v' vs ms (weight * p) in
    Ok (p :: fst rest, snd rest)
  | _, _ => Ok ([], weight)
  end.

(** ManyBodyPhaseSpace::CalculateKinematics, ManyBodyPhaseSpace.cxx:293-334;
    [rs] are the size - 2 random numbers.  For less than two daughters the bound
    [daughter_masses_.size() - 2] of the first loop wraps around, so that random
    numbers are appended until the memory is exhausted. *)
Definition calculate_kinematics (ms : list R) (normalization parent_mass : R) (rs : list R) : outcome kinematics :=
  match ms with
  | m0 :: ((_ :: _) as rest) =>
    let randoms := sort (0 :: rs ++ [1]) in
    let vs := virtual_masses 0 (parent_mass - sum_masses ms) ms randoms in
    match vs with
    | v0 :: vs' =>
      olet x := chain_momenta v0 vs' rest 1 in
      Ok (mkkin vs (fst x) (normalization * snd x))
    | [] => UB out_of_bounds
    end
  | _ => Throw bad_alloc
  end.

(** The loop of GenerateEvent, ManyBodyPhaseSpace.cxx:163-183.  [done] are the
    products 0 .. i-1; the lists are the products i, i+1, ... with momenta[i-1],
    virtual_masses[i-1] and the random directions. *)
Fixpoint chain_boosts (done todo : list particle) (momenta vs : list R) (dirs : list vec) : outcome (list particle) :=
  match todo with
  | [] => Ok done
  | p :: todo =>
    match momenta, vs, dirs with
    | momentum :: momenta, v :: vs, dir :: dirs =>
      olet p := set_momentum reg (with_direction p dir) momentum in
      olet gamma := quot (sqrt (momentum * momentum + v * v)) v in
      olet betagamma := quot momentum v in
      olet done := boost_all done (direction (p_state p)) gamma betagamma in
      chain_boosts (done ++ [p]) todo momenta vs dirs
    | _, _, _ => UB out_of_bounds
    end
  end.
(** ManyBodyPhaseSpace::GenerateEvent, ManyBodyPhaseSpace.cxx:151-184; [dirs] are
    the directions from GenerateRandomDirection. *)
Definition generate_event (ps : list particle) (k : kinematics) (dirs : list vec) : outcome (list particle) :=
  match ps, k_momenta k, k_masses k, dirs with
  | p0 :: p1 :: todo, momentum :: momenta, _ :: vs, dir :: dirs =>
    olet p1 := set_momentum reg (with_direction p1 dir) momentum in
    olet p0 := set_momentum reg (with_direction p0 (vneg dir)) momentum in
    chain_boosts [p0; p1] todo momenta vs dirs
  | _, _, _, _ => UB out_of_bounds
  end.

(** The random numbers used by one pass: size - 2 for the masses, then two per
    direction for size - 1 directions. *)
Definition draws (rnd : nat -> R) (k n : nat) : list R := map rnd (seq k n).
Definition direction_draws (rnd : nat -> R) (k n : nat) : list vec :=
  map (fun i => random_direction (rnd (k + 2 * i)%nat) (rnd (k + 2 * i + 1)%nat)) (seq 0 n).

(** PhaseSpaceParameters, ManyBodyPhaseSpace.h:49-54 *)
Record params := mkparams { normalization : R; weight_max : R; weight_min : R }.

(** CalculateNormalization, ManyBodyPhaseSpace.cxx:223-231; [std::tgamma(n - 1)]
    is the factorial of n - 2. *)
Definition calculate_normalization (ms : list R) (parent_mass : R) : outcome R :=
  let n := length ms in
  quot ((parent_mass - sum_masses ms) ^ (n - 2) / INR (fact (n - 2)) * (2 * PI) ^ (n - 1)) (2 * parent_mass).
(** EstimateMaxWeight, ManyBodyPhaseSpace.cxx:234-249 *)
Fixpoint max_weight (e_max e_min prev : R) (ms : list R) (weight : R) : outcome R :=
  match ms with
  | [] => Ok weight
  | m :: ms =>
    let e_min := e_min + prev in
    let e_max := e_max + m in
    olet p := decay_momentum e_max e_min m in
    max_weight e_max e_min m ms (weight * p)
  end.
Definition estimate_max_weight (ms : list R) (normalization parent_mass : R) : outcome params :=
  match ms with
  | [] => UB out_of_bounds
  | m0 :: rest =>
    olet w := max_weight (parent_mass - sum_masses ms + m0) 0 m0 rest 1 in
    Ok (mkparams normalization (normalization * w) 0)
  end.

(** ManyBodyPhaseSpace::Decay, ManyBodyPhaseSpace.cxx:106-148.  The parameters
    (cached per parent in C++) are given; [element] is the matrix element, [rnd]
    the sequence of random numbers and [k] the number of those used so far.
    [None]: more than [fuel] rejections. *)
Section ManyBody.
Variables (daughters : list pdef) (par : params) (element : pstate -> list particle -> R)
          (parent : pdef) (c : pstate) (rnd : nat -> R).
Let ms := map pd_mass daughters.
Let n := length daughters.
Definition one_event (k : nat) (ps : list particle) : outcome (kinematics * list particle) :=
  olet kin := calculate_kinematics ms (normalization par) (pd_mass parent) (draws rnd k (n - 2)) in
  olet ps := generate_event ps kin (direction_draws rnd (k + (n - 2)) (n - 1)) in
  Ok (kin, ps).
Fixpoint rejection (fuel k : nat) (ps : list particle) : option (outcome (list particle)) :=
  match fuel with
  | O => None
  | S fuel =>
    match one_event k ps with
    | Ok (kin, ps) =>
      let k := (k + (n - 2) + 2 * (n - 1))%nat in
      let weight_ref := weight_min par + rnd k * (weight_max par - weight_min par) in
      let weight_sample := k_weight kin * element c ps in
      if weight_sample <? weight_ref then rejection fuel (S k) ps else Some (Ok ps)
    | Throw e => Some (Throw e)
    | UB u => Some (UB u)
    end
  end.
Definition many_body_decay (uniform : bool) (fuel k : nat) : option (outcome (list particle)) :=
  let ps := map (fun d => product d c (direction c) (energy c)) daughters in
  let event := if uniform then rejection fuel k ps
               else Some (olet x := one_event k ps in Ok (snd x)) in
  match event with
  | None => None
  | Some x => Some (olet ps := x in to_lab parent c ps)
  end.
End ManyBody.

(** LeptonicDecayChannelApprox::DecayRate and DifferentialDecayRate,
    LeptonicDecayChannel.cxx:68-83 *)
Definition approx_rate (x right_side : R) : R := x * x * x * (1 - 1 / 2 * x) - right_side.
Definition approx_differential (x : R) : R := (3 - 2 * x) * x * x.
(** LeptonicDecayChannel::DecayRate and DifferentialDecayRate,
    LeptonicDecayChannel.cxx:209-229; [m] is the lepton mass, [M] the parent's.
    Below the rest mass of the lepton the derivative is NaN in the code and 0
    here: the root search starts there if 4 m M > M^2 + m^2. *)
Definition rate (m M e_max x right_side : R) : R :=
  let e := e_max * x in
  let s := sqrt (Rmax 0 (e * e - m * m)) in
  3 / 2 * (m * m) * (m * m) * M * ln (s + e) +
  s * ((M * M + m * m - M * e) * (e * e - m * m) - 3 / 2 * M * e * (m * m)) - right_side.
Definition differential (m M e_max x : R) : R :=
  let e := e_max * x in
  e_max * sqrt (e * e - m * m) * (M * e * (3 * M - 4 * e) + m * m * (3 * e - 2 * M)).

(** LeptonicDecayChannelApprox::Decay, LeptonicDecayChannel.cxx:99-170, with
    FindRoot (86-96): the root search has 40 steps and the accuracy 1e-3.
    [rate_at x right_side] and [differential_at x] are the virtual functions.
    [r0] is the random number for the energy, [r1] .. [r4] those for the
    directions of the lepton and of the neutrino. *)
Definition leptonic_decay (rate_at : R -> R -> R) (differential_at : R -> R)
  (lepton neutrino anti_neutrino parent : pdef) (c : pstate) (r0 r1 r2 r3 r4 : R) : outcome (list particle) :=
  let M := pd_mass parent in
  let m := pd_mass lepton in
  olet emax := quot (M * M + m * m) (2 * M) in
  olet x_min := quot m emax in
  let f_min := rate_at x_min 0 in
  let f_max := rate_at 1 0 in
  let right_side := f_min + (f_max - f_min) * r0 in
  olet root := newton_raphson (fun x => rate_at x right_side) differential_at (nan R) x_min 1 (1 / 2) 40 (1 / 1000) in
  let lepton_energy := Rmax (root * emax) m in
  let lepton_momentum := sqrt ((lepton_energy - m) * (lepton_energy + m)) in
  let lep := product lepton c (random_direction r1 r2) lepton_energy in
  let energy_neutrinos := M - lepton_energy in
  let y := (energy_neutrinos - lepton_momentum) * (energy_neutrinos + lepton_momentum) in
  olet virtual_mass := (if y <? 0 then nan R else Ok (sqrt y)) in
  let momentum_neutrinos := 1 / 2 * virtual_mass in
  let dir := random_direction r3 r4 in
  let nu := product neutrino c dir momentum_neutrinos in
  let anti := product anti_neutrino c (vneg dir) momentum_neutrinos in
  olet gamma := quot energy_neutrinos virtual_mass in
  olet betagamma := quot lepton_momentum virtual_mass in
  olet nu := boost nu (direction (p_state lep)) gamma betagamma in
  olet anti := boost anti (direction (p_state lep)) gamma betagamma in
  to_lab parent c [lep; nu; anti].

(** DecayChannel::Decay of the different channels; the matrix elements are given
    by name.  StableChannel.cxx:31-36: no products. *)
Definition decay (elements : nat -> pstate -> list particle -> R) (par : params)
  (ch : channel) (parent : pdef) (c : pstate) (rnd : nat -> R) (fuel k : nat) : option (outcome (list particle)) :=
  match ch with
  | StableChannel => Some (Ok [])
  | TwoBody a b => Some (two_body_decay a b parent c (rnd k) (rnd (k + 1)%nat))
  | ManyBody ds uniform _ e =>
    many_body_decay ds par (match e with Some e => elements e | None => fun _ _ => 1 end) parent c rnd uniform fuel k
  | LeptonicApprox l nu anti =>
    Some (leptonic_decay approx_rate approx_differential l nu anti parent c
            (rnd k) (rnd (k + 1)%nat) (rnd (k + 2)%nat) (rnd (k + 3)%nat) (rnd (k + 4)%nat))
  | Leptonic l nu anti =>
    let M := pd_mass parent in
    let m := pd_mass l in
    let emax := (M * M + m * m) / (2 * M) in
    Some (leptonic_decay (rate m M emax) (differential m M emax) l nu anti parent c
            (rnd k) (rnd (k + 1)%nat) (rnd (k + 2)%nat) (rnd (k + 3)%nat) (rnd (k + 4)%nat))
  end.

(** One decaying particle in Secondaries::GetDecayProducts, Secondaries.cxx:59-67:
    one random number selects the channel, the following ones are for the decay. *)
Definition decay_particle (elements : nat -> pstate -> list particle -> R) (par : channel -> params)
  (parent : pdef) (c : pstate) (rnd : nat -> R) (fuel : nat) : option (outcome (list particle)) :=
  match select_channel (pd_decays parent) (rnd O) with
  | Ok ch => decay elements (par ch) ch parent c rnd fuel 1
  | Throw e => Some (Throw e)
  | UB u => Some (UB u)
  end.
End Decay.
