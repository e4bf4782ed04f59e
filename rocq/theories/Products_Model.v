(** Model of the secondaries of stochastic losses
    (detail/PROPOSAL/secondaries/parametrization/, PROPOSAL/secondaries/).
    [nan] is the outcome of arithmetic that leaves the real numbers; in C++ the
    calculation goes on with NaN or infinity. *)
From Verif Require Import Prelude Vec_Model Propagator_Model Secondaries_Model Math_Model Particle_Model Limits_Model.

(** A target: the hash and the charge of the nucleus of a Component. *)
Record target := mktarget { t_hash : N; t_charge : R }.

(** [std::fmod]: the remainder has the sign of the first argument. *)
Definition truncate (x : R) : Z := if 0 <=? x then Int_part x else (- Int_part (- x))%Z.
Definition fmod (x y : R) : R := x - y * IZR (truncate (x / y)).

(** The constructor call shared by all calculators: ParticleState(type,
    loss.position, direction, energy, loss.time, distance), Particle.cxx:68-78 *)
Definition product (ty : Z) (l : sloss) (dir : vec) (e distance : R) : particle :=
  mkparticle ty (mkpstate (sl_position l) dir e (sl_time l) distance).
(** Two directions with opposite azimuths: HeitlerAnnihilation.cxx:48-52,
    NaivCompton.cxx:22-26, NaivIonization.cxx:29-35, SauterSampling.h:26-35. *)
Definition opposite (d : vec) (cos0 cos1 rnd : R) : vec * vec :=
  (deflect d cos0 (rnd * 2 * PI), deflect d cos1 (fmod (rnd * 2 * PI + PI) (2 * PI))).
(** [if (cosphi == -1.) cosphi *= (-1)] *)
Definition flip (c : R) : R := if c =? -1 then c * -1 else c.

Section Products.
Variable nan : forall A, outcome A.
Definition quotient (a b : R) : outcome R := if b =? 0 then nan R else Ok (a / b).
Definition root (a : R) : outcome R := if a <? 0 then nan R else Ok (sqrt a).

(** ** Annihilation *)
(** HeitlerAnnihilation::f_term and f, HeitlerAnnihilation.cxx:6-12 *)
Definition f_term (a1 a2 rho : R) : R := a1 * ln rho + a2 / rho - rho.
Definition heitler_f (rho a1 a2 rho_min rho_max rnd : R) : R :=
  f_term a1 a2 rho - f_term a1 a2 rho_min - rnd * (f_term a1 a2 rho_max - f_term a1 a2 rho_min).
(** HeitlerAnnihilation::CalculateRho, HeitlerAnnihilation.cxx:14-35.  For
    gamma <= 1 all abscissas are 0 and Bisection returns 0 whatever the function
    values (NaN) are. *)
Definition heitler_rho (mass energy rnd : R) : outcome R :=
  olet gamma := quotient energy mass in
  if gamma <=? 1 then Ok 0
  else
    let aux := sqrt ((gamma - 1) / (gamma + 1)) in
    let rho_min := 1 / 2 * (1 - aux) in
    let rho_max := 1 / 2 * (1 + aux) in
    let a2 := 1 / (gamma + 1) ^ 2 in
    let a1 := 1 + 2 * gamma * a2 in
    let precision := rho_min * energy * / 10 ^ 5 in
    olet r := bisection (fun rho => heitler_f rho a1 a2 rho_min rho_max rnd) rho_min rho_max precision 100 in
    Ok (fst r).
(** HeitlerAnnihilation::CalculateDirections, HeitlerAnnihilation.cxx:37-54 *)
Definition heitler_directions (d : vec) (energy rho rnd : R) : outcome (vec * vec) :=
  let com := energy + ME in
  let kin := energy - ME in
  olet p := root (com * kin) in
  olet c0 := quotient (com * (1 - rho) - ME) ((1 - rho) * p) in
  olet c1 := quotient (com * rho - ME) (rho * p) in
  Ok (opposite d c0 c1 rnd).
(** HeitlerAnnihilation::CalculateSecondaries (and CalculateEnergy),
    HeitlerAnnihilation.cxx:56-81.  The assertions on rho are not modelled. *)
Definition annihilation (mass : R) (l : sloss) (c : target) (rnd : list R) : outcome (list particle) :=
  let E := sl_parent_energy l in
  olet r0 := at_index rnd 0 in
  olet rho := heitler_rho mass E r0 in
  olet r1 := at_index rnd 1 in
  olet (d0, d1) := heitler_directions (sl_direction l) E rho r1 in
  Ok [product 22 l d0 ((E + ME) * (1 - rho)) 0; product 22 l d1 ((E + ME) * rho) 0].

(** ** Compton scattering *)
(** NaivCompton::CalculateDirections, NaivCompton.cxx:15-28 *)
Definition compton_directions (d : vec) (energy v rnd : R) : outcome (vec * vec) :=
  olet q := quotient (v * ME) (energy * (1 - v)) in
  olet p := root (2 * v * energy * ME + v * v * energy * energy) in
  olet c1 := quotient (v * (energy + ME)) p in
  Ok (opposite d (1 - q) c1 rnd).
(** NaivCompton::CalculateSecondaries (and CalculateEnergy), NaivCompton.cxx:30-52 *)
Definition compton (l : sloss) (c : target) (rnd : list R) : outcome (list particle) :=
  let E := sl_parent_energy l in
  olet v := quotient (sl_energy l) E in
  olet r0 := at_index rnd 0 in
  olet (d0, d1) := compton_directions (sl_direction l) E v r0 in
  Ok [product 22 l d0 (E * (1 - v)) 0; product 11 l d1 (ME + E * v) 0].

(** ** Ionization *)
(** NaivIonization::CalculateDirections, NaivIonization.cxx:16-38 *)
Definition ionization_directions (mass : R) (d : vec) (E_i v rnd : R) : outcome (vec * vec) :=
  let E_f := E_i * (1 - v) in
  let E_e := E_i * v + ME in
  olet p_i := root ((E_i + mass) * (E_i - mass)) in
  olet p_f := root ((E_f + mass) * (E_f - mass)) in
  olet p_e := root ((E_e + ME) * (E_e - ME)) in
  olet c0 := quotient ((E_i + ME) * E_f - E_i * ME - mass * mass) (p_i * p_f) in
  olet c1 := quotient ((E_i + ME) * E_e - E_i * ME - ME * ME) (p_i * p_e) in
  Ok (opposite d c0 c1 rnd).
(** NaivIonization::CalculateSecondaries (and CalculateEnergy), NaivIonization.cxx:40-61 *)
Definition ionization (ty : Z) (mass : R) (l : sloss) (c : target) (rnd : list R) : outcome (list particle) :=
  let E := sl_parent_energy l in
  olet v := quotient (sl_energy l) E in
  olet r0 := at_index rnd 0 in
  olet (d0, d1) := ionization_directions mass (sl_direction l) E v r0 in
  Ok [product ty l d0 (E * (1 - v)) 0; product 11 l d1 (E * v + ME) 0].

(** ** Bremsstrahlung *)
(** Bremsstrahlung::CalculateSecondaries, Bremsstrahlung.cxx:6-28; the directions
    (lepton, photon) come from the subclass. *)
Definition bremsstrahlung (ty : Z) (directions : vec -> R -> R -> target -> list R -> outcome (vec * vec))
    (l : sloss) (c : target) (rnd : list R) : outcome (list particle) :=
  olet (d0, d1) := directions (sl_direction l) (sl_parent_energy l) (sl_energy l) c rnd in
  Ok [product ty l d0 (sl_parent_energy l - sl_energy l) 0; product 22 l d1 (sl_energy l) 0].
(** BremsNoDeflection.cxx:6-11 *)
Definition brems_no_deflection (d : vec) (energy photon : R) (c : target) (rnd : list R) : outcome (vec * vec) := Ok (d, d).
(** The end of BremsEGS4Approximation.cxx:15-23 and of BremsKochMotz.cxx:52-63:
    the lepton takes the rest of the momentum. *)
Definition recoil (mass : R) (d : vec) (energy photon cosphi theta : R) : outcome (vec * vec) :=
  let dir_photon := deflect d cosphi theta in
  olet p := root ((energy + mass) * (energy - mass)) in
  match normalize (vsub (scale p d) (scale photon dir_photon)) with
  | Some n => Ok (n, dir_photon)
  | None => nan _
  end.
(** BremsEGS4Approximation.cxx:7-24 *)
Definition brems_egs4 (mass : R) (d : vec) (energy photon : R) (c : target) (rnd : list R) : outcome (vec * vec) :=
  olet q := quotient mass energy in
  olet r0 := at_index rnd 0 in
  recoil mass d energy photon (cos q) (r0 * 2 * PI).
(** BremsKochMotz::CalculatePhiCandidate, g and N, BremsKochMotz.cxx:10-32 *)
Definition phi_candidate (E0 rnd : R) : outcome R :=
  olet q := quotient rnd (1 - rnd + 1 / (PI * E0) ^ 2) in
  olet s := root q in
  Ok (1 / E0 * s).
Definition koch_g (x E E0 Z : R) : R :=
  let r := E / E0 in
  let m := ((1 - r) / (2 * E0 * r)) ^ 2 + (cube_root Z / (111 * (x + 1))) ^ 2 in
  3 * (1 + r * r) - 2 * r - (4 + ln m) * ((1 + r * r) - 4 * x * r / (x + 1) ^ 2).
Definition koch_N (E E0 Z : R) : outcome R :=
  quotient 1 (Rmax (Rmax (koch_g 0 E E0 Z) (koch_g 1 E E0 Z)) (koch_g ((PI * E0) ^ 2) E E0 Z)).
(** The rejection loop, BremsKochMotz.cxx:46-51; [rs] are the numbers of the
    internal generator, whose seed is rnd[0]; [None] is out of fuel. *)
Fixpoint koch_motz_phi (fuel : nat) (rs : nat -> R) (i : nat) (E E0 Z : R) : option (outcome R) :=
  match fuel with
  | O => None
  | S k =>
    match phi_candidate E0 (rs i) with
    | Ok phi =>
      match koch_N E E0 Z with
      | Ok n =>
        let g_max := n * koch_g ((E0 * phi) ^ 2) E E0 Z in
        if g_max <? rs (S i) then koch_motz_phi k rs (S (S i)) E E0 Z else Some (Ok phi)
      | Throw e => Some (Throw e) | UB u => Some (UB u)
      end
    | Throw e => Some (Throw e) | UB u => Some (UB u)
    end
  end.
(** BremsKochMotz::CalculateDirections, BremsKochMotz.cxx:34-64 *)
Definition brems_koch_motz (fuel : nat) (generator : R -> nat -> R) (mass : R) (d : vec) (energy photon : R) (c : target)
    (rnd : list R) : option (outcome (vec * vec)) :=
  match at_index rnd 0 with
  | Ok r0 =>
    match koch_motz_phi fuel (generator r0) 0 ((energy - photon) / ME) (energy / ME) (t_charge c) with
    | None => None
    | Some phi => Some (olet phi := phi in olet r1 := at_index rnd 1 in recoil mass d energy photon (cos phi) (r1 * 2 * PI))
    end
  | Throw e => Some (Throw e) | UB u => Some (UB u)
  end.

(** ** Pair production *)
(** EpairProductionRhoIntegral::CalculateRho,
    KelnerKokoulinPetrukhinEpairProduction.h:41-68.  [drawn rho_max r] stands for
    the value of IntegrateWithRandomRatio(0, rho_max, ..., r) and the result of
    GetUpperLimit after it. *)
Definition epair_rho (drawn : R -> R -> R * R) (mass energy v rnd1 rnd2 : R) : outcome R :=
  olet q := quotient (4 * ME) (energy * v) in
  let aux := 1 - q in
  olet q2 := quotient (6 * mass * mass) (energy * energy * (1 - v)) in
  let aux2 := 1 - q2 in
  olet s := root aux in
  let rho_max := s * aux2 in
  if rho_max <? 0 then Throw logic_error
  else
    let '(total, limit) := drawn rho_max rnd1 in
    let rho := if 0 <? total then limit else 0 in
    Ok (if rnd2 <? 1 / 2 then rho * -1 else rho).
(** EpairProductionRhoIntegral::CalculateSecondaries, CalculateEnergy and
    CalculateDirections, KelnerKokoulinPetrukhinEpairProduction.h:21-31, 71-94 *)
Definition epair (ty : Z) (drawn : target -> R -> R -> R -> R -> R * R) (mass : R) (l : sloss) (c : target) (rnd : list R) :
    outcome (list particle) :=
  let E := sl_parent_energy l in
  olet v := quotient (sl_energy l) E in
  olet r0 := at_index rnd 0 in
  olet r1 := at_index rnd 1 in
  olet rho := epair_rho (drawn c E v) mass E v r0 r1 in
  olet r2 := at_index rnd 2 in
  Ok [product ty l (sl_direction l) (E - sl_energy l) (sl_distance l);
      product 11 l (sl_direction l) (1 / 2 * sl_energy l * (1 + rho)) 0;
      product (-11) l (sl_direction l) (1 / 2 * sl_energy l * (1 - rho)) 0].
(** NaivEpairProduction.h:20-24 *)
Definition naive_epair (l : sloss) (c : target) (rnd : list R) : outcome (list particle) := Ok [].

(** KelnerKokoulinPetrukhinMupairProduction.cxx:19-37; [drawn] as above. *)
Definition mupair_rho (drawn : R -> R -> R) (energy v rnd1 rnd2 : R) : outcome R :=
  olet q := quotient (2 * MMU) (v * energy) in
  let rho_max := 1 - q in
  if rho_max <? 0 then Ok 0
  else
    let rho := drawn rho_max rnd1 in
    Ok (if rnd2 <? 1 / 2 then - rho else rho).
(** KelnerKokoulinPetrukhinMupairProduction.cxx:39-79 *)
Definition mupair (ty : Z) (drawn : target -> R -> R -> R -> R -> R) (l : sloss) (c : target) (rnd : list R) :
    outcome (list particle) :=
  let E := sl_parent_energy l in
  olet v := quotient (sl_energy l) E in
  olet r0 := at_index rnd 0 in
  olet r1 := at_index rnd 1 in
  olet rho := mupair_rho (drawn c E v) E v r0 r1 in
  olet r2 := at_index rnd 2 in
  Ok [product ty l (sl_direction l) (E - sl_energy l) (sl_distance l);
      product 13 l (sl_direction l) (1 / 2 * sl_energy l * (1 + rho)) 0;
      product (-13) l (sl_direction l) (1 / 2 * sl_energy l * (1 - rho)) 0].

(** The look-up of a component in a precalculated table (PhotoPairProductionInterpolant.h:37-55,
    PhotoMuPairProductionBurkhardtKelnerKokoulin.cxx:5-23, WeakCooperSarkarMertsch.cxx:18-35).
    A table gives for the hash of a component the loss sampled at an energy with
    a random number; [None] is the null pointer. *)
Definition table := option (list (N * (R -> R -> outcome R))).
Definition from_table (t : table) (c : target) (energy rnd : R) : outcome R :=
  match t with
  | None => Throw logic_error
  | Some l =>
    match find (fun x => N.eqb (fst x) (t_hash c)) l with
    | Some x => snd x energy rnd
    | None => Throw out_of_range
    end
  end.
(** PhotoPairProductionInterpolant.h:58-77 *)
Definition pair_forward (mass : R) (d : vec) (energy rho rnd1 rnd2 rnd3 : R) : outcome (vec * vec) :=
  olet k := quotient energy mass in
  olet a := quotient 1 k in
  Ok (opposite d (flip (cos a)) (flip (cos a)) rnd1).
(** SauterSampling::CalculateDirections, SauterSampling.h:13-37, called by
    PhotoPairProductionTsai.h:42-49 and PhotoPairProductionKochMotz.h:27-34 *)
Definition sauter_cos (e rnd : R) : outcome R :=
  olet p := root (e * e - ME * ME) in
  quotient (e * (2 * rnd - 1) + p) (p * (2 * rnd - 1) + e).
Definition pair_sauter (d : vec) (energy rho rnd1 rnd2 rnd3 : R) : outcome (vec * vec) :=
  olet c0 := sauter_cos (energy * rho) rnd2 in
  olet c1 := sauter_cos (energy * (1 - rho)) rnd3 in
  Ok (opposite d (flip c0) (flip c1) rnd1).
(** PhotoPairProductionTsai::CalculateDirections, PhotoPairProductionTsai.cxx:96-127;
    [angle] stands for the integration and the transformation of its limit. *)
Definition pair_tsai (angle : R -> R -> R -> R) (d : vec) (energy rho rnd1 rnd2 rnd3 : R) : outcome (vec * vec) :=
  Ok (opposite d (flip (cos (angle energy rho rnd1))) (flip (cos (angle energy rho rnd2))) rnd3).
(** PhotoPairProductionInterpolant::CalculateSecondaries, PhotoPairProductionInterpolant.h:79-104 *)
Definition photo_pair (t : table) (directions : vec -> R -> R -> R -> R -> R -> outcome (vec * vec))
    (l : sloss) (c : target) (rnd : list R) : outcome (list particle) :=
  let E := sl_parent_energy l in
  olet r0 := at_index rnd 0 in
  olet rho := from_table t c E r0 in
  olet r1 := at_index rnd 1 in
  olet r2 := at_index rnd 2 in
  olet r3 := at_index rnd 3 in
  olet (d0, d1) := directions (sl_direction l) E rho r1 r2 r3 in
  Ok [product 11 l d0 (E * rho) 0; product (-11) l d1 (E * (1 - rho)) 0].
(** PhotoMuPairProductionBurkhardtKelnerKokoulin.cxx:25-62 and .h:39-41 *)
Definition photo_mupair (t : table) (l : sloss) (c : target) (rnd : list R) : outcome (list particle) :=
  let E := sl_parent_energy l in
  olet r0 := at_index rnd 0 in
  olet x := from_table t c E r0 in
  olet r1 := at_index rnd 1 in
  olet (d0, d1) := pair_forward MMU (sl_direction l) E x r1 0 0 in
  Ok [product 13 l d0 ((1 - x) * E) 0; product (-13) l d1 (x * E) 0].

(** ** Photonuclear and weak interactions, photoeffect *)
(** Photonuclear.h:24-42 *)
Definition photonuclear (ty : Z) (l : sloss) (c : target) (rnd : list R) : outcome (list particle) :=
  Ok [product ty l (sl_direction l) (sl_parent_energy l - sl_energy l) 0; product 81 l (sl_direction l) (sl_energy l) 0].
(** Photoproduction.h:20-33 *)
Definition photoproduction (l : sloss) (c : target) (rnd : list R) : outcome (list particle) :=
  Ok [product 81 l (sl_direction l) (sl_energy l) 0].
(** WeakCooperSarkarMertsch.cxx:37-51 *)
Definition weak (partner : Z) (t : table) (l : sloss) (c : target) (rnd : list R) : outcome (list particle) :=
  olet r0 := at_index rnd 0 in
  olet v := from_table t c (sl_parent_energy l) r0 in
  Ok [product partner l (sl_direction l) ((1 - v) * sl_energy l) 0; product 81 l (sl_direction l) (v * sl_energy l) 0].
(** PhotoeffectNoDeflection.cxx:8-20.  The assertion E >= ME is not modelled. *)
Definition binding_energy (c : target) : R := (t_charge c * ALPHA) ^ 2 * ME / 2.
Definition photoeffect (l : sloss) (c : target) (rnd : list R) : outcome (list particle) :=
  Ok [product 11 l (sl_direction l) (ME + sl_parent_energy l - binding_energy c) 0].

(** ** The calculator *)
(** The classes derived from secondaries::Parametrization with their n_rnd. *)
Inductive calculator :=
| CAnnihilation (mass : R)
| CCompton
| CIonization (ty : Z) (mass : R)
| CBremsNoDeflection (ty : Z)
| CBremsEGS4 (ty : Z) (mass : R)
| CEpair (ty : Z) (drawn : target -> R -> R -> R -> R -> R * R) (mass : R)
| CNaiveEpair
| CMupair (ty : Z) (drawn : target -> R -> R -> R -> R -> R)
| CPhotoPairForward (t : table)
| CPhotoPairSauter (t : table)
| CPhotoPairTsai (t : table) (angle : R -> R -> R -> R)
| CPhotoMuPair (t : table)
| CPhotonuclear (ty : Z)
| CPhotoproduction
| CWeak (partner : Z) (t : table)
| CPhotoeffect.
(** GetInteractionType of each class. *)
Definition interaction_of (k : calculator) : itype :=
  match k with
  | CAnnihilation _ => Annihilation
  | CCompton => Compton
  | CIonization _ _ => Ioniz
  | CBremsNoDeflection _ | CBremsEGS4 _ _ => Brems
  | CEpair _ _ _ | CNaiveEpair => Epair
  | CMupair _ _ => MuPair
  | CPhotoPairForward _ | CPhotoPairSauter _ | CPhotoPairTsai _ _ => Photopair
  | CPhotoMuPair _ => PhotoMuPair
  | CPhotonuclear _ => Photonuclear
  | CPhotoproduction => Photoproduction
  | CWeak _ _ => WeakInt
  | CPhotoeffect => Photoeffect
  end.
(** RequiredRandomNumbers of each class (the constants n_rnd). *)
Definition required (k : calculator) : nat :=
  match k with
  | CAnnihilation _ => 2
  | CCompton | CIonization _ _ | CBremsEGS4 _ _ | CWeak _ _ => 1
  | CBremsNoDeflection _ | CPhotonuclear _ | CPhotoproduction | CPhotoeffect => 0
  | CEpair _ _ _ | CMupair _ _ => 3
  | CNaiveEpair | CPhotoMuPair _ => 2
  | CPhotoPairForward _ | CPhotoPairSauter _ | CPhotoPairTsai _ _ => 4
  end.
(** CalculateSecondaries of each class. *)
Definition calculate (k : calculator) : sloss -> target -> list R -> outcome (list particle) :=
  match k with
  | CAnnihilation mass => annihilation mass
  | CCompton => compton
  | CIonization ty mass => ionization ty mass
  | CBremsNoDeflection ty => bremsstrahlung ty brems_no_deflection
  | CBremsEGS4 ty mass => bremsstrahlung ty (brems_egs4 mass)
  | CEpair ty drawn mass => epair ty drawn mass
  | CNaiveEpair => naive_epair
  | CMupair ty drawn => mupair ty drawn
  | CPhotoPairForward t => photo_pair t (pair_forward ME)
  | CPhotoPairSauter t => photo_pair t pair_sauter
  | CPhotoPairTsai t angle => photo_pair t (pair_tsai angle)
  | CPhotoMuPair t => photo_mupair t
  | CPhotonuclear ty => photonuclear ty
  | CPhotoproduction => photoproduction
  | CWeak partner t => weak partner t
  | CPhotoeffect => photoeffect
  end.
(** SecondariesCalculator: the unordered_map from interaction types to
    calculators (SecondariesCalculator.h:23-24), as an association list. *)
Definition generators := list (itype * calculator).
Definition find_generator (g : generators) (ty : itype) : option calculator :=
  option_map snd (find (fun x => itype_eqb (fst x) ty) g).
(** addInteraction, SecondariesCalculator.h:49-52: the assignment replaces an
    older calculator of the same type. *)
Definition add_interaction (g : generators) (k : calculator) : generators :=
  (interaction_of k, k) :: filter (fun x => negb (itype_eqb (fst x) (interaction_of k))) g.
(** RequiredRandomNumbers, SecondariesCalculator.h:57-60: the iterator is used
    without a check. *)
Definition required_random_numbers (g : generators) (ty : itype) : outcome nat :=
  match find_generator g ty with Some k => Ok (required k) | None => UB deref_end end.
(** CalculateSecondaries, SecondariesCalculator.cxx:5-16 *)
Definition calculate_secondaries (g : generators) (l : sloss) (c : target) (rnd : list R) : outcome (list particle) :=
  match find_generator g (sl_type l) with
  | Some k => calculate k l c rnd
  | None => match sl_type l with
            | Undefined => UB deref_end
            | _ => Throw logic_error
            end
  end.
End Products.
