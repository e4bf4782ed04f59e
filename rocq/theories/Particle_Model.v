(** Model of particle definitions, their registry, particle states with a type
    and decay tables (particle/ParticleDef.cxx, particle/Particle.cxx,
    decay/DecayTable.cxx and the [compare] functions of the decay channels). *)
From Coq Require Import String.
From Verif Require Import Prelude Vec_Model Propagator_Model.

(** ParticleDef (PROPOSAL/particle/ParticleDef.h:138-182) and DecayChannel with
    its subclasses.  The hard component table, a reference in C++, is modelled by
    its value; a lifetime of [None] is the infinite one (STABLE_PARTICLE).  The
    decay table is the content of the [std::map], ordered by its keys.  Of a
    ManyBodyPhaseSpace there are the daughters, [uniform_],
    [broad_phase_statistic_] and the matrix element ([None]: the default one,
    otherwise a name for the function). *)
Inductive pdef : Type :=
| PDef (name : string) (mass low : R) (lifetime : option R) (charge : R) (table : list (list R))
       (decays : list (R * channel)) (ptype weak_partner : Z)
with channel : Type :=
| StableChannel
| TwoBody (first second : pdef)
| ManyBody (daughters : list pdef) (uniform : bool) (statistic : Z) (element : option nat)
| LeptonicApprox (lepton neutrino anti_neutrino : pdef)
| Leptonic (lepton neutrino anti_neutrino : pdef).

Definition pd_mass (d : pdef) : R := match d with PDef _ m _ _ _ _ _ _ _ => m end.
Definition pd_low (d : pdef) : R := match d with PDef _ _ l _ _ _ _ _ _ => l end.
Definition pd_type (d : pdef) : Z := match d with PDef _ _ _ _ _ _ _ t _ => t end.
Definition pd_charge (d : pdef) : R := match d with PDef _ _ _ _ c _ _ _ _ => c end.
Definition pd_lifetime (d : pdef) : option R := match d with PDef _ _ _ l _ _ _ _ _ => l end.
Definition pd_decays (d : pdef) : list (R * channel) := match d with PDef _ _ _ _ _ _ t _ _ => t end.

(** Comparison of vectors, [std::vector::operator==]. *)
Fixpoint list_eqb {A} (eqb : A -> A -> bool) (a b : list A) : bool :=
  match a, b with
  | [], [] => true
  | x :: a, y :: b => eqb x y && list_eqb eqb a b
  | _, _ => false
  end.
Definition lifetime_eqb (a b : option R) : bool :=
  match a, b with
  | None, None => true
  | Some x, Some y => x =? y
  | _, _ => false
  end.
Definition is_some {A} (x : option A) : bool := match x with Some _ => true | None => false end.

(** ParticleDef::operator== (ParticleDef.cxx:220-243), DecayTable::operator==
    (DecayTable.cxx:57-80) and the compare functions: StableChannel.cxx:21-29,
    TwoBodyPhaseSpace.cxx:27-39, ManyBodyPhaseSpace.cxx:74-103,
    LeptonicDecayChannel.cxx:51-65.  LeptonicDecayChannel inherits compare from
    LeptonicDecayChannelApprox; the dynamic_cast there accepts both classes. *)
Fixpoint pdef_eqb (a b : pdef) {struct a} : bool :=
  match a, b with
  | PDef n1 m1 l1 t1 c1 h1 d1 p1 w1, PDef n2 m2 l2 t2 c2 h2 d2 p2 w2 =>
    String.eqb n1 n2 && (m1 =? m2) && (l1 =? l2) && lifetime_eqb t1 t2 && (c1 =? c2) &&
    list_eqb (list_eqb Reqb) h1 h2 &&
    (fix decays_eqb (x y : list (R * channel)) {struct x} : bool :=
       match x, y with
       | [], [] => true
       | (k1, e1) :: x, (k2, e2) :: y => (k1 =? k2) && channel_eqb e1 e2 && decays_eqb x y
       | _, _ => false
       end) d1 d2 &&
    (p1 =? p2)%Z && (w1 =? w2)%Z
  end
with channel_eqb (a b : channel) {struct a} : bool :=
  match a, b with
  | StableChannel, StableChannel => true
  | TwoBody f1 s1, TwoBody f2 s2 => pdef_eqb f1 f2 && pdef_eqb s1 s2
  | ManyBody d1 u1 s1 e1, ManyBody d2 u2 s2 e2 =>
    list_eqb Reqb (map pd_mass d1) (map pd_mass d2) && Bool.eqb u1 u2 && (s1 =? s2)%Z &&
    Bool.eqb (is_some e1) (is_some e2)
  | LeptonicApprox l1 n1 a1, (LeptonicApprox l2 n2 a2 | Leptonic l2 n2 a2)
  | Leptonic l1 n1 a1, (LeptonicApprox l2 n2 a2 | Leptonic l2 n2 a2) =>
    pdef_eqb l1 l2 && pdef_eqb n1 n2 && pdef_eqb a1 a2
  | _, _ => false
  end.

(** [std::map<double, DecayChannel*>::operator[]] with assignment: the entries
    are ordered by the key; an existing entry is overwritten (the channel it
    pointed to is leaked).  DecayTable::addChannel, DecayTable.cxx:143-147. *)
Fixpoint add_channel (br : R) (c : channel) (t : list (R * channel)) : list (R * channel) :=
  match t with
  | [] => [(br, c)]
  | (k, d) :: t' =>
    if br <? k then (br, c) :: t
    else if k <? br then (k, d) :: add_channel br c t'
    else (k, c) :: t'
  end.
(** DecayTable().addChannel(...).addChannel(...) *)
Definition decay_table (l : list (R * channel)) : list (R * channel) :=
  fold_left (fun t x => add_channel (fst x) (snd x) t) l [].

(** DecayTable::SelectChannel, DecayTable.cxx:108-130.  Without a match the
    first channel is returned; [*channels_.begin()] of an empty map is undefined. *)
Fixpoint sum_keys (t : list (R * channel)) (acc : R) : R :=
  match t with
  | [] => acc
  | (k, _) :: t => sum_keys t (acc + k)
  end.
Fixpoint select_from (rnd partial : R) (t : list (R * channel)) : option channel :=
  match t with
  | [] => None
  | (k, c) :: t =>
    let partial := partial + k in
    if rnd <? partial then Some c else select_from rnd partial t
  end.
Definition select_channel (t : list (R * channel)) (rnd : R) : outcome channel :=
  let rnd := sum_keys t 0 * rnd in
  match select_from rnd 0 t with
  | Some c => Ok c
  | None => match t with [] => UB deref_end | (_, c) :: _ => Ok c end
  end.
(** DecayTable::SetStable, DecayTable.cxx:133-140 *)
Definition set_stable : list (R * channel) := [(11 / 10, StableChannel)].

(** ** Predefined particles *)
(** detail/PROPOSAL/Constants.cxx:61-91, in MeV and seconds *)
Definition ME : R := 5109989461 / 10 ^ 10.
Definition MMU : R := 1056583745 / 10 ^ 7.
Definition LMU : R := 21969811 / 10 ^ 13.
Definition MTAU : R := 177686 / 100.
Definition LTAU : R := 2903 / 10 ^ 16.
Definition MPI : R := 13957018 / 10 ^ 5.
Definition LPI : R := 26033 / 10 ^ 12.
Definition MPI0 : R := 1349766 / 10 ^ 4.
Definition LPI0 : R := 852 / 10 ^ 19.
Definition MKAON : R := 493677 / 1000.
Definition LKAON : R := 12380 / 10 ^ 12.
Definition MMON : R := 10 ^ 5.
Definition CMON : R := 6851799988 / 10 ^ 8.
Definition MSMP : R := 10 ^ 5.

(** Type numbers, ParticleDef.h:80-107 *)
Definition T_None : Z := 0.
Definition stable_table : list (R * channel) := decay_table [(11 / 10, StableChannel)].
Definition EmptyTable : list (list R) := [].
(** HardComponentTables::MuonTable and TauTable (ParticleDef.cxx:97-132): only
    the numbers of the first row are kept; nothing modelled depends on them. *)
Definition MuonTable : list (list R) :=
  [[7174409 / 10 ^ 10; 17132 / 10 ^ 7; 4082304 / 10 ^ 9; 8628455 / 10 ^ 9; 1244159 / 10 ^ 8; 2204591 / 10 ^ 8; 3228755 / 10 ^ 8]].
Definition TauTable : list (list R) :=
  [[- (1269205 / 10 ^ 10); - (2843877 / 10 ^ 10); - (5761546 / 10 ^ 10); - (1195445 / 10 ^ 9); - (1317386 / 10 ^ 9);
    - (9689228 / 10 ^ 21); - (64595 / 10 ^ 19)]].

(** ParticleDef.cxx:304-321 *)
Definition EMinusDef := PDef "EMinus" ME ME None (-1) EmptyTable stable_table 11 12.
Definition EPlusDef := PDef "EPlus" ME ME None 1 EmptyTable stable_table (-11) (-12).
(** ParticleDef.cxx:487-556 *)
Definition GammaDef := PDef "Gamma" 0 (2 * ME) None 0 EmptyTable stable_table 22 T_None.
Definition NuEDef := PDef "NuE" 0 0 None 0 EmptyTable stable_table 12 11.
Definition NuEBarDef := PDef "NuEBar" 0 0 None 0 EmptyTable stable_table (-12) (-11).
Definition NuMuDef := PDef "NuMu" 0 0 None 0 EmptyTable stable_table 14 13.
Definition NuMuBarDef := PDef "NuMuBar" 0 0 None 0 EmptyTable stable_table (-14) (-13).
Definition NuTauDef := PDef "NuTau" 0 0 None 0 EmptyTable stable_table 16 15.
Definition NuTauBarDef := PDef "NuTauBar" 0 0 None 0 EmptyTable stable_table (-16) (-15).
(** PARTICLE_IMP, ParticleDef.cxx:25-32 and 564-583; the K0 has the mass of the
    charged kaon and the lifetime -1 there. *)
Definition particle_imp (name : string) (mass : R) (lifetime : option R) (charge : R) (ptype : Z) : pdef :=
  PDef name mass mass lifetime charge EmptyTable stable_table ptype T_None.
Definition Pi0Def := particle_imp "Pi0" MPI0 (Some LPI0) 0 111.
Definition PiMinusDef := particle_imp "PiMinus" MPI (Some LPI) (-1) (-211).
Definition PiPlusDef := particle_imp "PiPlus" MPI (Some LPI) 1 211.
Definition K0Def := particle_imp "K0" MKAON (Some (-1)) 0 311.
Definition KMinusDef := particle_imp "KMinus" MKAON (Some LKAON) (-1) (-321).
Definition KPlusDef := particle_imp "KPlus" MKAON (Some LKAON) 1 321.
Definition MonopoleDef := particle_imp "Monopole" MMON None CMON 41.
Definition SMPMinusDef := particle_imp "SMPMinus" MSMP None (-1) (-9500).
Definition SMPPlusDef := particle_imp "SMPPlus" MSMP None 1 9500.
(** ParticleDef.cxx:324-344 *)
Definition MuMinusDef := PDef "MuMinus" MMU MMU (Some LMU) (-1) MuonTable
  (decay_table [(1, LeptonicApprox EMinusDef NuMuDef NuEBarDef)]) 13 14.
Definition MuPlusDef := PDef "MuPlus" MMU MMU (Some LMU) 1 MuonTable
  (decay_table [(1, LeptonicApprox EPlusDef NuMuBarDef NuEDef)]) (-13) (-14).
(** ManyBodyPhaseSpace::Builder().addDaughter(...).build(), ManyBodyPhaseSpace.cxx:18-47, 352-383 *)
Definition many (l : list pdef) : channel := ManyBody l true 1000 None.
(** ParticleDef.cxx:347-480 *)
Definition TauMinusDef := PDef "TauMinus" MTAU MTAU (Some LTAU) (-1) TauTable
  (decay_table
    [(1737 / 10 ^ 4, Leptonic MuMinusDef NuTauDef NuMuBarDef);
     (1783 / 10 ^ 4, LeptonicApprox EMinusDef NuTauDef NuEBarDef);
     (1153 / 10 ^ 4, TwoBody PiMinusDef NuTauDef);
     (2595 / 10 ^ 4, many [PiMinusDef; Pi0Def; NuTauDef]);
     (952 / 10 ^ 4, many [PiMinusDef; Pi0Def; Pi0Def; NuTauDef]);
     (98 / 10 ^ 3, many [PiMinusDef; PiMinusDef; PiPlusDef; NuTauDef]);
     (457 / 10 ^ 4, many [PiMinusDef; PiMinusDef; PiPlusDef; Pi0Def; NuTauDef]);
     (119 / 10 ^ 4, many [PiMinusDef; Pi0Def; Pi0Def; Pi0Def; NuTauDef]);
     (1 / 10 ^ 2, many [PiMinusDef; K0Def; NuTauDef]);
     (349 / 10 ^ 5, many [KMinusDef; PiPlusDef; PiMinusDef; NuTauDef])]) 15 16.
Definition TauPlusDef := PDef "TauPlus" MTAU MTAU (Some LTAU) 1 TauTable
  (decay_table
    [(1737 / 10 ^ 4, Leptonic MuPlusDef NuTauBarDef NuMuDef);
     (1783 / 10 ^ 4, LeptonicApprox EPlusDef NuTauBarDef NuEDef);
     (1153 / 10 ^ 4, TwoBody PiPlusDef NuTauBarDef);
     (2595 / 10 ^ 4, many [PiPlusDef; Pi0Def; NuTauBarDef]);
     (952 / 10 ^ 4, many [PiPlusDef; Pi0Def; Pi0Def; NuTauBarDef]);
     (98 / 10 ^ 3, many [PiPlusDef; PiPlusDef; PiMinusDef; NuTauBarDef]);
     (457 / 10 ^ 4, many [PiPlusDef; PiPlusDef; PiMinusDef; Pi0Def; NuTauBarDef]);
     (119 / 10 ^ 4, many [PiPlusDef; Pi0Def; Pi0Def; Pi0Def; NuTauBarDef]);
     (1 / 10 ^ 2, many [PiPlusDef; K0Def; NuTauBarDef]);
     (349 / 10 ^ 5, many [KPlusDef; PiPlusDef; PiMinusDef; NuTauBarDef])]) (-15) (-16).

(** ** Registry *)
(** Type_Particle_Map, ParticleDef.cxx:36: [None] is the null pointer before the
    first use.  The unordered_map is an association list with one entry per key. *)
Definition registry := list (Z * pdef).
Fixpoint lookup (r : registry) (t : Z) : option pdef :=
  match r with
  | [] => None
  | (k, d) :: r => if (k =? t)%Z then Some d else lookup r t
  end.
(** create_particle_map, ParticleDef.cxx:257-281.  The two stau definitions are
    not in it. *)
Definition standard_particles : list pdef :=
  [EMinusDef; EPlusDef; NuEDef; NuEBarDef; MuMinusDef; NuMuDef; NuMuBarDef; MuPlusDef; TauMinusDef; TauPlusDef;
   NuTauDef; NuTauBarDef; GammaDef; Pi0Def; PiPlusDef; PiMinusDef; K0Def; KPlusDef; KMinusDef; MonopoleDef;
   SMPPlusDef; SMPMinusDef].
Definition standard_registry : registry := map (fun d => (pd_type d, d)) standard_particles.
(** ParticleDef.cxx:75-79 and 165-169: filled at the first use.  The definitions
    constructed while filling find the (non-null, still incomplete) map and put
    themselves in; the result is the same. *)
Definition opened (r : option registry) : registry := match r with Some r => r | None => standard_registry end.

(** Constructor, ParticleDef.cxx:151-182: the new contents of the map and the
    outcome. *)
Definition construct (r : option registry) (d : pdef) : option registry * outcome pdef :=
  let m := opened r in
  match lookup m (pd_type d) with
  | None => (Some ((pd_type d, d) :: m), Ok d)
  | Some d' => if negb (pdef_eqb d d') then (Some m, Throw invalid_argument) else (Some m, Ok d)
  end.
(** GetParticleDefForType, ParticleDef.cxx:74-88 *)
Definition get_particle_def (r : option registry) (t : Z) : option registry * outcome pdef :=
  let m := opened r in
  (Some m, match lookup m t with Some d => Ok d | None => Throw invalid_argument end).

(** A program using the registry: definitions are constructed and looked up in
    any order; the results in the order of the calls. *)
Inductive registry_op := Construct (d : pdef) | Lookup (t : Z).
Fixpoint registry_run (r : option registry) (ops : list registry_op) : option registry * list (outcome pdef) :=
  match ops with
  | [] => (r, [])
  | op :: ops =>
    let '(r, x) := match op with Construct d => construct r d | Lookup t => get_particle_def r t end in
    let '(r, xs) := registry_run r ops in
    (r, x :: xs)
  end.

(** ParticleDef::Builder::build, ParticleDef.h:247-256; [d] holds the data of the
    builder: the lower limit of the energy is raised to the mass. *)
Definition build (d : pdef) : pdef :=
  match d with PDef n m l t c h ds p w => PDef n m (if l <? m then m else l) t c h ds p w end.

(** ** Particle states with a type *)
(** ParticleState, PROPOSAL/particle/Particle.h:93-120 *)
Record particle := mkparticle { p_type : Z; p_state : pstate }.
Definition with_energy (p : particle) (e : R) : particle :=
  mkparticle (p_type p) (mkpstate (position (p_state p)) (direction (p_state p)) e (time (p_state p))
                                  (propagated_distance (p_state p))).
Definition with_direction (p : particle) (d : vec) : particle :=
  mkparticle (p_type p) (mkpstate (position (p_state p)) d (energy (p_state p)) (time (p_state p))
                                  (propagated_distance (p_state p))).

(** The mass found by GetParticleDef, Particle.cxx:103-106 (the map exists
    already: a definition was constructed before). *)
Definition mass_of (r : registry) (p : particle) : outcome R :=
  match lookup r (p_type p) with Some d => Ok (pd_mass d) | None => Throw invalid_argument end.
(** Particle.cxx:108-112 *)
Definition set_momentum (r : registry) (p : particle) (momentum : R) : outcome particle :=
  olet m := mass_of r p in
  Ok (with_energy p (sqrt (momentum * momentum + m ^ 2))).
(** Particle.cxx:114-118; [nan]: the square root of a negative number, for an
    energy below the mass *)
Definition get_momentum (nan : outcome R) (r : registry) (p : particle) : outcome R :=
  olet m := mass_of r p in
  let e := energy (p_state p) in
  let x := (e + m) * (e - m) in
  if x <? 0 then nan else Ok (sqrt x).
