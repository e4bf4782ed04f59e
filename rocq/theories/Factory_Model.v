(** Model of the factories that a configuration drives: the cross sections
    (detail/PROPOSAL/crosssection/Factories) and the scattering
    (PROPOSAL/scattering/ScatteringFactory.h).  Assertions are left out, as in a release
    build. *)
From Coq Require Import String Ascii.
From Verif Require Import Prelude Vec_Model Propagator_Model Secondaries_Model Deflection_Model Cross_Model Config_Model.
Local Open Scope string_scope.
Local Open Scope list_scope.

(** ** Cross sections *)
(** The keys of the maps of the factories: AnnihilationFactory.cxx, BremsstrahlungFactory.cxx:23-30,
    ComptonFactory.cxx, EpairProductionFactory.cxx:23-27, IonizationFactory.cxx:22-26,
    MupairProductionFactory.cxx, PhotonuclearFactory.cxx:35-52, PhotoeffectFactory.cxx:20-22,
    PhotoMuPairProductionFactory.cxx, PhotoproductionFactory.cxx:20-28,
    PhotoPairProductionFactory.cxx:23-26 and WeakInteractionFactory.cxx:20-22.  Each key is
    the name of the class that is constructed; a parametrization is identified with it. *)
Definition known (f : factory) : list string :=
  match f with
  | Annihilation => ["Heitler"]
  | Brems => ["KelnerKokoulinPetrukhin"; "PetrukhinShestakov"; "CompleteScreening"; "AndreevBezrukovBugaev";
              "SandrockSoedingreksoRhode"; "ElectronScreening"]
  | Compton => ["KleinNishina"]
  | Epair => ["KelnerKokoulinPetrukhin"; "SandrockSoedingreksoRhode"; "ForElectronPositron"]
  | Ioniz => ["BetheBlochRossi"; "BergerSeltzerBhabha"; "BergerSeltzerMoller"]
  | Mupair => ["KelnerKokoulinPetrukhin"]
  | PhotoReal => ["Zeus"; "BezrukovBugaev"; "Kokoulin"; "Rhode"]
  | PhotoQ2 => ["AbramowiczLevinLevyMaor91"; "AbramowiczLevinLevyMaor97"; "ButkevichMikheyev"; "RenoSarcevicSu"; "AbtFT";
                "BlockDurandHa"]
  | Photoeffect => ["Sauter"]
  | Photomupair => ["BurkhardtKelnerKokoulin"]
  | Photoproduction => ["Zeus"; "BezrukovBugaev"; "Caldwell"; "Kokoulin"; "Rhode"; "Heck"; "HeckC7Shadowing"]
  | Photopair => ["Tsai"; "kochmotz"]
  | Weak => ["CooperSarkarMertsch"]
  end.
(** shadow_map, PhotonuclearFactory.cxx:59-62 *)
Definition shadows : list string := ["duttarenosarcevicseckel"; "butkevichmikheyev"].
(** find of a map with Helper::case_insensitive_comp, detail/PROPOSAL/methods.cxx and
    PROPOSAL/methods.h *)
Definition look_up (keys : list string) (s : string) : option string :=
  List.find (fun k => String.eqb (lower k) (lower s)) keys.
(** What make_crosssection is called with: the parametrization, the medium, the cuts
    (none for nullptr) and whether tables are used; LPM effect and density correction,
    hard component and shadowing are arguments of the constructors that take them.  The
    constructors of ionization take the same cuts again. *)
Record selection (M : Type) := mkselection {
  s_factory : factory; s_name : string; s_medium : M; s_cuts : option energy_cut; s_tables : bool;
  s_lpm : option (bool * R); s_hard : option bool; s_shadow : option string }.
Arguments mkselection {M}. Arguments s_factory {M}. Arguments s_name {M}. Arguments s_medium {M}. Arguments s_cuts {M}.
Arguments s_tables {M}. Arguments s_lpm {M}. Arguments s_hard {M}. Arguments s_shadow {M}.

Section Factories.
(** make_crosssection and CrossSectionMultiplier are left open *)
Context {M X : Type} (construct : selection M -> outcome X) (scaled : R -> X -> X).
(** e.g. BremsstrahlungFactory.cxx:37-40 *)
Definition parametrization (config : json) : outcome string :=
  if negb (contains config "parametrization") then Throw logic_error
  else olet j := item config "parametrization" in get_string j.
(** The look-up, which throws [unknown] if it fails, the construction and the
    multiplier, e.g. BremsstrahlungFactory.cxx:42-51 *)
Definition build (f : factory) (unknown : exn) (config : json) (name : string) (sel : string -> outcome (selection M)) : outcome X :=
  match look_up (known f) name with
  | None => Throw unknown
  | Some p =>
    olet s := sel p in
    olet x := construct s in
    olet k := value get_double config "multiplier" 1 in
    if negb (k =? 1)%R then Ok (scaled k x) else Ok x
  end.
(** make_bremsstrahlung and make_epairproduction *)
Definition make_lpm (f : factory) (m : M) (cuts : option energy_cut) (tables : bool) (correction : R) (config : json) : outcome X :=
  olet n := parametrization config in
  olet lpm := value get_bool config "lpm" true in
  build f logic_error config n (fun p => Ok (mkselection f p m cuts tables (Some (lpm, correction)) None None)).
(** make_ionization, make_compton, make_mupairproduction, make_annihilation,
    make_photomupairproduction, make_weakinteraction, make_photoeffect and
    make_photoproduction.  Ionization dereferences its cuts, IonizationFactory.cxx:15. *)
Definition make_plain (f : factory) (m : M) (cuts : option energy_cut) (tables : bool) (config : json) : outcome X :=
  olet n := parametrization config in
  build f logic_error config n
    (fun p => match f, cuts with
              | Ioniz, None => UB null_deref
              | _, _ => Ok (mkselection f p m cuts tables None None None)
              end).
(** make_photonuclearreal, PhotonuclearFactory.cxx:92-111 *)
Definition make_real (m : M) (cuts : option energy_cut) (tables : bool) (config : json) : outcome X :=
  olet n := parametrization config in
  olet hard := value get_bool config "hard_component" true in
  build PhotoReal invalid_argument config n (fun p => Ok (mkselection PhotoReal p m cuts tables None (Some hard) None)).
(** make_photonuclearQ2, PhotonuclearFactory.cxx:65-88 *)
Definition make_q2 (m : M) (cuts : option energy_cut) (tables : bool) (config : json) : outcome X :=
  olet n := parametrization config in
  olet s := value get_string config "shadow" "ButkevichMikheyev" in
  build PhotoQ2 invalid_argument config n
    (fun p => match look_up shadows s with
              | None => Throw logic_error
              | Some s => Ok (mkselection PhotoQ2 p m cuts tables None None (Some s))
              end).
(** All of them, with the arguments that CreateCrossSectionList passes; a call without
    an argument that the function needs does not compile and is [UB] here. *)
Definition make_cross (f : factory) (m : M) (cuts : option energy_cut) (tables : option bool) (correction : option R)
  (config : json) : outcome X :=
  match f, cuts, tables, correction with
  | (Brems | Epair), Some c, Some t, Some r => make_lpm f m (Some c) t r config
  | Photopair, None, Some t, Some r => make_lpm f m None t r config
  | (Ioniz | Compton | Mupair), Some c, Some t, None => make_plain f m (Some c) t config
  | (Annihilation | Photomupair | Weak), None, Some t, None => make_plain f m None t config
  | (Photoeffect | Photoproduction), None, None, None => make_plain f m None false config
  | PhotoReal, Some c, Some t, None => make_real m (Some c) t config
  | PhotoQ2, Some c, Some t, None => make_q2 m (Some c) t config
  | _, _, _, _ => UB null_deref
  end.
End Factories.

(** ** Scattering *)
(** MultipleScatteringType, multiple_scattering/ScatteringFactory.h:50-56 *)
Inductive multiple_kind := NoScattering | KindMoliere | KindHighland | KindHighlandIntegral | KindMoliereInterpol.
(** MultipleScatteringTable, multiple_scattering/ScatteringFactory.h:58-63 *)
Definition multiple_table : list (string * multiple_kind) :=
  [("moliere", KindMoliere); ("highland", KindHighland); ("highlandintegral", KindHighlandIntegral); ("noscattering", NoScattering);
   ("moliereinterpol", KindMoliereInterpol)].
(** DeflectionTable, stochastic_deflection/ScatteringFactory.h:97-110 *)
Definition deflection_table : list (string * deflector) :=
  [("bremstsaiapproximation", BremsTsai); ("ioniznaive", IonizNaive); ("photoborogpetrukhin", PhotoBorog);
   ("epairginneken", EpairGinneken); ("bremsginneken", BremsGinneken); ("photoginneken", PhotoGinneken)].
Definition find_in {A} (l : list (string * A)) (s : string) : option A :=
  match List.find (fun p => String.eqb (fst p) s) l with Some p => Some (snd p) | None => None end.
(** make_multiple_scattering(name), multiple_scattering/ScatteringFactory.h:94-105 with
    65-92; none for nullptr *)
Definition multiple_of (name : string) : outcome (option multiple_kind) :=
  match find_in multiple_table (lower name) with
  | Some NoScattering => Ok None
  | Some k => Ok (Some k)
  | None => Throw out_of_range
  end.
(** make_stochastic_deflection, stochastic_deflection/ScatteringFactory.h:112-131 *)
Definition deflection_of (name : string) : outcome deflector :=
  match find_in deflection_table (lower name) with Some d => Ok d | None => Throw out_of_range end.
(** DefaultFactory::Create, PROPOSAL/DefaultFactory.h:41-54, with the classes that
    derive from DefaultDeflection: BremsTsaiApproximation, EpairGinneken, IonizNaive and
    PhotoBorogPetrukhin *)
Definition default_deflection (t : itype) : outcome deflector :=
  match t with
  | Propagator_Model.Brems => Ok BremsTsai
  | Propagator_Model.Epair => Ok EpairGinneken
  | Propagator_Model.Ioniz => Ok IonizNaive
  | Photonuclear => Ok PhotoBorog
  | _ => Throw logic_error
  end.
(** ScatteringFactory.h:38-43 and 64-68: the first type whose name in small letters is
    the given string.  The names are distinct. *)
Definition type_named (s : string) : option itype :=
  match List.find (fun p => String.eqb (lower (snd p)) s) type_names with Some p => Some (fst p) | None => None end.
(** ScatteringFactory.h:28-54; rfind("default", 0) == 0: begins with it *)
Definition deflection_entry (j : json) : outcome deflector :=
  olet s := get_string j in
  let s := lower s in
  match deflection_of s with
  | Throw out_of_range =>
    if String.prefix "default" s then
      match type_named (String.substring 7 (String.length s - 7) s) with
      | None => Throw out_of_range
      | Some t => default_deflection t
      end
    else Throw out_of_range
  | r => r
  end.
Fixpoint deflection_entries (l : list json) : outcome (list deflector) :=
  match l with
  | [] => Ok []
  | j :: l' => olet d := deflection_entry j in olet ds := deflection_entries l' in Ok (d :: ds)
  end.
(** The pairs visited by items(): the key of an element of an array is its index, which
    is no name of a type, like the empty key of other values; any string that is no name
    stands for it here.  Those of an object come in the order of its list. *)
Definition items (j : json) : list (string * json) :=
  match j with
  | JObject l => l
  | JArray l => map (fun j => ("", j)) l
  | JNull => []
  | _ => [("", j)]
  end.
(** ScatteringFactory.h:60-75 *)
Fixpoint deflection_factors (l : list (string * json)) : outcome (list (itype * R)) :=
  match l with
  | [] => Ok []
  | (k, j) :: l' =>
    match type_named (lower k) with
    | None => Throw out_of_range
    | Some t => olet x := get_double j in olet r := deflection_factors l' in Ok ((t, x) :: r)
    end
  end.
(** make_scattering, ScatteringFactory.h:16-84: the multiple scattering, its factor, the
    deflections and their factors *)
Definition scattering_parts (config : json) : outcome (option multiple_kind * R * list deflector * list (itype * R)) :=
  olet ms := (if contains config "multiple_scattering" then
                olet j := item config "multiple_scattering" in olet s := get_string j in multiple_of s
              else Ok None) in
  olet k := value get_double config "multiple_scattering_multiplier" 1 in
  olet ds := (if contains config "stochastic_deflection" then
                olet j := at_key config "stochastic_deflection" in deflection_entries (elements j)
              else Ok []) in
  olet ks := (if contains config "stochastic_deflection_multiplier" then
                olet j := item config "stochastic_deflection_multiplier" in deflection_factors (items j)
              else Ok []) in
  Ok (ms, k, ds, ks).
Section Scattering.
(** The result of operations that are not numbers, the calculators of multiple
    scattering for the particle and the medium, the charges of components and the mass
    of the particle *)
Context (nan : forall A, outcome A) (multiple : multiple_kind -> R -> R -> R -> list R -> outcome offset)
  (charge : N -> outcome R) (m : R).
Definition scattering_of_json (config : json) : outcome scattering :=
  olet p := scattering_parts config in
  let '(ms, k, ds, ks) := p in
  Ok (make_scattering nan (option_map multiple ms) charge m ds k ks).
End Scattering.
