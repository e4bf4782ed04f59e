(** What docs/config_docu.md says about the options of the cross sections and about the
    scattering. *)
From Coq Require Import String.
From Verif Require Import Prelude Vec_Model Propagator_Model Secondaries_Model Deflection_Model Cross_Model Config_Model Config_Spec
  Catalogue_Spec Factory_Model.
Local Open Scope string_scope.
Local Open Scope list_scope.

(** An optional keyword: the value if it is there and well formed, otherwise the default *)
Definition optional {A} (config : json) (k : string) (reads : json -> A -> Prop) (default a : A) : Prop :=
  match find config k with Some j => reads j a | None => a = default end.
Definition boolean (j : json) (b : bool) : Prop := j = JBool b.
Definition real (j : json) (x : R) : Prop := Config_Spec.number j x.
Definition text (j : json) (s : string) : Prop := j = JString s.

(** ** Cross sections *)
(** "Available parametrizations are", docs/config_docu.md:328-507; KochMotz is written
    there with capitals, which do not matter *)
Definition available (f : factory) : list string :=
  match f with
  | Annihilation => ["Heitler"]
  | Brems => ["PetrukhinShestakov"; "KelnerKokoulinPetrukhin"; "CompleteScreening"; "AndreevBezrukovBugaev";
              "SandrockSoedingreksoRhode"; "ElectronScreening"]
  | Compton => ["KleinNishina"]
  | Epair => ["KelnerKokoulinPetrukhin"; "SandrockSoedingreksoRhode"; "ForElectronPositron"]
  | Ioniz => ["BetheBlochRossi"; "BergerSeltzerMoller"; "BergerSeltzerBhabha"]
  | Mupair => ["KelnerKokoulinPetrukhin"]
  | PhotoReal => ["Zeus"; "BezrukovBugaev"; "Kokoulin"; "Rhode"]
  | PhotoQ2 => ["AbramowiczLevinLevyMaor91"; "AbramowiczLevinLevyMaor97"; "ButkevichMikheyev"; "RenoSarcevicSu"; "AbtFT";
                "BlockDurandHa"]
  | Photoeffect => ["Sauter"]
  | Photomupair => ["BurkhardtKelnerKokoulin"]
  | Photoproduction => ["Zeus"; "BezrukovBugaev"; "Caldwell"; "Kokoulin"; "Rhode"; "Heck"; "HeckC7Shadowing"]
  | Photopair => ["Tsai"; "kochmotz"]
  | Weak => ["CooperSarkarMertsch"]
  end.
(** docs/config_docu.md:441-444, again without capitals *)
Definition available_shadows : list string := ["duttarenosarcevicseckel"; "butkevichmikheyev"].
(** The parametrization [p] is the one whose name is given, in whatever capitals *)
Definition asked_for (config : json) (names : list string) (p : string) : Prop :=
  exists s, find config "parametrization" = Some (JString s) /\ In p names /\ same_letters s p.
(** Which factories know which options *)
Definition has_lpm (f : factory) : bool := match f with Brems | Epair | Photopair => true | _ => false end.
Definition has_hard (f : factory) : bool := match f with PhotoReal => true | _ => false end.
Definition has_shadow (f : factory) : bool := match f with PhotoQ2 => true | _ => false end.
(** Which factories have cuts and may use tables *)
Definition has_cuts (f : factory) : bool :=
  match f with Brems | Epair | Ioniz | Compton | Mupair | PhotoReal | PhotoQ2 => true | _ => false end.
Definition has_tables (f : factory) : bool := match f with Photoeffect | Photoproduction => false | _ => true end.
(** [sel] is what the options ask for *)
Definition selected {M} (f : factory) (m : M) (cuts : energy_cut) (tables : bool) (correction : R) (config : json)
  (sel : selection M) : Prop :=
  s_factory sel = f /\ s_medium sel = m /\ asked_for config (available f) (s_name sel) /\
  s_cuts sel = (if has_cuts f then Some cuts else None) /\
  s_tables sel = (if has_tables f then tables else false) /\
  (if has_lpm f then exists l, s_lpm sel = Some (l, correction) /\ optional config "lpm" boolean true l else s_lpm sel = None) /\
  (if has_hard f then exists h, s_hard sel = Some h /\ optional config "hard_component" boolean true h else s_hard sel = None) /\
  (if has_shadow f then
     exists w t, s_shadow sel = Some w /\ optional config "shadow" text "ButkevichMikheyev" t /\
       In w available_shadows /\ same_letters t w
   else s_shadow sel = None).
(** "Multiplier to scale the cross section with a coefficient" *)
Definition with_multiplier {X} (scaled : R -> X -> X) (config : json) (x y : X) : Prop :=
  exists k, optional config "multiplier" real 1 k /\ (k = 1 /\ y = x \/ k <> 1 /\ y = scaled k x).

(** ** Scattering *)
(** docs/config_docu.md:163-170 *)
Definition multiple_name (k : multiple_kind) : string :=
  match k with
  | NoScattering => "NoScattering" | KindMoliere => "Moliere" | KindHighland => "Highland"
  | KindHighlandIntegral => "HighlandIntegral" | KindMoliereInterpol => "MoliereInterpol"
  end.
Definition reads_multiple (j : json) (ms : option multiple_kind) : Prop :=
  exists s k, j = JString s /\ same_letters s (multiple_name k) /\
    ms = match k with NoScattering => None | _ => Some k end.
(** The names of the classes *)
Definition deflector_name (d : deflector) : string :=
  match d with
  | BremsTsai => "BremsTsaiApproximation" | BremsGinneken => "BremsGinneken" | EpairGinneken => "EpairGinneken"
  | IonizNaive => "IonizNaive" | PhotoBorog => "PhotoBorogPetrukhin" | PhotoGinneken => "PhotoGinneken"
  end.
(** "an appropriate default parametrization for this interaction type" *)
Definition standard_deflector (d : deflector) : Prop :=
  d = BremsTsai \/ d = EpairGinneken \/ d = IonizNaive \/ d = PhotoBorog.
Definition type_called (s : string) (t : itype) : Prop := exists n, In (t, n) type_names /\ same_letters s n.
(** "either a list of parametrization names or a list of interaction types, indicated
    with the prefix default" *)
Definition stands_for (s : string) (d : deflector) : Prop :=
  same_letters s (deflector_name d) \/
  standard_deflector d /\ exists n, In (type_of d, n) type_names /\ same_letters s ("Default" ++ n).
Definition reads_deflections (j : json) (ds : list deflector) : Prop :=
  exists js, j = JArray js /\ Forall2 (fun j d => exists s, j = JString s /\ stands_for s d) js ds.
Definition reads_factors (j : json) (ks : list (itype * R)) : Prop :=
  exists l, j = JObject l /\ Forall2 (fun p q => type_called (fst p) (fst q) /\ real (snd p) (snd q)) l ks.
Definition scattering_read (config : json) (ms : option multiple_kind) (k : R) (ds : list deflector) (ks : list (itype * R)) : Prop :=
  is_object config = true /\
  optional config "multiple_scattering" reads_multiple None ms /\
  optional config "multiple_scattering_multiplier" real 1 k /\
  optional config "stochastic_deflection" reads_deflections [] ds /\
  optional config "stochastic_deflection_multiplier" reads_factors [] ks.
(** The shapes that the code asserts *)
Definition well_shaped (config : json) : Prop :=
  (forall j, find config "stochastic_deflection" = Some j -> exists l, j = JArray l) /\
  (forall j, find config "stochastic_deflection_multiplier" = Some j -> exists l, j = JObject l).
(** Keywords of the cross sections *)
Definition cross_keywords : list string := ["parametrization"; "multiplier"; "lpm"; "hard_component"; "shadow"].
Definition scattering_keywords : list string :=
  ["multiple_scattering"; "multiple_scattering_multiplier"; "stochastic_deflection"; "stochastic_deflection_multiplier"].
