(** Model of the names of the interpolation tables that are kept on disk, and of what
    the tables hold (PROPOSAL/methods.h, detail/PROPOSAL/crosssection/CrossSection.cxx,
    CrossSectionDNDX, CrossSectionDEDX, CrossSectionDE2DX and the constructors of the
    parametrizations).  The parametrizations of PhotoQ2Integration.cxx are
    left out. *)
From Coq Require Import String.
From Verif Require Import Prelude Propagator_Model Particle_Model Limits_Model Cross_Model Photo_Model Products_Model
  Differential_Model Integral_Model Utility_Model Ionization_Model Continuous_Model Photopair_Model Nuclear_Model
  Medium_Model Pairs_Model Sandrock_Model Multiple_Model.

(** ** hash_combine *)
(** One step of hash_combine, methods.h:77-83, with 64 bit: [h] is the hash of the
    value. *)
Definition mix (seed h : Z) : Z :=
  Z.lxor seed ((h + 2654435769 + Z.shiftl seed 6 mod 2 ^ 64 + Z.shiftr seed 2) mod 2 ^ 64).
(** What is combined: integers, floating point numbers, strings, booleans, and the
    results of other calls of hash_combine that started from zero. *)
Inductive value := Word (n : Z) | Double (x : ext) | Text (s : string) | Flag (b : bool) | Digest (l : list value).
Notation Real x := (Double (Fin x)).
(** [of_double] and [of_text] are std::hash of the two types; the other types are
    hashed to their own value, as in the GNU library. *)
Fixpoint hash (of_double : ext -> Z) (of_text : string -> Z) (v : value) : Z :=
  match v with
  | Word n => n mod 2 ^ 64
  | Double x => of_double x
  | Text s => of_text s
  | Flag b => if b then 1 else 0
  | Digest l => fold_left (fun seed w => mix seed (hash of_double of_text w)) l 0
  end%Z.

(** ** Particles, media and cuts *)
Definition pd_table (d : pdef) : list (list R) := match d with PDef _ _ _ _ _ t _ _ _ => t end.
Definition pd_weak (d : pdef) : Z := match d with PDef _ _ _ _ _ _ _ _ w => w end.
(** ParticleDef::GetHash, ParticleDef.cxx:250-254 *)
Definition particle_key (d : pdef) : value :=
  Digest [Real (pd_mass d); Real (pd_low d); Double (match pd_lifetime d with Some t => Fin t | None => PInf end);
          Real (pd_charge d); Word (pd_weak d)].
(** Constants.cxx, ZETA3; Component::WoodSaxonPotential and the factor of the
    constructor, Components.cxx:47-54, 246-261 *)
Definition ZETA3 : R := 1202056903159594 / 10 ^ 15.
Definition wood_saxon (c : component) : R :=
  if c_charge c =? 1 then 0
  else
    let r0 := Rpower (c_atomic c) (1 / 3) in
    let r0 := 112 / 100 * r0 - 86 / 100 / r0 in
    let a := 54 / 100 in
    1 - 4 * PI * (17 / 100) * (a * (r0 * r0 * ln 2 + a * r0 * PI * PI / 6 + a * a * (15 / 10) * ZETA3)) / c_atomic c.
(** The constructor of Component, Components.cxx:56-58 *)
Definition component_key (c : component) : value :=
  Digest [Real (c_charge c); Real (c_atomic c); Real (c_atoms c); Real (log_constant c); Real (b_prime c);
          Real (nucleon_weight c); Real (wood_saxon c)].
(** The members of a Medium: what ionization reads, the mass density, and what
    Medium::init derives *)
Record medium_data := mkdata { md_material : material; md_density : R; md_summary : summary }.
Notation md_components m := (mat_components (md_material m)).
(** Medium::GetHash, Medium.cxx:201-210 *)
Definition medium_key (m : medium_data) : value :=
  let mat := md_material m in
  let s := md_summary m in
  Digest ([Word (Z.of_nat (List.length (md_components m))); Real (su_charge s); Real (su_ZA s); Real (mat_I mat); Real (mat_C mat);
           Real (mat_a mat); Real (mat_m mat); Real (mat_X0 mat); Real (mat_X1 mat); Real (mat_d0 mat); Real (md_density m);
           Real (su_mol_density s); Real (su_length s); Real (su_MM s); Real (su_nucleons s)]
          ++ map component_key (md_components m)).
(** EnergyCutSettings::GetHash, EnergyCutSettings.cxx:99-104 *)
Definition cut_key (c : energy_cut) : value := Digest [Double (ecut c); Real (vcut c)].

(** ** Parametrizations *)
Inductive brems_kind :=
| PetrukhinShestakov | KelnerKokoulinPetrukhin | CompleteScreening | AndreevBezrukovBugaev | SandrockSoedingreksoRhode
| ElectronScreening.
Inductive epair_kind := EpairKelner | EpairSandrock | ForElectronPositron.
Inductive nucleon_kind := Zeus | BezrukovBugaev | Rhode | Kokoulin.
Inductive ioniz_kind := BetheBlochRossi | BergerSeltzerBhabha | BergerSeltzerMoller.
Inductive photopair_kind := KochMotz | Tsai.
(** A parametrization with the arguments of its constructor; [lpm] is the density
    correction if the suppression is switched on, and the particle and the medium
    given to the constructor are those of the cross section. *)
Inductive process :=
| Brems (k : brems_kind) (lpm : option R)
| Epair (k : epair_kind) (lpm : option R)
| Mupair
| Photo (k : nucleon_kind) (hard : bool)
| Ioniz (k : ioniz_kind) (own : energy_cut)
| ComptonKleinNishina
| PhotoPair (k : photopair_kind) (lpm : option R)
| PhotoMuPair
| Weak.
(** ParametrizationName and ParametrizationId of the header files *)
Definition brems_name (k : brems_kind) : string :=
  match k with
  | PetrukhinShestakov => "PetrukhinShestakov" | KelnerKokoulinPetrukhin => "KelnerKokoulinPetrukhin"
  | CompleteScreening => "CompleteScreening" | AndreevBezrukovBugaev => "AndreevBezrukovBugaev"
  | SandrockSoedingreksoRhode => "SandrockSoedingreksoRhode" | ElectronScreening => "ElectronScreening"
  end.
Definition epair_name (k : epair_kind) : string :=
  match k with
  | EpairKelner => "KelnerKokoulinPetrukhin" | EpairSandrock => "SandrockSoedingreksoRhode"
  | ForElectronPositron => "ForElectronPositron"
  end.
Definition nucleon_name (k : nucleon_kind) : string :=
  match k with Zeus => "Zeus" | BezrukovBugaev => "BezrukovBugaev" | Rhode => "Rhode" | Kokoulin => "Kokoulin" end.
Definition process_name (p : process) : string :=
  match p with
  | Brems k _ => brems_name k
  | Epair k _ => epair_name k
  | Mupair => "KelnerKokoulinPetrukhin"
  | Photo k _ => nucleon_name k
  | Ioniz BetheBlochRossi _ => "BetheBlochRossi"
  | Ioniz BergerSeltzerBhabha _ => "BergerSeltzerBhabha"
  | Ioniz BergerSeltzerMoller _ => "BergerSeltzerMoller"
  | ComptonKleinNishina => "KleinNishina"
  | PhotoPair KochMotz _ => "kochmotz"
  | PhotoPair Tsai _ => "Tsai"
  | PhotoMuPair => "BurkhardtKelnerKokoulin"
  | Weak => "CooperSarkarMertsch"
  end.
Definition process_id (p : process) : Z :=
  match p with
  | Brems _ _ => 1000000002
  | Epair _ _ => 1000000004
  | Mupair => 1000000006
  | Photo _ _ => 1000000005
  | Ioniz _ _ => 1000000003
  | ComptonKleinNishina => 1000000010
  | PhotoPair _ _ => 1000000013
  | PhotoMuPair => 1000000015
  | Weak => 1000000009
  end.
(** The hash of a parametrization.  With the suppression: Bremsstrahlung.cxx:27-37,
    447-458 and 576 (the hash of the parametrization is still zero there),
    EpairProduction.cxx:47-58 and 572, PhotoPairProduction.cxx:56-68, 100-112 and
    347.  Without: the same lines, MupairProduction.cxx:12-16,
    PhotoRealPhotonAssumption.cxx:14-18 and 37, Ionization.cxx:13-17, 64, 231, 359,
    PhotoMuPairProduction.h:53, WeakInteraction.cxx:42; Compton.cxx combines
    nothing. *)
Definition brems_text (k : brems_kind) : string :=
  match k with ElectronScreening => "electron_screening" | _ => brems_name k end.
Definition param_key (p : process) (d : pdef) (m : medium_data) : value :=
  let s := md_summary m in
  Digest
    match p with
    | Brems k None => [Text (brems_text k)]
    | Brems k (Some x) =>
      [Real x;
       Digest [Real (pd_mass d); Real (su_mol_density s); Real (md_density m); Real (su_charge s); Digest []];
       Text (brems_text k)]
    | Epair k None => [particle_key d; medium_key m; Text (epair_name k)]
    | Epair k (Some x) =>
      [Real x; Digest [Real (pd_mass d); Real (Rabs (pd_charge d)); Real (su_mol_density s)];
       particle_key d; medium_key m; Text (epair_name k)]
    | Mupair => [Text "KelnerKokoulinPetrukhin"]
    | Photo k hard => [Flag hard; Text (nucleon_name k)]
    | Ioniz BetheBlochRossi own => [cut_key own; Text "bethe_bloch_rossi"]
    | Ioniz BergerSeltzerBhabha own => [cut_key own; Text "berger_seltzer_bhabha"]
    | Ioniz BergerSeltzerMoller own => [cut_key own; Text "berger_seltzer_moller"]
    | ComptonKleinNishina => []
    | PhotoPair k lpm =>
      match lpm with
      | None => []
      | Some x => [Real x; Digest [Real (su_mol_density s); Real (md_density m); Real (su_charge s); Digest []]]
      end ++ [Text (match k with KochMotz => "kochmotz" | Tsai => "tsai" end)]
    | PhotoMuPair => [Text "burkhardtkelnerkokoulin"]
    | Weak => [Text "cooper_sarkar_mertsch"]
    end.
(** Whether a parametrization belongs to the medium as a whole
    (Parametrization<Medium>) *)
Definition of_medium (p : process) : bool := match p with Ioniz _ _ => true | _ => false end.

(** ** The tables of a cross section *)
(** Which table, with the numbers of nodes of InterpolationSettings *)
Inductive table_kind := DNDX (nodes_E nodes_v : Z) | DEDX (nodes : Z) | DE2DX (nodes : Z).
(** What a table is made for; [t_upper] is InterpolationSettings::UPPER_ENERGY_LIM,
    and there is a cut whenever there are tables of continuous losses. *)
Record table := mktable {
  t_kind : table_kind;
  t_process : process;
  t_particle : pdef;
  t_medium : medium_data;
  t_component : component;
  t_cut : option energy_cut;
  t_upper : R
}.
(** generate_cross_hash, CrossSection.cxx:11-21; gen_hash of the three classes
    (CrossSectionDNDXInterpolant.cxx:52-58, CrossSectionDEDXInterpolant.cxx:18-23,
    CrossSectionDE2DXInterpolant.cxx:18-23); the component,
    CrossSectionDNDX.cxx:31-39, CrossSectionDEDX.cxx:14-18, 38-44,
    CrossSectionDE2DX.cxx:14-18, 37-42.  gen_hash is a member function that is called
    before the base class is constructed, and uses no members. *)
Definition kind_key (k : table_kind) (upper : R) : list value :=
  match k with
  | DNDX a b => [Word a; Word b; Real upper]
  | DEDX n => [Word n; Real upper]
  | DE2DX n => [Word n; Real upper]
  end.
Definition table_key (t : table) : value :=
  let p := t_process t in
  Digest ([Text (process_name p); Word (process_id p); param_key p (t_particle t) (t_medium t); particle_key (t_particle t);
           medium_key (t_medium t)]
          ++ match t_cut t with Some c => [cut_key c] | None => [] end
          ++ kind_key (t_kind t) (t_upper t)
          ++ if of_medium p then [] else [component_key (t_component t)]).
(** gen_name of the three classes: the prefix and the digits of the hash *)
Definition prefix (k : table_kind) : string :=
  match k with DNDX _ _ => "dndx_" | DEDX _ => "dedx_" | DE2DX _ => "de2dx_" end.
Definition file_name (of_double : ext -> Z) (of_text : string -> Z) (t : table) : string * Z :=
  (prefix (t_kind t), hash of_double of_text (table_key t)).

(** ** What the tables hold *)
Section Content.
Variable nan : forall A, outcome A.
Variable qags : (R -> outcome R) -> R -> R -> outcome R.
(** Functions of other parts: the result of an integration that ends; the
    interpolated tables of BremsElectronScreening, PhotoPairKochMotz (the data and the
    integral it is compared with), PhotoproductionRhode, HardComponent and
    WeakCooperSarkarMertsch (for a particle and an antiparticle); the integrals in
    BremsLPM and PhotoPairLPM; dilog *)
Variable finished : run R -> outcome R.
Variable correction : R -> R -> outcome R.
Variable koch_motz_data koch_motz_total : component -> R -> outcome R.
Variable rhode_table : R -> outcome R.
Variable interpolate : list R -> R -> outcome R.
Variable weak_table : bool -> R -> R -> outcome (R * R).
Variable contribution : process -> R -> component -> outcome R.
Variable dilog : R -> R.

(** HardComponent::CalculateHardComponent, Photonuclear.cxx:43-65, for the table y of
    the particle; std::log(energy) / LOG10 - 3 with positive arguments *)
Fixpoint hard_sum (ys : list (list R)) (aux lov loe sum : R) : outcome R :=
  match ys with
  | [] => Ok sum
  | y :: ys => olet x := interpolate y loe in hard_sum ys (aux * lov) lov loe (sum + aux * x)
  end.
Definition hard_component (ys : list (list R)) (E v : R) : outcome R :=
  if (E <? 10 ^ 5) || (v <? / 10 ^ 7) then Ok 0
  else
    olet lv := log nan v in
    olet le := log nan E in
    olet s := hard_sum ys 1 (lv / LOG10) (le / LOG10 - 3) 0 in
    quo nan s v.
(** WeakCooperSarkarMertsch::DifferentialCrossSection, WeakInteraction.cxx:57-86 *)
Definition weak_differential (charge : R) (c : component) (E v : R) : outcome R :=
  olet l := log nan E in
  olet t := weak_table (charge <? 0) (l / ln 10) v in
  olet mean := quo nan (c_charge c * fst t + (c_atomic c - c_charge c) * snd t) (c_atomic c) in
  olet n := quo nan NA (c_atomic c) in
  Ok (n / 10 ^ 36 * Rmax mean 0).
Definition nucleon (k : nucleon_kind) : component -> R -> outcome R :=
  match k with
  | Zeus => zeus
  | BezrukovBugaev => bezrukov_bugaev nan
  | Rhode => rhode nan rhode_table
  | Kokoulin => kokoulin nan
  end.
Definition brems_function (k : brems_kind) (mass : R) (c : component) : R -> R -> outcome R :=
  match k with
  | PetrukhinShestakov => petrukhin_shestakov nan mass c
  | KelnerKokoulinPetrukhin => kelner nan mass c
  | CompleteScreening => fun _ v => complete_screening nan c v
  | AndreevBezrukovBugaev => andreev nan mass c
  | SandrockSoedingreksoRhode => sandrock nan mass c
  | ElectronScreening => electron_screening nan correction mass c
  end.
(** The limits, the cross section and the integrand of the continuous loss of a
    parametrization, and how its continuous loss is computed.  The object of the
    suppression is made again at every call here. *)
Definition content (p : process) (d : pdef) (m : medium_data) (c : component) : parametrization * scheme :=
  let mass := pd_mass d in
  let charge := pd_charge d in
  let mat := md_material m in
  match p with
  | Brems k lpm =>
    let screening := match k with ElectronScreening => true | _ => false end in
    let suppression := option_map (fun x E v =>
      olet l := new_lpm nan mass 1 (md_density m) (contribution p mass) (md_components m) in
      brems_suppression nan mass l x c E v) lpm in
    (standard (match k with ElectronScreening => brems_default_limits mass | _ => brems_limits None mass (c_charge c) end)
              (bremsstrahlung nan screening (brems_function k mass c) suppression mass charge c), Plain)
  | Epair k lpm =>
    (standard (epair_limits mass (c_charge c)) (fun E v =>
       olet l := match lpm with
                 | None => Ok None
                 | Some x => olet e := epair_lpm_energy nan mass charge (md_density m) (md_components m) in Ok (Some (e, x))
                 end in
       finished (epair_differential nan qags
         (match k with
          | EpairKelner => kelner_pair nan l mass charge c E v
          | EpairSandrock => sandrock_pair nan l mass charge c E v
          | ForElectronPositron => electron_pair nan l charge c E v
          end)
         mass c E v)), Split)
  | Mupair =>
    (standard (mupair_limits mass) (fun E v => finished (muon_pair_differential nan qags (muon_pair nan mass charge c E v) c E v)), Logarithmic)
  | Photo k hard =>
    (standard (photonuclear_limits mass (nucleon_weight c))
              (real_photon nan (nucleon k) (if hard then hard_component (pd_table d) else soft) mass charge c), Logarithmic)
  | Ioniz BetheBlochRossi own => (rossi_parametrization nan mass charge mat, rossi_scheme nan own mass charge mat)
  | Ioniz BergerSeltzerBhabha own => (bhabha_parametrization nan own mass mat, bhabha_scheme nan own mass mat)
  | Ioniz BergerSeltzerMoller own => (moller_parametrization nan own mass mat, moller_scheme nan own mass mat)
  | ComptonKleinNishina => (standard compton_limits (klein_nishina nan c), Reflected)
  | PhotoPair k lpm =>
    let suppression := option_map (fun x E v =>
      olet l := new_lpm nan ME (9 / 7) (md_density m) (contribution p ME) (md_components m) in
      pair_suppression nan l x c E v) lpm in
    (standard photo_pair_limits
       match k with
       | KochMotz => koch_motz nan (koch_motz_data c) (koch_motz_total c) suppression c
       | Tsai => tsai nan dilog suppression c
       end, Plain)
  | PhotoMuPair => (standard photo_mupair_limits (photo_muon_pair nan c), Plain)
  | Weak => (standard weak_limits (weak_differential charge c), Plain)
  end.
Definition spacing_of (p : process) : spacing :=
  match p with Ioniz _ _ => RelativeIonization | ComptonKleinNishina => LogCompton | _ => Relative end.
(** define_dndx_integral, CrossSectionDNDXIntegral.cxx:16-86 *)
Definition rate_integral (p : process) (q : parametrization) (E a b : R) : run R :=
  let f := p_differential q E in
  let value (x : run (R * engine)) := flet (y, _) := x in done (Ok y) in
  match p with
  | ComptonKleinNishina =>
    flet t_min := done (log nan (1 - a)) in
    flet t_max := done (log nan (1 - b)) in
    value (integrate nan qags default_integral t_max t_min (fun t => olet y := f (1 - exp t) in Ok (exp t * y)) 2 0)
  | Ioniz _ _ => value (integrate nan qags default_integral a b f 3 1)
  | PhotoPair _ _ => value (integrate nan qags default_integral a b f 3 0)
  | _ => value (integrate nan qags default_integral a b f 4 0)
  end.
(** The function of a table at the energy [E] (and, for dNdx, at [w] between 0 and
    1): CrossSectionDNDXInterpolant.h:62-83, CrossSectionDEDXInterpolant.h:16-29,
    CrossSectionDE2DXInterpolant.h *)
Definition table_value (t : table) (E w : R) : run R :=
  let p := t_process t in
  let (q, s) := content p (t_particle t) (t_medium t) (t_component t) in
  match t_kind t, t_cut t with
  | DNDX _ _, cut =>
    let lim := integration_limits (p_limits q) cut E in
    flet v := done (transform_loss nan (spacing_of p) (v_min lim) (v_max lim) w) in
    if v_min lim <? v then rate_integral p q E (v_min lim) v else done (Ok 0)
  | DEDX _, Some cut => continuous_loss nan qags s q cut E
  | DE2DX _, Some cut => continuous_variance nan qags q cut E
  | _, None => done (UB null_deref)
  end.
End Content.

(** GetLowerEnergyLim of the parametrizations: where the axis of the energies begins.
    Bremsstrahlung.cxx:78-82, EpairProduction.cxx:60-64, MupairProduction.cxx:36-40,
    Photonuclear.cxx:20-22, Ionization.cxx:19-23, Compton.cxx:11-17,
    PhotoPairProduction.cxx:24-28, PhotoMuPairProduction.cxx:12-15,
    WeakInteraction.cxx:16-20 *)
Definition table_low (t : table) : R :=
  let mass := pd_mass (t_particle t) in
  match t_process t with
  | Epair _ _ => mass + 2 * ME
  | Mupair => mass + 2 * MMU
  | ComptonKleinNishina => ALPHA ^ 2 * ME / 2
  | PhotoPair _ _ => 2 * ME
  | PhotoMuPair => 2 * MMU * SQRTE
  | _ => mass
  end.

(** ** The tables of the propagation utilities *)
(** A cross section with its GetHash *)
Record keyed := mkkeyed { k_hash : Z; k_cross : cross_base }.
(** What a table is made for: the cross sections of the displacement, those of the
    utility itself where it has its own, the mass and the lifetime of the particle *)
Inductive utility :=
| Displacement (cross : list keyed)
| Interaction (disp cross : list keyed)
| Decay (disp : list keyed) (lifetime mass : R)
| Time (disp : list keyed) (mass : R)
| ContRand (disp cross : list keyed)
| Highland (disp : list keyed) (mass : R).
(** CrossSectionVector::GetHash, CrossSectionVector.h:34-40; Displacement.h:25,
    Interaction.cxx:14, Decay.cxx:21, TimeBuilder.cxx:22, ContRand.cxx:37-39,
    HighlandIntegral.cxx:39 *)
Definition words (cross : list keyed) : list value := map (fun x => Word (k_hash x)) cross.
Definition utility_values (u : utility) : list value :=
  match u with
  | Displacement cross => words cross
  | Interaction _ cross => words cross
  | Decay disp lifetime mass => [Digest (words disp); Real lifetime; Real mass]
  | Time disp _ => words disp
  | ContRand disp _ => [Digest (words disp)]
  | Highland disp _ => words disp
  end.
(** The calls of BuildTables: DisplacmentBuilder.cxx:23, InteractionBuilder.cxx:32,
    DecayBuilder.cxx:23, TimeBuilder.cxx:27, ContRandBuilder.cxx:12,
    HighlandIntegral.cxx:40 *)
Definition utility_prefix (u : utility) : string :=
  match u with
  | Displacement _ => "disp_" | Interaction _ _ => "inter_" | Decay _ _ _ => "decay_" | Time _ _ => "time_"
  | ContRand _ _ => "cont_rand_" | Highland _ _ => "scattering_"
  end.
(** UtilityInterpolant::BuildTables and gen_name,
    PropagationUtilityInterpolant.cxx:20-24, 43-44 *)
Definition utility_key (u : utility) (nodes : Z) (reverse : bool) (upper : R) : value :=
  Digest (utility_values u ++ [Word nodes; Flag reverse; Real upper]).
Definition utility_file (of_double : ext -> Z) (of_text : string -> Z) (u : utility) (nodes : Z) (reverse : bool) (upper : R)
  : string * Z :=
  (utility_prefix u, hash of_double of_text (utility_key u nodes reverse upper)).
(** The function that is integrated for the table *)
Section Utility.
Variable nan : forall A, outcome A.
Definition utility_function (u : utility) (E : R) : outcome R :=
  let disp := fun l => displacement_function nan (map k_cross l) in
  match u with
  | Displacement cross => disp cross E
  | Interaction d cross => interaction_function nan (map k_cross d) (map k_cross cross) E
  | Decay d _ mass => decay_function nan (disp d) mass E
  | Time d mass => time_function nan (disp d) mass E
  | ContRand d cross => cont_rand_function (disp d) (map k_cross cross) E
  | Highland d mass => highland_integrand nan (disp d) mass E
  end.
End Utility.
