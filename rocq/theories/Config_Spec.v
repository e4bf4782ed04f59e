(** What docs/config_docu.md says about a configuration. *)
From Coq Require Import String.
From Verif Require Import Prelude Vec_Model Geometry_Model Shapes_Model Propagator_Model Spline_Model DensityObj_Model Cross_Model Config_Model.
Local Open Scope string_scope.

(** ** Values *)
(** The JSON number [j] is the real number [x]. *)
Definition number (j : json) (x : R) : Prop := j = JFloat x \/ exists z, j = JInt z /\ x = IZR z.
Definition numbers (j : json) (l : list R) : Prop := exists js, j = JArray js /\ Forall2 number js l.
Definition vector (j : json) (v : vec) : Prop := numbers j [vx v; vy v; vz v].

(** ** Energy cuts *)
(** "Pass "inf" or "infinity" to use an infinite energy cut." *)
Definition absolute_cut (j : json) (e : ext) : Prop :=
  match e with
  | Fin x => number j x /\ 0 < x
  | PInf => exists s, j = JString s /\ (lower s = "inf" \/ lower s = "infinity")
  end.
Definition described_cut (j : json) (c : energy_cut) : Prop :=
  exists e v, find j "e_cut" = Some e /\ absolute_cut e (ecut c) /\ find j "v_cut" = Some v /\ number v (vcut c) /\
    0 < vcut c <= 1 /\ find j "cont_rand" = Some (JBool (cut_cont_rand c)).

(** ** Settings *)
(** "First of all, each Sector will use the settings defined in the corresponding Sector
    object.  If the Sector object does not define a setting, PROPOSAL will look whether
    this setting is defined in this global object." *)
Definition setting (sector : json) (global : option json) (k : string) : option json :=
  match find sector k with
  | Some v => Some v
  | None => match global with Some g => find g k | None => None end
  end.
Definition flag (sector : json) (global : option json) (k : string) (default x : bool) : Prop :=
  match setting sector global k with Some v => v = JBool x | None => x = default end.
Definition scattering (sector : json) (global : option json) : option json :=
  match setting sector global "scattering" with
  | Some c => if empty c then None else Some c
  | None => None
  end.

(** ** Cross sections *)
(** The interactions that can be enabled: keyword, factory, the factory that is tried
    when the first one does not know the parametrization, and whether energy cuts,
    interpolation tables and the density matter. *)
Record interaction := mkinteraction {
  i_name : string; i_factory : factory; i_fallback : option factory; i_cuts : bool; i_tables : bool; i_density : bool }.
Definition interactions : list interaction :=
  [mkinteraction "annihilation" Annihilation None false true false;
   mkinteraction "brems" Brems None true true true;
   mkinteraction "compton" Compton None true true false;
   mkinteraction "epair" Epair None true true true;
   mkinteraction "ioniz" Ioniz None true true false;
   mkinteraction "mupair" Mupair None true true false;
   mkinteraction "photo" PhotoReal (Some PhotoQ2) true true false;
   mkinteraction "photoeffect" Photoeffect None false false false;
   mkinteraction "photomupair" Photomupair None false true false;
   mkinteraction "photoproduction" Photoproduction None false false false;
   mkinteraction "photopair" Photopair None false true true;
   mkinteraction "weak" Weak None false true false].
(** "all interaction types that are not listed in the CrossSections object will be
    disabled" *)
Definition requested (config : json) : list (interaction * json) :=
  flat_map (fun i => match find config (i_name i) with Some o => [(i, o)] | None => [] end) interactions.

Section Sectors.
Context {M X U : Type} (b : builders M X U).
Definition when {A} (c : bool) (a : A) : option A := if c then Some a else None.
Definition made (m : M) (cuts : energy_cut) (tables : bool) (correction : R) (r : interaction * json) (x : X) : Prop :=
  let attempt f := make b f m (when (i_cuts (fst r)) cuts) (when (i_tables (fst r)) tables)
                     (when (i_density (fst r)) correction) (snd r) in
  attempt (i_factory (fst r)) = Ok x \/
  exists f, i_fallback (fst r) = Some f /\ attempt (i_factory (fst r)) = Throw invalid_argument /\ attempt f = Ok x.
(** "it will be assumed that the whole medium has the base mass_density" *)
Definition base_density (sector : json) (m : M) (rho : R) : Prop :=
  match find sector "density_distribution" with
  | None => rho = mass_density b m
  | Some d => is_object d = true /\
    match find d "mass_density" with Some v => number v rho | None => rho = mass_density b m end
  end.
(** "If no CrossSections object is included in the json file, PROPOSAL chooses a set" *)
Definition cross_follows (sector : json) (global : option json) (m : M) (cuts : energy_cut) (tables : bool) (l : list X) : Prop :=
  let listed := match setting sector global "CrossSections" with Some c => c | None => JNull end in
  if empty listed then standard b m cuts tables = Ok l
  else exists rho, base_density sector m rho /\ mass_density b m <> 0 /\
         Forall2 (made m cuts tables (rho / mass_density b m)) (requested listed) l.
(** "Per default, PROPOSAL assumes a homogeneous density distribution with the standard
    medium density." *)
Definition distribution_follows (sector : json) (m : M) (d : density_object) : Prop :=
  match find sector "density_distribution" with
  | None => d = mkdobj default_axis (mass_density b m) Homogeneous
  | Some j => create_distribution (not_a_number b) j = Ok d
  end.
(** What a list in the configuration consists of is told by [listed] *)
Variable listed : json -> list json -> Prop.
(** One sector object gives one sector per geometry, with the same utility *)
Definition sector_follows (decays : bool) (global : option json) (s : json) (out : list (body * U * density_object)) : Prop :=
  is_object s = true /\
  exists name m cj cuts tables exact cross u gj gs,
    setting s global "medium" = Some (JString name) /\ medium_named b name = Ok m /\
    setting s global "cuts" = Some cj /\ described_cut cj cuts /\
    flag s global "do_interpolation" true tables /\ flag s global "exact_time" true exact /\
    cross_follows s global m cuts tables cross /\
    assemble b (mkparts cross m tables (scattering s global) decays (cut_cont_rand cuts) exact) = Ok u /\
    find s "geometries" = Some gj /\ listed gj gs /\
    Forall2 (fun j o => exists g d, create_geometry j = Ok g /\ distribution_follows s m d /\ o = (g, u, d)) gs out.
(** The global settings are read once, also those that every sector overrides *)
Definition global_valid (g : json) : Prop :=
  is_object g = true /\
  match find g "medium" with Some v => exists n m, v = JString n /\ medium_named b n = Ok m | None => True end /\
  match find g "cuts" with Some v => exists c, described_cut v c | None => True end /\
  match find g "exact_time" with Some v => exists x, v = JBool x | None => True end /\
  match find g "do_interpolation" with Some v => exists x, v = JBool x | None => True end.
Definition described (decays : bool) (config : json) (out : list (body * U * density_object)) : Prop :=
  match find config "global" with Some g => global_valid g | None => True end /\
  exists j ss outs, find config "sectors" = Some j /\ listed j ss /\
    Forall2 (sector_follows decays (find config "global")) ss outs /\ out = List.concat outs.
End Sectors.

(** The documented type of "sectors" and "geometries" is an array *)
Definition in_brackets (j : json) (l : list json) : Prop := j = JArray l.
(** Without brackets: the members of an object, nothing for null, or the value alone *)
Definition with_or_without (j : json) (l : list json) : Prop :=
  match j with
  | JArray items => l = items
  | JObject members => l = map snd members
  | JNull => l = []
  | _ => l = [j]
  end.
Definition is_array (j : json) : Prop := exists l, j = JArray l.
Definition arrays (config : json) : Prop :=
  forall j, find config "sectors" = Some j ->
    exists ss, j = JArray ss /\ forall s g, In s ss -> find s "geometries" = Some g -> is_array g.

(** The keywords of the tables "Sector properties" and "Global settings" *)
Definition sector_keywords : list string :=
  ["medium"; "cuts"; "geometries"; "do_interpolation"; "exact_time"; "scattering"; "density_distribution"; "CrossSections"].
Definition global_keywords : list string :=
  ["medium"; "cuts"; "do_interpolation"; "exact_time"; "scattering"; "CrossSections"].
Definition agree (keywords : list string) (a a' : json) : Prop :=
  is_object a = is_object a' /\ forall k, In k keywords -> find a k = find a' k.

(** ** Geometries *)
Definition optional {A} (P : json -> A -> Prop) (j : option json) (default a : A) : Prop :=
  match j with Some v => P v a | None => a = default end.
Definition field (j : json) (k : string) (x : R) : Prop := exists v, find j k = Some v /\ number v x.
Definition inner (j : json) (x : R) : Prop := optional number (find j "inner_radius") 0 x.
Definition described_shape (j : json) (s : shape) : Prop :=
  exists n, find j "shape" = Some (JString n) /\
  match s with
  | Sphere r i => lower n = "sphere" /\ field j "outer_radius" r /\ inner j i
  | Box x y z => lower n = "box" /\ field j "length" x /\ field j "width" y /\ field j "height" z
  | Cylinder r i z => lower n = "cylinder" /\ field j "outer_radius" r /\ inner j i /\ field j "height" z
  end.
(** [described_body]: what a "geometries" entry describes; the hierarchy is a number *)
Definition described_body (j : json) (c : vec) (hierarchy : R) (s : shape) : Prop :=
  exists o, find j "origin" = Some o /\ vector o c /\ optional number (find j "hierarchy") 0 hierarchy /\ described_shape j s.
(** Lengths of a body that exists *)
Definition sound (s : shape) : Prop :=
  match s with
  | Sphere r i => 0 <= i <= r
  | Box x y z => 0 <= x /\ 0 <= y /\ 0 <= z
  | Cylinder r i z => 0 <= i <= r /\ 0 < z
  end.
(** The inner radius is a whole number that fits an int *)
Definition whole_inner (s : shape) : Prop :=
  match s with
  | Sphere _ i | Cylinder _ i _ => exists z, i = IZR z /\ (- 2 ^ 31 <= z < 2 ^ 31)%Z
  | Box _ _ _ => True
  end.
(** The geometries and bodies that the constructors make of the numbers *)
Definition constructed (h : N) (c : vec) (s : shape) : geometry :=
  match s with Sphere r i => sphere h c r i | Box x y z => box h c x y z | Cylinder r i z => cylinder h c r i z end.
Definition from_numbers (c : vec) (s : shape) : body :=
  match s with Sphere r i => new_sphere c r i | Box x y z => new_box c x y z | Cylinder r i z => new_cylinder c z r i end.

(** ** Density distributions *)
Definition described_axis (j : json) (a : axis_object) : Prop :=
  match a with
  | Cartesian d p => find j "axis_type" = Some (JString "cartesian") /\
      exists u v, find j "fp0" = Some u /\ vector u p /\ find j "fAxis" = Some v /\ vector v d
  | Radial p => find j "axis_type" = Some (JString "radial") /\ exists u, find j "fp0" = Some u /\ vector u p
  end.
Definition nodes (j : json) (x y : list R) : Prop :=
  exists u v, find j "x" = Some u /\ numbers u x /\ find j "y" = Some v /\ numbers v y /\ List.length x = List.length y.
Definition described_kind (nan : forall A, outcome A) (j : json) (k : density_kind) : Prop :=
  match k with
  | Homogeneous => find j "type" = Some (JString "homogeneous")
  | Exponential s d => find j "type" = Some (JString "exponential") /\
      optional number (find j "sigma") 1 s /\ optional number (find j "d0") 0 d
  | Polynomial c => find j "type" = Some (JString "polynomial") /\ exists v, find j "coefficients" = Some v /\ numbers v c
  | Splines p q s => find j "type" = Some (JString "spline") /\ p = 0%nat /\ q = 1%nat /\
      exists x y, nodes j x y /\ (exists s', spline_antiderivative s 0 = Ok s') /\
        (find j "spline_type" = Some (JString "linear") /\ linear_spline (nan _) x y = Ok s \/
         find j "spline_type" = Some (JString "cubic") /\ cubic_spline (nan _) x y = Ok s)
  end.
Definition described_distribution (nan : forall A, outcome A) (j : json) (d : density_object) : Prop :=
  field j "mass_density" (do_rho d) /\ described_kind nan j (do_kind d) /\
  match do_kind d with Homogeneous => do_axis d = default_axis | _ => described_axis j (do_axis d) end.
