(** Model of the configuration of a Propagator by a JSON document
    (detail/PROPOSAL/Propagator.cxx:41-55, 390-550) and of the parts that are read from
    it: energy cuts, geometries and density distributions.  Assertions are left out, as
    in a release build. *)
From Coq Require Import String Ascii.
From Verif Require Import Prelude Vec_Model Geometry_Model Shapes_Model Propagator_Model Function_Model Spline_Model
  Density_Model DensityObj_Model Limits_Model Cross_Model.

(** ** nlohmann::json *)
(** Numbers are kept as integers or as floating point numbers; a floating point number
    is the real number it stands for.  An object has at most one value per key: the
    first pair of the list with that key. *)
Inductive json :=
| JNull
| JBool (b : bool)
| JInt (z : Z)
| JFloat (x : R)
| JString (s : string)
| JArray (l : list json)
| JObject (l : list (string * json)).
(** The exceptions of the library derive from std::exception only; [type_error] stands
    for all of them, since the modelled code catches none of them and throws no
    runtime_error. *)
Notation type_error := runtime_error.
Fixpoint find_key (l : list (string * json)) (k : string) : option json :=
  match l with
  | [] => None
  | (k', v) :: l' => if String.eqb k k' then Some v else find_key l' k
  end.
Definition find (j : json) (k : string) : option json :=
  match j with JObject l => find_key l k | _ => None end.
(** contains *)
Definition contains (j : json) (k : string) : bool := match find j k with Some _ => true | None => false end.
(** is_object, is_number, empty *)
Definition is_object (j : json) : bool := match j with JObject _ => true | _ => false end.
Definition is_number (j : json) : bool := match j with JInt _ | JFloat _ => true | _ => false end.
Definition empty (j : json) : bool :=
  match j with JNull | JArray [] | JObject [] => true | _ => false end.
(** at: a missing key throws *)
Definition at_key (j : json) (k : string) : outcome json :=
  match find j k with Some v => Ok v | None => Throw type_error end.
(** operator[] of a constant object: a missing key is undefined behaviour, a value that
    is not an object throws *)
Definition item (j : json) (k : string) : outcome json :=
  match j with
  | JObject l => match find_key l k with Some v => Ok v | None => UB deref_end end
  | _ => Throw type_error
  end.
(** get<bool>, get<double>, get<std::string>, get<std::vector<double>> *)
Definition get_bool (j : json) : outcome bool := match j with JBool b => Ok b | _ => Throw type_error end.
Definition get_double (j : json) : outcome R :=
  match j with JInt z => Ok (IZR z) | JFloat x => Ok x | _ => Throw type_error end.
Definition get_string (j : json) : outcome string := match j with JString s => Ok s | _ => Throw type_error end.
Fixpoint get_all (l : list json) : outcome (list R) :=
  match l with
  | [] => Ok []
  | j :: l' => olet x := get_double j in olet xs := get_all l' in Ok (x :: xs)
  end.
Definition get_doubles (j : json) : outcome (list R) :=
  match j with JArray l => get_all l | _ => Throw type_error end.
(** get<int>: a conversion of the stored number.  Integers are reduced to 32 bit, reals
    are cut off towards zero, which is undefined if the result is out of range; a
    boolean is a number here. *)
Definition wrap (z : Z) : Z := ((z + 2 ^ 31) mod 2 ^ 32 - 2 ^ 31)%Z.
Definition cut_off (x : R) : Z := if 0 <=? x then Int_part x else (- Int_part (- x))%Z.
Definition get_int (j : json) : outcome Z :=
  match j with
  | JInt z => Ok (wrap z)
  | JFloat x =>
    let z := cut_off x in
    if ((- 2 ^ 31 <=? z) && (z <? 2 ^ 31))%Z then Ok z else UB bad_conversion
  | JBool b => Ok (if b then 1%Z else 0%Z)
  | _ => Throw type_error
  end.
(** value(key, default): the type of the default decides how the value is read *)
Definition value {A} (get : json -> outcome A) (j : json) (k : string) (default : A) : outcome A :=
  if is_object j then match find j k with Some v => get v | None => Ok default end else Throw type_error.
(** The elements visited by a range based for loop; those of an object in the order of
    its list *)
Definition elements (j : json) : list json :=
  match j with
  | JArray l => l
  | JObject l => map snd l
  | JNull => []
  | _ => [j]
  end.
(** std::transform with tolower *)
Definition lower_ascii (c : ascii) : ascii :=
  let n := nat_of_ascii c in if (65 <=? n)%nat && (n <=? 90)%nat then ascii_of_nat (n + 32) else c.
Fixpoint lower (s : string) : string :=
  match s with EmptyString => EmptyString | String c s' => String (lower_ascii c) (lower s') end.

(** ** Energy cuts *)
(** EnergyCutSettings(json), EnergyCutSettings.cxx:40-70 *)
Definition cut_of_json (j : json) : outcome energy_cut :=
  if negb (contains j "e_cut") then Throw invalid_argument
  else if negb (contains j "v_cut") then Throw invalid_argument
  else if negb (contains j "cont_rand") then Throw invalid_argument
  else
    olet e := item j "e_cut" in
    olet e := match e with
              | JString s =>
                let s := lower s in
                if String.eqb s "inf" || String.eqb s "infinity" then Ok PInf else Throw invalid_argument
              | _ => olet x := get_double e in Ok (Fin x)
              end in
    olet v := at_key j "v_cut" in
    olet v := get_double v in
    olet r := at_key j "cont_rand" in
    olet r := get_bool r in
    new_energy_cut e v r.

(** ** Geometries *)
(** Cartesian3D(json), Cartesian3D.cxx:8-19 *)
Definition vector_of_json (j : json) : outcome vec :=
  match j with
  | JArray [a; b; c] =>
    if is_number a && is_number b && is_number c then
      olet x := get_double a in olet y := get_double b in olet z := get_double c in Ok (mkvec x y z)
    else Throw invalid_argument
  | _ => Throw invalid_argument
  end.
(** The three classes with the members that compare looks at, and the members of the
    base class, Geometry.h *)
Inductive shape := Sphere (radius inner_radius : R) | Box (x y z : R) | Cylinder (radius inner_radius z : R).
Record body := mkbody { b_name : string; b_hierarchy : N; b_position : vec; b_shape : shape }.
(** Geometry(json), Geometry.cxx:52-62; the hierarchy is an unsigned int *)
Definition base_of_json (j : json) (s : shape) : outcome body :=
  if negb (is_object j) then Throw invalid_argument
  else
    olet name := value get_string j "shape" "unknown"%string in
    olet h := value get_int j "hierarchy" 0%Z in
    if negb (contains j "origin") then Throw invalid_argument
    else
      olet o := at_key j "origin" in
      olet c := vector_of_json o in
      Ok (mkbody name (Z.to_N (h mod 2 ^ 32)) c s).
(** Sphere(json), Sphere.cxx:27-40 *)
Definition sphere_of_json (j : json) : outcome body :=
  olet b := base_of_json j (Sphere 0 0) in
  olet r := at_key j "outer_radius" in
  if negb (is_number r) then Throw invalid_argument
  else
    olet r := get_double r in
    olet i := value get_int j "inner_radius" 0%Z in
    if IZR i <? 0 then Throw logic_error
    else if r <? IZR i then Throw logic_error
    else Ok (mkbody (b_name b) (b_hierarchy b) (b_position b) (Sphere r (IZR i))).
(** Box(json), Box.cxx:21-38 *)
Definition box_of_json (j : json) : outcome body :=
  olet b := base_of_json j (Box 0 0 0) in
  olet x := at_key j "length" in
  if negb (is_number x) then Throw invalid_argument
  else
    olet y := at_key j "width" in
    if negb (is_number y) then Throw invalid_argument
    else
      olet z := at_key j "height" in
      if negb (is_number z) then Throw invalid_argument
      else
        olet x := get_double x in
        olet y := get_double y in
        olet z := get_double z in
        if x <? 0 then Throw logic_error
        else if y <? 0 then Throw logic_error
        else if z <? 0 then Throw logic_error
        else Ok (mkbody (b_name b) (b_hierarchy b) (b_position b) (Box x y z)).
(** Cylinder(json), Cylinder.cxx:31-45 *)
Definition cylinder_of_json (j : json) : outcome body :=
  olet b := base_of_json j (Cylinder 0 0 0) in
  olet r := item j "outer_radius" in
  olet r := get_double r in
  olet i := value get_int j "inner_radius" 0%Z in
  olet z := item j "height" in
  olet z := get_double z in
  Ok (mkbody (b_name b) (b_hierarchy b) (b_position b) (Cylinder r (IZR i) z)).
(** CreateGeometry, GeometryFactory.cxx:37-55 *)
Definition create_geometry (j : json) : outcome body :=
  if contains j "shape" then
    olet s := item j "shape" in
    olet s := get_string s in
    let s := lower s in
    if String.eqb s "sphere" then sphere_of_json j
    else if String.eqb s "box" then box_of_json j
    else if String.eqb s "cylinder" then cylinder_of_json j
    else Throw invalid_argument
  else Throw invalid_argument.
(** The geometry as seen by the propagation *)
Definition geometry_of (b : body) : geometry :=
  mkgeometry (b_hierarchy b) (b_position b)
    (match b_shape b with
     | Sphere r i => sphere_distance (b_position b) r i
     | Box x y z => box_distance (b_position b) x y z
     | Cylinder r i z => cylinder_distance (b_position b) r i z
     end).
(** The constructors that take numbers, Sphere.cxx:10-24, Box.cxx:13-19,
    Cylinder.cxx:13-28: an inner radius that is larger is swapped, the hierarchy is
    zero *)
Definition new_sphere (c : vec) (r i : R) : body :=
  mkbody "Sphere" 0 c (if r <? i then Sphere i r else Sphere r i).
Definition new_box (c : vec) (x y z : R) : body := mkbody "Box" 0 c (Box x y z).
Definition new_cylinder (c : vec) (z r i : R) : body :=
  mkbody "Cylinder" 0 c (if r <? i then Cylinder i r z else Cylinder r i z).
(** Geometry::operator==, Geometry.cxx:66-76, and compare, Sphere.cxx:42-54,
    Box.cxx:40-54, Cylinder.cxx:47-61 *)
Definition shape_eqb (s t : shape) : bool :=
  match s, t with
  | Sphere r i, Sphere r' i' => (i =? i') && (r =? r')
  | Box x y z, Box x' y' z' => (x =? x') && (y =? y') && (z =? z')
  | Cylinder r i z, Cylinder r' i' z' => (i =? i') && (r =? r') && (z =? z')
  | _, _ => false
  end.
Definition body_eqb (a b : body) : bool :=
  vec_eqb (b_position a) (b_position b) && String.eqb (b_name a) (b_name b)
  && N.eqb (b_hierarchy a) (b_hierarchy b) && shape_eqb (b_shape a) (b_shape b).

(** ** Density distributions *)
(** RadialAxis(json), CartesianAxis(json), Axis(json), density_distr.cxx:67-70, 95,
    119-122 *)
Definition axis_of_json (cartesian : bool) (j : json) : outcome axis_object :=
  if negb (contains j "fp0") then Throw invalid_argument
  else
    olet p := at_key j "fp0" in
    olet p := vector_of_json p in
    if cartesian then
      if negb (contains j "fAxis") then Throw invalid_argument
      else
        olet a := at_key j "fAxis" in
        olet a := vector_of_json a in
        Ok (Cartesian a p)
    else Ok (Radial p).
(** Density_distr(json), density_distr.cxx:20-37 *)
Definition distribution_base (j : json) : outcome (axis_object * R) :=
  if negb (contains j "axis_type") then Throw invalid_argument
  else
    olet t := item j "axis_type" in
    olet t := get_string t in
    olet a := (if String.eqb t "radial" then axis_of_json false j
               else if String.eqb t "cartesian" then axis_of_json true j
               else Throw invalid_argument) in
    if contains j "mass_density" then
      olet m := item j "mass_density" in
      olet m := get_double m in
      Ok (a, m)
    else Throw invalid_argument.
(** Density_exponential(json), density_exponential.cxx:16-19 *)
Definition exponential_of_json (j : json) : outcome density_object :=
  olet b := distribution_base j in
  olet s := value get_double j "sigma" 1 in
  olet d := value get_double j "d0" 0 in
  Ok (mkdobj (fst b) (snd b) (Exponential s d)).
(** Density_homogeneous(json), density_homogeneous.cxx:19-26; the axis is that of the
    default constructor, density_distr.cxx:15, 112-115 *)
Definition default_axis : axis_object := Cartesian (mkvec 1 0 0) (mkvec 0 0 0).
Definition homogeneous_of_json (j : json) : outcome density_object :=
  if contains j "mass_density" then
    olet m := item j "mass_density" in
    olet m := get_double m in
    Ok (mkdobj default_axis m Homogeneous)
  else Throw invalid_argument.
(** Polynom(json), Function.cxx:21-28: the coefficients are looked up in an array *)
Definition polynom_of_json (j : json) : outcome (list R) :=
  match j with
  | JArray _ => olet c := item j "coefficients" in get_doubles c
  | _ => Throw invalid_argument
  end.
(** Density_polynomial(json), density_polynomial.cxx:31-35 *)
Definition polynomial_of_json (j : json) : outcome density_object :=
  olet b := distribution_base j in
  olet c := polynom_of_json j in
  Ok (mkdobj (fst b) (snd b) (Polynomial c)).
(** Spline(json), Spline.cxx:41-51 *)
Definition nodes_of_json (j : json) : outcome (list R * list R) :=
  let vector k :=
    if negb (contains j k) then Throw invalid_argument
    else
      olet v := item j k in
      match v with JArray _ => Ok v | _ => Throw invalid_argument end in
  olet x := vector "x"%string in
  olet y := vector "y"%string in
  olet x := get_doubles x in
  olet y := get_doubles y in
  if negb (List.length x =? List.length y)%nat then Throw invalid_argument else Ok (x, y).
(** Density_splines(json), density_splines.cxx:25-39, with Linear_Spline(json) and
    Cubic_Spline(json).  The addresses of the two splines are not modelled; 0 and 1
    stand for them. *)
Definition splines_of_json (nan : forall A, outcome A) (j : json) : outcome density_object :=
  olet b := distribution_base j in
  if negb (contains j "spline_type") then Throw invalid_argument
  else
    olet t := item j "spline_type" in
    olet t := get_string t in
    olet s := (if String.eqb t "linear" then olet n := nodes_of_json j in linear_spline (nan _) (fst n) (snd n)
               else if String.eqb t "cubic" then olet n := nodes_of_json j in cubic_spline (nan _) (fst n) (snd n)
               else Throw invalid_argument) in
    olet _ := spline_antiderivative s 0 in
    Ok (mkdobj (fst b) (snd b) (Splines 0 1 s)).
(** CreateDensityDistribution, density_distr.cxx:145-165 *)
Definition create_distribution (nan : forall A, outcome A) (j : json) : outcome density_object :=
  if contains j "type" then
    olet t := item j "type" in
    olet t := get_string t in
    if String.eqb t "exponential" then exponential_of_json j
    else if String.eqb t "homogeneous" then homogeneous_of_json j
    else if String.eqb t "polynomial" then polynomial_of_json j
    else if String.eqb t "spline" then splines_of_json nan j
    else Throw invalid_argument
  else Throw invalid_argument.

(** ** Propagator *)
(** The factories of the cross sections that CreateCrossSectionList calls;
    make_photonuclearreal and make_photonuclearQ2 both belong to "photo" *)
Inductive factory :=
| Annihilation | Brems | Compton | Epair | Ioniz | Mupair | PhotoReal | PhotoQ2 | Photoeffect | Photomupair
| Photoproduction | Photopair | Weak.
(** What CreateUtility assembles: the cross sections, the medium, whether tables are
    used, the scattering configuration if there is scattering, and whether there are
    decays, continuous randomization and exact times *)
Record parts (M X : Type) := mkparts {
  p_cross : list X; p_medium : M; p_interpolate : bool; p_scattering : option json; p_decays : bool; p_random : bool;
  p_exact : bool }.
Arguments mkparts {M X}. Arguments p_cross {M X}. Arguments p_medium {M X}. Arguments p_interpolate {M X}.
Arguments p_scattering {M X}. Arguments p_decays {M X}. Arguments p_random {M X}. Arguments p_exact {M X}.
(** What is left open: the media by name and their mass density, the factories (given
    the medium, and the cuts, the use of tables and the density correction where they
    take one, and the options), the standard cross sections of the particle, and the
    calculators of the utility. *)
Record builders (M X U : Type) := mkbuilders {
  medium_named : string -> outcome M;
  mass_density : M -> R;
  make : factory -> M -> option energy_cut -> option bool -> option R -> json -> outcome X;
  standard : M -> energy_cut -> bool -> outcome (list X);
  assemble : parts M X -> outcome U;
  not_a_number : forall A, outcome A }.
Arguments medium_named {M X U}. Arguments mass_density {M X U}. Arguments make {M X U}. Arguments standard {M X U}.
Arguments assemble {M X U}. Arguments not_a_number {M X U}.

(** Propagator::GlobalSettings, Propagator.h:54-63 *)
Record settings (M : Type) := mksettings {
  g_cross : json; g_scattering : json; g_cuts : option energy_cut; g_medium : option M; g_exact : bool;
  g_interpolate : bool }.
Arguments mksettings {M}. Arguments g_cross {M}. Arguments g_scattering {M}. Arguments g_cuts {M}.
Arguments g_medium {M}. Arguments g_exact {M}. Arguments g_interpolate {M}.
(** Propagator.cxx:542-549 *)
Definition no_settings {M} : settings M := mksettings JNull JNull None None true true.

Section Propagator.
Context {M X U : Type} (b : builders M X U).

(** Propagator.cxx:528-540 *)
Definition settings_of_json (j : json) : outcome (settings M) :=
  olet m := (if contains j "medium" then
               olet n := item j "medium" in olet n := get_string n in olet m := medium_named b n in Ok (Some m)
             else Ok None) in
  olet x := (if contains j "CrossSections" then item j "CrossSections" else Ok JNull) in
  olet c := (if contains j "cuts" then olet c := item j "cuts" in olet c := cut_of_json c in Ok (Some c) else Ok None) in
  olet s := (if contains j "scattering" then item j "scattering" else Ok JNull) in
  olet t := value get_bool j "exact_time" true in
  olet i := value get_bool j "do_interpolation" true in
  Ok (mksettings x s c m t i).

(** One "if (config.contains(name)) cross.emplace_back(...)" *)
Definition append (config : json) (name : string) (build : json -> outcome X) (l : list X) : outcome (list X) :=
  if contains config name then
    olet o := item config name in
    olet x := build o in
    Ok (l ++ [x])
  else Ok l.
(** Propagator::CreateCrossSectionList, Propagator.cxx:471-526 *)
Definition cross_section_list (m : M) (cuts : energy_cut) (interpolate : bool) (correction : R) (config : json) : outcome (list X) :=
  olet l := append config "annihilation" (make b Annihilation m None (Some interpolate) None) [] in
  olet l := append config "brems" (make b Brems m (Some cuts) (Some interpolate) (Some correction)) l in
  olet l := append config "compton" (make b Compton m (Some cuts) (Some interpolate) None) l in
  olet l := append config "epair" (make b Epair m (Some cuts) (Some interpolate) (Some correction)) l in
  olet l := append config "ioniz" (make b Ioniz m (Some cuts) (Some interpolate) None) l in
  olet l := append config "mupair" (make b Mupair m (Some cuts) (Some interpolate) None) l in
  olet l := append config "photo"
              (fun o => match make b PhotoReal m (Some cuts) (Some interpolate) None o with
                        | Throw invalid_argument => make b PhotoQ2 m (Some cuts) (Some interpolate) None o
                        | r => r
                        end) l in
  olet l := append config "photoeffect" (make b Photoeffect m None None None) l in
  olet l := append config "photomupair" (make b Photomupair m None (Some interpolate) None) l in
  olet l := append config "photoproduction" (make b Photoproduction m None None None) l in
  olet l := append config "photopair" (make b Photopair m None (Some interpolate) (Some correction)) l in
  append config "weak" (make b Weak m None (Some interpolate) None) l.

(** Propagator::CreateUtility, Propagator.cxx:447-469; [decays]: the lifetime of the
    particle is finite *)
Definition create_utility (decays : bool) (cross : list X) (m : M) (random interpolate exact : bool) (scatter : json) : outcome U :=
  assemble b (mkparts cross m interpolate (if empty scatter then None else Some scatter) decays random exact).

(** The loop over the geometries, Propagator.cxx:436-441 *)
Fixpoint sectors_of (u : U) (distribution : json) (l : list json) : outcome (list (body * U * density_object)) :=
  match l with
  | [] => Ok []
  | j :: l' =>
    olet g := create_geometry j in
    olet d := create_distribution (not_a_number b) distribution in
    olet s := sectors_of u distribution l' in
    Ok ((g, u, d) :: s)
  end.
(** Propagator::InitializeSectorFromJSON, Propagator.cxx:390-445.  A vanishing mass
    density of the medium divides by zero. *)
Definition initialize_sector (decays : bool) (j : json) (global : settings M) : outcome (list (body * U * density_object)) :=
  olet interpolate := value get_bool j "do_interpolation" (g_interpolate global) in
  olet exact := value get_bool j "exact_time" (g_exact global) in
  olet scatter := value Ok j "scattering" (g_scattering global) in
  olet m := (if contains j "medium" then
               olet n := item j "medium" in olet n := get_string n in medium_named b n
             else match g_medium global with Some m => Ok m | None => Throw invalid_argument end) in
  olet cuts := (if contains j "cuts" then olet c := item j "cuts" in cut_of_json c
                else match g_cuts global with Some c => Ok c | None => Throw invalid_argument end) in
  olet distribution :=
    (if contains j "density_distribution" then item j "density_distribution"
     else Ok (JObject [("type", JString "homogeneous"); ("mass_density", JFloat (mass_density b m))])%string) in
  olet config := value Ok j "CrossSections" (g_cross global) in
  olet cross :=
    (if negb (empty config) then
       olet rho := value get_double distribution "mass_density" (mass_density b m) in
       olet correction := (if mass_density b m =? 0 then not_a_number b R else Ok (rho / mass_density b m)) in
       cross_section_list m cuts interpolate correction config
     else standard b m cuts interpolate) in
  olet u := create_utility decays cross m (cut_cont_rand cuts) interpolate exact scatter in
  if contains j "geometries" then
    olet g := at_key j "geometries" in
    sectors_of u distribution (elements g)
  else Throw invalid_argument.

Fixpoint initialize (decays : bool) (l : list json) (global : settings M) : outcome (list (body * U * density_object)) :=
  match l with
  | [] => Ok []
  | j :: l' =>
    olet s := initialize_sector decays j global in
    olet r := initialize decays l' global in
    Ok (s ++ r)
  end.
(** Propagator(ParticleDef, json), Propagator.cxx:41-55.  The sectors are appended to
    sector_list one after the other; an exception leaves the constructor. *)
Definition propagator_of_json (decays : bool) (config : json) : outcome (list (body * U * density_object)) :=
  olet global := (if contains config "global" then olet g := item config "global" in settings_of_json g
                  else Ok no_settings) in
  if contains config "sectors" then
    olet s := at_key config "sectors" in
    initialize decays (elements s) global
  else Throw invalid_argument.
End Propagator.
