(** Model of the predefined elements and media and of their creation by name.  Numbers
    with a decimal point are the decimal fractions written in the source. *)
From Coq Require Import String.
From Verif Require Import Prelude Limits_Model Cross_Model Photo_Model Ionization_Model Config_Model.
Local Open Scope string_scope.
Local Open Scope list_scope.

(** Medium, Medium.h:52-123: the name, the mass density and what ionization reads;
    the other members are derived from them (Medium_Model.medium_init).  Medium() =
    default is not modelled. *)
Record medium := mkmedium { md_name : string; md_density : R; md_material : material }.

Section Catalogue.
(** The hash of a component, Components.cxx:56-58, of the charge, the mass number and the
    number of atoms; the other numbers that enter are computed from the first two. *)
Variable hash : R -> R -> R -> N.
Definition atom (charge atomic atoms : R) : component := mkcomponent (hash charge atomic atoms) charge atomic atoms.

(** Components.cxx:288-304.  Without a number of atoms the constructors of Components.h:135-151
    take one atom, two for hydrogen. *)
Definition c_hydrogen : R -> component := atom 1 (100794 / 100000).
Definition c_carbon : R -> component := atom 6 (120011 / 10000).
Definition c_nitrogen : R -> component := atom 7 (140067 / 10000).
Definition c_oxygen : R -> component := atom 8 (159994 / 10000).
Definition c_sodium : R -> component := atom 11 (2298977 / 100000).
Definition c_magnesium : R -> component := atom 12 (2431 / 100).
Definition c_sulfur : R -> component := atom 16 (3207 / 100).
Definition c_chlorine : R -> component := atom 17 (354527 / 10000).
Definition c_argon : R -> component := atom 18 (39948 / 1000).
Definition c_potassium : R -> component := atom 19 (391 / 10).
Definition c_calcium : R -> component := atom 20 (4008 / 100).
Definition c_iron : R -> component := atom 26 (55845 / 1000).
Definition c_copper : R -> component := atom 29 (63546 / 1000).
Definition c_lead : R -> component := atom 82 (2072 / 10).
Definition c_uranium : R -> component := atom 92 (2380289 / 10000).
Definition c_standard_rock : R -> component := atom 11 22.
Definition c_frejus_rock : R -> component := atom (1012 / 100) (2034 / 100).

(** Medium.cxx:223-235 *)
Definition m_water_2001 : medium :=
  mkmedium "water" 1 (mkmaterial [c_hydrogen 2; c_oxygen 1] 75 (-35017 / 10000) (9116 / 100000) (34773 / 10000) (24 / 100) (28004 / 10000) 0).
(** Medium.cxx:237-249 *)
Definition m_water_2020 : medium :=
  mkmedium "water" 1 (mkmaterial [c_hydrogen 2; c_oxygen 1] (797 / 10) (-35017 / 10000) (9116 / 100000) (34773 / 10000) (24 / 100) (28004 / 10000) 0).
(** Medium.cxx:251-263 *)
Definition m_ice_2001 : medium :=
  mkmedium "ice" (917 / 1000) (mkmaterial [c_hydrogen 2; c_oxygen 1] 75 (-35017 / 10000) (9116 / 100000) (34773 / 10000) (24 / 100) (28004 / 10000) 0).
(** Medium.cxx:265-277 *)
Definition m_ice_2020 : medium :=
  mkmedium "ice" (918 / 1000) (mkmaterial [c_hydrogen 2; c_oxygen 1] (797 / 10) (-35873 / 10000) (9116 / 100000) (34773 / 10000) (2586 / 10000) (2819 / 1000) 0).
(** Medium.cxx:279-291 *)
Definition m_salt : medium :=
  mkmedium "salt" (2323 / 1000) (mkmaterial [c_sodium 1; c_chlorine 1] (1753 / 10) (-45041 / 10000) (1632 / 10000) 3 (2 / 10) 3 0).
(** Medium.cxx:293-306 *)
Definition m_calcium_carbonate : medium :=
  mkmedium "calciumcarbonate" (265 / 100) (mkmaterial [c_calcium 1; c_carbon 1; c_oxygen 3] (1364 / 10) (-37738 / 10000) (8301 / 100000) (3412 / 1000) (492 / 10000) (30549 / 10000) 0).
(** Medium.cxx:309-319 *)
Definition m_standard_rock : medium :=
  mkmedium "standardrock" (265 / 100) (mkmaterial [c_standard_rock 1] (1364 / 10) (-37738 / 10000) (8301 / 100000) (3412 / 1000) (492 / 10000) (30549 / 10000) 0).
(** Medium.cxx:321-331 *)
Definition m_frejus_rock : medium :=
  mkmedium "frejusrock" (274 / 100) (mkmaterial [c_frejus_rock 1] 149 (-5053 / 1000) (78 / 1000) (3645 / 1000) (288 / 1000) (3196 / 1000) 0).
(** Medium.cxx:333-343 *)
Definition m_iron : medium :=
  mkmedium "iron" (7874 / 1000) (mkmaterial [c_iron 1] 286 (-42911 / 10000) (1468 / 10000) (29632 / 10000) (-12 / 10000) (31531 / 10000) (12 / 100)).
(** Medium.cxx:346-356 *)
Definition m_hydrogen : medium :=
  mkmedium "hydrogen" (708 / 10000) (mkmaterial [c_hydrogen 2] (218 / 10) (-30977 / 10000) (13483 / 100000) (56249 / 10000) (44 / 100) (18856 / 10000) 0).
(** Medium.cxx:358-368 *)
Definition m_lead : medium :=
  mkmedium "lead" (1135 / 100) (mkmaterial [c_lead 1] 823 (-62018 / 10000) (9359 / 100000) (31608 / 10000) (3776 / 10000) (38073 / 10000) (14 / 100)).
(** Medium.cxx:371-382 *)
Definition m_copper : medium :=
  mkmedium "copper" (896 / 100) (mkmaterial [c_copper 1] 322 (-4419 / 1000) (14339 / 100000) (29044 / 10000) (-254 / 10000) (32792 / 10000) (8 / 100)).
(** Medium.cxx:384-395 *)
Definition m_uranium : medium :=
  mkmedium "uranium" (1895 / 100) (mkmaterial [c_uranium 1] 890 (-58694 / 10000) (19677 / 100000) (28171 / 10000) (226 / 1000) (33721 / 10000) (14 / 100)).
(** Medium.cxx:398-410 *)
Definition m_air : medium :=
  mkmedium "air" (1205 / 1000000) (mkmaterial [c_nitrogen (2 * (781 / 10)); c_oxygen (2 * 21); c_argon (9 / 10)] (857 / 10) (-105961 / 10000) (10914 / 100000) (33994 / 10000) (17418 / 10000) (42759 / 10000) 0).
(** Medium.cxx:412-424 *)
Definition m_paraffin : medium :=
  mkmedium "paraffin" (93 / 100) (mkmaterial [c_carbon 25; c_oxygen 52] (559 / 10) (-29551 / 10000) (1209 / 10000) (34288 / 10000) (1289 / 10000) (25084 / 10000) 0).
(** Medium.cxx:426-443 *)
Definition m_antares_water : medium :=
  mkmedium "antareswater" (103975 / 100000) (mkmaterial [c_hydrogen 2; c_oxygen (100884 / 100000); c_sodium (943 / 100000); c_potassium (209 / 1000000); c_magnesium (1087 / 1000000); c_calcium (209 / 1000000); c_chlorine (1106 / 100000); c_sulfur (582 / 100000)] 75 (-35017 / 10000) (9116 / 100000) (34773 / 10000) (24 / 100) (28004 / 10000) 0).
(** Medium.cxx:480-500 *)
Definition m_cascadia_basin_water : medium :=
  mkmedium "cascadiabasinwater" (10400322 / 10000000) (mkmaterial [c_hydrogen 2; c_oxygen (10021 / 10000); c_sodium (87174 / 10000000); c_magnesium (9818 / 10000000); c_calcium (19113 / 100000000); c_potassium (18975 / 100000000); c_chlorine (10147 / 1000000); c_sulfur (52487 / 100000000)] 75 (-35017 / 10000) (9116 / 100000) (34773 / 10000) (24 / 100) (28004 / 10000) 0).
(** Medium.cxx:503-513 *)
Definition m_liquid_argon : medium :=
  mkmedium "liquidargon" (1396 / 1000) (mkmaterial [c_argon 1] 188 (-52146 / 10000) (19559 / 100000) 3 (2 / 10) 3 0).

(** Medium_Type, Medium.h:179-202 *)
Inductive medium_type := WATER | WATERPDG2001 | WATERPDG2020 | ICE | ICEPDG2001 | ICEPDG2020 | SALT | STANDARDROCK | FREJUSROCK | IRON | HYDROGEN | LEAD | COPPER | URANIUM | AIR | PARAFFIN | ANTARESWATER | CASCADIABASINWATER | LIQUIDARGON.
(** The values of the enumeration in their order *)
Definition types : list medium_type :=
  [WATER; WATERPDG2001; WATERPDG2020; ICE; ICEPDG2001; ICEPDG2020; SALT; STANDARDROCK; FREJUSROCK; IRON; HYDROGEN; LEAD; COPPER; URANIUM; AIR; PARAFFIN; ANTARESWATER; CASCADIABASINWATER; LIQUIDARGON].
(** Medium_Name, Medium.h:205-225 *)
Definition names : list string :=
  ["water"; "waterpdg2001"; "waterpdg2020"; "ice"; "icepdg2001"; "icepdg2020"; "salt"; "standardrock"; "frejusrock"; "iron"; "hydrogen"; "lead"; "copper"; "uranium"; "air"; "paraffin"; "antareswater"; "cascadiabasinwater"; "liquidargon"].
(** Medium_Map, MediumFactory.h:9-29, which has all types; Water and Ice are those of
    PDG2020 (Medium.h:128) *)
Definition medium_of (t : medium_type) : medium :=
  match t with
  | WATER => m_water_2020
  | WATERPDG2001 => m_water_2001
  | WATERPDG2020 => m_water_2020
  | ICE => m_ice_2020
  | ICEPDG2001 => m_ice_2001
  | ICEPDG2020 => m_ice_2020
  | SALT => m_salt
  | STANDARDROCK => m_standard_rock
  | FREJUSROCK => m_frejus_rock
  | IRON => m_iron
  | HYDROGEN => m_hydrogen
  | LEAD => m_lead
  | COPPER => m_copper
  | URANIUM => m_uranium
  | AIR => m_air
  | PARAFFIN => m_paraffin
  | ANTARESWATER => m_antares_water
  | CASCADIABASINWATER => m_cascadia_basin_water
  | LIQUIDARGON => m_liquid_argon
  end.
(** The loop of CreateMedium(string), MediumFactory.cxx:30-34: the first name that is
    equal, as an index of the enumeration; an index without a type would be looked up in
    vain. *)
Fixpoint search (name : string) (names : list string) (types : list medium_type) : outcome medium :=
  match names with
  | [] => Throw invalid_argument
  | n :: names' =>
    if String.eqb name n then match types with t :: _ => Ok (medium_of t) | [] => Throw invalid_argument end
    else search name names' (tl types)
  end.
(** CreateMedium(string), MediumFactory.cxx:25-36.  tolower in the C locale. *)
Definition create_medium (name : string) : outcome medium := search (lower name) names types.
End Catalogue.
