(** What is said about the names of the tables. *)
From Coq Require Import String.
From Verif Require Import Prelude Propagator_Model Particle_Model Cross_Model Integral_Model Ionization_Model Keys_Model.

(** Two different keys that are mapped to the same number *)
Definition collide (of_double : ext -> Z) (of_text : string -> Z) (a b : value) : Prop :=
  a <> b /\ hash of_double of_text a = hash of_double of_text b.

(** The hash kept in a component is the one its constructor computes. *)
Definition registered (of_double : ext -> Z) (of_text : string -> Z) (c : component) : Prop :=
  c_hash c = Z.to_N (hash of_double of_text (component_key c)).
Definition built (of_double : ext -> Z) (of_text : string -> Z) (t : table) : Prop :=
  registered of_double of_text (t_component t)
  /\ Forall (registered of_double of_text) (mat_components (md_material (t_medium t))).

(** The hard component of photonuclear interactions takes part. *)
Definition hard (p : process) : bool := match p with Photo _ h => h | _ => false end.

(** One table serves in the place of another one: it has the same axes and the same
    values, [value] being the function that is tabulated. *)
Definition interchangeable (value : table -> R -> R -> run R) (t1 t2 : table) : Prop :=
  t_kind t1 = t_kind t2 /\ t_upper t1 = t_upper t2 /\ table_low t1 = table_low t2 /\
  forall E w, value t1 E w = value t2 E w.

(** Cross sections are told apart by their hashes. *)
Definition told_apart (l : list keyed) : Prop :=
  forall x y, In x l -> In y l -> k_hash x = k_hash y -> k_cross x = k_cross y.
(** The cross sections of a utility and of the displacement it is made with are the
    same, as when both are made from one list. *)
Definition one_list (u : utility) : Prop :=
  match u with
  | Interaction d cross | ContRand d cross => d = cross
  | _ => True
  end.
Definition utility_cross (u : utility) : list keyed :=
  match u with
  | Displacement d | Interaction d _ | Decay d _ _ | Time d _ | ContRand d _ | Highland d _ => d
  end.
(** The mass that is not part of the name *)
Definition unnamed_mass (u : utility) : option R :=
  match u with Time _ m | Highland _ m => Some m | _ => None end.
(** The same particle with another table for the hard component *)
Definition with_table (d : pdef) (y : list (list R)) : pdef :=
  match d with PDef n m l t q _ dec ty w => PDef n m l t q y dec ty w end.
(** The two have the same names although they differ at an energy. *)
Definition confused (nan : forall A, outcome A) (u1 u2 : utility) : Prop :=
  utility_prefix u1 = utility_prefix u2 /\ told_apart (utility_cross u1 ++ utility_cross u2) /\
  (forall n b z, utility_key u1 n b z = utility_key u2 n b z) /\
  exists E x1 x2, utility_function nan u1 E = Ok x1 /\ utility_function nan u2 E = Ok x2 /\ x1 <> x2.
