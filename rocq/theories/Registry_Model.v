(** The maps in which all components and media are kept under their hashes
    (detail/PROPOSAL/medium/Components.cxx, Medium.cxx), and their comparison. *)
From Coq Require Import String.
From Verif Require Import Prelude Propagator_Model Particle_Model Limits_Model Cross_Model Photo_Model Products_Model
  Differential_Model Integral_Model Ionization_Model Nuclear_Model Medium_Model Keys_Model.

(** Component::component_map and Medium::medium_map, Components.cxx:22,
    Medium.cxx:19: [None] is the null pointer they start with; std::map with one
    entry for a hash. *)
Definition map_of (A : Type) := option (list (Z * A)).
Fixpoint find {A} (h : Z) (m : list (Z * A)) : option A :=
  match m with
  | [] => None
  | (k, a) :: m => if (k =? h)%Z then Some a else find h m
  end.
(** The end of both constructors, Components.cxx:60-64, Medium.cxx:92-97 *)
Definition enter {A} (h : Z) (a : A) (m : map_of A) : map_of A :=
  let l := match m with None => [] | Some l => l end in
  match find h l with
  | None => Some ((h, a) :: l)
  | Some _ => Some l
  end.
(** Component::GetComponentForHash, Components.cxx:263-268, and
    Medium::GetMediumForHash, Medium.cxx:212-217 *)
Definition get_for_hash {A} (m : map_of A) (h : Z) : outcome A :=
  match m with
  | None => UB null_deref
  | Some l => match find h l with Some a => Ok a | None => Throw invalid_argument end
  end.

Section Hashes.
(** std::hash of the two types, see Keys_Model *)
Variables (of_double : ext -> Z) (of_text : string -> Z).
Notation digest := (hash of_double of_text).

(** A component with its name. *)
Record named := mknamed { nc_name : string; nc_component : component }.
(** GetHash of a component, Components.cxx:56-58, 113-116 *)
Definition hash_of_component (c : named) : Z := digest (component_key (nc_component c)).
(** operator==, Components.cxx:69-91 *)
Definition component_equal (a b : named) : bool :=
  let x := nc_component a in
  let y := nc_component b in
  if negb (String.eqb (nc_name a) (nc_name b)) then false
  else if negb (c_charge x =? c_charge y) then false
  else if negb (c_atomic x =? c_atomic y) then false
  else if negb (c_atoms x =? c_atoms y) then false
  else if negb (log_constant x =? log_constant y) then false
  else if negb (b_prime x =? b_prime y) then false
  else if negb (nucleon_weight x =? nucleon_weight y) then false
  else if negb (wood_saxon x =? wood_saxon y) then false
  else if negb (hash_of_component a =? hash_of_component b)%Z then false
  else true.

(** A medium with its name and those of its components. *)
Record named_medium := mknamed_medium { nm_name : string; nm_names : list string; nm_data : medium_data }.
Definition nm_components (m : named_medium) : list named :=
  map (fun p => mknamed (fst p) (snd p)) (combine (nm_names m) (md_components (nm_data m))).
(** GetHash of a medium, Medium.cxx:201-210 *)
Definition hash_of_medium (m : named_medium) : Z := digest (medium_key (nm_data m)).
(** The loop at the end of Medium::operator==, Medium.cxx:136-143: components_[i] of
    the other medium; past its end it is undefined. *)
Fixpoint components_equal (result : bool) (a b : list named) : outcome bool :=
  match a with
  | [] => Ok result
  | x :: a =>
    match b with
    | [] => UB out_of_bounds
    | y :: b => components_equal (if negb (component_equal x y) then false else result) a b
    end
  end.
(** Medium::operator==, Medium.cxx:102-146 *)
Definition medium_equal (m n : named_medium) : outcome bool :=
  let x := nm_data m in
  let y := nm_data n in
  let s := md_summary x in
  let t := md_summary y in
  let p := md_material x in
  let q := md_material y in
  if negb (String.eqb (nm_name m) (nm_name n)) then Ok false
  else if negb (Nat.eqb (List.length (md_components x)) (List.length (md_components y))) then Ok false
  else if negb (su_charge s =? su_charge t) then Ok false
  else if negb (su_ZA s =? su_ZA t) then Ok false
  else if negb (mat_I p =? mat_I q) then Ok false
  else if negb (mat_C p =? mat_C q) then Ok false
  else if negb (mat_a p =? mat_a q) then Ok false
  else if negb (mat_m p =? mat_m q) then Ok false
  else if negb (mat_X0 p =? mat_X0 q) then Ok false
  else if negb (mat_X1 p =? mat_X1 q) then Ok false
  else if negb (mat_d0 p =? mat_d0 q) then Ok false
  else if negb (md_density x =? md_density y) then Ok false
  else if negb (su_mol_density s =? su_mol_density t) then Ok false
  else if negb (su_length s =? su_length t) then Ok false
  else if negb (su_MM s =? su_MM t) then Ok false
  else if negb (su_nucleons s =? su_nucleons t) then Ok false
  else components_equal true (nm_components m) (nm_components n).

(** The maps after a program has constructed the components and media in the list,
    the first one first. *)
Definition constructed {A} (hash_of : A -> Z) (history : list A) : map_of A :=
  fold_left (fun m a => enter (hash_of a) a m) history None.
End Hashes.

(** The predefined components, Components.cxx:288-304: symbol, charge, mass number. *)
Definition predefined : list (string * R * R) :=
  [("H"%string, 1, 100794 / 100000); ("C"%string, 6, 120011 / 10000); ("N"%string, 7, 140067 / 10000); ("O"%string, 8, 159994 / 10000);
   ("Na"%string, 11, 2298977 / 100000); ("Mg"%string, 12, 2431 / 100); ("S"%string, 16, 3207 / 100); ("Cl"%string, 17, 354527 / 10000);
   ("Ar"%string, 18, 39948 / 1000); ("K"%string, 19, 391 / 10); ("Ca"%string, 20, 4008 / 100); ("Fe"%string, 26, 55845 / 1000);
   ("Cu"%string, 29, 63546 / 1000); ("Pb"%string, 82, 2072 / 10); ("U"%string, 92, 2380289 / 10000); ("StandardRock"%string, 11, 22);
   ("FrejusRock"%string, 1012 / 100, 2034 / 100)].
