(** Vocabulary of the properties of the maps of components and media. *)
From Coq Require Import String.
From Verif Require Import Prelude Propagator_Model Particle_Model Limits_Model Cross_Model Ionization_Model Medium_Model Keys_Model Registry_Model.

(** Two components made of the same numbers, whatever their names. *)
Definition same_numbers (a b : named) : Prop :=
  c_charge (nc_component a) = c_charge (nc_component b) /\ c_atomic (nc_component a) = c_atomic (nc_component b) /\
  c_atoms (nc_component a) = c_atoms (nc_component b).
(** The components of a medium with their names, one name for each. *)
Definition named_parts (m : named_medium) : Prop := List.length (nm_names m) = List.length (mat_components (md_material (nm_data m))).
(** Two media with the same numbers, made of components with the same numbers. *)
Definition same_medium (m n : named_medium) : Prop :=
  let x := md_material (nm_data m) in
  let y := md_material (nm_data n) in
  (mat_I x, mat_C x, mat_a x, mat_m x, mat_X0 x, mat_X1 x, mat_d0 x) = (mat_I y, mat_C y, mat_a y, mat_m y, mat_X0 y, mat_X1 y, mat_d0 y) /\
  md_density (nm_data m) = md_density (nm_data n) /\ md_summary (nm_data m) = md_summary (nm_data n) /\
  Forall2 (fun a b => c_charge a = c_charge b /\ c_atomic a = c_atomic b /\ c_atoms a = c_atoms b) (mat_components x) (mat_components y).
(** No two different contents in the list have the same hash. *)
Definition no_collision (of_double : ext -> Z) (of_text : string -> Z) (contents : list value) : Prop :=
  forall v w, In v contents -> In w contents -> hash of_double of_text v = hash of_double of_text w -> v = w.

(** A predefined component with any number of atoms in the molecule. *)
Definition is_predefined (c : named) : Prop := In (nc_name c, c_charge (nc_component c), c_atomic (nc_component c)) predefined.
(** Hydrogen under any name. *)
Definition hydrogen_named (s : string) : named := mknamed s (mkcomponent 0 1 (100794 / 100000) 2).
