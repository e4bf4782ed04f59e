(** Theorems about the names of the tables on disk. *)
From Coq Require Import String.
From Verif Require Import Prelude Propagator_Model Particle_Model Cross_Model Integral_Model Ionization_Model Continuous_Model Nuclear_Model Keys_Model
  Differential_Spec Keys_Spec Keys_Proofs Cross_Examples Keys_Examples.

(** ** C70: a table on disk is used for the calculation it was made for only *)
(** Two tables with the same file name have the same axes and the same values, unless
    two different lists of numbers have got the same hash.  The table of the hard
    component of the particle has to be the same if it is used; without that the
    statement is false, see below. *)
Theorem C70_tables_partial : forall of_double of_text nan qags finished correction koch_motz_data koch_motz_total rhode_table interpolate weak_table
  contribution dilog t1 t2, built of_double of_text t1 -> built of_double of_text t2 ->
  (hard (t_process t1) = true -> pd_table (t_particle t1) = pd_table (t_particle t2)) ->
  file_name of_double of_text t1 = file_name of_double of_text t2 ->
  interchangeable (table_value nan qags finished correction koch_motz_data koch_motz_total rhode_table interpolate weak_table contribution dilog) t1 t2 \/
  collide of_double of_text (table_key t1) (table_key t2).
Proof. exact (fun of_double of_text nan qags finished correction kd kt rt ip wt co di => tables nan qags finished correction kd kt rt ip wt co di of_double of_text). Qed.
Print Assumptions C70_tables_partial.
(** With and without continuous randomization one table is used. *)
Example C70_tables_example : forall of_double of_text,
  let t1 := water_table of_double of_text true (made of_double of_text oxygen_c) in
  let t2 := water_table of_double of_text false (made of_double of_text oxygen_c) in
  t1 <> t2 /\ built of_double of_text t1 /\ built of_double of_text t2 /\ hard (t_process t1) = false /\
  file_name of_double of_text t1 = file_name of_double of_text t2.
Proof. exact same_tables. Qed.
(** The tables of one cross section for two components never collide. *)
Theorem C70_components : forall of_double of_text t1 t2, built of_double of_text t1 -> built of_double of_text t2 ->
  t_kind t1 = t_kind t2 -> t_process t1 = t_process t2 -> t_particle t1 = t_particle t2 -> t_medium t1 = t_medium t2 ->
  t_cut t1 = t_cut t2 -> t_upper t1 = t_upper t2 -> of_medium (t_process t1) = false ->
  c_hash (t_component t1) <> c_hash (t_component t2) -> file_name of_double of_text t1 <> file_name of_double of_text t2.
Proof. exact c70_components. Qed.
Print Assumptions C70_components.
Example C70_components_example :
  let t1 := water_table eight no_text true (made eight no_text hydrogen_c) in
  let t2 := water_table eight no_text true (made eight no_text oxygen_c) in
  built eight no_text t1 /\ built eight no_text t2 /\ t_kind t1 = t_kind t2 /\ t_process t1 = t_process t2 /\ t_particle t1 = t_particle t2 /\
  t_medium t1 = t_medium t2 /\ t_cut t1 = t_cut t2 /\ t_upper t1 = t_upper t2 /\ of_medium (t_process t1) = false /\
  c_hash (t_component t1) <> c_hash (t_component t2).
Proof. exact names_apart. Qed.
(** Whatever the hash of the numbers is, collisions are met among the settings of one
    calculation: numbers of nodes that fit into an unsigned int and upper limits of
    some GeV that are whole numbers of MeV.  The name is all that is compared. *)
Theorem C70_crowded_refuted : forall of_double of_text value p d m c u,
  registered of_double of_text c -> Forall (registered of_double of_text) (mat_components (md_material m)) -> exists a1 b1 z1 a2 b2 z2,
  let t1 := mktable (DNDX a1 b1) p d m c u z1 in let t2 := mktable (DNDX a2 b2) p d m c u z2 in
  (1 <= a1 <= 2 ^ 31)%Z /\ (1 <= b1 <= 2 ^ 31)%Z /\ (1 <= a2 <= 2 ^ 31)%Z /\ (1 <= b2 <= 2 ^ 31)%Z /\ 10 ^ 9 <= z1 <= 10 ^ 10 /\ 10 ^ 9 <= z2 <= 10 ^ 10 /\
  built of_double of_text t1 /\ built of_double of_text t2 /\
  file_name of_double of_text t1 = file_name of_double of_text t2 /\ ~ interchangeable value t1 t2.
Proof. exact c70_crowded. Qed.
Print Assumptions C70_crowded_refuted.
(** The table of the hard component is not part of the name: two particles that differ
    in it only, and that are different for [ParticleDef::operator==], share their
    tables although their cross sections differ. *)
Theorem C70_hard_refuted : forall of_double of_text nan qags finished correction koch_motz_data koch_motz_total rhode_table interpolate weak_table
  contribution dilog, (forall x e, interpolate [x; x; x; x; x; x; x] e = Ok x) ->
  forall d m c, element c -> 0 < pd_mass d -> pd_charge d <> 0 -> exists y1 y2,
  (forall k u z, file_name of_double of_text (mktable k (Photo Zeus true) (with_table d y1) m c u z) =
                 file_name of_double of_text (mktable k (Photo Zeus true) (with_table d y2) m c u z)) /\
  exists E v x1 x2,
    p_differential (fst (content nan qags finished correction koch_motz_data koch_motz_total rhode_table interpolate weak_table contribution dilog
                           (Photo Zeus true) (with_table d y1) m c)) E v = Ok x1 /\
    p_differential (fst (content nan qags finished correction koch_motz_data koch_motz_total rhode_table interpolate weak_table contribution dilog
                           (Photo Zeus true) (with_table d y2) m c)) E v = Ok x2 /\ x1 < x2.
Proof. exact (fun of_double of_text nan qags finished correction kd kt rt ip wt co di F => hard_missing nan qags finished correction kd kt rt ip wt co di F of_double of_text). Qed.
Print Assumptions C70_hard_refuted.
Example C70_hard_example : (forall x e, (fun y (_ : R) => Ok (hd 0 y)) [x; x; x; x; x; x; x] e = Ok x) /\ element oxygen_c /\ 0 < pd_mass MuMinusDef /\
  pd_charge MuMinusDef <> 0.
Proof. exact muon_hard. Qed.
(** The tables of the utilities, if one list of cross sections is used throughout and
    the mass of the particle is the same *)
Theorem C70_utility_partial : forall nan u1 u2 n1 n2 b1 b2 z1 z2, utility_prefix u1 = utility_prefix u2 ->
  told_apart (utility_cross u1 ++ utility_cross u2) -> one_list u1 -> one_list u2 -> unnamed_mass u1 = unnamed_mass u2 ->
  utility_key u1 n1 b1 z1 = utility_key u2 n2 b2 z2 ->
  n1 = n2 /\ b1 = b2 /\ z1 = z2 /\ forall E, utility_function nan u1 E = utility_function nan u2 E.
Proof. exact utility_same. Qed.
Print Assumptions C70_utility_partial.
Example C70_utility_example : let l := [mkkeyed 1 (constant 1 1 1); mkkeyed 2 (constant 2 1 3)] in
  utility_prefix (Interaction l l) = utility_prefix (Interaction l l) /\ told_apart (utility_cross (Interaction l l) ++ utility_cross (Interaction l l)) /\
  one_list (Interaction l l) /\ unnamed_mass (Interaction l l) = unnamed_mass (Interaction l l) /\
  utility_key (Interaction l l) 500 false (10 ^ 14) = utility_key (Interaction l l) 500 false (10 ^ 14).
Proof. exact same_utilities. Qed.
(** Otherwise not: the name of the table of interactions leaves out the cross sections
    of the displacement, that of the continuous randomization its own ones, and those
    of the time and of the multiple scattering the mass. *)
Theorem C70_utility_refuted : forall nan, (exists d1 d2 l, confused nan (Interaction d1 l) (Interaction d2 l)) /\
  (exists d l1 l2, confused nan (ContRand d l1) (ContRand d l2)) /\ (exists d m1 m2, confused nan (Time d m1) (Time d m2)) /\
  (exists d m1 m2, confused nan (Highland d m1) (Highland d m2)).
Proof. exact c70_utilities_refuted. Qed.
Print Assumptions C70_utility_refuted.
