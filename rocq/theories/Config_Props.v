(** Configurations (C75, C76). *)
From Coq Require Import String.
From Verif Require Import Prelude Vec_Model Geometry_Model Propagator_Model Spline_Model DensityObj_Model Cross_Model
  Config_Model Config_Spec Config_Proofs.
Local Open Scope string_scope.

(** A configuration gives exactly the sectors that it describes, in the order in which
    they are written: settings of a sector, then global ones, then defaults.
    Cases: [Config_Examples.earth_ok], [earth_arrays], [earth_nan]. *)
Theorem C75_described : forall M X U (b : builders M X U) decays config out,
  (forall A (a : A), not_a_number b A <> Ok a) -> arrays config ->
  propagator_of_json b decays config = Ok out <-> described b in_brackets decays config out.
Proof. intros M X U b decays config out Hn. exact (described_iff b decays Hn config out). Qed.
Print Assumptions C75_described.
(** The same for lists of any type: without brackets an object stands for its members
    and null for an empty list.  Cases: [Config_Examples.earth_ok], [earth_without]. *)
Theorem C75_any_shape : forall M X U (b : builders M X U) decays config out,
  (forall A (a : A), not_a_number b A <> Ok a) ->
  (propagator_of_json b decays config = Ok out <-> described b with_or_without decays config out).
Proof. intros M X U b decays config out Hn. exact (any_shape b decays Hn config out). Qed.
Print Assumptions C75_any_shape.

(** Without a medium, cuts or geometries there is no Propagator.
    Case: [Config_Examples.no_medium]. *)
Theorem C75_mandatory : forall M X U (b : builders M X U) decays config j ss s out,
  (forall A (a : A), not_a_number b A <> Ok a) ->
  find config "sectors" = Some j -> with_or_without j ss -> In s ss ->
  setting s (find config "global") "medium" = None \/ setting s (find config "global") "cuts" = None \/
  find s "geometries" = None ->
  propagator_of_json b decays config <> Ok out.
Proof. intros M X U b decays config j ss s out Hn. exact (mandatory b decays Hn config j ss s out). Qed.
Print Assumptions C75_mandatory.

(** Only the documented keywords matter; others, such as misspelt ones, are ignored.
    Case: [Config_Examples.misspelt]. *)
Theorem C75_other_keys : forall M X U (b : builders M X U) decays config config' ss ss',
  find config "sectors" = Some (JArray ss) -> find config' "sectors" = Some (JArray ss') ->
  Forall2 (agree sector_keywords) ss ss' ->
  match find config "global", find config' "global" with
  | Some g, Some g' => agree global_keywords g g'
  | None, None => True
  | _, _ => False
  end ->
  propagator_of_json b decays config = propagator_of_json b decays config'.
Proof. exact @other_keys. Qed.
Print Assumptions C75_other_keys.

(** A density distribution among the global settings is silently ignored, although a
    setting that the sector does not define is looked up there. *)
Theorem C75_global_density_refuted : exists (b : builders R unit unit) decays config g s j d gb u d',
  (forall A (a : A), not_a_number b A <> Ok a) /\ arrays config /\
  find config "global" = Some g /\ find config "sectors" = Some (JArray [s]) /\
  setting s (Some g) "density_distribution" = Some j /\ create_distribution (not_a_number b) j = Ok d /\
  propagator_of_json b decays config = Ok [(gb, u, d')] /\ do_rho d' <> do_rho d.
Proof. exact global_density. Qed.
Print Assumptions C75_global_density_refuted.

(** "At least one geometry must be defined for each sector" is not enforced. *)
Theorem C75_no_geometry_refuted : exists (b : builders R unit unit) decays config s,
  (forall A (a : A), not_a_number b A <> Ok a) /\ arrays config /\ find config "sectors" = Some (JArray [s]) /\
  propagator_of_json b decays config = Ok [].
Proof. exact no_geometry. Qed.
Print Assumptions C75_no_geometry_refuted.

(** Nor is it that the sectors are an array: null gives a Propagator without sectors. *)
Theorem C75_null_refuted : exists (b : builders R unit unit) decays config,
  (forall A (a : A), not_a_number b A <> Ok a) /\ find config "sectors" = Some JNull /\ ~ arrays config /\
  propagator_of_json b decays config = Ok [].
Proof. exact null_sectors. Qed.
Print Assumptions C75_null_refuted.

(** Energy cuts are read as documented and nothing else is accepted.
    Cases: [Config_Examples.cuts_example], [cuts_string]. *)
Theorem C76_cuts : forall j c, cut_of_json j = Ok c <-> described_cut j c.
Proof. exact cuts_iff. Qed.
Print Assumptions C76_cuts.

(** A geometry with an inner radius and a hierarchy that are whole numbers is the one that
    the constructor makes of the numbers, and equals it if the name of the shape is
    written like the name of the class.  Missing: other inner radii and hierarchies, see
    the refutations.  Case: [Config_Examples.geometry_example]. *)
Theorem C76_geometry_partial : forall j c h s,
  described_body j c (IZR h) s -> (0 <= h < 2 ^ 31)%Z -> sound s -> whole_inner s ->
  exists g, create_geometry j = Ok g /\ geometry_of g = constructed (Z.to_N h) c s /\
    (h = 0%Z -> find j "shape" = Some (JString (b_name (from_numbers c s))) -> body_eqb g (from_numbers c s) = true).
Proof. exact geometry_created. Qed.
Print Assumptions C76_geometry_partial.

(** The fractional part of an inner radius is lost. *)
Theorem C76_inner_radius_refuted : exists j c h s t n,
  described_body j c (IZR h) s /\ (0 <= h < 2 ^ 31)%Z /\ sound s /\
  create_geometry j = Ok (mkbody n (Z.to_N h) c t) /\ t <> s.
Proof. exact fraction_lost. Qed.
Print Assumptions C76_inner_radius_refuted.

(** A large inner radius is undefined behaviour. *)
Theorem C76_large_radius_refuted : exists j c h s,
  described_body j c (IZR h) s /\ (0 <= h < 2 ^ 31)%Z /\ sound s /\ create_geometry j = UB bad_conversion.
Proof. exact large_radius. Qed.
Print Assumptions C76_large_radius_refuted.

(** A negative hierarchy ranks above positive ones. *)
Theorem C76_hierarchy_refuted : exists j j' c h h' s g g',
  described_body j c (IZR h) s /\ described_body j' c (IZR h') s /\ (h < h')%Z /\
  create_geometry j = Ok g /\ create_geometry j' = Ok g' /\ (b_hierarchy g' < b_hierarchy g)%N.
Proof. exact level_reversed. Qed.
Print Assumptions C76_hierarchy_refuted.

(** With the documented spelling of the shape the geometry does not equal the one made
    of the same numbers. *)
Theorem C76_equal_refuted : exists j c s g,
  described_body j c (IZR 0) s /\ sound s /\ whole_inner s /\ create_geometry j = Ok g /\ body_eqb g (from_numbers c s) = false.
Proof. exact unequal_bodies. Qed.
Print Assumptions C76_equal_refuted.

(** Spheres and boxes with impossible lengths are rejected.
    Case: [Config_Examples.unsound_ball]. *)
Theorem C76_impossible : forall j c h s,
  described_body j c (IZR h) s -> (0 <= h < 2 ^ 31)%Z -> ~ sound s -> whole_inner s ->
  match s with Cylinder _ _ _ => True | _ => create_geometry j = Throw logic_error end.
Proof. exact rejected. Qed.
Print Assumptions C76_impossible.

(** Impossible cylinders are accepted. *)
Theorem C76_cylinder_refuted : exists j c h s n,
  described_body j c (IZR h) s /\ (0 <= h < 2 ^ 31)%Z /\ whole_inner s /\ ~ sound s /\
  create_geometry j = Ok (mkbody n (Z.to_N h) c s).
Proof. exact unsound_cylinder. Qed.
Print Assumptions C76_cylinder_refuted.

(** A density distribution that is not a polynomial is the one described.
    Case: [Config_Examples.distribution_example]. *)
Theorem C76_distribution_partial : forall nan j d,
  described_distribution nan j d -> (forall c, do_kind d <> Polynomial c) -> create_distribution nan j = Ok d.
Proof. exact distribution_created. Qed.
Print Assumptions C76_distribution_partial.

(** No configuration gives a polynomial density. *)
Theorem C76_polynomial : forall nan j d,
  find j "type" = Some (JString "polynomial") -> create_distribution nan j <> Ok d.
Proof. exact no_polynomial. Qed.
Print Assumptions C76_polynomial.
Theorem C76_polynomial_refuted : forall nan, ~ (forall j d, described_distribution nan j d -> create_distribution nan j = Ok d).
Proof. exact polynomial_refuted. Qed.
Print Assumptions C76_polynomial_refuted.
