(** Properties C17-C20: sphere, box, cylinder, and the location predicates. *)
From Verif Require Import Prelude Vec_Model Geometry_Model Shapes_Model Shapes_Spec
  Shapes_Proofs Box_Proofs Cylinder_Proofs Hollow_Proofs Surface_Proofs Toy Toy_Runs Shapes_Examples.

(** ** C17: sphere *)
Theorem C17_sphere_distances : forall c r ri p d L,
  unit d -> 0 < r -> 0 <= ri < r ->
  crossing_list (sphere_crosses c r ri p d) L -> resolvable L ->
  sphere_distance c r ri p d = encode L.
Proof. exact c17_crossings. Qed.
Print Assumptions C17_sphere_distances.

(** The object, with its two radii in either order. *)
Theorem C17_sphere_radii : forall h c a b p d L,
  unit d -> 0 <= Rmin a b < Rmax a b ->
  crossing_list (sphere_crosses c (Rmax a b) (Rmin a b) p d) L -> resolvable L ->
  g_distance_to_border (sphere h c a b) p d = encode L.
Proof. exact c17_radii. Qed.
Print Assumptions C17_sphere_radii.

Theorem C17_sphere_inside : forall h c r ri p d,
  unit d -> 0 < r -> 0 <= ri < r ->
  (ri + GEOMETRY_PRECISION <= dist p c \/ ri = 0) -> dist p c <= r - GEOMETRY_PRECISION ->
  is_inside (sphere h c r ri) p d = true.
Proof. exact c17_inside. Qed.
Print Assumptions C17_sphere_inside.

Theorem C17_sphere_outside : forall h c r ri p d,
  unit d -> 0 < r -> 0 <= ri < r ->
  r + GEOMETRY_PRECISION <= dist p c \/ dist p c <= ri - GEOMETRY_PRECISION ->
  is_inside (sphere h c r ri) p d = false.
Proof. exact c17_outside. Qed.
Print Assumptions C17_sphere_outside.

(** Without any condition on the start: a distance that is returned leads to
    the surface. *)
Theorem C17_sphere_on_surface : forall c r ri p d, unit d ->
  let x := sphere_distance c r ri p d in
  (fst x = -1 \/ (GEOMETRY_PRECISION <= fst x /\ sphere_crosses c r ri p d (fst x))) /\
  (snd x = -1 \/ (GEOMETRY_PRECISION <= snd x /\ sphere_crosses c r ri p d (snd x))).
Proof. exact c17_on_surface. Qed.
Print Assumptions C17_sphere_on_surface.

(** A ray through a hollow sphere with four crossings. *)
Example C17_example :
  unit ex /\ crossing_list (sphere_crosses (px 0) 2 1 (px (-3)) ex) [1; 2; 4; 5] /\ resolvable [1; 2; 4; 5].
Proof. exact hollow_example. Qed.

(** ** C18: box *)
Theorem C18_box_distances_partial : forall c x y z p d,
  0 <= x -> 0 <= y -> 0 <= z -> no_edges c x y z p d ->
  forall L, crossing_list (box_crosses c x y z p d) L -> resolvable L ->
  box_distance c x y z p d = encode L.
Proof. exact c18_crossings. Qed.
Print Assumptions C18_box_distances_partial.

Theorem C18_box_inside_partial : forall h c x y z p d,
  unit d -> in_open_box c x y z GEOMETRY_PRECISION p -> no_edges c x y z p d ->
  is_inside (box h c x y z) p d = true.
Proof. exact c18_inside. Qed.
Print Assumptions C18_box_inside_partial.

Theorem C18_box_outside_partial : forall h c x y z p d,
  0 < x -> 0 < y -> 0 < z -> unit d -> no_edges c x y z p d ->
  x / 2 + GEOMETRY_PRECISION <= Rabs (vx p - vx c) \/
  y / 2 + GEOMETRY_PRECISION <= Rabs (vy p - vy c) \/
  z / 2 + GEOMETRY_PRECISION <= Rabs (vz p - vz c) ->
  is_inside (box h c x y z) p d = false.
Proof. exact c18_outside. Qed.
Print Assumptions C18_box_outside_partial.

(** Also for rays through an edge, a distance that is returned leads to a face. *)
Theorem C18_box_on_surface : forall c x y z p d, 0 <= x -> 0 <= y -> 0 <= z ->
  let v := box_distance c x y z p d in
  (fst v = -1 \/ (GEOMETRY_PRECISION <= fst v /\ box_crosses c x y z p d (fst v))) /\
  (snd v = -1 \/ (GEOMETRY_PRECISION <= snd v /\ box_crosses c x y z p d (snd v))).
Proof. exact c18_on_surface. Qed.
Print Assumptions C18_box_on_surface.

(** Missing above: rays through an edge.  There the code is wrong.  A particle
    at the centre flying towards an edge is reported as outside ... *)
Theorem C18_box_inside_refuted :
  let b := box 0 (mkvec 0 0 0) 6 8 2 in
  exists p d, unit d /\ in_open_box (mkvec 0 0 0) 6 8 2 1 p /\
    g_distance_to_border b p d = (5, 5) /\ is_inside b p d = false /\ get_location b p d = InfrontGeometry.
Proof. exact c18_edge_inside_refuted. Qed.
Print Assumptions C18_box_inside_refuted.

(** ... and a ray that enters through an edge and flies through the interior
    misses the box. *)
Theorem C18_box_infront_refuted :
  let b := box 0 (mkvec 0 0 0) 6 8 2 in
  exists p d t, unit d /\ 0 < t /\ in_open_box (mkvec 0 0 0) 6 8 2 1 (at_ p d t) /\
    g_distance_to_border b p d = (-1, -1) /\ get_location b p d = BehindGeometry.
Proof. exact c18_edge_outside_refuted. Qed.
Print Assumptions C18_box_infront_refuted.

Example C18_example :
  unit ex /\ no_edges (px 0) 2 2 2 (px (-5)) ex /\
  crossing_list (box_crosses (px 0) 2 2 2 (px (-5)) ex) [4; 6] /\ resolvable [4; 6].
Proof. exact box_example. Qed.

(** ** C19: cylinder *)
(** Solid cylinders: the full description of the answer. *)
Theorem C19_cylinder_distances_partial : forall c r z p d L,
  0 < r -> 0 < z ->
  crossing_list (cylinder_crosses c r 0 z p d) L -> resolvable L ->
  cylinder_distance c r 0 z p d = encode L.
Proof. exact c19_solid. Qed.
Print Assumptions C19_cylinder_distances_partial.

(** Missing above: hollow cylinders.  For a particle inside of the material the
    answer is right: the nearest crossing ahead, and nothing else ... *)
Theorem C19_cylinder_inside_distance : forall c r ri z p d,
  0 < r -> 0 < z -> 0 <= ri < r -> unit d ->
  (ri + GEOMETRY_PRECISION <= rho c p \/ ri = 0) -> in_open_cylinder c r z GEOMETRY_PRECISION p ->
  exists a, cylinder_distance c r ri z p d = (a, -1) /\ 0 < a /\ cylinder_crosses c r ri z p d a /\
    forall t, 0 < t -> cylinder_crosses c r ri z p d t -> a <= t.
Proof. exact c19_inside_first. Qed.
Print Assumptions C19_cylinder_inside_distance.

Theorem C19_cylinder_inside : forall h c r ri z p d,
  0 < r -> 0 < z -> 0 <= ri < r -> unit d ->
  (ri + GEOMETRY_PRECISION <= rho c p \/ ri = 0) -> in_open_cylinder c r z GEOMETRY_PRECISION p ->
  is_inside (cylinder h c r ri z) p d = true.
Proof. exact c19_inside. Qed.
Print Assumptions C19_cylinder_inside.

(** ... with the two radii in either order ... *)
Theorem C19_cylinder_radii : forall h c a b z p d,
  0 <= Rmin a b < Rmax a b -> 0 < z -> unit d ->
  (Rmin a b + GEOMETRY_PRECISION <= rho c p \/ Rmin a b = 0) -> in_open_cylinder c (Rmax a b) z GEOMETRY_PRECISION p ->
  exists t, g_distance_to_border (cylinder h c a b z) p d = (t, -1) /\ 0 < t /\
    cylinder_crosses c (Rmax a b) (Rmin a b) z p d t /\
    forall u, 0 < u -> cylinder_crosses c (Rmax a b) (Rmin a b) z p d u -> t <= u.
Proof. exact c19_radii. Qed.
Print Assumptions C19_cylinder_radii.

(** ... every returned distance leads to the surface ... *)
Theorem C19_cylinder_on_surface : forall c r ri z p d, 0 < r -> 0 <= ri < r ->
  let v := cylinder_distance c r ri z p d in
  (fst v = -1 \/ (GEOMETRY_PRECISION <= fst v /\ cylinder_crosses c r ri z p d (fst v))) /\
  (snd v = -1 \/ (GEOMETRY_PRECISION <= snd v /\ cylinder_crosses c r ri z p d (snd v))).
Proof. exact c19_on_surface. Qed.
Print Assumptions C19_cylinder_on_surface.

(** From outside, the answer is right unless the ray enters through the opening
    (the first crossing is on the inner barrel); see below for that case.  Rays
    through a rim are excluded as well. *)
Theorem C19_hollow_outside_partial : forall c r ri z p d,
  0 < ri < r -> 0 < z -> unit d -> no_rim c r z p d -> no_rim c ri z p d ->
  r + GEOMETRY_PRECISION < rho c p \/ z / 2 + GEOMETRY_PRECISION <= Rabs (vz p - vz c) ->
  forall L, crossing_list (cylinder_crosses c r ri z p d) L ->
  (match L with [] => True | t :: _ => ~ on_barrel c ri z (at_ p d t) end) ->
  cylinder_distance c r ri z p d = encode L.
Proof. exact c19_hollow_outside. Qed.
Print Assumptions C19_hollow_outside_partial.
(** From the hole, the answer is always right. *)
Theorem C19_hollow_hole : forall c r ri z p d,
  0 < ri < r -> 0 < z -> unit d -> no_rim c ri z p d -> in_open_cylinder c ri z GEOMETRY_PRECISION p ->
  forall L, crossing_list (cylinder_crosses c r ri z p d) L -> cylinder_distance c r ri z p d = encode L.
Proof. exact c19_hollow_hole. Qed.
Print Assumptions C19_hollow_hole.
Example C19_example_pipe :
  cylinder_distance origin 10 5 10 (mkvec (-20) 0 0) (mkvec 1 0 0) = (10, 15) /\
  cylinder_distance origin 10 5 10 (mkvec 1 0 0) (mkvec 1 0 0) = (4, 9).
Proof.
  split.
  - destruct pipe_example_outside as (U & N1 & N2 & O & C & F).
    exact (C19_hollow_outside_partial origin 10 5 10 _ _ ltac:(lra) ltac:(lra) U N1 N2 (or_introl O) _ C F).
  - destruct pipe_example_hole as (U & N & O & C).
    exact (C19_hollow_hole origin 10 5 10 _ _ ltac:(lra) ltac:(lra) U N O _ C).
Qed.

(** A particle in front of a pipe whose ray enters through the opening
    gets a first distance beyond the wall: the crossings are at 15 and 21.25, the
    answer is (21.25, 15). *)
Theorem C19_hollow_cylinder_refuted :
  exists p d, unit d /\ crossing_list (cylinder_crosses origin 10 5 10 p d) [15; 85/4] /\
    resolvable [15; 85/4] /\ cylinder_distance origin 10 5 10 p d = (85/4, 15).
Proof. exact c19_hollow_refuted. Qed.
Print Assumptions C19_hollow_cylinder_refuted.

Theorem C19_cylinder_outside_partial : forall h c r z p d,
  0 < r -> 0 < z -> unit d -> no_rim c r z p d ->
  r + GEOMETRY_PRECISION <= rho c p \/ z / 2 + GEOMETRY_PRECISION <= Rabs (vz p - vz c) ->
  is_inside (cylinder h c r 0 z) p d = false.
Proof. exact c19_outside. Qed.
Print Assumptions C19_cylinder_outside_partial.

(** Missing above: rays through a rim.  A particle 4 above a cylinder whose ray
    only touches the rim is reported as inside. *)
Theorem C19_cylinder_outside_refuted :
  exists p d, unit d /\ vz p = 8 /\
    (forall t, 0 < t -> ~ (rho2 origin (at_ p d t) < 3 * 3 /\ between_caps origin 8 (at_ p d t))) /\
    is_inside (cylinder 0 origin 3 0 8) p d = true.
Proof. exact c19_rim_refuted. Qed.
Print Assumptions C19_cylinder_outside_refuted.

Example C19_example :
  crossing_list (cylinder_crosses origin 3 0 8 (mkvec (-5) 0 0) (mkvec 1 0 0)) [2; 8] /\ resolvable [2; 8].
Proof. exact cylinder_example. Qed.
Example C19_example_inside :
  unit (mkvec 1 0 0) /\ 2 + GEOMETRY_PRECISION <= rho origin (mkvec 4 0 1) /\
  in_open_cylinder origin 5 8 GEOMETRY_PRECISION (mkvec 4 0 1).
Proof. exact cylinder_inside_example. Qed.

(** ** C20: location predicates *)
Theorem C20_location_partition : forall g p d, library_shape g ->
  exactly_one (is_infront g p d) (is_inside g p d) (is_behind g p d) /\
  (get_location g p d = InfrontGeometry <-> is_infront g p d = true) /\
  (get_location g p d = InsideGeometry <-> is_inside g p d = true) /\
  (get_location g p d = BehindGeometry <-> is_behind g p d = true).
Proof. exact c20_partition. Qed.
Print Assumptions C20_location_partition.

Theorem C20_entering_leaving : forall g p d, library_shape g ->
  (is_entering g p d = true <-> is_inside g p d = true /\ is_behind g p (vneg d) = true) /\
  (is_leaving g p d = true <-> is_behind g p d = true /\ is_inside g p (vneg d) = true).
Proof. exact c20_entering. Qed.
Print Assumptions C20_entering_leaving.

Example C20_example : library_shape (ball 1 2) /\ is_inside (ball 1 2) (px 1) ex = true.
Proof. exact c20_example. Qed.
