(** Model of the shape-independent part of [Geometry]
    (detail/PROPOSAL/geometry/Geometry.cxx). *)
From Verif Require Import Prelude Vec_Model.

(** GEOMETRY_PRECISION, detail/PROPOSAL/Constants.cxx:43 *)
Definition GEOMETRY_PRECISION : R := / 10 ^ 9.
(** PARTICLE_POSITION_RESOLUTION, detail/PROPOSAL/Constants.cxx:44-45 (cm) *)
Definition PARTICLE_POSITION_RESOLUTION : R := / 10 ^ 3.

(** A geometry: its hierarchy (unsigned int), its reference point and its
    virtual method DistanceToBorder (PROPOSAL/geometry/Geometry.h).  The name is
    not modelled. *)
Record geometry := mkgeometry {
  g_hierarchy : N;
  g_position : vec;
  g_distance_to_border : vec -> vec -> R * R
}.

(** Geometry.cxx:88-99 *)
Definition is_inside (g : geometry) (p d : vec) : bool :=
  let dist := g_distance_to_border g p d in
  (0 <? fst dist) && (snd dist <? 0).

(** Geometry.cxx:102-113 *)
Definition is_infront (g : geometry) (p d : vec) : bool :=
  let dist := g_distance_to_border g p d in
  (0 <? fst dist) && (0 <? snd dist).

(** Geometry.cxx:116-127 *)
Definition is_behind (g : geometry) (p d : vec) : bool :=
  let dist := g_distance_to_border g p d in
  (fst dist <? 0) && (snd dist <? 0).

(** Geometry.cxx:130-139 *)
Definition is_entering (g : geometry) (p d : vec) : bool :=
  let fwd := g_distance_to_border g p d in
  let bwd := g_distance_to_border g p (vneg d) in
  ((0 <=? fst fwd) && (snd fwd =? -1)) && ((fst bwd =? -1) && (snd bwd =? -1)).

(** Geometry.cxx:142-151 *)
Definition is_leaving (g : geometry) (p d : vec) : bool :=
  let fwd := g_distance_to_border g p d in
  let bwd := g_distance_to_border g p (vneg d) in
  ((fst fwd =? -1) && (snd fwd =? -1)) && ((0 <=? fst bwd) && (snd bwd =? -1)).

(** Geometry::ParticleLocation, PROPOSAL/geometry/Geometry.h *)
Inductive location := InfrontGeometry | InsideGeometry | BehindGeometry.

(** Geometry.cxx:153-160 *)
Definition get_location (g : geometry) (p d : vec) : location :=
  if is_infront g p d then InfrontGeometry
  else if is_inside g p d then InsideGeometry
  else BehindGeometry.

(** Geometry.cxx:163-166 *)
Definition distance_to_closest_approach (g : geometry) (p d : vec) : R :=
  dot (vsub (g_position g) p) d.
