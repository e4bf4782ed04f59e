(** Model of the concrete shapes: Sphere, Box and Cylinder
    (detail/PROPOSAL/geometry/{Sphere,Box,Cylinder}.cxx). *)
From Verif Require Import Prelude Vec_Model Geometry_Model.

Definition swap (p : R * R) : R * R := (snd p, fst p).

(** "Computer precision controll" of a single intersection parameter, e.g.
    Sphere.cxx:94-97, Box.cxx:103-104, Cylinder.cxx:130-133. *)
Definition snap (t : R) : R := if (0 <? t) && (t <? GEOMETRY_PRECISION) then 0 else t.

(** Final precision control, identical in Sphere.cxx:233-238, Box.cxx:274-279
    and Cylinder.cxx:512-517. *)
Definition precision_control (d : R * R) : R * R :=
  let a := if fst d <? GEOMETRY_PRECISION then -1 else fst d in
  let b := if snd d <? GEOMETRY_PRECISION then -1 else snd d in
  if a <? 0 then (b, a) else (a, b).

(** * Sphere *)

(** Sphere.cxx:82-131, result of the outer intersection; [A], [B] as in the
    code (lines 82, 84). *)
Definition sphere_outer (A B : R) : R * R :=
  let determinant := B * B - A in
  if 0 <? determinant then
    let t1 := snap (-1 * B + sqrt determinant) in
    let t2 := snap (-1 * B - sqrt determinant) in
    let first := if t1 <=? 0 then -1 else t1 in
    let second := if t2 <=? 0 then -1 else t2 in
    let d := if first <? 0 then (second, first) else (first, second) in
    if (0 <? fst d) && (0 <? snd d) then
      if snd d <? fst d then swap d else d
    else d
  else (-1, -1).

(** Sphere.cxx:145-225, update for the inner sphere. *)
Definition sphere_inner (A B : R) (d : R * R) : R * R :=
  let determinant := B * B - A in
  if 0 <? determinant then
    let t1 := snap (-1 * B + sqrt determinant) in
    let t2 := snap (-1 * B - sqrt determinant) in
    if (0 <? fst d) && (0 <? snd d) then
      (* lines 167-178 *)
      let s1 := if (0 <? t1) && (t1 <? snd d) then t1 else snd d in
      let s2 := if (0 <? t2) && (t2 <? s1) then t2 else s1 in
      (fst d, s2)
    else
      (* lines 183-189 *)
      let d1 := if (0 <? t1) && (0 <? t2) then ((if t1 <? t2 then t1 else t2), snd d) else d in
      (* lines 194-201 *)
      let d2 := if ((0 <? t1) && (t2 <? 0)) || ((0 <? t2) && (t1 <? 0))
                then ((if 0 <? t1 then t1 else t2), fst d1) else d1 in
      (* lines 204-213 *)
      let d3 := if t1 =? 0 then (if 0 <? t2 then (t2, fst d2) else d2) else d2 in
      (* lines 214-223 *)
      if t2 =? 0 then (if 0 <? t1 then (t1, fst d3) else d3) else d3
  else d.

(** Sphere::DistanceToBorder, Sphere.cxx:63-241. *)
Definition sphere_distance (c : vec) (radius inner_radius : R) (p d : vec) : R * R :=
  let diff := vsub p c in
  let difference_length_squared := magnitude diff ^ 2 in
  let B := dot diff d in
  let dist := sphere_outer (difference_length_squared - radius * radius) B in
  if (fst dist <? 0) && (snd dist <? 0) then dist
  else
    precision_control
      (if 0 <? inner_radius
       then sphere_inner (difference_length_squared - inner_radius * inner_radius) B dist
       else dist).

(** Sphere::Sphere, Sphere.cxx:10-24: a larger inner radius is swapped. *)
Definition sphere (h : N) (c : vec) (radius inner_radius : R) : geometry :=
  let '(r, ri) := if radius <? inner_radius then (inner_radius, radius) else (radius, inner_radius) in
  mkgeometry h c (sphere_distance c r ri).

(** * Box *)

(** One plane of the box, Box.cxx:98-117 (and the five analogous blocks):
    [plane] is the coordinate of the plane, [p0],[d0] the particle's coordinate
    and direction along its normal, [inside t] the test that the other two
    coordinates of the intersection are within the (closed) borders. *)
Definition box_plane (plane p0 d0 : R) (inside : R -> bool) : list R :=
  if negb (d0 =? 0) then
    let t := snap ((plane - p0) / d0) in
    if 0 <? t then (if inside t then [t] else []) else []
  else [].

Definition within (lo hi x : R) : bool := (lo <=? x) && (x <=? hi).

(** Box.cxx:90-227: the vector [dist]. *)
Definition box_hits (c : vec) (x y z : R) (p d : vec) : list R :=
  let xp := vx c + 1/2 * x in let xn := vx c - 1/2 * x in
  let yp := vy c + 1/2 * y in let yn := vy c - 1/2 * y in
  let zp := vz c + 1/2 * z in let zn := vz c - 1/2 * z in
  let in_x t := within xn xp (vx p + t * vx d) in
  let in_y t := within yn yp (vy p + t * vy d) in
  let in_z t := within zn zp (vz p + t * vz d) in
  box_plane xp (vx p) (vx d) (fun t => in_y t && in_z t) ++
  box_plane xn (vx p) (vx d) (fun t => in_y t && in_z t) ++
  box_plane yp (vy p) (vy d) (fun t => in_x t && in_z t) ++
  box_plane yn (vy p) (vy d) (fun t => in_x t && in_z t) ++
  box_plane zp (vz p) (vz d) (fun t => in_x t && in_y t) ++
  box_plane zn (vz p) (vz d) (fun t => in_x t && in_y t).

(** Box.cxx:229-267.  In the two-hit case the assignment for equal distances
    (lines 243-247) is overwritten unconditionally by lines 248-249. *)
Definition box_select (dist : list R) : R * R :=
  match dist with
  | [] => (-1, -1)
  | [a] => (a, -1)
  | [a; b] => if b <? a then (b, a) else (a, b)
  | [a; b; c] => if (a =? b) && (b =? c) then (a, -1) else (-1, -1)
  | _ => (-1, -1)
  end.

(** Box::DistanceToBorder, Box.cxx:63-282. *)
Definition box_distance (c : vec) (x y z : R) (p d : vec) : R * R :=
  precision_control (box_select (box_hits c x y z p d)).

Definition box (h : N) (c : vec) (x y z : R) : geometry := mkgeometry h c (box_distance c x y z).

(** * Cylinder *)

(** Cylinder.cxx:106-133 and 246-272: the two intersection parameters with an
    infinite barrel of radius [r] around [c]; [None] when the trajectory is
    parallel to the axis or the determinant is not positive. *)
Definition barrel_roots (c : vec) (r : R) (p d : vec) : option (R * R) :=
  if (vx d =? 0) && (vy d =? 0) then None
  else
    let A := (vx p - vx c) ^ 2 + (vy p - vy c) ^ 2 - r * r in
    let B := 2 * ((vx p - vx c) * vx d + (vy p - vy c) * vy d) in
    let C := vx d * vx d + vy d * vy d in
    let B' := B / C in
    let A' := A / C in
    let determinant := 1/4 * B' * B' - A' in
    if 0 <? determinant then
      Some (snap (-1 * B' / 2 + sqrt determinant), snap (-1 * B' / 2 - sqrt determinant))
    else None.

Definition strictly_within (lo hi x : R) : bool := (lo <? x) && (x <? hi).

(** Cylinder.cxx:135-153 *)
Definition barrel_hits (in_z : R -> bool) (roots : option (R * R)) : list R :=
  match roots with
  | None => []
  | Some (t1, t2) =>
    (if (0 <? t1) && in_z t1 then [t1] else []) ++ (if (0 <? t2) && in_z t2 then [t2] else [])
  end.

(** Distance of (x, y) from the axis, e.g. Cylinder.cxx:176-177 *)
Definition axis_distance (c : vec) (x y : R) : R := sqrt ((x - vx c) ^ 2 + (y - vy c) ^ 2).

(** Cylinder.cxx:163-186 and 189-213: one cap. *)
Definition cap_hits (c : vec) (radius inner_radius plane : R) (p d : vec) : list R :=
  if negb (vz d =? 0) then
    let t := snap ((plane - vz p) / vz d) in
    if 0 <? t then
      let rho := axis_distance c (vx p + t * vx d) (vy p + t * vy d) in
      if (rho <=? radius) && (inner_radius <=? rho) then [t] else []
    else []
  else [].

(** Cylinder.cxx:99-214: the vector [dist]. *)
Definition cylinder_hits (c : vec) (radius inner_radius z : R) (p d : vec) : list R :=
  let zp := vz c + 1/2 * z in let zn := vz c - 1/2 * z in
  let in_z t := strictly_within zn zp (vz p + t * vz d) in
  let barrel := barrel_hits in_z (barrel_roots c radius p d) in
  if Nat.ltb (length barrel) 2 then
    barrel ++ cap_hits c radius inner_radius zp p d ++ cap_hits c radius inner_radius zn p d
  else barrel.

(** Cylinder.cxx:215-239.  [std::pair<double,double> distance;] is
    value-initialised, so the "never reached" branch leaves (0, 0). *)
Definition cylinder_select (dist : list R) : R * R :=
  match dist with
  | [] => (-1, -1)
  | [a] => (a, -1)
  | [a; b] => if b <? a then (b, a) else (a, b)
  | _ => (0, 0)
  end.

(** Cylinder.cxx:282-501: update for the inner barrel with roots [t1], [t2].
    [in_body] is the position test of lines 360-366. *)
Definition cylinder_inner (in_z : R -> bool) (in_body : bool) (t1 t2 : R) (d : R * R) : R * R :=
  if (0 <? fst d) && (0 <? snd d) then
    (* lines 282-305 *)
    let s1 := if (0 <? t1) && in_z t1 && (t1 <? snd d) then t1 else snd d in
    let s2 := if (0 <? t2) && in_z t2 && (t2 <? s1) then t2 else s1 in
    (fst d, s2)
  else if (fst d <? 0) && (snd d <? 0) then
    (* lines 319-339 *)
    let f1 := if (0 <? t1) && in_z t1 then t1 else fst d in
    let f2 := if (0 <? t2) && in_z t2 then t2 else f1 in
    (f2, snd d)
  else
    (* lines 347-430 *)
    let d1 :=
      if (0 <? t1) && (0 <? t2) then
        if in_body then
          let f1 := if (t1 <? fst d) && in_z t1 then t1 else fst d in
          let f2 := if (t2 <? f1) && in_z t2 then t2 else f1 in
          (f2, snd d)
        else
          let s1 := if in_z t1 then t1 else snd d in
          let s2 := if (s1 <? 0) && in_z t2 then t2 else s1 in
          (fst d, s2)
      else d in
    (* lines 447-468 *)
    let d2 :=
      if ((0 <? t1) && (t2 <? 0)) || ((0 <? t2) && (t1 <? 0)) then
        if 0 <? t1 then (if in_z t1 then (t1, fst d1) else d1)
        else (if in_z t2 then (t2, fst d1) else d1)
      else d1 in
    (* lines 471-485 *)
    let d3 := if t1 =? 0 then (if (0 <? t2) && in_z t2 then (t2, fst d2) else d2) else d2 in
    (* lines 486-500 *)
    if t2 =? 0 then (if (0 <? t1) && in_z t1 then (t1, fst d3) else d3) else d3.

(** Cylinder::DistanceToBorder, Cylinder.cxx:68-520. *)
Definition cylinder_distance (c : vec) (radius inner_radius z : R) (p d : vec) : R * R :=
  let zp := vz c + 1/2 * z in let zn := vz c - 1/2 * z in
  let in_z t := strictly_within zn zp (vz p + t * vz d) in
  let dist := cylinder_select (cylinder_hits c radius inner_radius z p d) in
  let dist' :=
    if 0 <? inner_radius then
      match barrel_roots c inner_radius p d with
      | None => dist
      | Some (t1, t2) =>
        let rho := axis_distance c (vx p) (vy p) in
        let in_body := (zn <=? vz p) && (vz p <=? zp) &&
                       (rho <=? radius + GEOMETRY_PRECISION) &&
                       (inner_radius - GEOMETRY_PRECISION <=? rho) in
        cylinder_inner in_z in_body t1 t2 dist
      end
    else dist in
  precision_control dist'.

(** Cylinder::Cylinder, Cylinder.cxx:12-28: a larger inner radius is swapped. *)
Definition cylinder (h : N) (c : vec) (radius inner_radius z : R) : geometry :=
  let '(r, ri) := if radius <? inner_radius then (inner_radius, radius) else (radius, inner_radius) in
  mkgeometry h c (cylinder_distance c r ri z).
