(** Geometric specification of the distance-to-border answers. *)
From Verif Require Import Prelude Vec_Model Geometry_Model.
From Coq Require Import Sorted.

(** The point reached after the distance [t] along the ray. *)
Definition at_ (p d : vec) (t : R) : vec := vadd p (scale t d).
Definition sqdist (a b : vec) : R := dot (vsub a b) (vsub a b).
Definition unit (d : vec) : Prop := dot d d = 1.

(** [L] lists, in increasing order and without repetition, exactly the
    positive parameters at which the ray properly crosses the border. *)
Definition crossing_list (crosses : R -> Prop) (L : list R) : Prop :=
  StronglySorted Rlt L /\ forall t, In t L <-> 0 < t /\ crosses t.

(** The documented encoding of the answer: an even number of crossings ahead
    means the particle is outside of the body (both distances are given, or
    (-1,-1) when the body is not ahead); an odd number means it is inside (one
    distance). *)
Definition encode (L : list R) : R * R :=
  match L with
  | [] => (-1, -1)
  | a :: L' =>
    if Nat.odd (length L) then (a, -1)
    else match L' with b :: _ => (a, b) | [] => (-1, -1) end
  end.

(** All crossings are resolvable with the library's geometry precision. *)
Definition resolvable (L : list R) : Prop := forall t, In t L -> GEOMETRY_PRECISION <= t.

(** ** Hollow sphere: body ri < |x - c| < r, border at |x - c| = r and, when
    ri > 0, |x - c| = ri; touching the border tangentially is not a crossing. *)
Definition sphere_surface (c : vec) (r ri : R) (x : vec) : Prop :=
  sqdist x c = r * r \/ (0 < ri /\ sqdist x c = ri * ri).
Definition sphere_crosses (c : vec) (r ri : R) (p d : vec) (t : R) : Prop :=
  sphere_surface c r ri (at_ p d t) /\ dot (vsub (at_ p d t) c) d <> 0.

(** Distance from the centre. *)
Definition dist (a b : vec) : R := sqrt (sqdist a b).

(** ** Box *)
Definition in_closed (lo hi x : R) : Prop := lo <= x <= hi.
Definition in_closed_box (c : vec) (x y z : R) (q : vec) : Prop :=
  in_closed (vx c - x / 2) (vx c + x / 2) (vx q) /\
  in_closed (vy c - y / 2) (vy c + y / 2) (vy q) /\
  in_closed (vz c - z / 2) (vz c + z / 2) (vz q).
(** The six faces. *)
Inductive face := XP | XN | YP | YN | ZP | ZN.
Definition on_plane (c : vec) (x y z : R) (q : vec) (f : face) : Prop :=
  match f with
  | XP => vx q = vx c + x / 2 | XN => vx q = vx c - x / 2
  | YP => vy q = vy c + y / 2 | YN => vy q = vy c - y / 2
  | ZP => vz q = vz c + z / 2 | ZN => vz q = vz c - z / 2
  end.
Definition on_face (c : vec) (x y z : R) (q : vec) (f : face) : Prop :=
  in_closed_box c x y z q /\ on_plane c x y z q f.
Definition box_crosses (c : vec) (x y z : R) (p d : vec) (t : R) : Prop :=
  exists f, on_face c x y z (at_ p d t) f.
(** The ray meets the surface only in the relative interior of faces (no edge,
    no corner). *)
Definition no_edges (c : vec) (x y z : R) (p d : vec) : Prop :=
  forall t f g, 0 < t -> on_face c x y z (at_ p d t) f -> on_face c x y z (at_ p d t) g -> f = g.
Definition in_open_box (c : vec) (x y z eps : R) (q : vec) : Prop :=
  Rabs (vx q - vx c) <= x / 2 - eps /\ Rabs (vy q - vy c) <= y / 2 - eps /\ Rabs (vz q - vz c) <= z / 2 - eps.

(** ** Hollow cylinder around the z axis through c: body ri < rho < r, |z - c_z| < z/2 *)
Definition rho2 (c q : vec) : R := (vx q - vx c) ^ 2 + (vy q - vy c) ^ 2.
Definition between_caps (c : vec) (z : R) (q : vec) : Prop := vz c - z / 2 < vz q < vz c + z / 2.
Definition on_barrel (c : vec) (r z : R) (q : vec) : Prop := rho2 c q = r * r /\ between_caps c z q.
Definition on_cap (c : vec) (r ri z : R) (q : vec) : Prop :=
  (vz q = vz c + z / 2 \/ vz q = vz c - z / 2) /\ ri * ri <= rho2 c q <= r * r.
(** Radial component (times rho) of the direction at q. *)
Definition radial (c q d : vec) : R := (vx q - vx c) * vx d + (vy q - vy c) * vy d.
Definition cylinder_crosses (c : vec) (r ri z : R) (p d : vec) (t : R) : Prop :=
  let q := at_ p d t in
  ((on_barrel c r z q \/ (0 < ri /\ on_barrel c ri z q)) /\ radial c q d <> 0) \/
  (on_cap c r ri z q /\ vz d <> 0).
Definition rho (c q : vec) : R := sqrt (rho2 c q).
(** Inside the solid cylinder with margin eps. *)
Definition in_open_cylinder (c : vec) (r z eps : R) (q : vec) : Prop :=
  rho c q <= r - eps /\ Rabs (vz q - vz c) <= z / 2 - eps.
(** The ray does not touch a rim (where a cap meets the outer barrel). *)
Definition no_rim (c : vec) (r z : R) (p d : vec) : Prop :=
  forall t, 0 < t -> rho2 c (at_ p d t) = r * r ->
    vz (at_ p d t) <> vz c + z / 2 /\ vz (at_ p d t) <> vz c - z / 2.
