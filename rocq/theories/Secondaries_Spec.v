(** Specification vocabulary for the queries on a track. *)
From Verif Require Import Prelude Vec_Model Geometry_Model Propagator_Model Propagator_Spec Shapes_Spec Secondaries_Model.

(** The three vectors of a track as a list of rows. *)
Definition track_rows (t : track) : list row := combine (combine (tr_states t) (tr_types t)) (tr_hashes t).
Definition parallel (t : track) : Prop :=
  length (tr_types t) = length (tr_states t) /\ length (tr_hashes t) = length (tr_states t).

(** Every row after the first, together with the state before it. *)
Fixpoint with_previous (prev : pstate) (l : list row) : list (pstate * row) :=
  match l with
  | [] => []
  | r :: l' => (prev, r) :: with_previous (fst (fst r)) l'
  end.
Definition history (t : track) : list (pstate * row) :=
  match track_rows t with
  | [] => []
  | r :: l => with_previous (fst (fst r)) l
  end.

Definition row_type (x : pstate * row) : itype := snd (fst (snd x)).
Definition is_continuous (x : pstate * row) : bool := itype_eqb (row_type x) ContinuousEnergyLoss.
Definition is_decay (x : pstate * row) : bool := itype_eqb (row_type x) DecayType.
Definition is_stochastic (x : pstate * row) : bool := negb (is_continuous x) && negb (is_decay x).

(** What a reported loss says about its row. *)
Definition describes_stochastic (x : pstate * row) (l : sloss) : Prop :=
  let '(before, (after, ty, h)) := x in
  sl_type l = ty /\ sl_hash l = h /\
  sl_energy l = energy before - energy after /\ sl_parent_energy l = energy before /\
  sl_position l = position after /\ sl_direction l = direction after /\
  sl_time l = time after /\ sl_distance l = propagated_distance after.
Definition describes_continuous (x : pstate * row) (l : closs) : Prop :=
  let '(before, (after, _, _)) := x in
  cl_energy l = energy before - energy after /\ cl_parent_energy l = energy before /\
  cl_start l = position before /\ cl_end l = position after /\
  cl_dir_i l = direction before /\ cl_dir_f l = direction after /\
  cl_time_i l = time before /\ cl_time_f l = time after.

Definition sum (l : list R) : R := fold_right Rplus 0 l.

(** Two neighbouring states of a track. *)
Definition neighbours (t : track) (i : nat) (a b : pstate) : Prop :=
  nth_error (tr_states t) i = Some a /\ nth_error (tr_states t) (S i) = Some b.

(** The length of the straight line between two states. *)
Definition apart (a b : pstate) : R := magnitude (vsub (position b) (position a)).
(** The distance counter of a track measures the way between its states. *)
Definition measured (t : track) : Prop :=
  forall i a b, neighbours t i a b -> apart a b = propagated_distance b - propagated_distance a.
(** [p] is the point of the way from [a] to [b] after the distance [x]. *)
Definition on_way (a b : pstate) (x : R) (p : vec) : Prop :=
  0 <= x <= apart a b /\ 0 < apart a b /\
  vx p = vx (position a) + x / apart a b * (vx (position b) - vx (position a)) /\
  vy p = vy (position a) + x / apart a b * (vy (position b) - vy (position a)) /\
  vz p = vz (position a) + x / apart a b * (vz (position b) - vz (position a)).
(** The unit vector from [a] to [b]. *)
Definition heading (a b : pstate) (d : vec) : Prop :=
  unit d /\ position b = at_ (position a) d (apart a b).
(** The state [r] is [a] continued for the distance [x] towards [b], with the
    energy that the displacement calculator of the sector assigns to the
    traversed grammage. *)
Definition continued (sectors : list sector) (a b : pstate) (x : R) (r : pstate) : Prop :=
  on_way a b x (position r) /\ heading a b (direction r) /\
  propagated_distance r = propagated_distance a + x /\
  exists s g, innermost sectors (position a) (direction r) s /\
    d_calculate (s_density s) (position a) (direction a) x = Ok g /\
    u_upper_limit (s_utility s) (energy a) g = Ok (energy r).

(** What an entry or exit point found on the way from [a] to [b] is: the state
    at the distance [x] behind [a], or the neighbouring track state [near] when it is within
    the position resolution. *)
Definition found_on (sectors : list sector) (a b near : pstate) (x gap : R) (r : pstate) : Prop :=
  0 <= x <= apart a b /\ 0 < apart a b /\
  ((gap < PARTICLE_POSITION_RESOLUTION /\ r = near) \/
   (PARTICLE_POSITION_RESOLUTION <= gap /\ continued sectors a b x r)).


(** No track state lies within the geometry precision of the border. *)
Definition clear_of_border (c : vec) (r : R) (l : list pstate) : Prop :=
  forall s, In s l -> dist (position s) c <= r - GEOMETRY_PRECISION \/ r + GEOMETRY_PRECISION <= dist (position s) c.
(** No state lies in the hole of a hollow sphere, or on its border. *)
Definition clear_of_hole (c : vec) (ri : R) (l : list pstate) : Prop :=
  forall s, In s l -> ri + GEOMETRY_PRECISION <= dist (position s) c.
(** A point of the polyline. *)
Inductive on_track : list pstate -> vec -> Prop :=
| ot_state s l : In s l -> on_track l (position s)
| ot_way l1 a b l2 x q : on_way a b x q -> on_track (l1 ++ a :: b :: l2) q.


(** All states lie, in order, on one ray of direction [u]. *)
Definition straight (u : vec) (l : list pstate) : Prop :=
  unit u /\ forall l1 a b l2, l = l1 ++ a :: b :: l2 -> exists x, 0 <= x /\ position b = at_ (position a) u x.


(** An entry (exit) point is either a state of the track that is itself
    entering (leaving), or a point within the position resolution of the surface. *)
Definition enters_on (sectors : list sector) (t : track) (r : pstate) (g : geometry) (surface : vec -> Prop) : Prop :=
  get_entry_point sectors t g = Ok (Some r) ->
  (exists first, nth_error (tr_states t) 0 = Some first /\
     is_entering g (position first) (direction first) = true /\ r = first) \/
  (exists q, surface q /\ magnitude (vsub (position r) q) < PARTICLE_POSITION_RESOLUTION).
Definition leaves_on (sectors : list sector) (t : track) (r : pstate) (g : geometry) (surface : vec -> Prop) : Prop :=
  get_exit_point sectors t g = Ok (Some r) ->
  (exists s, In s (tr_states t) /\
     is_leaving g (position s) (direction s) = true /\ r = s) \/
  (exists q, surface q /\ magnitude (vsub (position r) q) < PARTICLE_POSITION_RESOLUTION).
(** The walls and caps of a cylinder. *)
Definition cylinder_surface (c : vec) (r ri z : R) (q : vec) : Prop :=
  (on_barrel c r z q \/ (0 < ri /\ on_barrel c ri z q)) \/ on_cap c r ri z q.

(** The interior of a box and of a solid cylinder. *)
Definition box_interior (c : vec) (x y z : R) (q : vec) : Prop :=
  Rabs (vx q - vx c) < x / 2 /\ Rabs (vy q - vy c) < y / 2 /\ Rabs (vz q - vz c) < z / 2.
Definition cylinder_interior (c : vec) (r z : R) (q : vec) : Prop := rho2 c q < r * r /\ between_caps c z q.
(** No state lies within the geometry precision of the border of the box (cylinder). *)
Definition clear_of_box (c : vec) (x y z : R) (l : list pstate) : Prop :=
  forall s, In s l -> let p := position s in
    in_open_box c x y z GEOMETRY_PRECISION p \/
    x / 2 + GEOMETRY_PRECISION <= Rabs (vx p - vx c) \/ y / 2 + GEOMETRY_PRECISION <= Rabs (vy p - vy c) \/
    z / 2 + GEOMETRY_PRECISION <= Rabs (vz p - vz c).
Definition clear_of_cylinder (c : vec) (r z : R) (l : list pstate) : Prop :=
  forall s, In s l -> let p := position s in
    in_open_cylinder c r z GEOMETRY_PRECISION p \/ r + GEOMETRY_PRECISION <= rho c p \/
    z / 2 + GEOMETRY_PRECISION <= Rabs (vz p - vz c).
(** The rays that the track is asked about: along its segments (consecutive states
    at the same point have none), and along the
    direction of its end. *)
Definition all_rays (ok : vec -> vec -> Prop) (l : list pstate) : Prop :=
  (forall l1 a b l2 d, l = l1 ++ a :: b :: l2 -> heading a b d -> 0 < apart a b -> ok (position a) d) /\
  (forall l1 s, l = l1 ++ [s] -> unit (direction s) /\ ok (position s) (direction s)).
