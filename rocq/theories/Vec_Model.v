(** Model of [Cartesian3D] / [Spherical3D] (math/Cartesian3D.cxx,
    math/Spherical3D.cxx) and of [multiple_scattering::ScatterInitialDirection].
    [double] is modelled by [R]. *)
From Verif Require Import Prelude.

(** Cartesian3D: the [coordinates] array of three doubles.
    PROPOSAL/math/Cartesian3D.h *)
Record vec := mkvec { vx : R; vy : R; vz : R }.

(** detail/PROPOSAL/math/Cartesian3D.cxx:44-50 *)
Definition vadd (a b : vec) : vec := mkvec (vx a + vx b) (vy a + vy b) (vz a + vz b).
(** Cartesian3D.cxx:52-58 *)
Definition vsub (a b : vec) : vec := mkvec (vx a - vx b) (vy a - vy b) (vz a - vz b).
(** Cartesian3D.cxx:60-66 (scalar product) *)
Definition dot (a b : vec) : R := vx a * vx b + vy a * vy b + vz a * vz b.
(** Cartesian3D.cxx:68-82 *)
Definition scale (k : R) (a : vec) : vec := mkvec (vx a * k) (vy a * k) (vz a * k).
(** Cartesian3D.cxx:84-90 *)
Definition vneg (a : vec) : vec := mkvec (- vx a) (- vy a) (- vz a).
(** Cartesian3D.cxx:99-105 *)
Definition cross (a b : vec) : vec :=
  mkvec (vy a * vz b - vz a * vy b) (vz a * vx b - vx a * vz b) (vx a * vy b - vy a * vx b).
(** Cartesian3D.cxx:27-33 *)
Definition magnitude (a : vec) : R := sqrt (vx a * vx a + vy a * vy a + vz a * vz a).
(** Cartesian3D.cxx:35-40.  A zero vector gives 0/0 = NaN coordinates in C++;
    the model returns [None] for that case. *)
Definition normalize (a : vec) : option vec :=
  let l := magnitude a in
  if l =? 0 then None else Some (mkvec (vx a / l) (vy a / l) (vz a / l)).
(** Vector3D.cxx:15-21 *)
Definition vec_eqb (a b : vec) : bool := (vx a =? vx b) && (vy a =? vy b) && (vz a =? vz b).

(** [std::atan2] for real arguments.  Signed zeros are not modelled:
    [atan2 0 0 = 0] is the value for +0 arguments. *)
Definition atan2 (y x : R) : R :=
  if 0 <? x then atan (y / x)
  else if x <? 0 then (if 0 <=? y then atan (y / x) + PI else atan (y / x) - PI)
  else if 0 <? y then PI / 2
  else if y <? 0 then - (PI / 2)
  else 0.

(** Spherical3D: radius, azimuth, zenith (in this order in [coordinates]). *)
Record sph := mksph { radius : R; azimuth : R; zenith : R }.

(** Cartesian3D.cxx:140-150 *)
Definition to_spherical (a : vec) : sph :=
  let r := magnitude a in
  if r =? 0 then mksph 0 0 0
  else mksph r (atan2 (vy a) (vx a)) (acos (vz a / r)).

(** Spherical3D.cxx:38-50 *)
Definition from_spherical (s : sph) : vec :=
  let cos_a := cos (azimuth s) in
  let sin_a := sin (azimuth s) in
  let cos_z := cos (zenith s) in
  let sin_z := sin (zenith s) in
  let r := radius s in
  mkvec (r * cos_a * sin_z) (r * sin_a * sin_z) (r * cos_z).

(** Cartesian3D.cxx:120-127: the two vectors spanning the plane orthogonal to
    the direction; the same code is in Parametrization.cxx:48-55. *)
Definition rotate_vector_x (d : vec) : vec :=
  let s := to_spherical d in
  let sinth := sin (zenith s) in
  let costh := cos (zenith s) in
  let sinph := sin (azimuth s) in
  let cosph := cos (azimuth s) in
  mkvec (costh * cosph) (costh * sinph) (- sinth).
Definition rotate_vector_y (d : vec) : vec :=
  let s := to_spherical d in
  let sinph := sin (azimuth s) in
  let cosph := cos (azimuth s) in
  mkvec (- sinph) cosph 0.

(** Cartesian3D.cxx:108-134 *)
Definition deflect (d : vec) (cosphi theta : R) : vec :=
  if negb (cosphi =? 1) || negb (theta =? 0) then
    let sinphi := sqrt (Rmax 0 ((1 - cosphi) * (1 + cosphi))) in
    let tx := sinphi * cos theta in
    let ty := sinphi * sin theta in
    let tz0 := sqrt (Rmax (1 - tx * tx - ty * ty) 0) in
    let tz := if cosphi <? 0 then - tz0 else tz0 in
    let rx := rotate_vector_x d in
    let ry := rotate_vector_y d in
    mkvec (tz * vx d + tx * vx rx + ty * vx ry)
          (tz * vy d + tx * vy rx + ty * vy ry)
          (tz * vz d + tx * vz rx + ty * vz ry)
  else d.

(** multiple_scattering::ScatteringOffset,
    PROPOSAL/scattering/multiple_scattering/Parametrization.h:36-47 *)
Record offset := mkoffset { o_sx : R; o_sy : R; o_tx : R; o_ty : R }.

(** detail/PROPOSAL/scattering/multiple_scattering/Parametrization.cxx:40-69 *)
Definition scatter_initial_direction (d : vec) (o : offset) : vec * vec :=
  let sx := o_sx o in let sy := o_sy o in
  let tx := o_tx o in let ty := o_ty o in
  let sz := sqrt (Rmax (1 - (sx * sx + sy * sy)) 0) in
  let tz := sqrt (Rmax (1 - (tx * tx + ty * ty)) 0) in
  let rx := rotate_vector_x d in
  let ry := rotate_vector_y d in
  (vadd (vadd (scale sz d) (scale sx rx)) (scale sy ry),
   vadd (vadd (scale tz d) (scale tx rx)) (scale ty ry)).
