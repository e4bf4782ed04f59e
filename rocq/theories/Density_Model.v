(** Model of the density distributions (detail/PROPOSAL/density_distr) and of
    the two time calculators (detail/PROPOSAL/propagation_utility/
    TimeBuilder.cxx). *)
From Verif Require Import Prelude Vec_Model Geometry_Model Propagator_Model Function_Model Spline_Model Math_Model.

(** SPEED, detail/PROPOSAL/Constants.cxx:51 (cm/s) *)
Definition SPEED : R := 29979245800.

(** ** Axes *)
(** Axis, CartesianAxis and RadialAxis, density_distr.cxx:64-144: depth of a
    point and effective distance (position, direction).  The effective distance
    of a radial axis at its own origin normalises a zero vector (NaN, [None]). *)
Record axis := mkaxis { ax_depth : vec -> R; ax_effective : vec -> vec -> option R }.

(** density_distr.cxx:134-143 *)
Definition cartesian_axis (a p0 : vec) : axis :=
  mkaxis (fun x => dot a (vsub x p0)) (fun _ d => Some (dot a d)).

(** density_distr.cxx:97-106: [-aux * direction] is the scalar product of the
    negated unit vector with the direction. *)
Definition radial_axis (p0 : vec) : axis :=
  mkaxis (fun x => magnitude (vsub x p0))
         (fun x d => match normalize (vsub x p0) with
                     | Some aux => Some (dot (vneg aux) d)
                     | None => None
                     end).

(** ** Homogeneous density, density_homogeneous.cxx:37-74 *)
(** Integrate, density_homogeneous.cxx:50-57 *)
Definition homogeneous_integrate (rho l : R) : R := rho * l.
(** A zero mass density divides by zero in Correct (IEEE infinity or NaN, [inf]). *)
Definition homogeneous (inf : outcome R) (rho : R) : density :=
  mkdensity (fun _ => rho)
            (fun _ _ res _ => if rho =? 0 then inf else Ok (res / rho))
            (fun _ _ l => Ok (homogeneous_integrate rho l - homogeneous_integrate rho 0)).

(** ** Exponential density, density_exponential.cxx *)
(** density_exponential.cxx:22-24 *)
Definition exponential_depth (ax : axis) (sigma d0 : R) (x : vec) : R := (ax_depth ax x - d0) / sigma.
(** density_exponential.cxx:37-40 *)
Definition exponential_effective (ax : axis) (sigma : R) (x d : vec) : option R :=
  match ax_effective ax x d with Some e => Some (e / sigma) | None => None end.
(** density_exponential.cxx:59-65 *)
Definition exponential_integrate (ax : axis) (sigma d0 rho delta : R) (x : vec) (l : R) : R :=
  rho * exp (exponential_depth ax sigma d0 x + l * delta) / delta.
(** density_exponential.cxx:42-57, 67-75.  [nan] is the outcome of arithmetic
    that leaves the reals without an exception: Calculate with delta = 0
    (inf - inf), and Correct when the logarithm is -infinity.  isnan(aux) holds
    when delta = 0 (infinity * log 1) and when the argument of the logarithm is
    negative. *)
Definition exponential (nan : outcome R) (ax : axis) (sigma d0 rho : R) : density :=
  mkdensity
    (fun x => rho * exp (exponential_depth ax sigma d0 x))
    (fun x d res _ =>
       match exponential_effective ax sigma x d with
       | None => Throw density_exception
       | Some delta =>
         let arg := 1 + exp (- exponential_depth ax sigma d0 x) * res * delta / rho in
         if delta =? 0 then Throw density_exception
         else if arg <? 0 then Throw density_exception
         else if arg =? 0 then nan
         else Ok (1 / delta * ln arg)
       end)
    (fun x d l =>
       match exponential_effective ax sigma x d with
       | None => nan
       | Some delta =>
         if delta =? 0 then nan
         else Ok (exponential_integrate ax sigma d0 rho delta x l -
                  exponential_integrate ax sigma d0 rho delta x 0)
       end).

(** ** Polynomial and spline densities *)
(** The two classes differ only in the functions [dens] (the profile along the
    axis) and [anti] (its antiderivative).
    Integrate, density_polynomial.cxx:85-92 and density_splines.cxx:86-93 *)
Definition profile_integrate (ax : axis) (rho : R) (anti : R -> R) (delta : R) (x : vec) (l : R) : R :=
  rho * anti (ax_depth ax x + l * delta) / (delta * delta).
(** Helper_function and helper_function, density_polynomial.cxx:48-63 and
    density_splines.cxx:51-66 *)
Definition profile_F (ax : axis) (rho : R) (anti : R -> R) (delta : R) (x : vec) (res l : R) : R :=
  profile_integrate ax rho anti delta x 0 - profile_integrate ax rho anti delta x l + res.
Definition profile_evaluate (ax : axis) (rho : R) (dens : R -> R) (x : vec) : R := rho * dens (ax_depth ax x).
Definition profile_dF (ax : axis) (rho : R) (dens : R -> R) (x d : vec) (l : R) : R :=
  profile_evaluate ax rho dens x - profile_evaluate ax rho dens (vadd x (scale l d)).
(** Evaluate, Correct and Calculate, density_polynomial.cxx:65-102 and
    density_splines.cxx:68-103.  MAX_STEPS and xacc of NewtonRaphson are the
    defaults 101 and 1e-6 (MathMethods.h).  [nan] is the outcome of arithmetic
    that leaves the reals: delta = 0 (inf - inf), the effective distance at the
    origin of a radial axis, and a Newton step 0/0. *)
Definition profile_density (nan : outcome R) (ax : axis) (rho : R) (dens anti : R -> R) : density :=
  mkdensity
    (profile_evaluate ax rho dens)
    (fun x d res border =>
       match ax_effective ax x d with
       | None => nan
       | Some delta =>
         if delta =? 0 then nan
         else
           match newton_raphson (profile_F ax rho anti delta x res) (profile_dF ax rho dens x d) nan
                   0 border (border / 2) 101 (/ 1000000) with
           | Throw math_exception => Throw density_exception
           | r => r
           end
       end)
    (fun x d l =>
       match ax_effective ax x d with
       | None => nan
       | Some delta =>
         if delta =? 0 then nan
         else Ok (profile_integrate ax rho anti delta x l - profile_integrate ax rho anti delta x 0)
       end).
(** The functions returned by GetFunction() are only called on polynomials with
    at least one coefficient and on splines with at least one interval, where
    evaluation is defined (C24, C26); the default 0 stands for the other cases. *)
Definition value (o : outcome R) : R := match o with Ok v => v | _ => 0 end.
(** Density_polynomial, density_polynomial.cxx:13-18 *)
Definition polynomial_density (nan : outcome R) (ax : axis) (c : list R) (rho : R) : density :=
  profile_density nan ax rho (fun z => value (poly_evaluate c z))
    (fun z => value (poly_evaluate (poly_antiderivative c 0) z)).
(** Density_splines, density_splines.cxx:9-14: the antiderivative is taken of a
    clone. *)
Definition spline_density (nan : outcome R) (ax : axis) (s : spline) (rho : R) : outcome density :=
  olet s' := spline_antiderivative s 0 in
  Ok (profile_density nan ax rho (fun z => value (spline_evaluate s z)) (fun z => value (spline_evaluate s' z))).

(** ** Time calculators *)
(** ApproximateTimeBuilder::TimeElapsed, TimeBuilder.cxx:73-78; a vanishing
    density is not modelled (division by zero). *)
Definition approximate_time (_ _ grammage local_density : R) : outcome R :=
  Ok (grammage / (local_density * SPEED)).
(** ExactTimeBuilder::TimeElapsed, TimeBuilder.cxx:31-38; [integral] is
    time_integral->Calculate, the grammage is ignored. *)
Definition exact_time (integral : R -> R -> outcome R) (e_i e_f _grammage local_density : R) : outcome R :=
  olet t := integral e_i e_f in
  Ok (t / local_density).
