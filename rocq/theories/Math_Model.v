(** Model of root searches, the online variance and two samplers,
    detail/PROPOSAL/math/MathMethods.cxx. *)
From Verif Require Import Prelude.

Section Newton.
Variables (f df : R -> R) (nan : outcome R).

(** The state of the loop of NewtonRaphson: xl, xh, rts, dxold, dx, f, df. *)
Record newton := mknewton { n_xl : R; n_xh : R; n_rts : R; n_dxold : R; n_dx : R; n_f : R; n_df : R }.

(** One pass of the loop body, MathMethods.cxx:203-234; [inr] is a return from
    the function.  The Newton step divides by df; df = 0 is only possible there
    together with f = 0 (0/0), every following comparison is then with NaN and
    the function ends with NaN ([nan]). *)
Definition newton_step (xacc : R) (s : newton) : outcome (newton + R) :=
  let '(mknewton xl xh rts dxold dx fv dfv) := s in
  let after (xl xh rts dxold dx : R) : outcome (newton + R) :=
    if Rabs dx <? xacc then Ok (inr rts)
    else
      let fv := f rts in
      let dfv := df rts in
      if fv <? 0 then Ok (inl (mknewton rts xh rts dxold dx fv dfv))
      else Ok (inl (mknewton xl rts rts dxold dx fv dfv)) in
  if (0 <? ((rts - xh) * dfv - fv) * ((rts - xl) * dfv - fv)) || (Rabs (dxold * dfv) <? Rabs (2 * fv)) then
    let dxold := dx in
    let dx := 1 / 2 * (xh - xl) in
    let rts := xl + dx in
    if xl =? rts then Ok (inr rts) else after xl xh rts dxold dx
  else if dfv =? 0 then olet r := nan in Ok (inr r)
  else
    let dxold := dx in
    let dx := fv / dfv in
    let temp := rts in
    let rts := rts - dx in
    if temp =? rts then Ok (inr rts) else after xl xh rts dxold dx.

Fixpoint newton_loop (xacc : R) (steps : nat) (s : newton) : outcome R :=
  match steps with
  | O => Ok (n_rts s)
  | S k =>
    olet r := newton_step xacc s in
    match r with
    | inl s' => newton_loop xacc k s'
    | inr x => Ok x
    end
  end.

(** NewtonRaphson, MathMethods.cxx:152-238.  [max_steps] is MAX_STEPS (default
    101); the loop runs for j = 1 .. MAX_STEPS - 1. *)
Definition newton_raphson (x1 x2 xinit : R) (max_steps : nat) (xacc : R) : outcome R :=
  let fl := f x1 in
  let fh := f x2 in
  if 0 <? fl * fh then Throw math_exception
  else if fl =? 0 then Ok x1
  else if fh =? 0 then Ok x2
  else
    let '(xl, xh) := if fl <? 0 then (x1, x2) else (x2, x1) in
    let d := Rabs (x2 - x1) in
    newton_loop xacc (max_steps - 1) (mknewton xl xh xinit d d (f xinit) (df xinit)).
End Newton.

(** sgn, MathMethods.h:94-96 *)
Definition sgn (x : R) : Z := ((if (0 <? x)%R then 1 else 0) - (if (x <? 0)%R then 1 else 0))%Z.

(** Bisection, MathMethods.cxx:240-262; [passes] is the number of passes
    (MAX_ITER + 1 for a whole number MAX_ITER >= 0). *)
Fixpoint bisection_loop (f : R -> R) (xacc : R) (passes : nat) (x1 x2 : R) : R * R :=
  match passes with
  | O => (x1, x2)
  | S k =>
    let center := (x1 + x2) / 2 in
    let '(x1, x2) := if (sgn (f center) =? sgn (f x1))%Z then (center, x2) else (x1, center) in
    if Rabs (x2 - x1) <? xacc then (x1, x2) else bisection_loop f xacc k x1 x2
  end.
Definition bisection (f : R -> R) (x1 x2 xacc : R) (passes : nat) : outcome (R * R) :=
  if 0 <? f x1 * f x2 then Throw math_exception
  else
    let '(x1, x2) := if x2 <? x1 then (x2, x1) else (x1, x2) in
    Ok (bisection_loop f xacc passes x1 x2).

(** welfords_online_algorithm, MathMethods.cxx:398-403; [iter] is the number of
    the new value, counted from 1 (0 divides by zero). *)
Definition welford (value : R) (iter : nat) (mean cov : R) : R * R :=
  let new_mean := mean + (value - mean) / INR iter in
  let new_cov := cov + ((value - mean) * (value - new_mean) - cov) / INR iter in
  (new_mean, new_cov).
(** The way it is used: one call per sample with iter = 1, 2, ... *)
Definition welford_all (l : list R) : R * R :=
  fst (fold_left (fun '((m, c), i) v => (welford v i m c, S i)) l ((0, 0), 1%nat)).

(** SampleFromExponential, MathMethods.cxx:415-417 *)
Definition sample_from_exponential (p lambda : R) : R := - ln (1 - p) / lambda.
