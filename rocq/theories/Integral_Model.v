(** Model of the class Integral, detail/PROPOSAL/math/Integral.cxx, up to the
    QUADPACK routines.  The integrand may throw.  Not-a-number is not modelled
    as a value: [nan] is the outcome of arithmetic that leaves the reals, so the
    checks [result != result] do not appear.  Log messages are left out. *)
From Verif Require Import Prelude Function_Model.

(** Computations with loops: [None] stands for the fuel of the model being
    used up, never for a result of the C++ function. *)
Definition run A := option (outcome A).
Definition done {A} (x : outcome A) : run A := Some x.
Definition fbind {A B} (x : run A) (f : A -> run B) : run B :=
  match x with
  | Some (Ok a) => f a
  | Some (Throw e) => Some (Throw e)
  | Some (UB u) => Some (UB u)
  | None => None
  end.
Notation "'flet' x := a 'in' b" := (fbind a (fun x => b))
  (at level 200, x pattern, a at level 100, b at level 200, right associativity).

(** Constants.cxx:41: COMPUTER_PRECISION *)
Definition COMPUTER_PRECISION : R := / 10 ^ 10.
(** The largest [int] *)
Definition INT_MAX : Z := 2147483647.

(** The members of an Integral (Integral.h:221-247).  Of the work arrays c_ and
    d_, which are filled anew before they are read, only the length is kept; the
    members of the QUADPACK routines are left out.  [None] is the empty
    std::function. *)
Record engine := mkengine {
  e_steps : nat;               (* maxSteps_romberg_ *)
  e_refine_steps : nat;        (* maxSteps_upper_limit_ *)
  e_romberg : nat;
  e_romberg_refine : nat;      (* romberg4refine_ *)
  e_precision : R;
  e_work : nat;                (* c_.size() *)
  e_ix : list R;
  e_iy : list R;
  e_min : R;
  e_max : R;
  e_integrand : option (R -> outcome R);
  e_power : R;
  e_random_do : bool;
  e_log : bool;
  e_random : R;
  e_random_x : R;
  e_reverse : bool;
  e_reverse_x : R;
  e_saved : R
}.

(** Integral.cxx:408-457; the values are taken as they are after the checks at
    the beginning (zero and negative ones are replaced). *)
Definition new_integral (romberg steps : nat) (precision : R) : engine :=
  let romberg := Nat.max romberg 1 in
  let steps := Nat.max steps 1 in
  let precision := if precision <=? 0 then / 10 ^ 6 else precision in
  mkengine 12 steps romberg 2 precision (Nat.max romberg 2) (repeat 0 steps) (repeat 0 steps)
    0 1 None 0 false false 0 0 false 0 0.
(** Integral.cxx:318-367 *)
Definition default_integral : engine := new_integral 5 20 (/ 10 ^ 6).

Definition with_range (g : engine) (a b : R) : engine :=
  mkengine (e_steps g) (e_refine_steps g) (e_romberg g) (e_romberg_refine g) (e_precision g) (e_work g) (e_ix g) (e_iy g)
    a b (e_integrand g) (e_power g) (e_random_do g) (e_log g) (e_random g) (e_random_x g) (e_reverse g) (e_reverse_x g) (e_saved g).
Definition with_x (g : engine) (x : R) : engine :=
  mkengine (e_steps g) (e_refine_steps g) (e_romberg g) (e_romberg_refine g) (e_precision g) (e_work g) (e_ix g) (e_iy g)
    (e_min g) (e_max g) (e_integrand g) (e_power g) (e_random_do g) (e_log g) (e_random g) x (e_reverse g) (e_reverse_x g) (e_saved g).
Definition with_buffers (g : engine) (ix iy : list R) : engine :=
  mkengine (e_steps g) (e_refine_steps g) (e_romberg g) (e_romberg_refine g) (e_precision g) (e_work g) ix iy
    (e_min g) (e_max g) (e_integrand g) (e_power g) (e_random_do g) (e_log g) (e_random g) (e_random_x g) (e_reverse g)
    (e_reverse_x g) (e_saved g).
Definition with_romberg (g : engine) (m : nat) : engine :=
  mkengine (e_steps g) (e_refine_steps g) m (e_romberg_refine g) (e_precision g) (e_work g) (e_ix g) (e_iy g)
    (e_min g) (e_max g) (e_integrand g) (e_power g) (e_random_do g) (e_log g) (e_random g) (e_random_x g) (e_reverse g)
    (e_reverse_x g) (e_saved g).
(** The settings of one integration: limits, integrand, power of the
    substitution, logarithm, random number *)
Definition prepared (g : engine) (a b : R) (f : R -> outcome R) (power : R) (do log : bool) (random : R)
  (reverse : bool) (reverse_x : R) : engine :=
  mkengine (e_steps g) (e_refine_steps g) (e_romberg g) (e_romberg_refine g) (e_precision g) (e_work g) (e_ix g) (e_iy g)
    a b (Some f) power do log random (e_random_x g) reverse reverse_x (e_saved g).

Section Integral.
Variable nan : forall A, outcome A.
(** Integral::qags for the function between the limits (Integral.cxx:1469-2180) *)
Variable qags : (R -> outcome R) -> R -> R -> outcome R.

Definition quotient (a b : R) : outcome R := if b =? 0 then nan R else Ok (a / b).
(** [std::pow] of a positive base; others are not needed *)
Definition power (x y : R) : outcome R := if 0 <? x then Ok (Rpower x y) else nan R.
Definition logarithm (x : R) : outcome R := if 0 <? x then Ok (ln x) else nan R.

(** Integral::Function, Integral.cxx:593-637 *)
Definition evaluate (g : engine) (x : R) : outcome R :=
  let x := if e_reverse g then e_reverse_x g - x else x in
  olet (t, result) :=
    (if e_power g =? 0 then Ok (x, 1)
     else if 0 <? e_power g
     then olet t := power x (- e_power g) in olet q := quotient t x in Ok (t, e_power g * q)
     else olet t := power (- x) (e_power g) in olet q := quotient (- t) x in Ok (- t, - e_power g * q)) in
  let (t, result) := (if e_log g then (exp t, result * exp t) else (t, result)) in
  match e_integrand g with
  | Some f => olet y := f t in Ok (result * y)
  | None => Throw bad_function_call
  end.

(** The loop of Integral::Trapezoid, Integral.cxx:653-656 *)
Fixpoint trapezoid_loop (fuel : nat) (f : R -> outcome R) (x max step sum : R) : run R :=
  match fuel with
  | O => None
  | S fuel =>
    if x <? max then flet y := done (f x) in trapezoid_loop fuel f (x + step) max step (sum + y)
    else done (Ok sum)
  end.
(** Integral::Trapezoid, Integral.cxx:640-659.  C++ does not say which of the two
    values is computed first. *)
Definition trapezoid (g : engine) (n : Z) (old : R) : run R :=
  if (n =? 1)%Z
  then done (olet u := evaluate g (e_max g) in olet v := evaluate g (e_min g) in Ok ((u + v) * (e_max g - e_min g) / 2))
  else
    let n := (n / 2)%Z in
    let step := (e_max g - e_min g) / IZR n in
    flet sum := trapezoid_loop (S (Z.to_nat n)) (evaluate g) (e_min g + step / 2) (e_max g) step 0 in
    done (Ok ((old + sum * step) / 2)).

(** The loop of Integral::Trapezoid3, Integral.cxx:676-681: two nodes in a pass *)
Fixpoint trapezoid3_loop (fuel : nat) (f : R -> outcome R) (x max step sum : R) : run R :=
  match fuel with
  | O => None
  | S fuel =>
    if x <? max
    then flet y1 := done (f x) in
         let x2 := x + 2 * step in
         flet y2 := done (f x2) in
         trapezoid3_loop fuel f (x2 + step) max step (sum + y1 + y2)
    else done (Ok sum)
  end.
(** Integral::Trapezoid3, Integral.cxx:664-684 *)
Definition trapezoid3 (g : engine) (n : Z) (old : R) : run R :=
  if (n =? 1)%Z
  then done (olet u := evaluate g ((e_max g + e_min g) / 2) in Ok ((e_max g - e_min g) * u))
  else
    let step := (e_max g - e_min g) / IZR n in
    flet sum := trapezoid3_loop (S (Z.to_nat n)) (evaluate g) (e_min g + step / 2) (e_max g) step 0 in
    done (Ok (old / 3 + sum * step)).

(** The place where the sum reaches [small], Integral.cxx:728-773: [x] is the
    second node of the pass, [sum] the sum with the two values. *)
Definition locate (precision step small sum x y1 y2 : R) : outcome R :=
  let functions := y1 + y2 in
  let difference := (small - (sum - functions)) * (15 / 10 * step) in
  olet a := quotient (y2 - y1) step in
  let b := (y2 - 5 * y1) / 2 in
  let linear := quotient (difference * 2) functions in
  olet approx :=
    (if Rabs (a * difference) <? precision * (b * b) then linear
     else
       let determinant := b * b + 4 * a * difference in
       if 0 <=? determinant
       then
         let determinant := sqrt determinant in
         olet approx := (if (b =? 0) && (determinant =? 0) then Ok 0 else quotient (b + determinant) a) in
         (if (approx <? 0) || (3 * step <? approx) then quotient (b - determinant) a else Ok approx)
       else linear) in
  Ok (approx + (x - 25 / 10 * step)).
(** The loop of Integral::Trapezoid3S, Integral.cxx:720-775; [found] is the
    place, once it has been found, [None] the flag that is not set. *)
Fixpoint trapezoid3s_loop (fuel : nat) (f : R -> outcome R) (wanted : bool) (precision small : R)
  (x max step sum : R) (found : option R) : run (R * option R) :=
  match fuel with
  | O => None
  | S fuel =>
    if x <? max
    then flet y1 := done (f x) in
         let x2 := x + 2 * step in
         flet y2 := done (f x2) in
         let sum := sum + y1 + y2 in
         flet found :=
           (match found with
            | Some p => done (Ok (Some p))
            | None => if wanted && (Rabs small <=? Rabs sum)
                      then flet p := done (locate precision step small sum x2 y1 y2) in done (Ok (Some p))
                      else done (Ok None)
            end) in
         trapezoid3s_loop fuel f wanted precision small (x2 + step) max step sum found
    else done (Ok (sum, found))
  end.
(** Integral::Trapezoid3S, Integral.cxx:689-792.  std::nexttoward(max_, min_) is
    taken to be max_: the distance is a rounding error. *)
Definition trapezoid3s (g : engine) (n : Z) (old : R) (step_number : nat) : run (R * engine) :=
  if (n =? 1)%Z
  then done (olet u := evaluate g ((e_max g + e_min g) / 2) in Ok ((e_max g - e_min g) * u, g))
  else
    let step := (e_max g - e_min g) / IZR n in
    let wanted := Nat.leb (e_romberg g) (S step_number) in
    flet small :=
      done (if wanted
            then if 0 <=? e_random g then quotient (e_random g * old) (15 / 10 * step)
                 else olet s := quotient (- e_random g) (15 / 10 * step) in Ok (if old <? 0 then s * -1 else s)
            else Ok 0) in
    flet (sum, found) := trapezoid3s_loop (S (Z.to_nat n)) (evaluate g) wanted (e_precision g) small
                           (e_min g + step / 2) (e_max g) step 0 None in
    let g := (if wanted then with_x g (match found with Some p => p | None => e_max g end) else g) in
    done (Ok (old / 3 + sum * step, g)).

(** Integral::Interpolate, Integral.cxx:795-884: Neville's algorithm.  [nearest]
    is the loop of lines 806-816, [column] the inner one of lines 841-859. *)
Definition nearest (g : engine) (start : nat) (x : R) (s : nat * R * list R * list R) (i : nat)
  : outcome (nat * R * list R * list R) :=
  let '(num, aux, c, d) := s in
  olet xi := arr_get (e_ix g) (start + i) in
  let aux2 := Rabs (x - xi) in
  let '(num, aux) := (if aux2 <? aux then (i, aux2) else (num, aux)) in
  olet yi := arr_get (e_iy g) (start + i) in
  olet c := arr_set c i yi in
  olet d := arr_set d i yi in
  Ok (num, aux, c, d).
Definition column (g : engine) (start : nat) (x : R) (k : nat) (s : list R * list R) (i : nat)
  : outcome (list R * list R) :=
  let (c, d) := s in
  olet xi := arr_get (e_ix g) (start + i) in
  olet xk := arr_get (e_ix g) (start + i + k) in
  let dx1 := xi - x in
  let dx2 := xk - x in
  olet ci := arr_get c (i + 1) in
  olet di := arr_get d i in
  let aux := ci - di in
  let aux2 := dx1 - dx2 in
  let (u, v) := (if aux2 =? 0 then (0, 0) else (dx1 * (aux / aux2), dx2 * (aux / aux2))) in
  olet c := arr_set c i u in
  olet d := arr_set d i v in
  Ok (c, d).
Definition stage (g : engine) (start : nat) (x : R) (s : nat * bool * list R * list R * R * R) (k : nat)
  : outcome (nat * bool * list R * list R * R * R) :=
  let '(num, dd, c, d, result, error) := s in
  olet (c, d) := loop (column g start x k) (seq 0 (e_romberg g - k)) (c, d) in
  let dd := (if Nat.eqb num 0 then true else dd) in
  let dd := (if Nat.eqb num (e_romberg g - k) then false else dd) in
  olet (num, error) :=
    (if dd then olet e := arr_get c num in Ok (num, e)
     else match num with
          | O => UB out_of_bounds
          | S num => olet e := arr_get d num in Ok (num, e)
          end) in
  Ok (num, negb dd, c, d, result + error, error).
Definition interpolate (g : engine) (start : nat) (x : R) : outcome (R * R) :=
  olet x0 := arr_get (e_ix g) (start + 0) in
  let work := repeat 0 (e_work g) in
  olet (num, _, c, d) := loop (nearest g start x) (seq 0 (e_romberg g)) (0%nat, Rabs (x - x0), work, work) in
  olet dd :=
    (if Nat.eqb num 0 then Ok true
     else if Nat.eqb num (e_romberg g - 1) then Ok false
     else olet a := arr_get (e_ix g) (start + num - 1) in
          olet b := arr_get (e_ix g) (start + num + 1) in
          Ok (Rabs (x - b) <? Rabs (x - a))) in
  olet y := arr_get (e_iy g) (start + num) in
  olet (_, _, _, _, result, error) := loop (stage g start x) (seq 1 (e_romberg g - 1)) (num, dd, c, d, y, 0) in
  Ok (result, error).

(** [k *= factor] for an [int] *)
Definition times (k factor : Z) : outcome Z := if (INT_MAX <? k * factor)%Z then UB signed_overflow else Ok (k * factor)%Z.

(** Integral::RombergIntegrateClosed, Integral.cxx:889-940 *)
Fixpoint closed_loop (steps : nat) (g : engine) (i : nat) (k : Z) (n result : R) : run (R * engine) :=
  match steps with
  | O => done (olet v := qags (evaluate g) (e_min g) (e_max g) in Ok (v, g))
  | S steps =>
    flet result := trapezoid g k result in
    flet ix := done (arr_set (e_ix g) i n) in
    flet iy := done (arr_set (e_iy g) i result) in
    let g := with_buffers g ix iy in
    let next := (flet k := done (times k 2) in closed_loop steps g (S i) k (n / 4) result) in
    if Nat.leb (e_romberg g) (S i)
    then flet (value, error) := done (interpolate g (i - (e_romberg g - 1)) 0) in
         let error := (if value =? 0 then error else error / value) in
         if Rabs error <? e_precision g then done (Ok (value, g)) else next
    else next
  end.
Definition romberg_closed (g : engine) : run (R * engine) := closed_loop (e_steps g) g 0 1 1 0.

(** Integral::RombergIntegrateOpened(), Integral.cxx:943-1014, and
    RombergIntegrateOpened(bigValue), 1017-1063 *)
Fixpoint opened_loop (steps : nat) (big : option R) (g : engine) (i : nat) (k : Z) (n result : R) : run (R * engine) :=
  match steps with
  | O => done (olet v := qags (evaluate g) (e_min g) (e_max g) in Ok (v, g))
  | S steps =>
    flet (result, g) :=
      (match big with
       | Some _ => flet r := trapezoid3 g k result in done (Ok (r, g))
       | None =>
         if (e_random g =? 0) || (e_random g =? 1)
         then flet r := trapezoid3 g k result in
              done (Ok (r, with_x g (if e_random g =? 0 then e_min g else e_max g)))
         else trapezoid3s g k result i
       end) in
    flet ix := done (arr_set (e_ix g) i n) in
    flet iy := done (arr_set (e_iy g) i result) in
    let g := with_buffers g ix iy in
    let next := (flet k := done (times k 3) in opened_loop steps big g (S i) k (n / 9) result) in
    if Nat.leb (e_romberg g) (S i)
    then flet (value, error) := done (interpolate g (i - (e_romberg g - 1)) 0) in
         flet error := done (match big with
                             | Some b => quotient error b
                             | None => Ok (if value =? 0 then error else error / value)
                             end) in
         if Rabs error <? e_precision g then done (Ok (value, g)) else next
    else next
  end.
Definition romberg_opened (big : option R) (g : engine) : run (R * engine) := opened_loop (e_steps g) big g 0 1 1 0.

(** [std::abs(max_ - min_) <= std::abs(min_) * COMPUTER_PRECISION] *)
Definition negligible (a b : R) : bool := Rabs (b - a) <=? Rabs a * COMPUTER_PRECISION.
Definition finish (aux : R) (r : run (R * engine)) : run (R * engine) :=
  flet (v, g) := r in done (Ok (aux * v, g)).
Definition sign_of (a b : R) : R := if b <? a then -1 else 1.

(** InitIntegralOpenedAndClosed, IntegrateClosed, IntegrateOpened,
    Integral.cxx:1066-1120: the random number of an earlier call is kept. *)
Definition init_plain (g : engine) (a b : R) (f : R -> outcome R) : engine :=
  prepared g (Rmin a b) (Rmax a b) f 0 false false (e_random g) false (e_reverse_x g).
Definition integrate_closed (g : engine) (a b : R) (f : R -> outcome R) : run (R * engine) :=
  let g := init_plain g a b f in
  if negligible (e_min g) (e_max g) then done (Ok (0, g)) else finish (sign_of a b) (romberg_closed g).
Definition integrate_opened (g : engine) (a b : R) (f : R -> outcome R) : run (R * engine) :=
  let g := init_plain g a b f in
  if negligible (e_min g) (e_max g) then done (Ok (0, g)) else finish (sign_of a b) (romberg_opened None g).

(** The flags that are set before the early [return 0] *)
Definition flags (g : engine) (log reverse : bool) : engine :=
  mkengine (e_steps g) (e_refine_steps g) (e_romberg g) (e_romberg_refine g) (e_precision g) (e_work g) (e_ix g) (e_iy g)
    (e_min g) (e_max g) (e_integrand g) (e_power g) (e_random_do g) log (e_random g) (e_random_x g) reverse
    (e_reverse_x g) (e_saved g).
(** InitIntegralWithSubstitution, Integral.cxx:1125-1186.  [None] are the early
    returns: the limits and the integrand of an earlier call are kept. *)
Definition init_substitution (g : engine) (a b : R) (f : R -> outcome R) (p : R) : outcome (R * engine) :=
  let g := flags g false false in
  olet r := (if 0 <? p then
               if (0 <? Rmax a b) && (0 <? Rmin a b)
               then olet u := power (Rmax a b) (- 1 / p) in olet v := power (Rmin a b) (- 1 / p) in Ok (Some (u, v, 1))
               else if 0 <? Rmax a b
               then olet v := power (Rmax a b) (- 1 / p) in Ok (Some (0, v, -1))
               else Ok None
             else if p <? 0 then
               if (Rmax a b <? 0) && (Rmin a b <? 0)
               then olet u := power (- Rmax a b) (1 / p) in olet v := power (- Rmin a b) (1 / p) in Ok (Some (- u, - v, 1))
               else if Rmin a b <? 0
               then olet u := power (- Rmin a b) (1 / p) in Ok (Some (- u, 0, -1))
               else Ok None
             else Ok (Some (Rmin a b, Rmax a b, 1))) in
  match r with
  | Some (lo, hi, s) => Ok (sign_of a b * s, prepared g lo hi f p false false 0 false (e_reverse_x g))
  | None => Ok (0, g)
  end.
(** IntegrateWithSubstitution, Integral.cxx:1191-1206 *)
Definition integrate_substitution (g : engine) (a b : R) (f : R -> outcome R) (p : R) : run (R * engine) :=
  flet (aux, g) := done (init_substitution g a b f p) in
  if negligible (e_min g) (e_max g) then done (Ok (0, g)) else finish aux (romberg_opened None g).

(** InitIntegralWithLog, IntegrateWithLog, Integral.cxx:1332-1374 *)
Definition integrate_log (g : engine) (a b : R) (f : R -> outcome R) : run (R * engine) :=
  flet lo := done (logarithm (Rmin a b)) in
  flet hi := done (logarithm (Rmax a b)) in
  let g := prepared g lo hi f 0 false true 0 false (e_reverse_x g) in
  if negligible (e_min g) (e_max g) then done (Ok (0, g)) else finish (sign_of a b) (romberg_opened None g).

(** InitIntegralWithLogSubstitution, IntegrateWithLogSubstitution,
    Integral.cxx:1379-1466, for positive limits *)
Definition init_log_substitution (g : engine) (a b : R) (f : R -> outcome R) (p : R) : outcome (R * engine) :=
  let g := flags g true false in
  let lo := Rmin a b in
  let hi := Rmax a b in
  olet r := (if 0 <? p then
               if (1 <? hi) && (1 <? lo)
               then olet u := power (ln hi) (- 1 / p) in olet v := power (ln lo) (- 1 / p) in Ok (Some (u, v, 1))
               else if 1 <? hi
               then olet v := power (ln hi) (- 1 / p) in Ok (Some (0, v, -1))
               else Ok None
             else if p <? 0 then
               if (hi <? 1) && (lo <? 1)
               then olet u := power (- ln hi) (1 / p) in olet v := power (- ln lo) (1 / p) in Ok (Some (- u, - v, 1))
               else if lo <? 1
               then olet u := power (- ln lo) (1 / p) in Ok (Some (- u, 0, -1))
               else Ok None
             else Ok (Some (ln lo, ln hi, 1))) in
  match r with
  | Some (lo, hi, s) => Ok (sign_of a b * s, prepared g lo hi f p false true 0 false (e_reverse_x g))
  | None => Ok (0, g)
  end.
Definition integrate_log_substitution (g : engine) (a b : R) (f : R -> outcome R) (p : R) : run (R * engine) :=
  flet (aux, g) := done (init_log_substitution g a b f p) in
  if negligible (e_min g) (e_max g) then done (Ok (0, g)) else finish aux (romberg_opened None g).

(** Integral::Integrate, Integral.cxx:34-69 *)
Definition integrate (g : engine) (a b : R) (f : R -> outcome R) (method : Z) (p : R) : run (R * engine) :=
  if (a =? 0) && (b =? 0) then done (Ok (0, g))
  else match method with
       | 1%Z => integrate_closed g a b f
       | 2%Z => integrate_opened g a b f
       | 3%Z => integrate_substitution g a b f p
       | 4%Z => if (a <=? 0) || (b <=? 0) then done (Ok (0, g)) else integrate_log g a b f
       | 5%Z => if (a <=? 0) || (b <=? 0) then done (Ok (0, g)) else integrate_log_substitution g a b f p
       | _ => done (Ok (0, g))
       end.

(** ** Sampling *)
Definition clamp01 (r : R) : R := let r := (if 1 <? r then 1 else r) in if r <? 0 then 0 else r.
Definition sampled (g : engine) (random saved : R) : engine :=
  mkengine (e_steps g) (e_refine_steps g) (e_romberg g) (e_romberg_refine g) (e_precision g) (e_work g) (e_ix g) (e_iy g)
    (e_min g) (e_max g) (e_integrand g) (e_power g) true (e_log g) random (e_random_x g) (e_reverse g) (e_reverse_x g) saved.
(** The empty range of IntegrateWithLog and IntegrateWithSubstitution with a
    random ratio: the limits are stored, the rest is kept. *)
Definition empty_range (g : engine) (a b : R) (log : bool) : engine :=
  mkengine (e_steps g) (e_refine_steps g) (e_romberg g) (e_romberg_refine g) (e_precision g) (e_work g) (e_ix g) (e_iy g)
    a b (e_integrand g) (e_power g) true log (e_random g) (e_random_x g) false (e_reverse_x g) (e_saved g).
(** IntegrateWithLog with a random ratio, Integral.cxx:249-308 *)
Definition integrate_log_ratio (g : engine) (a b : R) (f : R -> outcome R) (ratio : R) : run (R * engine) :=
  if negligible a b then done (Ok (0, empty_range g a b true))
  else
    flet lo := done (logarithm (Rmin a b)) in
    flet hi := done (logarithm (Rmax a b)) in
    let reverse := (b <? a) in
    let aux := sign_of a b in
    let g := prepared g lo hi f 0 (e_random_do g) true (if 1 <? ratio then 1 else ratio) reverse
               (if reverse then lo + hi else e_reverse_x g) in
    flet (result, g) := romberg_opened None g in
    flet random := done (if e_random g <? 0
                         then olet r := quotient (e_random g) (- aux * result) in Ok (clamp01 r)
                         else Ok (e_random g)) in
    done (Ok (aux * result, sampled g random result)).
(** IntegrateWithSubstitution with a random ratio, Integral.cxx:147-244 *)
Definition integrate_substitution_ratio (g : engine) (a b : R) (f : R -> outcome R) (p ratio : R) : run (R * engine) :=
  if negligible a b then done (Ok (0, empty_range g a b false))
  else
    let lo := Rmin a b in
    let hi := Rmax a b in
    let swapped := (b <? a) in
    flet r := done (if 0 <? p then
                 if (0 <? hi) && (0 <? lo)
                 then olet u := power hi (- 1 / p) in olet v := power lo (- 1 / p) in Ok (Some (u, v, 1, negb swapped))
                 else if 0 <? hi
                 then olet v := power hi (- 1 / p) in Ok (Some (0, v, -1, swapped))
                 else Ok None
               else if p <? 0 then
                 if (hi <? 0) && (lo <? 0)
                 then olet u := power (- hi) (1 / p) in olet v := power (- lo) (1 / p) in Ok (Some (- u, - v, 1, negb swapped))
                 else if lo <? 0
                 then olet u := power (- lo) (1 / p) in Ok (Some (- u, 0, -1, swapped))
                 else Ok None
               else Ok (Some (lo, hi, 1, swapped))) in
    match r with
    | None => done (Ok (0, flags g false swapped))
    | Some (u, v, s, reverse) =>
      let g := prepared g u v f p (e_random_do g) false (if 1 <? ratio then 1 else ratio) reverse
                 (if reverse then u + v else e_reverse_x g) in
      flet (result, g) := romberg_opened None g in
      flet random := done (if e_random g <? 0
                           then olet r := quotient (e_random g) (- Rabs result) in Ok (clamp01 r)
                           else Ok (e_random g)) in
      done (Ok (sign_of a b * s * result, sampled g random result))
    end.
(** Integral::IntegrateWithRandomRatio, Integral.cxx:74-100 *)
Definition integrate_ratio (g : engine) (a b : R) (f : R -> outcome R) (method : Z) (ratio p : R) : run (R * engine) :=
  if (a =? 0) && (b =? 0) then done (Ok (0, g))
  else match method with
       | 3%Z => integrate_substitution_ratio g a b f p ratio
       | 4%Z => if (a <=? 0) || (b <=? 0) then done (Throw invalid_argument) else integrate_log_ratio g a b f ratio
       | _ => done (Ok (0, g))
       end.

(** The loop of Integral::RefineUpperLimit, Integral.cxx:1267-1317.  [g] has the
    refined number of Romberg points; the result is the last position. *)
Fixpoint refine_loop (steps : nat) (g : engine) (result value : R) (x f df xlow xhi delta delta_old : R) : run (R * engine) :=
  match steps with
  | O => done (Ok (x, g))
  | S steps =>
    let '(xlow, xhi) := (if f <? 0 then (x, xhi) else (xlow, x)) in
    flet (x', delta', stop) :=
      done (if (0 <? ((x - xhi) * df - f) * ((x - xlow) * df - f)) || (Rabs (delta_old * df) <? Rabs (2 * f))
            then let delta := (xhi - xlow) / 2 in Ok (xlow + delta, delta, xlow =? xlow + delta)
            else olet delta := quotient f df in Ok (x - delta, delta, x =? x - delta)) in
    if stop || (Rabs delta' <? e_precision g) then done (Ok (x', g))
    else
      let g := with_range g (Rmin (e_random_x g) x') (Rmax (e_random_x g) x') in
      flet (v, g) := romberg_opened (Some result) g in
      flet df := done (evaluate g x') in
      refine_loop steps g result value x' (value + sign_of (e_random_x g) x' * v) df xlow xhi delta' delta
  end.
(** Integral::RefineUpperLimit, Integral.cxx:1211-1327 *)
Definition refine_upper_limit (g : engine) (result : R) : run engine :=
  if (e_random g =? 0) || (e_random g =? 1) then done (Ok g)
  else
    let flow := - e_random g * result in
    let fhi := (1 - e_random g) * result in
    if 0 <? flow * fhi then done (Ok g)
    else
      let '(xlow, xhi) := (if 0 <? flow then (e_max g, e_min g) else (e_min g, e_max g)) in
      let width := e_max g - e_min g in
      let g := (if (e_random_x g <? e_min g) || (e_max g <? e_random_x g) then with_x g ((e_min g + e_max g) / 2) else g) in
      let x := e_random_x g in
      let lo := e_min g in
      let hi := e_max g in
      let m := e_romberg g in
      flet (v, g) := romberg_opened (Some result) (with_range g lo x) in
      let value := v - e_random g * result in
      let g := with_romberg g (e_romberg_refine g) in
      flet df := done (evaluate g x) in
      flet (x, g) := refine_loop (e_refine_steps g) g result value x value df xlow xhi width width in
      done (Ok (with_range (with_romberg (with_x g x) m) lo hi)).
(** Integral::GetUpperLimit, Integral.cxx:105-142 *)
Definition get_upper_limit (g : engine) : run (R * engine) :=
  if e_random_do g then
    if negligible (e_min g) (e_max g) then done (Ok (e_min g, g))
    else
      flet g := refine_upper_limit g (e_saved g) in
      let x := (if e_reverse g then e_reverse_x g - e_random_x g else e_random_x g) in
      flet x := done (if 0 <? e_power g then power x (- e_power g)
                      else if e_power g <? 0 then olet t := power (- x) (e_power g) in Ok (- t)
                      else Ok x) in
      let x := (if e_log g then exp x else x) in
      done (Ok (x, with_x g x))
  else done (Ok (0, g)).
End Integral.

(** The calls of a user on one object, in sequence; an exception ends it. *)
Inductive call :=
| Integrate (a b : R) (f : R -> outcome R) (method : Z) (p : R)
| IntegrateWithRandomRatio (a b : R) (f : R -> outcome R) (method : Z) (ratio p : R)
| GetUpperLimit.
Fixpoint session nan qags (cs : list call) (g : engine) : run (list R * engine) :=
  match cs with
  | [] => done (Ok ([], g))
  | c :: cs =>
    flet (v, g) := (match c with
                    | Integrate a b f method p => integrate nan qags g a b f method p
                    | IntegrateWithRandomRatio a b f method ratio p => integrate_ratio nan qags g a b f method ratio p
                    | GetUpperLimit => get_upper_limit nan qags g
                    end) in
    flet (vs, g) := session nan qags cs g in done (Ok (v :: vs, g))
  end.
