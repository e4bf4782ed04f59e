(** Model of the class Interpolant, detail/PROPOSAL/math/Interpolant.cxx, as the library
    uses it: tables of points (the two constructors that take vectors), read with
    InterpolateArray, and FindLimit for a table of one variable.  Such tables have
    isLog_ = logSubst_ = false and fast_ = true, so that the logarithms, the estimates of
    the precision and [relative] have no effect and are left out.  Not modelled: the
    constructors that take a function and the methods Interpolate(x),
    Interpolate(x1, x2) and FindLimit(x1, y) that go with them; tables of more than
    INT_MAX points; what an object is left like by an exception.  Doubles are real
    numbers. *)
From Verif Require Import Prelude Function_Model Cross_Model.

(** [v.at(i)]: std::out_of_range for an index past the end.  The indices of the class are
    of type int; none of those used here can be negative. *)
Definition at_ {A} (l : list A) (i : nat) : outcome A :=
  match nth_error l i with Some a => Ok a | None => Throw out_of_range end.
(** [v.at(i) = a] *)
Fixpoint put {A} (l : list A) (i : nat) (a : A) : outcome (list A) :=
  match l, i with
  | [], _ => Throw out_of_range
  | _ :: l, O => Ok (a :: l)
  | b :: l, S i => olet l := put l i a in Ok (b :: l)
  end.

(** The members of a table of one variable, Interpolant.h:67-97: iX_, iY_, c_, d_,
    max_, romberg_, rombergY_, rational_, xmin_, xmax_.  rationalY_ only counts when
    fast_ is false, and starti_ is an argument here. *)
Record inter := mkinter {
  i_x : list R; i_y : list R;
  i_c : list R; i_d : list R;
  i_max : nat; i_romberg : nat; i_romberg_y : nat; i_rational : bool;
  i_low : R; i_high : R
}.
Definition with_work (t : inter) (c d : list R) : inter :=
  mkinter (i_x t) (i_y t) c d (i_max t) (i_romberg t) (i_romberg_y t) (i_rational t) (i_low t) (i_high t).

(** ** The constructors *)

(** [for (i < v.size()) to.at(i) = v.at(i)], [to] holding [n] zeros *)
Definition fill (n : nat) (v : list R) : outcome (list R) :=
  if Nat.leb (length v) n then Ok (v ++ repeat 0 (n - length v)) else Throw out_of_range.

(** Interpolant::InitInterpolant, Interpolant.cxx:1597-1700, for isLog = logSubst = false
    and rombergY = romberg: the numbers max_ and romberg_ and the limits of the table.
    The warnings that are written to the log are left out. *)
Definition init_max (max : nat) (low high : R) : nat :=
  if low =? high then 1%nat else Nat.max max 1.
Definition init_romberg (max : nat) (romberg : Z) : nat := Nat.min (Nat.max (Z.to_nat romberg) 1) max.

(** Interpolant::Interpolant(x, y, romberg, rational, relative), 1147-1207 *)
Definition make (x y : list R) (romberg : Z) (rational : bool) : outcome inter :=
  olet first := at_ x 0 in
  olet last := at_ x (length x - 1) in
  let max := init_max (Nat.min (length x) (length y)) first last in
  let r := init_romberg max romberg in
  olet ix := fill max x in
  olet iy := fill max y in
  Ok (mkinter ix iy (repeat 0 r) (repeat 0 r) max r r rational (Rmin first last) (Rmax first last)).

(** A table of two variables: iX_, iY_ (which InterpolateArray fills as it goes),
    Interpolant_, c_, d_, max_, romberg_, rational_ *)
Record grid := mkgrid {
  g_table : inter;
  g_rows : list inter
}.
Definition with_values (t : inter) (y : list R) : inter :=
  mkinter (i_x t) y (i_c t) (i_d t) (i_max t) (i_romberg t) (i_romberg_y t) (i_rational t) (i_low t) (i_high t).

(** [for (i < x1.size()) Interpolant_.at(i) = new Interpolant(x2, iY2_[i], …)], 1295-1308;
    iY2_ is a copy of y *)
Fixpoint make_rows (x1 x2 : list R) (y : list (list R)) (romberg : Z) (rational : bool) : outcome (list inter) :=
  match x1 with
  | [] => Ok []
  | _ :: x1 =>
    match y with
    | [] => UB out_of_bounds
    | row :: y =>
      olet t := make x2 row romberg rational in
      olet l := make_rows x1 x2 y romberg rational in
      Ok (t :: l)
    end
  end.
(** Interpolant::Interpolant(x1, x2, y, romberg1, …), 1213-1312.  iX_.at(i) = x1.at(i) is
    done along with the rows: when x1 is longer than y the constructor throws
    std::out_of_range after the rows of y have been made, here before.  y[0] of an empty y
    is undefined. *)
Definition make_grid (x1 x2 : list R) (y : list (list R)) (romberg1 : Z) (rational1 : bool) (romberg2 : Z) (rational2 : bool)
  : outcome grid :=
  olet first := at_ x1 0 in
  olet last := at_ x1 (length x1 - 1) in
  let max := init_max (Nat.min (length x1) (length y)) first last in
  let r := init_romberg max romberg1 in
  match y with
  | [] => UB out_of_bounds
  | _ =>
    olet ix := fill max x1 in
    olet rows := make_rows x1 x2 y romberg2 rational2 in
    Ok (mkgrid (mkinter ix (repeat 0 max) (repeat 0 r) (repeat 0 r) max r r rational1 (Rmin first last) (Rmax first last)) rows)
  end.

(** ** Where to read *)

(** The loop of 172-184: [j - i > 1] halves the interval.  [fuel] bounds the number of
    turns; max_ turns always suffice.  Throw logic_error stands for a bound that was too
    small: nothing else here has this outcome, so that a theorem about any other one
    shows that the loop has ended. *)
Fixpoint search (x : R) (ix : list R) (dir : bool) (fuel i j : nat) : outcome nat :=
  if Nat.ltb 1 (j - i) then
    match fuel with
    | O => Throw logic_error
    | S fuel =>
      let m := ((i + j) / 2)%nat in
      olet xm := at_ ix m in
      if Bool.eqb (xm <? x) dir then search x ix dir fuel m j else search x ix dir fuel i m
    end
  else Ok i.
(** InterpolateArray, 163-211: the nodes starti_ and start *)
Definition locate (t : inter) (x : R) : outcome (nat * nat) :=
  olet last := at_ (i_x t) (i_max t - 1) in
  olet first := at_ (i_x t) 0 in
  let dir := first <? last in
  olet i := search x (i_x t) dir (i_max t) 0 (i_max t - 1) in
  olet aux :=
    (if Nat.ltb (i + 1) (i_max t) then
       olet a := at_ (i_x t) i in
       olet b := at_ (i_x t) (i + 1) in
       Ok (if Bool.eqb (x - a <? b - x) dir then 0%nat else 1%nat)
     else Ok 0%nat) in
  (* 0.5 * (romberg_ - 1 - auxdir) is at least -0.5, which is cut off to 0; a start below
     zero becomes zero *)
  let start := (i - (i_romberg t - 1 - aux) / 2)%nat in
  let start := (if Nat.ltb (i_max t) (start + i_romberg t) || Nat.ltb (i_max t) start
                then i_max t - i_romberg t else start)%nat in
  Ok ((i + aux)%nat, start).

(** ** Neville's algorithm *)
Section Interpolate.
Variable nan : forall A, outcome A.

(** 1751-1760 *)
Definition copy_node (t : inter) (start : nat) (s : list R * list R) (i : nat) : outcome (list R * list R) :=
  let (c, d) := s in
  olet yi := at_ (i_y t) (start + i) in
  olet c := put c i yi in
  olet d := put d i yi in
  Ok (c, d).
(** The body of the inner loop, 1834-1878 *)
Definition correct (t : inter) (start : nat) (x : R) (k : nat) (s : list R * list R) (i : nat)
  : outcome (list R * list R) :=
  let (c, d) := s in
  olet ci := at_ c (i + 1) in
  olet di := at_ d i in
  olet xi := at_ (i_x t) (start + i) in
  olet xk := at_ (i_x t) (start + i + k) in
  olet (u, v) :=
    (if i_rational t then
       olet dx1 := quo nan (di * (xi - x)) (xk - x) in
       let aux2 := dx1 - ci in
       Ok (if aux2 =? 0 then (0, 0) else (dx1 * ((ci - di) / aux2), ci * ((ci - di) / aux2)))
     else
       let aux2 := (xi - x) - (xk - x) in
       Ok (if aux2 =? 0 then (0, 0) else ((xi - x) * ((ci - di) / aux2), (xk - x) * ((ci - di) / aux2)))) in
  olet c := put c i u in
  olet d := put d i v in
  Ok (c, d).
(** The body of the outer loop, 1832-1903.  [num--] of zero would be negative and
    d_.at(num) throw. *)
Definition refine (t : inter) (start : nat) (x : R) (s : nat * bool * list R * list R * R) (k : nat)
  : outcome (nat * bool * list R * list R * R) :=
  let '(num, dd, c, d, result) := s in
  olet (c, d) := loop (correct t start x k) (seq 0 (i_romberg t - k)) (c, d) in
  let dd := (if Nat.eqb num 0 then true else dd) in
  let dd := (if Nat.eqb num (i_romberg t - k) then false else dd) in
  olet (num, error) :=
    (if dd then olet e := at_ c num in Ok (num, e)
     else match num with
          | O => Throw out_of_range
          | S num => olet e := at_ d num in Ok (num, e)
          end) in
  Ok (num, negb dd, c, d, result + error).
(** Interpolant::Interpolate(x, start), 1727-1940, for fast_ and without logarithms; the
    second component is the object afterwards *)
Definition interpolate_at (t : inter) (starti start : nat) (x : R) : outcome (R * inter) :=
  let num := (starti - start)%nat in
  olet xs := at_ (i_x t) starti in
  if x =? xs then olet y := at_ (i_y t) starti in Ok (y, t)
  else
    olet (c, d) := loop (copy_node t start) (seq 0 (i_romberg t)) (i_c t, i_d t) in
    olet dd :=
      (if Nat.eqb num 0 then Ok true
       else if Nat.eqb num (i_romberg t - 1) then Ok false
       else
         olet a := at_ (i_x t) (start + num - 1) in
         olet b := at_ (i_x t) (start + num + 1) in
         Ok (Bool.eqb (b - x <? x - a) (a <? b))) in
    olet y := at_ (i_y t) (start + num) in
    olet (_, _, c, d, result) := loop (refine t start x) (seq 1 (i_romberg t - 1)) (num, dd, c, d, y) in
    Ok (result, with_work t c d).

(** Interpolant::InterpolateArray(x), 163-214 *)
Definition array (t : inter) (x : R) : outcome (R * inter) :=
  olet (starti, start) := locate t x in
  interpolate_at t starti start x.

(** Interpolant::InterpolateArray(x1, x2), 219-298 *)
Definition read_row (x2 : R) (s : list R * list inter) (i : nat) : outcome (list R * list inter) :=
  let (y, rows) := s in
  olet row := at_ rows i in
  olet (v, row) := array row x2 in
  olet y := put y i v in
  olet rows := put rows i row in
  Ok (y, rows).
Definition grid_array (g : grid) (x1 x2 : R) : outcome (R * grid) :=
  olet (starti, start) := locate (g_table g) x1 in
  olet (y, rows) := loop (read_row x2) (seq start (i_romberg (g_table g))) (i_y (g_table g), g_rows g) in
  olet (v, t) := interpolate_at (with_values (g_table g) y) starti start x1 in
  Ok (v, mkgrid t rows).

(** Interpolant::FindLimit(y), 303-405: the same on the table with iX_ and iY_ exchanged,
    the result moved into the limits of the table *)
Definition exchange (t : inter) : inter :=
  mkinter (i_y t) (i_x t) (i_c t) (i_d t) (i_max t) (i_romberg_y t) (i_romberg t) (i_rational t) (i_low t) (i_high t).
Definition find_limit (t : inter) (y : R) : outcome (R * inter) :=
  olet (v, s) := array (exchange t) y in
  Ok (if v <? i_low t then i_low t else if i_high t <? v then i_high t else v, exchange s).

(** A history of calls *)
Fixpoint calls {O} (call : O -> R * R -> outcome (R * O)) (o : O) (qs : list (R * R)) : outcome (list R * O) :=
  match qs with
  | [] => Ok ([], o)
  | q :: qs =>
    olet (v, o) := call o q in
    olet (vs, o) := calls call o qs in
    Ok (v :: vs, o)
  end.
End Interpolate.

(** HardComponent: the nodes, Photonuclear.cxx:18, and one of its tables, 29-33 and 62 *)
Definition hard_nodes : list R := [3; 4; 5; 6; 7; 8; 9].
Definition hard_row (nan : forall A, outcome A) (y : list R) (q : R) : outcome R :=
  olet t := make hard_nodes y 4 false in
  olet (v, _) := array nan t q in
  Ok v.
