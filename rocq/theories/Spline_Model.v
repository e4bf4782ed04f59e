(** Model of the splines, detail/PROPOSAL/math/Spline.cxx. *)
From Verif Require Import Prelude Geometry_Model Function_Model.

(** The data members that evaluate uses. *)
Record spline := mkspline { sp_polys : list (list R); sp_sub : list R; sp_n : nat }.

(** Spline(std::vector<Polynom>, std::vector<double>), Spline.cxx:24-27 *)
Definition spline_from (polys : list (list R)) (sub : list R) : spline :=
  mkspline polys sub (length sub).

(** Spline::evaluate, Spline.cxx:67-78 *)
Fixpoint spline_search (s : spline) (x : R) (is : list nat) : outcome (option R) :=
  match is with
  | [] => Ok None
  | i :: is' =>
    olet lo := arr_get (sp_sub s) i in
    if lo <=? x then
      olet hi := arr_get (sp_sub s) (i + 1) in
      if x <=? hi then
        olet p := arr_get (sp_polys s) i in
        olet v := poly_evaluate p x in
        Ok (Some v)
      else spline_search s x is'
    else spline_search s x is'
  end.
Definition spline_evaluate (s : spline) (x : R) : outcome R :=
  olet r := spline_search s x (seq 0 (sp_n s)) in
  match r with
  | Some v => Ok v
  | None =>
    olet b := arr_get (rev (sp_sub s)) 0 in
    olet p := arr_get (sp_polys s) (if b <? x then sp_n s - 1 else 0) in
    poly_evaluate p x
  end.

(** Spline::Derivative, Spline.cxx:80-83: the loop variable is a copy, whose
    assignment does not change the element. *)
Definition spline_derivative (s : spline) : spline := s.

(** Spline::Antiderivative, Spline.cxx:85-94 *)
Definition antiderivative_pass (sub : list R) (st : list (list R) * R) (i : nat) : outcome (list (list R) * R) :=
  let '(polys, aux1) := st in
  olet p := arr_get polys i in
  olet lo := arr_get sub i in
  olet aux2 := poly_evaluate (poly_antiderivative p 0) lo in
  let q := poly_antiderivative p (aux1 - aux2) in
  olet polys' := arr_set polys i q in
  olet hi := arr_get sub (i + 1) in
  olet vhi := poly_evaluate q hi in
  olet vlo := poly_evaluate q lo in
  Ok (polys', aux1 + (vhi - vlo)).
Definition spline_antiderivative (s : spline) (c : R) : outcome spline :=
  olet r := loop (antiderivative_pass (sp_sub s)) (seq 0 (sp_n s)) (sp_polys s, c) in
  Ok (mkspline (fst r) (sp_sub s) (sp_n s)).

(** Linear_Spline(x, y), Spline.cxx:177-180, 195-211.  No node wraps the
    unsigned n around and reads past the end, as do fewer values than nodes (the
    mismatch is only logged).  [nan] is the outcome for equal neighbouring
    nodes (division by zero). *)
Definition linear_piece (nan : outcome (list R)) (x y : list R) (i : nat) : outcome (list R) :=
  olet x0 := arr_get x i in
  olet x1 := arr_get x (i + 1) in
  olet y0 := arr_get y i in
  olet y1 := arr_get y (i + 1) in
  if x1 - x0 =? 0 then nan
  else
    let a1 := (y1 - y0) / (x1 - x0) in
    Ok [y0 - a1 * x0; a1].
Definition linear_spline (nan : outcome (list R)) (x y : list R) : outcome spline :=
  match x with
  | [] => UB out_of_bounds
  | _ =>
    let n := (length x - 1)%nat in
    olet ps := loop (fun ps i => olet p := linear_piece nan x y i in Ok (ps ++ [p])) (seq 0 n) [] in
    Ok (mkspline ps x n)
  end.

(** ** Cubic_Spline::calculate_splines, Spline.cxx:236-295 *)
(** The vectors are functions of the index; the bounds are checked once in
    [cubic_spline]. *)
Section Cubic.
Variables (x y : nat -> R) (n : nat).
(** Spline.cxx:250-252 *)
Definition cs_h (i : nat) : R := x (i + 1)%nat - x i.
(** Spline.cxx:255-258 *)
Definition cs_alpha (i : nat) : R :=
  3 / cs_h i * (y (i + 1)%nat - y i) - 3 / cs_h (i - 1) * (y i - y (i - 1)%nat).
(** (mu[i], z[i], l[i]), Spline.cxx:265-273 *)
Fixpoint cs_mzl (i : nat) : R * R * R :=
  match i with
  | O => (0, 0, 1)
  | S k =>
    let '(mu, z, _) := cs_mzl k in
    let l := 2 * (x (i + 1)%nat - x (i - 1)%nat) - cs_h (i - 1) * mu in
    (cs_h i / l, (cs_alpha i - cs_h (i - 1) * z) / l, l)
  end.
Definition cs_mu i := fst (fst (cs_mzl i)).
Definition cs_z i := snd (fst (cs_mzl i)).
Definition cs_l i := snd (cs_mzl i).
(** c[n - k], Spline.cxx:277, 280 *)
Fixpoint cs_c_back (k : nat) : R :=
  match k with
  | O => 0
  | S k' => cs_z (n - k) - cs_mu (n - k) * cs_c_back k'
  end.
Definition cs_c (j : nat) : R := cs_c_back (n - j).
(** Spline.cxx:281-282 *)
Definition cs_b (j : nat) : R :=
  (y (j + 1)%nat - y j) / cs_h j - cs_h j * (cs_c (j + 1) + 2 * cs_c j) / 3.
Definition cs_d (j : nat) : R := (cs_c (j + 1) - cs_c j) / (3 * cs_h j).
(** Spline.cxx:287 *)
Definition cs_coeff (i : nat) : list R := [y i; cs_b i; cs_c i; cs_d i].
(** All divisors are non-zero. *)
Definition cs_regular : bool :=
  forallb (fun i => negb (cs_h i =? 0)) (seq 0 n) && forallb (fun i => negb (cs_l i =? 0)) (seq 1 (n - 1)).
End Cubic.

(** Cubic_Spline(x, y), Spline.cxx:218-221, 236-295 *)
Definition cubic_spline (nan : outcome spline) (xs ys : list R) : outcome spline :=
  match xs with
  | [] => UB out_of_bounds
  | _ =>
    if (length ys <? length xs)%nat then UB out_of_bounds
    else
      let n := (length xs - 1)%nat in
      let x i := nth i xs 0 in
      let y i := nth i ys 0 in
      if negb (cs_regular x y n) then nan
      else
        olet ps := loop (fun ps i => olet p := poly_shift (cs_coeff x y n i) (- x i) in Ok (ps ++ [p])) (seq 0 n) [] in
        Ok (mkspline ps xs n)
  end.
