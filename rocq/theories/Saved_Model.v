(** Model of saving and loading splines (detail/PROPOSAL/math/Spline.cxx, PROPOSAL/math/TableWriter.h)
    and of CalculateSpline (detail/PROPOSAL/math/MathMethods.cxx). *)
From Verif Require Import Prelude Geometry_Model Function_Model Spline_Model.

(** What stands in a text file after the two lines of comments: the words between blanks
    and ends of lines. *)
Inductive word := Count (n : N) | Number (r : R).
(** UINT_MAX and SIZE_MAX *)
Definition UINT_MAX : N := 4294967295.
Definition SIZE_MAX : N := 18446744073709551615.

(** A spline_container, Spline.h:40-47: coefficients and domain *)
Definition container : Type := (list R * (R * R))%type.

(** ** Writing *)
Section Writing.
(** [shown r] is the number read from the text that operator<< writes for [r]: the
    streams have the precision of six digits they are constructed with. *)
Variable shown : R -> R.

(** Spline::GetSplineContainer, Spline.cxx:102-114 *)
Definition get_containers (s : spline) : outcome (list container) :=
  loop (fun cs i =>
    olet p := arr_get (sp_polys s) i in
    olet lo := arr_get (sp_sub s) i in
    olet hi := arr_get (sp_sub s) (i + 1) in
    Ok (cs ++ [(p, (lo, hi))])) (seq 0 (length (sp_polys s))) [].

(** operator<<(std::ostream&, spline_container&), Spline.cxx:152-158.  [s.coeff.size() - 1]
    wraps around without coefficients. *)
Definition write_container (c : container) : list word :=
  let '(p, (lo, hi)) := c in
  [Number (shown lo); Number (shown hi); Count (match p with [] => SIZE_MAX | _ => N.of_nat (length p - 1) end)] ++ map (fun a => Number (shown a)) p.

(** Spline::save without binary, Spline.cxx:116-125, with operator<<, Spline.cxx:129-136,
    and Table_write, TableWriter.h:38-55.  Failures of the file system are not modelled. *)
Definition save (s : spline) : outcome (list word) :=
  olet cs := get_containers s in
  Ok (Count (N.of_nat (sp_n s)) :: concat (map write_container cs)).
End Writing.

(** ** Reading *)
(** [is >> d] for a double that holds [old] ([None]: not initialised).  At the end of the
    file the variable is left as it is, and all later reads fail: [[]] is also the stream
    after a failure. *)
Definition read_number (old : option R) (ws : list word) : option R * list word :=
  match ws with
  | Number r :: ws' => (Some r, ws')
  | Count n :: ws' => (Some (IZR (Z.of_N n)), ws')
  | [] => (old, [])
  end.
(** [is >> n] for an unsigned int that is not initialised.  A number that is too large is
    replaced by the largest one and is a failure.  A number with a fraction or an exponent
    does not stand at such a place in a file that was saved; its digits would be read. *)
Definition read_count (ws : list word) : option N * list word :=
  match ws with
  | Count n :: ws' => if (n <=? UINT_MAX)%N then (Some n, ws') else (Some UINT_MAX, [])
  | Number _ :: _ => (None, [])
  | [] => (None, [])
  end.

(** The loop of operator>>(std::istream&, spline_container&), Spline.cxx:164-167 *)
Fixpoint read_coefficients (k : nat) (a : option R) (ws : list word) : outcome (list R * list word) :=
  match k with
  | O => Ok ([], ws)
  | S k' =>
    let (a', ws') := read_number a ws in
    match a' with
    | None => UB uninitialised
    | Some r => olet (l, ws'') := read_coefficients k' a' ws' in Ok (r :: l, ws'')
    end
  end.
(** operator>>(std::istream&, spline_container&), Spline.cxx:160-169; [domain] is that of
    the container, of which only the coefficients have been cleared *)
Definition read_container (domain : R * R) (ws : list word) : outcome (container * list word) :=
  let (lo, ws1) := read_number (Some (fst domain)) ws in
  let (hi, ws2) := read_number (Some (snd domain)) ws1 in
  let (degree, ws3) := read_count ws2 in
  match lo, hi, degree with
  | Some lo', Some hi', Some d =>
    olet (l, ws4) := read_coefficients (N.to_nat ((d + 1) mod (UINT_MAX + 1))) None ws3 in
    Ok ((l, (lo', hi')), ws4)
  | _, _, _ => UB uninitialised
  end.
(** The loop of operator>>(std::istream&, Spline&), Spline.cxx:142-147: polynomials, left
    ends and the last domain *)
Fixpoint read_containers (n : nat) (domain : R * R) (ws : list word) : outcome (list (list R) * list R * (R * R)) :=
  match n with
  | O => Ok ([], [], domain)
  | S n' =>
    olet (c, ws') := read_container domain ws in
    olet (ps, xs, last) := read_containers n' (snd c) ws' in
    Ok (fst c :: ps, fst (snd c) :: xs, last)
  end.
(** Spline(std::string, bool) without binary, Spline.cxx:34-39, with operator>>,
    Spline.cxx:138-150, and Table_read, TableWriter.h:57-79.  A file that cannot be opened
    has no words.  With binary, the writer stores the bytes of the std::string object
    instead of its text, and the reader, after looking for two ends of lines in them,
    would overwrite the object itself: nothing of a spline is saved, and this is not
    modelled further. *)
Definition load (ws : list word) : outcome spline :=
  let (n, ws') := read_count ws in
  match n with
  | None => UB uninitialised
  | Some n' =>
    olet (ps, xs, last) := read_containers (N.to_nat n') (0, 0) ws' in
    Ok (mkspline ps (xs ++ [snd last]) (N.to_nat n'))
  end.

(** ** CalculateSpline, MathMethods.cxx:264-324: coefficients and reference point of every
    piece (SplineCoefficients::GetSpline, MathMethods.h:120-128).  The arithmetic is that of
    Cubic_Spline::calculate_splines.  Without points the vectors would have -1 elements
    (std::length_error). *)
Definition calculate_spline (nan : outcome (list (list R * R))) (xs ys : list R) : outcome (list (list R * R)) :=
  match xs with
  | [] => Throw logic_error
  | _ =>
    if (length ys <? length xs)%nat then UB out_of_bounds
    else
      let n := (length xs - 1)%nat in
      let x i := nth i xs 0 in
      let y i := nth i ys 0 in
      if negb (cs_regular x y n) then nan else Ok (map (fun i => (cs_coeff x y n i, x i)) (seq 0 n))
  end.
