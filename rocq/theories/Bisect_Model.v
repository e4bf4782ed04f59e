(** The bisections of QUADPACK's qags (PROPOSAL/math/Integral.cxx:1518-1840).
    Simplifications: which subinterval is bisected next (q_sort, 1934-2051, and the search
    1700-1742) and the extrapolation (q_epsilon_extrapolation, 2053-2180) are parameters;
    the limit is a positive integer. *)
From Coq Require Import List.
From Verif Require Import Prelude Kronrod_Model.
Import ListNotations.
Local Open Scope R_scope.

(** q_alist_, q_blist_, q_rlist_ and q_elist_ at one index *)
Record segment := mksegment { s_min : R; s_max : R; s_value : R; s_error : R }.
(** Integral.cxx:1569-1592: a subinterval with the results of the rule *)
Definition segment_of (f : R -> R) (a b : R) : segment := mksegment a b (k_value (gauss_kronrod f a b)) (k_error (gauss_kronrod f a b)).
(** The lists, area, errsum, iroff1 + iroff2 and iroff3.  Of iroff1 and iroff2 the error
    code depends on the sum only. *)
Record bisection := mkbisection { b_segments : list segment; b_area : R; b_errsum : R; b_iroff : nat; b_iroff3 : nat }.
(** output.value and output.abserr as left by the extrapolation, ierro = 3 (1620), correc *)
Record extrapolated := mkextrapolated { x_value : R; x_abserr : R; x_rough : bool; x_correc : R }.
(** What is not modelled: the index bisected for a given [last]; the best extrapolation
    when the loop is left there because of an error code, [None] if output.abserr is still
    q_oflow; the extrapolation with which the loop is left at 1762 or 1770, and whether
    output.ier was set to 5 (1750) *)
Record choices := mkchoices { c_index : nat -> nat; c_before : nat -> option extrapolated; c_stop : nat -> option (extrapolated * bool) }.

(** The assignments of 1633-1651: one half at the index of the interval, one at the end *)
Definition split (m : nat) (s1 s2 : segment) (l : list segment) : list segment :=
  if s_error s2 <=? s_error s1 then firstn m l ++ s1 :: skipn (S m) l ++ [s2] else firstn m l ++ s2 :: skipn (S m) l ++ [s1].
(** std::accumulate of q_rlist_ *)
Definition accumulate (l : list segment) : R := fold_left (fun t s => t + s_value s) l 0.
(** Integral.cxx:1834-1838 *)
Definition last_code (ier : Z) : Z := if (2 <? ier)%Z then (ier - 1)%Z else ier.

(** Integral.cxx:1795-1797 and 1823-1825: the test on divergence.  A quotient with the
    divisor zero is infinite or not a number. *)
Definition diverges (sure : bool) (defabs value area errsum : R) : bool :=
  (sure || (defabs * (1 / 100) <? Rmax (Rabs value) (Rabs area)))
  && ((if area =? 0 then negb (value =? 0) else (value / area <? 1 / 100) || (100 <? value / area)) || (Rabs area <? errsum)).
(** Integral.cxx:1783-1838: after the loop.  [sure]: ksgn is not -1 *)
Definition finish (sure : bool) (defabs : R) (last : nat) (st : bisection) (ier : Z) (x : option extrapolated) : quadpack :=
  let area := b_area st in
  let errsum := b_errsum st in
  let neval := (42 * Z.of_nat last - 21)%Z in
  match x with
  | None => mkquadpack (accumulate (b_segments st)) errsum neval (last_code ier)
  | Some x =>
      let value := x_value x in
      let ier := if ((ier =? 0)%Z && negb (x_rough x)) && diverges sure defabs value area errsum then 6%Z else ier in
      let abserr := if x_rough x then x_abserr x + x_correc x else x_abserr x in
      let ier := if (ier =? 0)%Z then 3%Z else ier in
      if negb (value =? 0) && negb (area =? 0)
      then if errsum / Rabs area <? abserr / Rabs value
           then mkquadpack (accumulate (b_segments st)) errsum neval (last_code ier)
           else mkquadpack value abserr neval (last_code ier)
      else if errsum <? abserr
           then mkquadpack (accumulate (b_segments st)) errsum neval (last_code ier)
           else let ier := if negb (area =? 0) && diverges sure defabs value area errsum then 6%Z else ier in
                mkquadpack value abserr neval (last_code ier)
  end.

(** The loop, Integral.cxx:1571-1781, for [n] more values of [last].  Without an end
    of the loop the list would be read beyond its end at 1787. *)
Fixpoint bisections (limit : nat) (epsabs epsrel : R) (f : R -> R) (sure : bool) (defabs : R) (c : choices) (n last : nat)
    (st : bisection) : outcome quadpack :=
  match n with
  | O => UB out_of_bounds
  | S n =>
      let m := c_index c last in
      match nth_error (b_segments st) m with
      | None => UB out_of_bounds
      | Some s =>
          let a1 := s_min s in
          let b1 := 1 / 2 * (s_min s + s_max s) in
          let b2 := s_max s in
          let s1 := segment_of f a1 b1 in
          let s2 := segment_of f b1 b2 in
          let area12 := s_value s1 + s_value s2 in
          let erro12 := s_error s1 + s_error s2 in
          let errsum := b_errsum st + erro12 - s_error s in
          let area := b_area st + area12 - s_value s in
          let fair := negb (k_asc (gauss_kronrod f a1 b1) =? s_error s1) && negb (k_asc (gauss_kronrod f b1 b2) =? s_error s2) in
          let iroff := if fair && (Rabs (s_value s - area12) <=? / 10 ^ 5 * Rabs area12) && (99 / 100 * s_error s <=? erro12)
                       then S (b_iroff st) else b_iroff st in
          let iroff3 := if fair && (10 <? last)%nat && (s_error s <? erro12) then S (b_iroff3 st) else b_iroff3 st in
          let errbnd := Rmax epsabs (epsrel * Rabs area) in
          let ier := if (10 <=? iroff)%nat || (20 <=? iroff3)%nat then 2%Z else 0%Z in
          let ier := if (last =? limit)%nat then 1%Z else ier in
          let ier := if Rmax (Rabs a1) (Rabs b2) <=? (1 + 100 * EPMACH) * (Rabs b1 + 1000 * UFLOW) then 4%Z else ier in
          let st := mkbisection (split m s1 s2 (b_segments st)) area errsum iroff iroff3 in
          if errsum <=? errbnd
          then Ok (mkquadpack (accumulate (b_segments st)) errsum (42 * Z.of_nat last - 21) (last_code ier))
          else if negb (ier =? 0)%Z then Ok (finish sure defabs last st ier (c_before c last))
          else match c_stop c last with
               | Some (x, five) => Ok (finish sure defabs last st (if five then 5%Z else 0%Z) (Some x))
               | None => bisections limit epsabs epsrel f sure defabs c n (S last) st
               end
      end
  end.

(** Integral::qags, Integral.cxx:1469-1840 *)
Definition qags (limit : nat) (epsabs epsrel : R) (c : choices) (f : R -> R) (a b : R) : outcome quadpack :=
  match qags_start (INR limit) epsabs epsrel f a b with
  | Some o => Ok o
  | None =>
      let k := gauss_kronrod f a b in
      let sure := (1 - 50 * EPMACH) * k_abs k <=? Rabs (k_value k) in
      bisections limit epsabs epsrel f sure (k_abs k) c (limit - 1) 2 (mkbisection [segment_of f a b] (k_value k) (k_error k) 0 0)
  end.
