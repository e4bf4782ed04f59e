(** The Gauss-Kronrod rule of QUADPACK, to which Integral resorts when Romberg's method
    does not converge (PROPOSAL/math/Integral.cxx).  Simplification: the integrand is a
    function that always gives a number. *)
From Coq Require Import List.
From Verif Require Import Prelude.
Import ListNotations.
Local Open Scope R_scope.

(** The constants of Integral.cxx:1850-1866 in units of 10^-33 *)
Definition gauss_digits : list Z :=
  [66671344308688137593568809893332; 149451349150580593145776339657697; 219086362515982043995534934228163;
   269266719309996355091226921569469; 295524224714752870173892994651338]%Z.
Definition kronrod_digits : list Z :=
  [11694638867371874278064396062192; 32558162307964727478818972459390; 54755896574351996031381300244580;
   75039674810919952767043140916190; 93125454583697605535065465083366; 109387158802297641899210590325805;
   123491976262065851077958109831074; 134709217311473325928054001771707; 142775938577060080797094273138717;
   147739104901338491374841515972068; 149445554002916905664936468389821]%Z.
Definition abscissa_digits : list Z :=
  [995657163025808080735527280689003; 973906528517171720077964012084452; 930157491355708226001207180059508;
   865063366688984510732096688423493; 780817726586416897063717578345042; 679409568299024406234327365114874;
   562757134668604683339000099272694; 433395394129247190799265943165784; 294392862701460198131126603103866;
   148874338981631210884826001129720; 0]%Z.
Definition digits (z : Z) : R := IZR z / 10 ^ 33.
Definition gauss_weight (i : nat) : R := digits (nth i gauss_digits 0%Z).
Definition kronrod_weight (i : nat) : R := digits (nth i kronrod_digits 0%Z).
Definition abscissa (i : nat) : R := digits (nth i abscissa_digits 0%Z).
(** std::numeric_limits<double>: epsilon() and min() *)
Definition EPMACH : R := / 2 ^ 52.
Definition UFLOW : R := / 2 ^ 1022.

(** The two InterpolationResults: value and error, integral of the magnitude and of the
    deviation from the mean *)
Record kronrod := mkkronrod { k_value : R; k_error : R; k_abs : R; k_asc : R }.

(** Integral.cxx:1886 and 1898: the indices of the two loops *)
Definition odd_indices : list nat := [1; 3; 5; 7; 9]%nat.
Definition even_indices : list nat := [0; 2; 4; 6; 8]%nat.

(** Integral::q_gaus_kronrod_21, Integral.cxx:1842-1932; the sums of the loops one by one *)
Definition gauss_kronrod (f : R -> R) (a b : R) : kronrod :=
  let centr := 1 / 2 * (a + b) in
  let hlgth := 1 / 2 * (b - a) in
  let dhlgth := Rabs hlgth in
  let f1 i := f (centr - hlgth * abscissa i) in
  let f2 i := f (centr + hlgth * abscissa i) in
  let fc := f centr in
  let resg := fold_left (fun s i => s + gauss_weight ((i - 1) / 2) * (f1 i + f2 i)) odd_indices 0 in
  let resk := fold_left (fun s i => s + kronrod_weight i * (f1 i + f2 i)) (odd_indices ++ even_indices) (kronrod_weight 10 * fc) in
  let resabs := fold_left (fun s i => s + kronrod_weight i * (Rabs (f1 i) + Rabs (f2 i))) (odd_indices ++ even_indices)
                  (Rabs (kronrod_weight 10 * fc)) * dhlgth in
  let reskh := resk * (1 / 2) in
  let resasc := fold_left (fun s i => s + kronrod_weight i * (Rabs (f1 i - reskh) + Rabs (f2 i - reskh))) (seq 0 10)
                  (kronrod_weight 10 * Rabs (fc - reskh)) * dhlgth in
  let abserr := Rabs ((resk - resg) * hlgth) in
  let abserr := if negb (resasc =? 0) && negb (abserr =? 0)
                then resasc * Rmin 1 (Rpower (200 * abserr / resasc) (3 / 2)) else abserr in
  let abserr := if UFLOW / (50 * EPMACH) <? resabs then Rmax (EPMACH * 50 * resabs) abserr else abserr in
  mkkronrod (resk * hlgth) abserr resabs resasc.

(** QuadpackResults *)
Record quadpack := mkquadpack { q_value : R; q_abserr : R; q_neval : Z; q_ier : Z }.
(** The beginning of Integral::qags, Integral.cxx:1469-1517, with at least one
    subinterval allowed; [None]: the interval is bisected (1518-1840, not modelled) *)
Definition qags_start (limit epsabs epsrel : R) (f : R -> R) (a b : R) : option quadpack :=
  if (epsabs <? 0) && (epsrel <? 0) then Some (mkquadpack 0 0 0 6)
  else
    let k := gauss_kronrod f a b in
    let errbnd := Rmax epsabs (epsrel * Rabs (k_value k)) in
    let ier := if (k_error k <=? 100 * EPMACH * k_abs k) && (errbnd <? k_error k) then 2%Z else 0%Z in
    let ier := if limit =? 1 then 1%Z else ier in
    if negb (ier =? 0)%Z || ((k_error k <=? errbnd) && negb (k_error k =? k_asc k)) || (k_error k =? 0)
    then Some (mkquadpack (k_value k) (k_error k) 21 ier)
    else None.
(** The default arguments, Integral.h:327 *)
Definition qags_first : (R -> R) -> R -> R -> option quadpack := qags_start 50 (/ 10 ^ 50) (/ 10 ^ 6).
