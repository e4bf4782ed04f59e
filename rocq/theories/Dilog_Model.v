(** Model of the dilogarithm (detail/PROPOSAL/math/MathMethods.cxx). *)
From Verif Require Import Prelude Cross_Model.

(** const double PI in dilog, MathMethods.cxx:84 (not the one of the library) *)
Definition DILOG_PI : R := 31415926535897932 / 10 ^ 16.
(** The literals of P and Q, MathMethods.cxx:85-101, in units of 10^-23 *)
Definition P_digits : list Z :=
  [99999999999999995020000; -268839268185654234300000; 264772226994731096920000;
   -115385596078874163550000; 20886077795020607837000; -1085977713415246308400]%Z.
Definition Q_digits : list Z :=
  [100000000000000000000000; -293839268185656354850000; 327120932930186353890000;
   -170767021739542894210000; 41596017228400603836000; -3980134375408448295600; 82743668974466659035]%Z.
Definition literal (z : Z) : R := IZR z / 10 ^ 23.
Definition P (i : nat) : R := literal (nth i P_digits 0%Z).
Definition Q (i : nat) : R := literal (nth i Q_digits 0%Z).

Section Dilog.
Variable nan : forall A, outcome A.

(** The end of dilog, MathMethods.cxx:146-153 *)
Definition dilog_rational (y r s : R) : outcome R :=
  let y2 := y * y in
  let y4 := y2 * y2 in
  let p := P 0 + y * P 1 + y2 * (P 2 + y * P 3) + y4 * (P 4 + y * P 5) in
  let q := Q 0 + y * Q 1 + y2 * (Q 2 + y * Q 3) + y4 * (Q 4 + y * Q 5 + y2 * Q 6) in
  olet t := quo nan (s * y * p) q in Ok (r + t).

(** dilog, MathMethods.cxx:82-154; std::log1p(x) is the logarithm of 1 + x.
    Numbers are real: rounding is not modelled. *)
Definition dilog (x : R) : outcome R :=
  if x <? -1 then
    olet l := log nan (1 - x) in
    olet y := quo nan 1 (1 - x) in
    olet l' := log nan (- x) in
    dilog_rational y (- DILOG_PI * DILOG_PI / 6 + l * (1 / 2 * l - l')) 1
  else if x =? -1 then Ok (- DILOG_PI * DILOG_PI / 12)
  else if x <? 0 then
    olet l := log nan (1 + - x) in
    olet y := quo nan x (x - 1) in
    dilog_rational y (- (1 / 2) * l * l) (-1)
  else if x =? 0 then Ok x
  else if x <? 1 / 2 then dilog_rational x 0 1
  else if x <? 1 then
    olet l := log nan x in
    olet l' := log nan (1 + - x) in
    dilog_rational (1 - x) (DILOG_PI * DILOG_PI / 6 - l * l') (-1)
  else if x =? 1 then Ok (DILOG_PI * DILOG_PI / 6)
  else if x <? 2 then
    olet l := log nan x in
    olet i := quo nan 1 x in
    olet l' := log nan (1 - i) in
    dilog_rational (1 - i) (DILOG_PI * DILOG_PI / 6 - l * (l' + 1 / 2 * l)) 1
  else
    olet l := log nan x in
    olet y := quo nan 1 x in
    dilog_rational y (DILOG_PI * DILOG_PI / 3 - 1 / 2 * l * l) (-1).
End Dilog.
