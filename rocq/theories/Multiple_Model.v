(** Model of multiple scattering
    (detail/PROPOSAL/scattering/multiple_scattering) and of the quantile of the
    normal distribution it uses (detail/PROPOSAL/math/MathMethods.cxx).
    [nan] is the outcome of arithmetic whose result is infinite or not a number;
    the constant PI of the code is the number pi here.  Log messages are left
    out, assertions are compiled out. *)
From Coq Require Import String.
From Coquelicot Require Hierarchy RInt.
From Verif Require Import Prelude Particle_Model Limits_Model Vec_Model Cross_Model Photo_Model Integral_Model Utility_Model.
Notation length := List.length.

(** Constants.cxx:11, 14-15, 54 *)
Definition SQRT3 : R := 1732050807568877 / 10 ^ 15.
Definition EULER_MASCHERONI : R := 577215664901532860606512090082402431 / 10 ^ 36.
Definition HBAR : R := 658211928 / 10 ^ 30.

(** std::erf and std::erfc of the C++ library *)
Definition erf (x : R) : R := 2 / sqrt PI * @RInt.RInt Hierarchy.R_CompleteNormedModule (fun t => exp (- (t * t))) 0 x.
Definition erfc (x : R) : R := 1 - erf x.

Section Multiple.
Variable nan : forall A, outcome A.
Notation divide := (quotient nan).
Notation square_root := (Utility_Model.root nan).
(** std::log of a positive number *)
Definition natural_log (x : R) : outcome R := if 0 <? x then Ok (ln x) else nan R.

(** normalppf, MathMethods.cxx:15-76; the warning for p outside of (0, 1) is a
    log message. *)
Definition tail_numerator (q : R) : R :=
  (((((- 7784894002430293 / 10 ^ 18) * q + - 3223964580411365 / 10 ^ 16) * q + - 2400758277161838 / 10 ^ 15) * q
    + - 2549732539343734 / 10 ^ 15) * q + 4374664141464968 / 10 ^ 15) * q + 2938163982698783 / 10 ^ 15.
Definition tail_denominator (q : R) : R :=
  ((((7784695709041462 / 10 ^ 18) * q + 3224671290700398 / 10 ^ 16) * q + 2445134137142996 / 10 ^ 15) * q
   + 3754408661907416 / 10 ^ 15) * q + 1.
Definition central_numerator (r : R) : R :=
  (((((- 3969683028665376 / 10 ^ 14) * r + 2209460984245205 / 10 ^ 13) * r + - 2759285104469687 / 10 ^ 13) * r
    + 1383577518672690 / 10 ^ 13) * r + - 3066479806614716 / 10 ^ 14) * r + 2506628277459239 / 10 ^ 15.
Definition central_denominator (r : R) : R :=
  (((((- 5447609879822406 / 10 ^ 14) * r + 1615858368580409 / 10 ^ 13) * r + - 1556989798598866 / 10 ^ 13) * r
    + 6680131188771972 / 10 ^ 14) * r + - 1328068155288572 / 10 ^ 14) * r + 1.
Definition p_low : R := 2425 / 100000.
Definition normalppf (p : R) : outcome R :=
  olet x :=
    (if p <? p_low then
       olet l := natural_log p in
       olet q := square_root (-2 * l) in
       divide (tail_numerator q) (tail_denominator q)
     else if p <=? 1 - p_low then
       let q := p - 1 / 2 in
       let r := q * q in
       divide (central_numerator r * q) (central_denominator r)
     else
       olet l := natural_log (1 - p) in
       olet q := square_root (-2 * l) in
       divide (- tail_numerator q) (tail_denominator q)) in
  let e := 1 / 2 * erfc (- x / SQRT2) - p in
  let u := e * sqrt (2 * PI) * exp (1 / 2 * x * x) in
  olet c := divide u (1 + x * u * (1 / 2)) in
  Ok (x - c).

(** ** Highland *)
(** A Highland object: mass (Parametrization.h:56), charge and radiation length
    (Highland.h:43-44) *)
Record highland := mkhighland { h_mass : R; h_charge : R; h_length : R }.
(** std::max(1 + k * log, 0); the logarithm of zero is minus infinity. *)
Definition log_factor (k : R) (log : R -> R) (y : R) : outcome R :=
  if 0 <? y then Ok (Rmax (1 + k * log y) 0) else if y =? 0 then Ok 0 else nan R.
Definition log10 (y : R) : R := ln y / ln 10.
(** Highland::CalculateTheta0, Highland.cxx:53-67 *)
Definition theta0 (h : highland) (grammage ei : R) : outcome R :=
  olet y := divide grammage (h_length h) in
  let momentum_Sq := (ei - h_mass h) * (ei + h_mass h) in
  olet beta_p := divide momentum_Sq ei in
  olet a := divide (136 / 10 * Rabs (h_charge h)) beta_p in
  olet s := square_root y in
  olet l := log_factor (88 / 1000) log10 y in
  Ok (a * s * l).

(** Highland::CalculateRandomAngle, Highland.cxx:69-88, after Theta0; the
    evaluation of Theta0 and of the quantiles can fail. *)
Definition gaussian_offset (Theta0 r0 r1 r2 r3 : R) : outcome offset :=
  olet z0 := normalppf r0 in
  olet z1 := normalppf r1 in
  olet z2 := normalppf r2 in
  olet z3 := normalppf r3 in
  Ok (mkoffset (1 / 2 * (Theta0 * z0 / SQRT3 + Theta0 * z1)) (1 / 2 * (Theta0 * z2 / SQRT3 + Theta0 * z3))
               (Theta0 * z1) (Theta0 * z3)).
Definition highland_offset (h : highland) (grammage ei r0 r1 r2 r3 : R) : outcome offset :=
  olet t := theta0 h grammage ei in gaussian_offset t r0 r1 r2 r3.
(** Highland::CalculateScatteringAngle and CalculateScatteringAngle2D,
    Highland.cxx:90-100 *)
Definition highland_angle (h : highland) (grammage ei rnd : R) : outcome R :=
  olet t := theta0 h grammage ei in olet z := normalppf rnd in Ok (t * z).
Definition highland_angle_2d (h : highland) (grammage ei rnd1 rnd2 : R) : outcome R :=
  olet t := theta0 h grammage ei in
  olet z1 := normalppf rnd1 in
  olet z2 := normalppf rnd2 in
  Ok (sqrt (t * z1 * (t * z1) + t * z2 * (t * z2))).

(** ** HighlandIntegral *)
Variable qags : (R -> outcome R) -> R -> R -> outcome R.
(** HighlandIntegral::Integral, HighlandIntegral.cxx:20-25; [disp] is the function
    of the displacement. *)
Definition highland_integrand (disp : R -> outcome R) (mass E : R) : outcome R :=
  let square_momentum := (E - mass) * (E + mass) in
  olet aux := divide E square_momentum in
  olet d := disp E in Ok (d * aux * aux).
(** The function object handed to the integral captures the address of the
    HighlandIntegral it was made by, HighlandIntegral.cxx:27-41; [alive] tells
    which objects exist when it is called. *)
Definition captured (alive : nat -> bool) (owner : nat) (f : R -> outcome R) (E : R) : outcome R :=
  if alive owner then f E else UB use_after_free.
(** HighlandIntegral::CalculateTheta0, HighlandIntegral.cxx:9-18 *)
Definition theta0_integral (h : highland) (c : calculator) (grammage ei ef : R) : run (R * calculator) :=
  flet (integral, c) := calculate nan qags c ei ef in
  flet q := done (divide (Rmax integral 0) (h_length h)) in
  flet s := done (square_root q) in
  flet y := done (divide grammage (h_length h)) in
  flet l := done (log_factor (38 / 1000) ln y) in
  done (Ok (Rmin (136 / 10 * s * Rabs (h_charge h) * l) 1, c)).
Definition integral_offset (h : highland) (c : calculator) (grammage ei ef r0 r1 r2 r3 : R) : run (offset * calculator) :=
  flet (t, c) := theta0_integral h c grammage ei ef in
  flet o := done (gaussian_offset t r0 r1 r2 r3) in
  done (Ok (o, c)).

(** ** Moliere *)
(** A Moliere object, Moliere.h:47-57; the number of components is the length of
    [mo_Z]. *)
Record moliere := mkmoliere {
  mo_mass : R;
  mo_Z : list R;         (* Zi_ *)
  mo_ZSq_A : R;          (* ZSq_A_average_ *)
  mo_weight_ZZ : list R; (* weight_ZZ_ *)
  mo_weight_sum : R;     (* weight_ZZ_sum_ *)
  mo_index : nat;        (* max_weight_index_ *)
  mo_chi_c : R;          (* chiCSq_ *)
  mo_B : list R          (* B_ *)
}.
(** The last loop of the constructor, Moliere.cxx:178-181 *)
Fixpoint weight_index (i index : nat) (weight : list R) : nat :=
  match weight with
  | a :: (b :: _) as l => weight_index (S i) (if a <? b then S i else index) l
  | _ => index
  end.
Fixpoint weights (A_sum : R) (cs : list component) : outcome (list R) :=
  match cs with
  | [] => Ok []
  | c :: cs => olet w := divide (c_atoms c * c_atomic c) A_sum in olet l := weights A_sum cs in Ok (w :: l)
  end.
Definition sum (l : list R) : R := fold_left Rplus l 0.
Definition map2 {A B C} (f : A -> B -> C) (a : list A) (b : list B) : list C := map (fun x => f (fst x) (snd x)) (combine a b).
(** Moliere::Moliere, Moliere.cxx:127-182 *)
Definition new_moliere (mass : R) (m : medium) : outcome moliere :=
  let cs := m_components m in
  let A_sum := sum (map (fun c => c_atoms c * c_atomic c) cs) in
  olet w := weights A_sum cs in
  let A_average := sum (map2 (fun w c => w * c_atomic c) w cs) in
  let weight_ZZ := map2 (fun w c => w * c_charge c * c_charge c) w cs in
  let ZSq_average := (if mass =? ME then sum (map2 (fun w c => w * c_charge c * (c_charge c + 1)) w cs) else sum weight_ZZ) in
  olet inverse := divide 1 (sum weight_ZZ) in
  olet ZSq_A := divide ZSq_average A_average in
  Ok (mkmoliere mass (map c_charge cs) ZSq_A weight_ZZ inverse (weight_index 0 0 w) 0 (map (fun _ => 0) cs)).

(** Moliere::GetPrefactor, Moliere.cxx:15-68.  The screening angle of a component,
    lines 28-34 *)
Definition screening (mass momentum_Sq beta_Sq Z : R) : outcome R :=
  let x := Z * 128 / (9 * PI * PI) in
  olet p := (if 0 <? x then Ok (Rpower x (1 / 3)) else if x =? 0 then Ok 0 else nan R) in
  let chi_0 := ME * ALPHA * p in
  olet q := divide (chi_0 * chi_0) momentum_Sq in
  olet t := divide (376 / 100 * ALPHA * ALPHA * Z * Z) beta_Sq in
  Ok (q * (113 / 100 + t)).
Fixpoint screenings (mass momentum_Sq beta_Sq : R) (Zs : list R) : outcome (list R) :=
  match Zs with
  | [] => Ok []
  | Z :: Zs => olet a := screening mass momentum_Sq beta_Sq Z in olet l := screenings mass momentum_Sq beta_Sq Zs in Ok (a :: l)
  end.
(** Lines 46-55: [n] steps from [x]; [log_ratio] is the logarithm of chi_c^2 /
    chi_a^2.  [None] stands for "return 0": a negative position (lines 49-50), or
    a position of exactly zero, after which all positions are not a number, which
    lines 59-61 turn into "return 0".  From a position of exactly one the next one
    is a division by zero. *)
Fixpoint newton_steps (n : nat) (log_ratio x : R) : outcome (option R) :=
  match n with
  | O => Ok (Some x)
  | S n =>
    if x <? 0 then Ok None
    else if x =? 0 then Ok None
    else olet q := divide (1 - ln x - log_ratio - 1 + 2 * EULER_MASCHERONI) (1 - x) in
         newton_steps n log_ratio (x * q)
  end.
(** Lines 46-61; for a ratio of zero the logarithm is minus infinity, the first
    position too and the function returns 0; for a negative ratio the logarithm
    and all positions are not a number and it returns 0 as well. *)
Definition reduced_angle (chi_c chi_a : R) : outcome (option R) :=
  olet ratio := divide chi_c chi_a in
  if ratio <=? 0 then Ok None
  else olet x := newton_steps 6 (ln ratio) 15 in
       Ok (match x with Some x => if x <? 45 / 10 then None else Some x | None => None end).
(** Lines 43-64: the entries of B_ are replaced one after the other, [false] is an
    early "return 0". *)
Fixpoint fill (chi_c : R) (chi_a B : list R) : outcome (bool * list R) :=
  match chi_a, B with
  | a :: chi_a, _ :: B' =>
    olet x := reduced_angle chi_c a in
    match x with
    | None => Ok (false, B)
    | Some x => olet (b, l) := fill chi_c chi_a B' in Ok (b, x :: l)
    end
  | _, _ => Ok (true, B)
  end.
Definition prefactor (s : moliere) (ei grammage : R) : outcome (R * moliere) :=
  let m := mo_mass s in
  let momentum_Sq := (ei - m) * (ei + m) in
  olet r := divide (m * m) momentum_Sq in
  olet beta_Sq := divide 1 (1 + r) in
  olet bp := divide momentum_Sq ei in
  let beta_p_Sq := bp * bp in
  olet chi_a := screenings m momentum_Sq beta_Sq (mo_Z s) in
  olet q := divide (4 * PI * NA * ALPHA * ALPHA * HBAR * HBAR * SPEED * SPEED * grammage) beta_p_Sq in
  let chi_c := q * mo_ZSq_A s in
  olet (complete, B) := fill chi_c chi_a (mo_B s) in
  let s := mkmoliere (mo_mass s) (mo_Z s) (mo_ZSq_A s) (mo_weight_ZZ s) (mo_weight_sum s) (mo_index s) chi_c B in
  if complete
  then match nth_error B (mo_index s) with
       | None => UB out_of_bounds
       | Some b => olet p := square_root (chi_c * b) in Ok (p, s)
       end
  else Ok (0, s).

(** The functions of the distribution, Moliere.cxx:225-276 and 298-358; [c1], [c2],
    [C1large], [c2large] and [s2large] are the tables of Coefficients.cxx.
    Horner's scheme from the coefficient [p - 1] down to 0 *)
Fixpoint horner (c : nat -> R) (p : nat) (x total : R) : R :=
  match p with O => total | S p => horner c p x (total * x + c p) end.
Fixpoint horner_inverse (c : nat -> R) (p : nat) (x total : R) : R :=
  match p with O => total | S p => horner_inverse c p x (c p + total / x) end.
(** The sum of [g p] over p = 2 .. 12 *)
Definition sum_2_12 (g : nat -> R) : R := fold_left (fun a p => a + g p) (seq 2 11) 0.
Record series := mkseries { f1M : R -> R; f2M : R -> R; F1M : R -> R; F2M : R -> R }.
Section Tables.
Variables c1 c2 C1large c2large s2large : nat -> R.
Definition f1M_series (x : R) : R :=
  if 12 <? x then 1 / 2 * sqrt PI / (Rpower x (3 / 2) * Rpower (1 - 45 / 10 / x) (2 / 3)) else horner c1 69 x (c1 69%nat).
Definition f2M_large (x : R) : R :=
  if (425 / 100 * (425 / 100) <=? x) && (x <=? 65 / 10 * (65 / 10))
  then 13567765224589459194769192063035 / 10 ^ 35 * x + - 22635502525409950842771866774683 / 10 ^ 34 * sqrt x
       + 98037758070269476889935233998585 / 10 ^ 34
  else sum_2_12 (fun p => c2large p * (1 / 2 * ln x + s2large p) * Rpower x (- (INR p + 1 / 2))).
Definition f2M_series (x : R) : R :=
  if 425 / 100 * (425 / 100) <? x then f2M_large x else horner c2 69 x (c2 69%nat).
Definition halved (c : nat -> R) (p : nat) : R := c p / (2 * INR p + 1).
Definition F1M_series (x : R) : R :=
  if 12 <? x then horner_inverse C1large 14 x (C1large 14%nat)
  else horner (halved c1) 69 x (halved c1 69) * sqrt (Rmax x 0).
Definition F2M_large (x : R) : R :=
  if (425 / 100 * (425 / 100) <=? x) && (x <=? 65 / 10 * (65 / 10))
  then - 26360133958801203364619158975302 / 10 ^ 35 * x + 39965027465457608410459577896745 / 10 ^ 34 * sqrt x
       + - 16305842044996649714549974419242 / 10 ^ 33
  else sum_2_12 (fun p => - (1 / 2) * c2large p / INR p * (1 / 2 / INR p + 1 / 2 * ln x + s2large p) * Rpower x (- INR p)).
Definition F2M_series (x : R) : R :=
  if 425 / 100 * (425 / 100) <? x then F2M_large x
  else horner (halved c2) 69 x (halved c2 69) * sqrt (Rmax x 0).
Definition moliere_series : series := mkseries f1M_series f2M_series F1M_series F2M_series.
(** MoliereInterpol, Moliere.cxx:441-467; [t] holds the interpolants. *)
Definition interpolated_series (t : series) : series :=
  let base := moliere_series in
  mkseries (fun x => if 20 <? x then f1M base x else f1M t x) (fun x => if 20 <? x then f2M base x else f2M t x)
           (fun x => if 20 <? x then F1M base x else F1M t x) (fun x => if 20 <? x then F2M base x else F2M t x).
End Tables.

(** Moliere::f, Moliere.cxx:280-292, and Moliere::F, Moliere.cxx:362-376 *)
Variable t : series.
Fixpoint density_terms (chi_c theta : R) (ws Bs : list R) (y : R) : outcome R :=
  match ws, Bs with
  | w :: ws, B :: Bs =>
    olet x := divide (theta * theta) (chi_c * B) in
    olet s := square_root (chi_c * B * PI) in
    olet a := divide w s in
    olet b := divide (f1M t x) B in
    olet c := divide (f2M t x) (B * B) in
    density_terms chi_c theta ws Bs (y + a * (exp (- x) + b + c))
  | _, _ => Ok y
  end.
Definition angle_density (s : moliere) (theta : R) : outcome R :=
  olet y := density_terms (mo_chi_c s) theta (mo_weight_ZZ s) (mo_B s) 0 in Ok (y * mo_weight_sum s).
Fixpoint share_terms (chi_c theta : R) (ws Bs : list R) (y : R) : outcome R :=
  match ws, Bs with
  | w :: ws, B :: Bs =>
    olet x := divide (theta * theta) (chi_c * B) in
    olet b := divide (F1M t x) B in
    olet c := divide (F2M t x) (B * B) in
    share_terms chi_c theta ws Bs (y + w * (1 / 2 * erf (sqrt (Rmax x 0)) + sqrt (1 / PI) * (b + c)))
  | _, _ => Ok y
  end.
Definition angle_share (s : moliere) (theta : R) : outcome R :=
  olet y := share_terms (mo_chi_c s) theta (mo_weight_ZZ s) (mo_B s) 0 in
  Ok (if theta <? 0 then -1 * y * mo_weight_sum s else y * mo_weight_sum s).

(** Moliere::GetRandom, Moliere.cxx:382-414.  The condition of the loop, line 411:
    for a new position of zero the quotient is infinite or, if the old one is zero
    too, not a number *)
Definition moved (theta_n theta_np1 : R) : bool :=
  if theta_np1 =? 0 then negb (theta_n =? 0) else / 10 ^ 4 <? Rabs ((theta_n - theta_np1) / theta_np1).
(** [n] is the number of passes until i = 100; it is positive. *)
Fixpoint refine (s : moliere) (n : nat) (rnd theta_n : R) : outcome R :=
  match n with
  | O => Ok theta_n
  | S n =>
    olet y := angle_share s theta_n in
    olet d := angle_density s theta_n in
    olet q := divide (y - rnd) d in
    let theta_np1 := theta_n - q in
    if Nat.eqb n 0 then Ok theta_np1
    else if moved theta_n theta_np1 then refine s n rnd theta_np1 else Ok theta_np1
  end.
Definition get_random (s : moliere) (pre_factor rnd : R) : outcome R :=
  olet z := normalppf rnd in
  refine s 100 (rnd - 1 / 2) (pre_factor * z / SQRT2).

(** Moliere::CalculateRandomAngle, CalculateScatteringAngle and
    CalculateScatteringAngle2D, Moliere.cxx:70-119 *)
Definition moliere_offset (s : moliere) (grammage ei r0 r1 r2 r3 : R) : outcome (offset * moliere) :=
  olet (pre_factor, s) := prefactor s ei grammage in
  if pre_factor =? 0 then Ok (mkoffset 0 0 0 0, s)
  else
    olet a := get_random s pre_factor r0 in
    olet b := get_random s pre_factor r1 in
    olet c := get_random s pre_factor r2 in
    olet d := get_random s pre_factor r3 in
    Ok (mkoffset (1 / 2 * (a / SQRT3 + b)) (1 / 2 * (c / SQRT3 + d)) b d, s).
Definition moliere_angle (s : moliere) (grammage ei rnd : R) : outcome (R * moliere) :=
  olet (pre_factor, s) := prefactor s ei grammage in
  if pre_factor =? 0 then Ok (0, s) else olet a := get_random s pre_factor rnd in Ok (a, s).
Definition moliere_angle_2d (s : moliere) (grammage ei rnd1 rnd2 : R) : outcome (R * moliere) :=
  olet (pre_factor, s) := prefactor s ei grammage in
  if pre_factor =? 0 then Ok (0, s)
  else olet a := get_random s pre_factor rnd1 in
       olet b := get_random s pre_factor rnd2 in
       Ok (sqrt (a * a + b * b), s).
End Multiple.

(** AntaresWater and StandardRock, Medium.cxx:426-443 and 309-319 with the
    components of Components.cxx:288-303; the hashes are left at 0 since nothing here
    reads them. *)
Definition antares_water : medium := mkmedium 0
  [mkcomponent 0 1 (100794 / 10 ^ 5) 2; mkcomponent 0 8 (159994 / 10 ^ 4) (100884 / 10 ^ 5);
   mkcomponent 0 11 (2298977 / 10 ^ 5) (943 / 10 ^ 5); mkcomponent 0 19 (3910 / 100) (209 / 10 ^ 6);
   mkcomponent 0 12 (2431 / 100) (1087 / 10 ^ 6); mkcomponent 0 20 (4008 / 100) (209 / 10 ^ 6);
   mkcomponent 0 17 (354527 / 10 ^ 4) (1106 / 10 ^ 5); mkcomponent 0 16 (3207 / 100) (582 / 10 ^ 5)].
Definition standard_rock : medium := mkmedium 0 [mkcomponent 0 11 22 1].

(** ** Comparison *)
(** The classes; the fields of HighlandIntegral and MoliereInterpol that are not
    compared are left out. *)
Inductive scatterer :=
| Highland (h : highland) | HighlandIntegral (h : highland)
| Moliere (m : moliere) | MoliereInterpol (m : moliere).
Definition scatterer_mass (s : scatterer) : R :=
  match s with Highland h | HighlandIntegral h => h_mass h | Moliere m | MoliereInterpol m => mo_mass m end.
(** Highland::compare, Highland.cxx:32-41 *)
Definition highland_compare (a b : highland) : bool := (h_length a =? h_length b) && (h_charge a =? h_charge b).
Fixpoint list_eqb (a b : list R) : bool :=
  match a, b with
  | [], [] => true
  | x :: a, y :: b => (x =? y) && list_eqb a b
  | _, _ => false
  end.
(** Moliere::compare, Moliere.cxx:187-211 *)
Definition moliere_compare (a b : moliere) : bool :=
  Nat.eqb (length (mo_Z a)) (length (mo_Z b)) && (mo_ZSq_A a =? mo_ZSq_A b) && list_eqb (mo_Z a) (mo_Z b)
  && list_eqb (mo_weight_ZZ a) (mo_weight_ZZ b) && (mo_weight_sum a =? mo_weight_sum b)
  && Nat.eqb (mo_index a) (mo_index b) && (mo_chi_c a =? mo_chi_c b) && list_eqb (mo_B a) (mo_B b).
(** Parametrization::operator==, Parametrization.cxx:30-36 *)
Definition scatterer_equal (a b : scatterer) : outcome bool :=
  if negb (scatterer_mass a =? scatterer_mass b) then Ok false
  else match a, b with
       | (Highland x | HighlandIntegral x), (Highland y | HighlandIntegral y) => Ok (highland_compare x y)
       | (Highland _ | HighlandIntegral _), (Moliere _ | MoliereInterpol _) => UB null_deref
       | (Moliere x | MoliereInterpol x), (Moliere y | MoliereInterpol y) => Ok (moliere_compare x y)
       | (Moliere _ | MoliereInterpol _), (Highland _ | HighlandIntegral _) => Ok false
       end.
