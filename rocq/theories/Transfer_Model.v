(** Model of the nuclear interactions of charged particles that integrate over the
    momentum transfer to the nucleus
    (detail/PROPOSAL/crosssection/parametrization/PhotoQ2Integration.cxx).  [nan] is
    the outcome of arithmetic whose result is infinite or not a number. *)
From Verif Require Import Prelude Propagator_Model Particle_Model Limits_Model Cross_Model Deflection_Model Photo_Model Products_Model
  Nuclear_Model Ionization_Model Integral_Model Keys_Model.

Section Transfer.
Variable nan : forall A, outcome A.
Notation quo := (quo nan).
Notation log := (log nan).
Notation power := (Deflection_Model.power nan).

(** ** The shadowing of nucleons by others *)
(** ShadowDuttaRenoSarcevicSeckel::CalculateShadowEffect,
    PhotoQ2Integration.cxx:846-863 *)
Definition shadow_dutta (c : component) (x nu : R) : outcome R :=
  if c_charge c =? 1 then Ok 1
  else if x <? 14 / 10 ^ 4 then power (c_atomic c) (- (1 / 10))
  else if x <? 4 / 100 then olet l := log x in power (c_atomic c) (69 / 1000 * l / LOG10 + 97 / 1000)
  else Ok 1.
(** ShadowButkevichMikheyev::CalculateShadowEffect, PhotoQ2Integration.cxx:868-916 *)
Definition shadow_butkevich (c : component) (x nu : R) : outcome R :=
  if c_charge c =? 1 then Ok 1
  else if 3 / 10 <? x then
    let Mb := 437 / 1000 in
    let la := 1 / 2 in
    let x2 := 278 / 1000 in
    olet au := quo 1 (1 - x) in
    let ac := 1 / (1 - x2) in
    olet k := quo MPI (nucleon_weight c) in
    let Aosc := (1 - la * x) * (au - ac - k * (au * au - ac * ac)) in
    Ok (1 - Mb * wood_saxon c * Aosc)
  else
    let m1 := 129 / 1000 * wood_saxon c in
    let m2 := 456 / 1000 * wood_saxon c in
    let m3 := 553 / 1000 * wood_saxon c in
    let nu := nu / 10 ^ 3 in
    olet p := power nu (988 / 10 ^ 4) in
    olet q := power nu (- (5944 / 10 ^ 4)) in
    let sgn := 1122 / 10 * (609 / 1000 * p + 1037 / 1000 * q) in
    olet r := power (c_atomic c) (1 / 3) in
    let tmp := 282 / 10 ^ 5 * r * sgn in
    olet a := quo 3 tmp in
    olet b := quo ((1 + tmp) * exp (- tmp) - 1) (tmp * tmp) in
    let G := a * (1 / 2 + b) in
    let G := 75 / 100 * G + 25 / 100 in
    olet e := quo 1 m1 in
    olet g := quo G (1 + m2) in
    olet x0 := power g e in
    if x0 <=? x then olet y := power x m1 in Ok (y * (1 + m2) * (1 - m3 * x)) else Ok G.
Inductive shadow_kind := DuttaRenoSarcevicSeckel | ButkevichMikheyevShadow.
Definition shadow (k : shadow_kind) : component -> R -> R -> outcome R :=
  match k with DuttaRenoSarcevicSeckel => shadow_dutta | ButkevichMikheyevShadow => shadow_butkevich end.

(** ** Structure functions of the proton *)
(** The parameters of an ALLM fit; the masses and scales are in MeV^2 *)
Record allm := mkallm {
  a1_pomeron : R; a2_pomeron : R; a3_pomeron : R; b1_pomeron : R; b2_pomeron : R; b3_pomeron : R;
  c1_pomeron : R; c2_pomeron : R; c3_pomeron : R; a1_reggeon : R; a2_reggeon : R; a3_reggeon : R;
  b1_reggeon : R; b2_reggeon : R; b3_reggeon : R; c1_reggeon : R; c2_reggeon : R; c3_reggeon : R;
  mass_photon_eff : R; mass_reggeon : R; mass_pomeron : R; scale_parameter : R; Q20_free_param : R }.
(** PhotoQ2Integration.cxx:90-133, with the four squares and the sum of lines 129-133 *)
Definition allm91 : allm := mkallm
  (- (4503 / 10 ^ 5)) (- (36407 / 10 ^ 5)) (817091 / 10 ^ 5)
  ((49222 / 10 ^ 5) * (49222 / 10 ^ 5)) ((52116 / 10 ^ 5) * (52116 / 10 ^ 5)) (355115 / 10 ^ 5)
  (26550 / 10 ^ 5) (4856 / 10 ^ 5) (104682 / 10 ^ 5)
  (60408 / 10 ^ 5) (17353 / 10 ^ 5) (161812 / 10 ^ 5)
  ((126066 / 10 ^ 5) * (126066 / 10 ^ 5)) ((183624 / 10 ^ 5) * (183624 / 10 ^ 5)) (81141 / 10 ^ 5)
  (67639 / 10 ^ 5) (49027 / 10 ^ 5) (266275 / 10 ^ 5)
  (30508 * 10) (20623 * 10) (1067564 * 10) (6527 * 10) (27799 * 10 + 6527 * 10).
(** PhotoQ2Integration.cxx:240-269; again in PhotoRenoSarcevicSu, lines 490-519 *)
Definition allm97 : allm := mkallm
  (- (808 / 10 ^ 4)) (- (44812 / 10 ^ 5)) (11709 / 10 ^ 4)
  (36292 / 10 ^ 5) (18917 / 10 ^ 4) (18439 / 10 ^ 4)
  (28067 / 10 ^ 5) (22291 / 10 ^ 5) (21979 / 10 ^ 4)
  (58400 / 10 ^ 5) (37888 / 10 ^ 5) (26063 / 10 ^ 4)
  (1147 / 10 ^ 5) (37582 / 10 ^ 4) (49338 / 10 ^ 5)
  (80107 / 10 ^ 5) (97307 / 10 ^ 5) (34942 / 10 ^ 4)
  (31985 * 10) (15052 * 10) (49457 * 10 ^ 3) (6527 * 10) (52544 * 10).
(** PhotoQ2Integration.cxx:624-653 *)
Definition allm_abt : allm := mkallm
  (- (75 / 1000)) (- (470 / 1000)) (92 / 10)
  (- (477 / 1000)) 54 (73 / 1000)
  (356 / 1000) (171 / 1000) (186 / 10)
  (882 / 1000) (82 / 1000) (- (85 / 10))
  (339 / 1000) (338 / 100) (107 / 100)
  (- (636 / 1000)) (337 / 100) (- (660 / 1000))
  (388 * 10 ^ 3) (838 * 10 ^ 3) (508 * 10 ^ 5) (44 / 10 ^ 4) (187 / 10).
(** f(t) = f_1 + f_2 t^{f_3}; for AbtFT the power of t = 0 is left out in two of
    them, PhotoQ2Integration.cxx:666-678 *)
Definition rising (t f1 f2 f3 : R) : outcome R := olet y := power t f3 in Ok (f1 + f2 * y).
Definition guarded_rising (t f1 f2 f3 : R) : outcome R := if 0 <? t then rising t f1 f2 f3 else Ok f1.
(** f(t) = f_1 + (f_1 - f_2) (1 / (1 + t^{f_3}) - 1) *)
Definition falling (t f1 f2 f3 : R) : outcome R :=
  olet y := power t f3 in
  olet q := quo 1 (1 + y) in
  Ok (f1 + (f1 - f2) * (q - 1)).
(** F_2 of the proton, PhotoQ2Integration.cxx:139-196, 275-332, 525-582, 660-716 *)
Definition allm_proton (guarded : bool) (p : allm) (M E v x Q2 : R) : outcome R :=
  let up := if guarded then guarded_rising else rising in
  olet l1 := log ((Q2 + Q20_free_param p) / scale_parameter p) in
  olet l0 := log (Q20_free_param p / scale_parameter p) in
  olet l := quo l1 l0 in
  olet t := log l in
  let t := if t <? 0 then 0 else t in
  olet ar := up t (a1_reggeon p) (a2_reggeon p) (a3_reggeon p) in
  olet br := rising t (b1_reggeon p) (b2_reggeon p) (b3_reggeon p) in
  olet cr := up t (c1_reggeon p) (c2_reggeon p) (c3_reggeon p) in
  olet bp := rising t (b1_pomeron p) (b2_pomeron p) (b3_pomeron p) in
  olet ap := falling t (a1_pomeron p) (a2_pomeron p) (a3_pomeron p) in
  olet cp := falling t (c1_pomeron p) (c2_pomeron p) (c3_pomeron p) in
  let W2 := M * M + 2 * M * E * v - Q2 in
  olet xp := quo (Q2 + mass_pomeron p) (Q2 + mass_pomeron p + W2 - M * M) in
  olet xr := quo (Q2 + mass_reggeon p) (Q2 + mass_reggeon p + W2 - M * M) in
  olet p1 := power xp ap in
  olet p2 := power (1 - x) bp in
  olet r1 := power xr ar in
  olet r2 := power (1 - x) br in
  olet q := quo Q2 (Q2 + mass_photon_eff p) in
  Ok (q * (cp * p1 * p2 + cr * r1 * r2)).
(** F_2 of the proton of PhotoBlockDurandHa, PhotoQ2Integration.cxx:752-789 *)
Definition block_proton (x Q2 : R) : outcome R :=
  let M2 := 753 * 10 ^ 3 in
  let mu2 := 282 * 10 ^ 4 in
  olet aux := log (1 + Q2 / mu2) in
  let A := 8205 / 10 ^ 7 + - (5148 / 10 ^ 5) * aux + - (4725 / 10 ^ 6) * aux * aux in
  let B := 2217 / 10 ^ 6 + 1244 / 10 ^ 5 * aux + 5958 / 10 ^ 7 * aux * aux in
  let C := 255 / 1000 + 1475 / 10 ^ 4 * aux in
  olet D := quo (Q2 * (Q2 + 2430 / 1000 * M2)) ((Q2 + M2) ^ 2) in
  olet q := quo Q2 x in
  olet q := quo q (Q2 + mu2) in
  olet aux1 := log q in
  olet n := power (1 - x) (1149 / 100) in
  Ok (D * n * (C + A * aux1 + B * aux1 * aux1)).

(** ** Structure functions of nuclei *)
(** The relation of neutrons to protons, PhotoQ2Integration.cxx:167-174 and four
    copies *)
Definition neutron_ratio (x : R) : R :=
  let r := x * x in 1 - 185 / 100 * x + 245 / 100 * r - 235 / 100 * r * x + r * r.
(** PhotoQ2Integration.cxx:197-205 and four copies *)
Definition nucleus_of_proton (k : shadow_kind) (c : component) (E v x F : R) : outcome R :=
  olet G := shadow k c x (v * E) in
  Ok (F * G * (c_charge c + (c_atomic c - c_charge c) * neutron_ratio x)).
(** PhotoButkevichMikheyev, PhotoQ2Integration.cxx:381-449 *)
Definition butkevich_nucleus (k : shadow_kind) (c : component) (E v x Q2 : R) : outcome R :=
  let a := 2513 * 10 ^ 2 in
  let b := 6186 * 10 ^ 2 in
  let cc := 30292 * 10 ^ 2 in
  let d := 14817 * 10 ^ 2 in
  let intercept_pomeron := 988 / 10 ^ 4 in
  let intercept_reggeon := 4056 / 10 ^ 4 in
  let tau := 18152 / 10 ^ 4 in
  let A_s := 12 / 100 in
  let B_up := 12437 / 10 ^ 4 in
  let B_down := 1853 / 10 ^ 4 in
  olet qc := quo Q2 (Q2 + cc) in
  let n := 3 / 2 * (1 + qc) in
  olet qd := quo (2 * Q2) (Q2 + d) in
  let dl := intercept_pomeron * (1 + qd) in
  olet xs := power x (- dl) in
  olet qa := quo Q2 (Q2 + a) in
  olet ps := power qa (1 + dl) in
  let aux := A_s * xs * ps in
  olet s4 := power (1 - x) (n + 4) in
  olet st := power (1 - x) (n + tau) in
  olet xv := power x (1 - intercept_reggeon) in
  olet sv := power (1 - x) n in
  olet qb := quo Q2 (Q2 + b) in
  olet pv := power qb intercept_reggeon in
  let aux2 := xv * sv * pv in
  let Up_valence := B_up * aux2 in
  let Down_valence := B_down * aux2 * (1 - x) in
  let proton := aux * s4 + (Up_valence + Down_valence) in
  let neutron := aux * st + (Up_valence / 4 + Down_valence * 4) in
  olet G := shadow k c x (v * E) in
  Ok (G * (c_charge c * proton + (c_atomic c - c_charge c) * neutron)).

(** ** FunctionToQ2Integral *)
Inductive transfer_kind := AbramowiczLevinLevyMaor91 | AbramowiczLevinLevyMaor97 | ButkevichMikheyev | RenoSarcevicSu | AbtFT | BlockDurandHa.
(** Bjorken x, PhotoQ2Integration.cxx:88 and five copies *)
Definition bjorken (M E v Q2 : R) : outcome R := quo Q2 (2 * M * v * E).
Definition nucleus (t : transfer_kind) (k : shadow_kind) (c : component) (E v x Q2 : R) : outcome R :=
  let M := nucleon_weight c in
  let of_proton F := olet F := F in nucleus_of_proton k c E v x F in
  match t with
  | AbramowiczLevinLevyMaor91 => of_proton (allm_proton false allm91 M E v x Q2)
  | AbramowiczLevinLevyMaor97 | RenoSarcevicSu => of_proton (allm_proton false allm97 M E v x Q2)
  | AbtFT => of_proton (allm_proton true allm_abt M E v x Q2)
  | BlockDurandHa => of_proton (block_proton x Q2)
  | ButkevichMikheyev => butkevich_nucleus k c E v x Q2
  end.
(** The bracket for particles with the spin 1/2, PhotoQ2Integration.cxx:216-223 and
    four copies, and for PhotoRenoSarcevicSu, lines 604-611 *)
Definition half_bracket (Rt m M E v x Q2 : R) : outcome R :=
  olet a := quo (M * x * v) (2 * E) in
  olet b := quo (2 * m * m) Q2 in
  olet d := quo (4 * M * M * x * x) Q2 in
  Ok (1 - v - a + (1 - b) * v * v * (1 + d) / (2 * (1 + Rt))).
Definition zero_bracket (m M E v x Q2 : R) : outcome R :=
  olet b := quo (4 * m * m) Q2 in
  olet d := quo (4 * M * M * x * x) Q2 in
  Ok (1 - v + 25 / 100 * v * v - (1 + b) * (25 / 100) * v * v * (1 + d) / (1 + 0)).
Definition bracket (t : transfer_kind) (m M E v x Q2 : R) : outcome R :=
  match t with
  | RenoSarcevicSu => zero_bracket m M E v x Q2
  | ButkevichMikheyev => half_bracket (25 / 100) m M E v x Q2
  | _ => half_bracket 0 m M E v x Q2
  end.
Definition transfer_integrand (t : transfer_kind) (k : shadow_kind) (m : R) (c : component) (E v Q2 : R) : outcome R :=
  let M := nucleon_weight c in
  olet x := bjorken M E v Q2 in
  olet F := nucleus t k c E v x Q2 in
  olet r := quo (ME * RE) Q2 in
  olet f := quo (r * r * 4 * PI * F) v in
  olet y := bracket t m M E v x Q2 in
  Ok (f * y).

(** ** DifferentialCrossSection *)
(** The limits of the integral, PhotoQ2Integration.cxx:41-55 (for v < 1) *)
Definition transfer_min (m E v : R) : outcome R :=
  olet q := quo (m * v) (1 - v) in
  let q2 := m * v * q in
  if m <? MPI then
    olet aux := quo (m * m) E in
    olet s := quo (aux * aux) (2 * (1 - v)) in
    Ok (q2 - s)
  else Ok q2.
Definition transfer_max (m : R) (c : component) (E v : R) : R :=
  2 * nucleon_weight c * E * (v - v_min (photonuclear_limits m (nucleon_weight c) E)).
(** PhotoQ2Integration.cxx:37-69.  For v = 1 and a particle with the mass of the pion or
    more the lower limit is infinite, which is more than the upper one. *)
Variable qags : (R -> outcome R) -> R -> R -> outcome R.
Definition transfer_differential (t : transfer_kind) (k : shadow_kind) (m charge : R) (c : component) (E v : R) : run R :=
  if (v =? 1) && (MPI <=? m) then done (Ok 0)
  else
    flet q2_min := done (transfer_min m E v) in
    let q2_max := transfer_max m c E v in
    if q2_max <? q2_min then done (Ok 0)
    else
      flet (aux, _) := integrate nan qags default_integral q2_min q2_max (transfer_integrand t k m c E v) 4 0 in
      flet n := done (quo NA (c_atomic c)) in
      done (Ok (Rmax (aux * (n * charge * charge)) 0)).
End Transfer.
