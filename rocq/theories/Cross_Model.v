(** Model of energy cuts, media, cross sections and the sampling of interactions.
    [nan] is the outcome of arithmetic that leaves the real numbers (a division
    by zero, a logarithm of a number that is not positive); in C++ an infinity or
    NaN is carried on.  Hash values are modelled as the numbers they are; how
    they are computed is not modelled. *)
From Verif Require Import Prelude Propagator_Model Limits_Model Math_Model.

(** EnergyCutSettings, PROPOSAL/EnergyCutSettings.h; e_cut may be infinite. *)
Record energy_cut := mkcut { ecut : ext; vcut : R; cut_cont_rand : bool }.

(** EnergyCutSettings.cxx:17-38 (logging left out) *)
Definition new_energy_cut (e : ext) (v : R) (cr : bool) : outcome energy_cut :=
  if (match e with Fin x => x <=? 0 | PInf => false end) then Throw invalid_argument
  else if (v <=? 0) || (1 <? v) then Throw invalid_argument
  else Ok (mkcut e v cr).

(** EnergyCutSettings.cxx:87-91.  The function asserts that the energy is
    positive. *)
Definition get_cut (c : energy_cut) (E : R) : R :=
  match ecut c with
  | Fin x => Rmin (x / E) (vcut c)
  | PInf => vcut c
  end.

(** EnergyCutSettings.cxx:93-97 *)
Definition get_cut_within (c : energy_cut) (lim : limits) (E : R) : R :=
  Rmin (Rmax (v_min lim) (get_cut c E)) (v_max lim).

(** EnergyCutSettings.cxx:75-85 *)
Definition energy_cut_eqb (a b : energy_cut) : bool :=
  (match ecut a, ecut b with Fin x, Fin y => x =? y | PInf, PInf => true | _, _ => false end)
  && (vcut a =? vcut b) && Bool.eqb (cut_cont_rand a) (cut_cont_rand b).

(** Component and Medium, PROPOSAL/medium/Components.h, Medium.h: the hash
    value, the charge, the molar mass and the number of atoms in a molecule. *)
Record component := mkcomponent { c_hash : N; c_charge : R; c_atomic : R; c_atoms : R }.
Record medium := mkmedium { m_hash : N; m_components : list component }.

(** Medium.cxx:156-177: sumNucleons_, sumCharge_ *)
Definition sum_nucleons (m : medium) : R :=
  fold_left (fun a c => a + c_atoms c * c_atomic c) (m_components m) 0.
Definition sum_charge (m : medium) : R :=
  fold_left (fun a c => a + c_atoms c * c_charge c) (m_components m) 0.

(** A dNdx calculator (CrossSectionDNDX.h): Calculate(E), Calculate(E, v),
    GetUpperLimit(E, rate) *)
Record dndx_calc := mkdndx {
  dn_rate : R -> outcome R;
  dn_cumulative : R -> R -> outcome R;
  dn_upper : R -> R -> outcome R
}.

Section Cross.
Variable nan : forall A, outcome A.

Definition quo (a b : R) : outcome R := if b =? 0 then nan R else Ok (a / b).

(** [std::pow(x, y)] for a base that is not negative and a positive exponent *)
Definition rpow (x y : R) : R := if x =? 0 then 0 else Rpower x y.
(** [std::log] *)
Definition log (x : R) : outcome R := if x <=? 0 then nan R else Ok (ln x).

(** CrossSectionDNDXInterpolant.cxx:15-21 *)
Definition transform_relative_loss (c v_cut v_max v : R) : outcome R :=
  if (v <? 0) || (v_max =? 0) then Ok v_cut
  else if 1 <=? v then Ok v_max
  else olet q := quo v_max v_cut in
       olet l := log q in
       Ok (v_cut * exp (rpow v c * l)).
(** CrossSectionDNDXInterpolant.cxx:23-29 *)
Definition retransform_relative_loss (c v_cut v_max v : R) : outcome R :=
  if v <=? v_cut then Ok 0
  else if v_max <=? v then Ok 1
  else olet q := quo v v_cut in
       olet a := log q in
       olet q := quo v_max v_cut in
       olet b := log q in
       olet r := quo a b in
       if r <? 0 then nan R else Ok (rpow r (1 / c)).
(** CrossSectionDNDXInterpolant.cxx:31-35 *)
Definition transform_loss_log (v_cut v_max v : R) : outcome R :=
  olet q := quo (1 - v_cut) (1 - v_max) in
  olet xi := log q in
  Ok (1 - (1 - v_max) * exp ((1 - v) * xi)).
(** CrossSectionDNDXInterpolant.cxx:37-41 *)
Definition retransform_loss_log (v_cut v_max v : R) : outcome R :=
  olet q := quo (1 - v_cut) (1 - v_max) in
  olet xi := log q in
  olet q := quo (1 - v) (1 - v_max) in
  olet a := log q in
  olet r := quo a xi in
  Ok (1 - r).

(** CrossSectionDNDXInterpolant.h:28-60: which transformation is used for which
    parametrization *)
Inductive spacing := Relative | RelativeIonization | LogCompton.
Definition transform_loss (s : spacing) : R -> R -> R -> outcome R :=
  match s with
  | Relative => transform_relative_loss 1
  | RelativeIonization => transform_relative_loss (15 / 10)
  | LogCompton => transform_loss_log
  end.
Definition retransform_loss (s : spacing) : R -> R -> R -> outcome R :=
  match s with
  | Relative => retransform_relative_loss 1
  | RelativeIonization => retransform_relative_loss (15 / 10)
  | LogCompton => retransform_loss_log
  end.

(** CrossSectionDNDX::GetIntegrationLimits, CrossSectionDNDX.cxx:41-51 *)
Definition integration_limits (kin : R -> limits) (cut : option energy_cut) (E : R) : limits :=
  let k := kin E in
  mklimits (match cut with Some c => Rmax (get_cut_within c k E) (v_min k) | None => v_min k end) (v_max k).

(** CrossSectionDNDXIntegral.cxx:140-159.  [integral E a b] and [upper E a b y]
    are dndx_integral and dndx_upper_limit (lines 19-136). *)
Definition dndx_integral_cumulative (kin : R -> limits) (cut : option energy_cut)
  (integral : R -> R -> R -> outcome R) (E v : R) : outcome R :=
  let lim := integration_limits kin cut E in
  if v_min lim <? v then integral E (v_min lim) v else Ok 0.
Definition dndx_integral (kin : R -> limits) (cut : option energy_cut)
  (integral : R -> R -> R -> outcome R) (upper : R -> R -> R -> R -> outcome R) : dndx_calc :=
  mkdndx (fun E => dndx_integral_cumulative kin cut integral E (v_max (integration_limits kin cut E)))
         (dndx_integral_cumulative kin cut integral)
         (fun E rate => let lim := integration_limits kin cut E in upper E (v_min lim) (v_max lim) (- rate)).

(** CrossSectionDNDXInterpolant.cxx:63-76; [table] is the interpolant, [low] its
    lower energy limit. *)
Definition evaluate_interpolant (table : R -> R -> R) (low E vbar : R) : R :=
  if E <? low then 0 else let x := table E vbar in if x <? 0 then 0 else x.
(** CrossSectionDNDXInterpolant.cxx:78-120.  [find E rate] is
    cubic_splines::find_parameter; when it throws a runtime_error a bisection
    with accuracy 1e-6 and at most 101 passes takes its place. *)
Definition dndx_interpolant (s : spacing) (kin : R -> limits) (cut : option energy_cut)
  (table : R -> R -> R) (low : R) (find : R -> R -> outcome R) : dndx_calc :=
  mkdndx
    (fun E => Ok (evaluate_interpolant table low E 1))
    (fun E v =>
       let lim := integration_limits kin cut E in
       olet vbar := retransform_loss s (v_min lim) (v_max lim) v in
       Ok (evaluate_interpolant table low E vbar))
    (fun E rate =>
       if E <? low then Throw invalid_argument
       else
         let lim := integration_limits kin cut E in
         olet v := (match find E rate with
                    | Throw runtime_error =>
                      olet a := retransform_loss s (v_min lim) (v_max lim) (v_min lim) in
                      olet b := retransform_loss s (v_min lim) (v_max lim) (v_max lim) in
                      olet (x1, x2) := bisection (fun x => table E x - rate) a b (/ 10 ^ 6) 101 in
                      Ok ((x1 + x2) / 2)
                    | r => r
                    end) in
         transform_loss s (v_min lim) (v_max lim) v).

(** CrossSection.h:67-70 *)
Definition weight_component (m : medium) (c : component) : outcome R :=
  quo (sum_nucleons m) (c_atoms c * c_atomic c).

(** [unordered_map::emplace]: a key that is present already is left alone. *)
Definition emplace {A} (h : N) (x : A) (l : list (N * A)) : list (N * A) :=
  if existsb (fun e => N.eqb (fst e) h) l then l else l ++ [(h, x)].

(** Both conditions of CrossSection.h:80-82, 97-100: only continuous losses *)
Definition only_continuous (cut : option energy_cut) : bool :=
  match cut with
  | Some c => (match ecut c with PInf => true | Fin _ => false end) && (vcut c =? 1)
  | None => false
  end.

(** [build_dndx], CrossSection.h:89-110, the component-wise case.  [make] is
    make_dndx. *)
Fixpoint build_dndx_loop (make : component -> outcome dndx_calc) (m : medium) (cs : list component)
  (acc : list (N * (R * dndx_calc))) : outcome (list (N * (R * dndx_calc))) :=
  match cs with
  | [] => Ok acc
  | c :: cs' =>
    olet w := weight_component m c in
    olet calc := make c in
    build_dndx_loop make m cs' (emplace (c_hash c) (w, calc) acc)
  end.
Definition build_dndx_components (make : component -> outcome dndx_calc) (m : medium) (cut : option energy_cut)
  : outcome (option (list (N * (R * dndx_calc)))) :=
  if only_continuous cut then Ok None
  else olet l := build_dndx_loop make m (m_components m) [] in Ok (Some l).
(** CrossSection.h:72-87, the medium-wise case *)
Definition build_dndx_medium (make : outcome dndx_calc) (m : medium) (cut : option energy_cut)
  : outcome (option (list (N * (R * dndx_calc)))) :=
  if only_continuous cut then Ok None
  else olet calc := make in Ok (Some [(m_hash m, (1, calc))]).

(** [build_dedx], CrossSection.h:112-155.  [make c] is make_dedx, [None] a null
    pointer: the tables could not be built as there are no positive values. *)
Fixpoint build_dedx_loop (make : component -> outcome (option (R -> outcome R))) (m : medium) (cs : list component)
  : outcome (list (R * (R -> outcome R))) :=
  match cs with
  | [] => Ok []
  | c :: cs' =>
    olet w := weight_component m c in
    olet calc := make c in
    olet l := build_dedx_loop make m cs' in
    Ok (match calc with Some f => (w, f) :: l | None => l end)
  end.
Definition build_dedx_components (make : component -> outcome (option (R -> outcome R))) (m : medium)
  (cut : option energy_cut) : outcome (option (list (R * (R -> outcome R)))) :=
  match cut with
  | None => Ok None
  | Some _ => olet l := build_dedx_loop make m (m_components m) in Ok (Some l)
  end.
Definition build_dedx_medium (make : outcome (option (R -> outcome R))) (cut : option energy_cut)
  : outcome (option (list (R * (R -> outcome R)))) :=
  match cut with
  | None => Ok None
  | Some _ => olet calc := make in Ok (Some (match calc with Some f => [(1, f)] | None => [] end))
  end.
(** [build_de2dx], CrossSection.h:157-196; make_de2dx never returns a null
    pointer, so it is the same loop. *)
Definition build_de2dx_components (make : component -> outcome (R -> outcome R)) (m : medium)
  (cut : option energy_cut) : outcome (option (list (R * (R -> outcome R)))) :=
  match cut with
  | Some c => if cut_cont_rand c
              then olet l := build_dedx_loop (fun x => olet f := make x in Ok (Some f)) m (m_components m) in Ok (Some l)
              else Ok None
  | None => Ok None
  end.

(** CrossSection<comp_wise, only_stochastic>, CrossSection.h:214-271.  The
    entries of the unordered_map dndx are listed in the order in which the map
    is iterated. *)
Record cross_section := mkcs {
  cs_dndx : option (list (N * (R * dndx_calc)));
  cs_dedx : option (list (R * (R -> outcome R)));
  cs_de2dx : option (list (R * (R -> outcome R)));
  cs_only_stochastic : bool;
  cs_lower : R;
  cs_type : itype;
  cs_cut : option energy_cut
}.

(** CrossSection.h:237-271: the component-wise constructor.  [order] is the
    iteration order of the map. *)
Definition new_cross_section (order : list (N * (R * dndx_calc)) -> list (N * (R * dndx_calc)))
  (make_n : component -> outcome dndx_calc) (make_e : component -> outcome (option (R -> outcome R)))
  (make_e2 : component -> outcome (R -> outcome R)) (m : medium) (cut : option energy_cut)
  (only_stochastic : bool) (lower : R) (t : itype) : outcome cross_section :=
  olet dn := build_dndx_components make_n m cut in
  olet de := build_dedx_components make_e m cut in
  olet de2 := build_de2dx_components make_e2 m cut in
  Ok (mkcs (option_map order dn) de de2 only_stochastic lower t cut).

(** The same for the medium-wise parametrizations (ionization); the calculators
    are built for the medium. *)
Definition build_de2dx_medium (make : outcome (R -> outcome R)) (cut : option energy_cut)
  : outcome (option (list (R * (R -> outcome R)))) :=
  match cut with
  | Some c => if cut_cont_rand c then olet f := make in Ok (Some [(1, f)]) else Ok None
  | None => Ok None
  end.
Definition new_cross_section_medium (make_n : outcome dndx_calc) (make_e : outcome (option (R -> outcome R)))
  (make_e2 : outcome (R -> outcome R)) (m : medium) (cut : option energy_cut)
  (only_stochastic : bool) (lower : R) (t : itype) : outcome cross_section :=
  olet dn := build_dndx_medium make_n m cut in
  olet de := build_dedx_medium make_e cut in
  olet de2 := build_de2dx_medium make_e2 cut in
  Ok (mkcs dn de de2 only_stochastic lower t cut).

(** CrossSectionBase, CrossSection.h:47-64 *)
Record cross_base := mkcross {
  x_dEdx : R -> outcome R;
  x_dE2dx : R -> outcome R;
  x_dNdx : R -> outcome R;
  x_dNdx_target : R -> N -> outcome R;
  x_cumulative : R -> N -> R -> outcome R;
  x_per_target : R -> outcome (list (N * R));
  x_loss : N -> R -> R -> outcome R;
  x_lower : R;
  x_type : itype;
  x_cut : option energy_cut
}.

(** [( *dndx)[h]]: an unknown key is inserted with weight 0 and a null pointer,
    which is dereferenced at once. *)
Definition dndx_at (l : list (N * (R * dndx_calc))) (h : N) : outcome (R * dndx_calc) :=
  match find (fun e => N.eqb (fst e) h) l with
  | Some e => Ok (snd e)
  | None => UB null_deref
  end.

(** CrossSection.h:300-306 *)
Definition cs_dNdx_target (x : cross_section) (E : R) (h : N) : outcome R :=
  match cs_dndx x with
  | Some l => olet (w, c) := dndx_at l h in olet r := dn_rate c E in quo r w
  | None => Ok 0
  end.
(** CrossSection.h:289-298 *)
Fixpoint dNdx_sum (x : cross_section) (E : R) (keys : list N) (acc : R) : outcome R :=
  match keys with
  | [] => Ok acc
  | h :: ks => olet r := cs_dNdx_target x E h in dNdx_sum x E ks (acc + r)
  end.
Definition cs_dNdx (x : cross_section) (E : R) : outcome R :=
  match cs_dndx x with
  | Some l => dNdx_sum x E (map fst l) 0
  | None => Ok 0
  end.
(** CrossSection.h:308-315 *)
Definition cs_cumulative (x : cross_section) (E : R) (h : N) (v : R) : outcome R :=
  match cs_dndx x with
  | Some l => olet (w, c) := dndx_at l h in olet r := dn_cumulative c E v in quo r w
  | None => Ok 0
  end.
(** CrossSection.h:317-326 *)
Fixpoint targets (x : cross_section) (E : R) (keys : list N) : outcome (list (N * R)) :=
  match keys with
  | [] => Ok []
  | h :: ks => olet r := cs_dNdx_target x E h in olet l := targets x E ks in Ok ((h, r) :: l)
  end.
Definition cs_per_target (x : cross_section) (E : R) : outcome (list (N * R)) :=
  match cs_dndx x with
  | Some l => targets x E (map fst l)
  | None => Ok []
  end.
(** CrossSection.h:276-286, 328-336 *)
Definition cs_loss (x : cross_section) (h : N) (E rate : R) : outcome R :=
  match cs_dndx x with
  | Some l => if cs_only_stochastic x then Ok 1
              else olet (w, c) := dndx_at l h in dn_upper c E (rate * w)
  | None => Throw logic_error
  end.
(** CrossSection.h:338-364 *)
Fixpoint weighted_sum (l : list (R * (R -> outcome R))) (E acc : R) : outcome R :=
  match l with
  | [] => Ok acc
  | (w, f) :: l' => olet r := f E in olet q := quo r w in weighted_sum l' E (acc + q)
  end.
Definition cs_sum (l : option (list (R * (R -> outcome R)))) (E : R) : outcome R :=
  match l with Some l => weighted_sum l E 0 | None => Ok 0 end.

Definition as_cross (x : cross_section) : cross_base :=
  mkcross (cs_sum (cs_dedx x)) (cs_sum (cs_de2dx x)) (cs_dNdx x) (cs_dNdx_target x) (cs_cumulative x)
          (cs_per_target x) (cs_loss x) (cs_lower x) (cs_type x) (cs_cut x).

(** CrossSectionMultiplier.h:4-63 *)
Definition multiplied (x : cross_base) (k : R) : cross_base :=
  mkcross
    (fun E => olet r := x_dEdx x E in Ok (k * r))
    (fun E => olet r := x_dE2dx x E in Ok (k * r))
    (fun E => olet r := x_dNdx x E in Ok (k * r))
    (fun E h => olet r := x_dNdx_target x E h in Ok (k * r))
    (fun E h v => olet r := x_cumulative x E h v in Ok (k * r))
    (fun E => olet l := x_per_target x E in Ok (map (fun e => (fst e, snd e * k)) l))
    (fun h E rate => olet q := quo rate k in x_loss x h E q)
    (x_lower x) (x_type x) (x_cut x).

(** The photon interactions without a differential cross section
    (CrossSectionDirect.h with Photoproduction.cxx:19-72 or
    Photoeffect.cxx:18-71, headers Photoproduction.h, Photoeffect.h).
    [rate_of E c] is NA / A * PhotonAtomCrossSection(E, c), [registry] is
    Component::GetComponentForHash, [cutoff] GetCutOff; [checked]: the photo
    effect compares the energy with the cut-off in CalculatedNdx_PerTarget, but
    not in CalculatedNdx(E, hash). *)
Section Direct.
Variables (rate_of : R -> component -> outcome R) (registry : N -> outcome component) (cutoff : component -> R)
  (checked : bool) (m : medium).
Definition direct_rate (E : R) (c : component) : outcome R :=
  olet w := weight_component m c in olet r := rate_of E c in quo r w.
Definition direct_target (E : R) (h : N) : outcome R :=
  olet c := registry h in direct_rate E c.
Fixpoint direct_targets (E : R) (cs : list component) : outcome (list (N * R)) :=
  match cs with
  | [] => Ok []
  | c :: cs' =>
    olet r := (if negb checked || (cutoff c <? E) then direct_rate E c else Ok 0) in
    olet l := direct_targets E cs' in
    Ok ((c_hash c, r) :: l)
  end.
Definition direct_dNdx (E : R) : outcome R :=
  olet l := direct_targets E (m_components m) in Ok (fold_left (fun a e => a + snd e) l 0).
Definition direct (lower : R) (t : itype) (cut : option energy_cut) : cross_base :=
  mkcross (fun _ => Ok 0) (fun _ => Ok 0) direct_dNdx direct_target (fun _ _ _ => Throw logic_error)
          (fun E => direct_targets E (m_components m)) (fun _ _ _ => Ok 1) lower t cut.
End Direct.

(** Interaction::Rate, Interaction.h:34-38 *)
Record rate := mkrate { r_cross : cross_base; r_hash : N; r_rate : R }.

(** Interaction.cxx:10-18: the constructor's check *)
Definition new_interaction (cross : list cross_base) : outcome (list cross_base) :=
  match cross with [] => Throw invalid_argument | _ => Ok cross end.

(** Interaction.cxx:28-33 *)
Fixpoint total_rate_loop (cross : list cross_base) (E acc : R) : outcome R :=
  match cross with
  | [] => Ok acc
  | x :: l => olet r := x_dNdx x E in total_rate_loop l E (acc + r)
  end.
Definition total_rate (cross : list cross_base) (E : R) : outcome R := total_rate_loop cross E 0.

(** Interaction.cxx:67-77 *)
Fixpoint rates (cross : list cross_base) (E : R) : outcome (list rate) :=
  match cross with
  | [] => Ok []
  | x :: l =>
    olet t := x_per_target x E in
    olet r := rates l E in
    Ok (map (fun e => mkrate x (fst e) (snd e)) t ++ r)
  end.

(** Interaction.cxx:35-65 *)
Fixpoint sample_loop (E : R) (l : list rate) (sampled : R) : option (outcome loss) :=
  match l with
  | [] => None
  | r :: l' =>
    let sampled := sampled - r_rate r in
    if sampled <? 0
    then Some (olet v := x_loss (r_cross r) (r_hash r) E (- sampled) in
               Ok (mkloss (x_type (r_cross r)) (r_hash r) v))
    else sample_loop E l' sampled
  end.
Definition sample_loss (E : R) (l : list rate) (rnd : R) : outcome loss :=
  let overall := fold_left (fun a r => a + r_rate r) l 0 in
  match sample_loop E l (rnd * overall) with
  | Some r => r
  | None => if overall =? 0 then Ok (mkloss Undefined 0%N 0) else Throw logic_error
  end.

(** PropagationUtility.cxx:92-99 *)
Definition energy_stochastic_loss (cross : list cross_base) (E rnd : R) : outcome loss :=
  olet l := rates cross E in sample_loss E l rnd.

(** InteractionBuilder.cxx:80-93; the interpolant of the rates, if there is one,
    with its lower energy limit. *)
Definition mean_free_path (cross : list cross_base) (table : option (R * (R -> R))) (E : R) : outcome ext :=
  match table with
  | Some (low, f) =>
    if E <? low then Ok PInf
    else let r := f E in
         if r <? 0 then Ok PInf else if r =? 0 then Ok PInf else Ok (Fin (1 / r))
  | None => olet r := total_rate cross E in
            if r =? 0 then Ok PInf else Ok (Fin (1 / r))
  end.

(** Displacement::FunctionToIntegral, Displacment.cxx:6-13 *)
Fixpoint dEdx_loop (cross : list cross_base) (E acc : R) : outcome R :=
  match cross with
  | [] => Ok acc
  | x :: l => olet r := x_dEdx x E in dEdx_loop l E (acc + r)
  end.
Definition displacement_function (cross : list cross_base) (E : R) : outcome R :=
  olet r := dEdx_loop cross E 0 in
  if 0 <? r then quo (- 1) r else Ok 0.
(** Interaction::FunctionToIntegral, Interaction.cxx:20-26; [disp] are the cross
    sections of the displacement. *)
Definition interaction_function (disp cross : list cross_base) (E : R) : outcome R :=
  olet t := total_rate cross E in
  if 0 <? t then olet d := displacement_function disp E in Ok (d * t) else Ok 0.
End Cross.
