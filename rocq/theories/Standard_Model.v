(** Model of the standard cross sections of a particle
    (PROPOSAL/crosssection/ParticleDefaultCrossSectionList.h). *)
From Coq Require Import String ZArith.
From Verif Require Import Prelude Cross_Model Config_Model Factory_Model.
Local Open Scope string_scope.
Local Open Scope list_scope.

Section Standard.
Context {M X : Type} (construct : selection M -> outcome X).

(** append_cross, ParticleDefaultCrossSectionList.h:27-42 *)
Fixpoint append_cross (l : list (selection M)) : outcome (list X) :=
  match l with
  | [] => Ok []
  | s :: l' => olet x := construct s in olet xs := append_cross l' in Ok (x :: xs)
  end.
(** The tuples, with the selections of [Factory_Model]; a density correction that is
    not given is one. *)
Definition with_lpm (f : factory) (name : string) (m : M) (cut : option energy_cut) (t : bool) : selection M :=
  mkselection f name m cut t (Some (false, 1%R)) None None.
Definition plain (f : factory) (name : string) (m : M) (cut : option energy_cut) (t : bool) : selection M :=
  mkselection f name m cut t None None None.
Definition allm97 (m : M) (cut : option energy_cut) (t : bool) : selection M :=
  mkselection PhotoQ2 "AbramowiczLevinLevyMaor97" m cut t None None (Some "butkevichmikheyev").
(** DefaultCrossSections<GammaDef>::Append, lines 94-103 *)
Definition append_gamma (m : M) (cut : option energy_cut) (t : bool) : outcome (list X) :=
  append_cross [with_lpm Photopair "kochmotz" m None t; plain Compton "KleinNishina" m cut t;
                plain Photoproduction "Rhode" m None t; plain Photoeffect "Sauter" m None t].
(** Append of EMinusDef, lines 105-114, and EPlusDef, lines 116-126; the cuts are
    dereferenced for the ionization. *)
Definition append_electron (m : M) (cut : option energy_cut) (t : bool) : outcome (list X) :=
  match cut with
  | None => UB null_deref
  | Some _ => append_cross [with_lpm Brems "ElectronScreening" m cut t; with_lpm Epair "ForElectronPositron" m cut t;
                            plain Ioniz "BergerSeltzerMoller" m cut t; allm97 m cut t]
  end.
Definition append_positron (m : M) (cut : option energy_cut) (t : bool) : outcome (list X) :=
  match cut with
  | None => UB null_deref
  | Some _ => append_cross [with_lpm Brems "ElectronScreening" m cut t; with_lpm Epair "ForElectronPositron" m cut t;
                            plain Ioniz "BergerSeltzerBhabha" m cut t; allm97 m cut t; plain Annihilation "Heitler" m None t]
  end.
(** Append of MuMinusDef, MuPlusDef, TauMinusDef and TauPlusDef, lines 129-173 *)
Definition append_heavy (m : M) (cut : option energy_cut) (t : bool) : outcome (list X) :=
  match cut with
  | None => UB null_deref
  | Some _ => append_cross [with_lpm Brems "KelnerKokoulinPetrukhin" m cut t; with_lpm Epair "KelnerKokoulinPetrukhin" m cut t;
                            plain Ioniz "BetheBlochRossi" m cut t; allm97 m cut t]
  end.
(** GetStdCrossSections, lines 71-91; [type] is particle_type *)
Definition standard_list (type : Z) (m : M) (cut : option energy_cut) (t : bool) : outcome (list X) :=
  match type with
  | 11%Z => append_electron m cut t
  | (-11)%Z => append_positron m cut t
  | 13%Z => append_heavy m cut t
  | (-13)%Z => append_heavy m cut t
  | 15%Z => append_heavy m cut t
  | (-15)%Z => append_heavy m cut t
  | 22%Z => append_gamma m cut t
  | _ => Throw invalid_argument
  end.
End Standard.
