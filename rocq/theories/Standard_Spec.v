(** What docs/default_crosssections.md says about the standard cross sections. *)
From Coq Require Import String ZArith.
From Verif Require Import Prelude Cross_Model Config_Model Config_Spec Catalogue_Spec Factory_Model Factory_Spec.
Local Open Scope string_scope.
Local Open Scope list_scope.

(** "Electrons", "Positrons", "Muons", "Tau lepton" and "Gamma", by the number of the
    Monte Carlo numbering scheme *)
Inductive described := Electrons | Positrons | Muons | Taus | Gamma.
Definition described_as (type : Z) : option described :=
  if (type =? 11)%Z then Some Electrons
  else if (type =? -11)%Z then Some Positrons
  else if (Z.abs type =? 13)%Z then Some Muons
  else if (Z.abs type =? 15)%Z then Some Taus
  else if (type =? 22)%Z then Some Gamma
  else None.
(** The list of the parametrizations: keyword of the configuration and name *)
Definition documented (d : described) : list (string * string) :=
  match d with
  | Electrons => [("brems", "ElectronScreening"); ("epair", "ForElectronPositron"); ("ioniz", "BergerSeltzerMoller");
                  ("photo", "AbramowiczLevinLevyMaor97")]
  | Positrons => [("brems", "ElectronScreening"); ("epair", "ForElectronPositron"); ("ioniz", "BergerSeltzerBhabha");
                  ("photo", "AbramowiczLevinLevyMaor97"); ("annihilation", "Heitler")]
  | Muons | Taus => [("brems", "KelnerKokoulinPetrukhin"); ("epair", "KelnerKokoulinPetrukhin"); ("ioniz", "BetheBlochRossi");
                     ("photo", "AbramowiczLevinLevyMaor97")]
  | Gamma => [("photopair", "KochMotz"); ("compton", "KleinNishina"); ("photoproduction", "Rhode"); ("photoeffect", "Sauter")]
  end.
(** The same as a configuration: "LPM effect disabled", "with the shadowing
    parametrization ButkevichMikheyev" *)
Definition written (d : described) : json :=
  JObject (map (fun e => (fst e, JObject [("parametrization", JString (snd e)); ("lpm", JBool false); ("shadow", JString "ButkevichMikheyev")])) (documented d)).
(** The selection belongs to an entry of the list. *)
Definition stands_for_entry {M} (m : M) (cut : option energy_cut) (tables : bool) (e : string * string) (s : selection M) : Prop :=
  (exists i, In i interactions /\ i_name i = fst e /\ (s_factory s = i_factory i \/ i_fallback i = Some (s_factory s))) /\
  In (s_name s) (available (s_factory s)) /\ same_letters (snd e) (s_name s) /\
  s_medium s = m /\ s_tables s = tables /\
  s_cuts s = (if has_cuts (s_factory s) then cut else None) /\
  (if has_lpm (s_factory s) then exists r, s_lpm s = Some (false, r) else s_lpm s = None) /\
  s_hard s = None /\
  (if has_shadow (s_factory s) then exists w, s_shadow s = Some w /\ In w available_shadows /\ same_letters "ButkevichMikheyev" w else s_shadow s = None).
(** Without LPM effect the density correction does not matter, and no other options
    than the ones of the parametrization. *)
Definition ignores_correction {M X} (construct : selection M -> outcome X) : Prop :=
  forall f n m c t r r' h w, construct (mkselection f n m c t (Some (false, r)) h w) = construct (mkselection f n m c t (Some (false, r')) h w).
(** Cross sections that show the medium, cuts and use of tables they were constructed with *)
Definition choices {M} (s : selection M) : outcome (selection M) :=
  Ok (mkselection (s_factory s) (s_name s) (s_medium s) (s_cuts s) (s_tables s) None None None).
