(** What is expected of the predefined media and of the correction for their density. *)
From Coq Require Import String Ascii.
From Verif Require Import Prelude Limits_Model Cross_Model Photo_Model Ionization_Model Config_Model Catalogue_Model.
Local Open Scope string_scope.
Local Open Scope list_scope.

(** ** Names *)
(** The media that a configuration can use, docs/config_docu.md:56-74 *)
Definition documented : list string :=
  ["Water"; "WaterPDG2001"; "WaterPDG2020"; "Ice"; "IcePDG2001"; "IcePDG2020"; "Salt"; "Standardrock"; "Frejusrock"; "Iron";
   "Hydrogen"; "Lead"; "Copper"; "Uranium"; "Air"; "Paraffin"; "AntaresWater"; "CascadiabasinWater"; "LiquidArgon"].
(** All predefined media, Medium.h:120-176 *)
Definition media (hash : R -> R -> R -> N) : list medium :=
  [m_water_2001 hash; m_water_2020 hash; m_ice_2001 hash; m_ice_2020 hash; m_salt hash; m_calcium_carbonate hash; m_standard_rock hash;
   m_frejus_rock hash; m_iron hash; m_hydrogen hash; m_lead hash; m_copper hash; m_uranium hash; m_paraffin hash; m_air hash;
   m_liquid_argon hash; m_antares_water hash; m_cascadia_basin_water hash].

(** Two strings that differ at most in capital and small letters (A is 65, a is 97) *)
Definition capital_of (c d : ascii) : Prop := (65 <= nat_of_ascii c <= 90)%nat /\ nat_of_ascii d = (nat_of_ascii c + 32)%nat.
Fixpoint same_letters (s t : string) : Prop :=
  match s, t with
  | EmptyString, EmptyString => True
  | String c s', String d t' => (c = d \/ capital_of c d \/ capital_of d c) /\ same_letters s' t'
  | _, _ => False
  end.

(** ** Composition *)
(** A molecule that is described by the charges of the nuclei with the numbers of atoms *)
Definition made_of (m : medium) (formula : list (R * R)) : Prop :=
  Forall2 (fun c p => c_charge c = fst p /\ c_atoms c = snd p) (mat_components (md_material m)) formula.
(** The number of atoms with a charge *)
Fixpoint amount (Z : R) (cs : list component) : R :=
  match cs with
  | [] => 0
  | c :: cs' => (if (c_charge c =? Z)%R then c_atoms c else 0) + amount Z cs'
  end.
(** Sea water: charges of the dissolved ions Na+, K+, Mg2+, Ca2+ and Cl-, SO4 2- *)
Definition cations (m : medium) : R :=
  let n Z := amount Z (mat_components (md_material m)) in n 11 + n 19 + 2 * n 12 + 2 * n 20.
Definition anions (m : medium) : R :=
  let n Z := amount Z (mat_components (md_material m)) in n 17 + 2 * n 16.

(** ** The density correction (Sternheimer, Berger and Seltzer) *)
(** The decimal logarithm of the momentum in units of the mass *)
Definition decade (beta gamma : R) : R := ln (beta * gamma) / ln 10.
(** The asymptote, and the fit below X1 *)
Definition asymptote (m : material) (X : R) : R := 2 * LOG10 * X + mat_C m.
Definition fit (m : material) (X : R) : R := asymptote m X + mat_a m * Rpower (mat_X1 m - X) (mat_m m).
(** Parameters of a fit that begins at the value for slow particles or above, and grows *)
Definition fitted (m : material) : Prop :=
  0 <= mat_d0 m <= fit m (mat_X0 m) /\ 0 <= mat_a m /\ 1 < mat_m m /\ mat_X0 m < mat_X1 m /\
  mat_a m * mat_m m * Rpower (mat_X1 m - mat_X0 m) (mat_m m - 1) <= 2 * LOG10.
(** The same, but the fit may begin below the value for slow particles by [eps] *)
Definition nearly_fitted (eps : R) (m : material) : Prop :=
  0 <= mat_d0 m <= fit m (mat_X0 m) + eps /\ 0 <= mat_a m /\ 1 < mat_m m /\ mat_X0 m < mat_X1 m /\
  mat_a m * mat_m m * Rpower (mat_X1 m - mat_X0 m) (mat_m m - 1) <= 2 * LOG10.
(** Velocity and Lorentz factor of a moving particle *)
Definition moving (beta gamma : R) : Prop := 0 < beta < 1 /\ 1 < gamma /\ gamma * gamma * (1 - beta * beta) = 1.
