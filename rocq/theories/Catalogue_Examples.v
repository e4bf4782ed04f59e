(** Concrete cases for the theorems about predefined media. *)
From Coq Require Import String.
From Coquelicot Require Import Coquelicot.
From Verif Require Import Prelude PreludeFacts Cross_Model Photo_Model Ionization_Model Config_Model Catalogue_Model Catalogue_Spec Catalogue_Proofs CatalogueDrop_Proofs.
Local Open Scope string_scope.
Local Open Scope list_scope.
Local Open Scope R_scope.

Definition some_hash (charge atomic atoms : R) : N := 0.
(** A particle with three fifths of the speed of light *)
Example moving_case : moving (3 / 5) (5 / 4) /\ 0 < 3 / 5 * (5 / 4).
Proof. unfold moving. lra. Qed.
Example fitted_case : fitted (md_material (m_liquid_argon some_hash)).
Proof. apply argon_fitted. Qed.
Example nearly_case : nearly_fitted (6 / 10000) (md_material (m_iron some_hash)).
Proof. apply iron_nearly. Qed.
(** Two momenta in a predefined medium *)
Example frejus_case : In (m_frejus_rock some_hash) (media some_hash) /\ 0 < 3 / 5 * (5 / 4) <= 12 / 13 * (13 / 5).
Proof. split; [cbn [In media]; do 7 right; left; reflexivity|lra]. Qed.
(** It is slow in liquid argon: the momentum is less than the mass *)
Example slow_case : mat_d0 (md_material (m_liquid_argon some_hash)) = 0 /\ decade (3 / 5) (5 / 4) < mat_X0 (md_material (m_liquid_argon some_hash)).
Proof.
  split; [reflexivity|]. cbn. apply Rle_lt_trans with 0; [|lra]. unfold decade, Rdiv. pose proof ten_log.
  assert (ln (3 * / 5 * (5 * / 4)) <= 0). { rewrite <- ln_1. apply ln_le; lra. }
  assert (0 < / ln 10) by now apply Rinv_0_lt_compat. nra.
Qed.
(** One with a momentum of a hundred times the mass is between X0 and X1 *)
Example fast_case : exists b g, moving b g /\ decade b g = 2 /\ mat_X0 (md_material (m_liquid_argon some_hash)) <= 2 /\ 0 <= mat_a (md_material (m_liquid_argon some_hash)).
Proof. destruct (momentum_of 2) as [b [g [M D]]]. exists b, g. split; [exact M|]. split; [exact D|]. cbn. lra. Qed.
Example named : create_medium some_hash "StandardRock" = Ok (m_standard_rock some_hash).
Proof. reflexivity. Qed.
Example case_case : same_letters "AIR" "Air" /\ ~ same_letters "AIR" "Airs".
Proof. split; [apply same_lower; reflexivity|]. intro H. apply same_lower in H. discriminate. Qed.
Example unknown : create_medium some_hash "granite" = Throw invalid_argument.
Proof. reflexivity. Qed.
Example again_case : create_medium some_hash "WaterPDG2020" = Ok (m_water_2020 some_hash) /\ md_name (m_water_2020 some_hash) = "water"
  /\ lower "WaterPDG2020" <> "waterpdg2001" /\ lower "WaterPDG2020" <> "icepdg2001".
Proof. split; [reflexivity|]. split; [reflexivity|]. split; discriminate. Qed.
