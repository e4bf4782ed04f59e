(** Predefined media and the correction for their density (C77, C78). *)
From Coq Require Import String.
From Verif Require Import Prelude Cross_Model Photo_Model Ionization_Model Differential_Spec Medium_Spec Continuous_Spec
  Config_Model Catalogue_Model Catalogue_Spec Catalogue_Proofs CatalogueDrop_Proofs FrejusDrop_Proofs.
Local Open Scope string_scope.
Local Open Scope list_scope.
Local Open Scope R_scope.

(** In an insulator there is no correction for slow particles.
    Case: [Catalogue_Examples.slow_case]. *)
Theorem C77_slow : forall nan m b g, 0 < b * g -> mat_d0 m = 0 -> decade b g < mat_X0 m -> density_effect nan m b g = Ok 0.
Proof. exact slow_zero. Qed.
Print Assumptions C77_slow.
(** From X0 on the correction is not below the asymptote, which it reaches at X1.
    Case: [Catalogue_Examples.fast_case]. *)
Theorem C77_asymptote : forall nan m b g, 0 < b * g -> 0 <= mat_a m -> mat_X0 m <= decade b g ->
  exists d, density_effect nan m b g = Ok d /\ asymptote m (decade b g) <= d /\
    (mat_X1 m <= decade b g -> d = asymptote m (decade b g)).
Proof. exact above_asymptote. Qed.
Print Assumptions C77_asymptote.
(** It does not jump at X1.  Case: [Catalogue_Examples.fitted_case]. *)
Theorem C77_joined : forall nan m eps, 0 < eps -> 1 < mat_m m -> mat_X0 m < mat_X1 m -> exists delta, 0 < delta /\
  forall b g, 0 < b * g -> Rabs (decade b g - mat_X1 m) < delta ->
  exists d, density_effect nan m b g = Ok d /\ Rabs (d - asymptote m (mat_X1 m)) < eps.
Proof. exact joined. Qed.
Print Assumptions C77_joined.
(** With parameters of a growing fit the correction is not negative and grows with the
    momentum.  Cases: [Catalogue_Examples.fitted_case], [moving_case]. *)
Theorem C77_monotone : forall nan m b g b' g', fitted m -> 0 < b * g <= b' * g' ->
  exists d d', density_effect nan m b g = Ok d /\ density_effect nan m b' g' = Ok d' /\ 0 <= d <= d'.
Proof. exact monotone. Qed.
Print Assumptions C77_monotone.
(** Ten of the predefined media have such parameters. *)
Theorem C77_media_partial : forall hash, Forall (fun m => fitted (md_material m))
  [m_water_2001 hash; m_water_2020 hash; m_ice_2001 hash; m_ice_2020 hash; m_hydrogen hash; m_lead hash; m_paraffin hash; m_liquid_argon hash;
   m_antares_water hash; m_cascadia_basin_water hash].
Proof. exact media_fitted. Qed.
Print Assumptions C77_media_partial.
(** If the fit begins a little below the value for slow particles, the correction is
    negative or decreases by that little at most, and only where the fit begins.
    Case: [Catalogue_Examples.nearly_case]. *)
Theorem C77_nearly : forall nan eps m b g b' g', 0 <= eps -> nearly_fitted eps m -> 0 < b * g <= b' * g' ->
  exists d d', density_effect nan m b g = Ok d /\ density_effect nan m b' g' = Ok d' /\ - eps <= d /\ d <= d' + eps /\
    (decade b' g' < mat_X0 m \/ mat_X0 m <= decade b g -> d <= d').
Proof. exact nearly. Qed.
Print Assumptions C77_nearly.
(** So it is in all other predefined media but the rock of Frejus. *)
Theorem C77_other_media : forall hash, Forall (fun m => nearly_fitted (6 / 10000) (md_material m))
  [m_standard_rock hash; m_calcium_carbonate hash; m_iron hash; m_copper hash; m_uranium hash; m_air hash; m_salt hash].
Proof. exact media_nearly. Qed.
Print Assumptions C77_other_media.
(** And in each of them the correction does decrease for some faster particles. *)
Theorem C77_drop_refuted : forall hash nan m,
  In m [m_standard_rock hash; m_calcium_carbonate hash; m_iron hash; m_copper hash; m_uranium hash; m_air hash; m_salt hash] ->
  exists b g d b' g' d', moving b g /\ moving b' g' /\ g < g' /\
    density_effect nan (md_material m) b g = Ok d /\ density_effect nan (md_material m) b' g' = Ok d' /\ d' < d.
Proof. exact media_drop. Qed.
Print Assumptions C77_drop_refuted.
(** In salt the correction becomes negative: the loss increases. *)
Theorem C77_salt_refuted : forall hash nan, exists b g d,
  moving b g /\ density_effect nan (md_material (m_salt hash)) b g = Ok d /\ d < 0.
Proof. exact salt_negative. Qed.
Print Assumptions C77_salt_refuted.
(** In the rock of Frejus it decreases for some faster particles. *)
Theorem C77_frejus_refuted : forall hash nan, exists b g d b' g' d', moving b g /\ moving b' g' /\ g < g' /\
  density_effect nan (md_material (m_frejus_rock hash)) b g = Ok d /\
  density_effect nan (md_material (m_frejus_rock hash)) b' g' = Ok d' /\ d' < d.
Proof. exact frejus_falls. Qed.
Print Assumptions C77_frejus_refuted.
(** But by one hundredth at most, not once the fit has begun to grow, and it is never
    negative.  Case: [Catalogue_Examples.frejus_case]. *)
Theorem C77_frejus_partial : forall hash nan b g b' g', 0 < b * g <= b' * g' ->
  exists d d', density_effect nan (md_material (m_frejus_rock hash)) b g = Ok d /\
    density_effect nan (md_material (m_frejus_rock hash)) b' g' = Ok d' /\
    0 <= d <= d' + 1 / 100 /\ (335 / 1000 <= decade b g -> d <= d').
Proof. exact frejus_drop. Qed.
Print Assumptions C77_frejus_partial.
(** So in no predefined medium is the correction negative by more than six ten
    thousandths, or decreases with the momentum by more than one hundredth.
    Case: [Catalogue_Examples.frejus_case]. *)
Theorem C77_all_media_partial : forall hash nan m b g b' g', In m (media hash) -> 0 < b * g <= b' * g' ->
  exists d d', density_effect nan (md_material m) b g = Ok d /\ density_effect nan (md_material m) b' g' = Ok d' /\
    - (6 / 10000) <= d <= d' + 1 / 100.
Proof. exact all_media. Qed.
Print Assumptions C77_all_media_partial.

(** Every documented name creates a predefined medium whose name it begins with.
    Case: [Catalogue_Examples.named]. *)
Theorem C78_documented : forall hash s, In s documented ->
  exists m, create_medium hash s = Ok m /\ In m (media hash) /\ prefix (md_name m) (lower s) = true.
Proof. exact documented_found. Qed.
Print Assumptions C78_documented.
(** Other names create none.  Case: [Catalogue_Examples.unknown]. *)
Theorem C78_others : forall hash s m, create_medium hash s = Ok m -> exists t, In t documented /\ same_letters t s.
Proof. exact only_documented. Qed.
Print Assumptions C78_others.
(** Capital letters make no difference.  Case: [Catalogue_Examples.case_case]. *)
Theorem C78_case : forall hash s s', same_letters s s' -> create_medium hash s = create_medium hash s'.
Proof. exact case_ignored. Qed.
Print Assumptions C78_case.
(** A medium is found again by its own name.  Missing: those of 2001.
    Case: [Catalogue_Examples.again_case]. *)
Theorem C78_name_partial : forall hash s m, create_medium hash s = Ok m -> lower s <> "waterpdg2001" -> lower s <> "icepdg2001" ->
  create_medium hash (md_name m) = Ok m.
Proof. exact found_again. Qed.
Print Assumptions C78_name_partial.
Theorem C78_name_refuted : forall hash, exists s m m',
  create_medium hash s = Ok m /\ create_medium hash (md_name m) = Ok m' /\ md_density m <> md_density m'.
Proof. exact old_media. Qed.
Print Assumptions C78_name_refuted.
(** Calcium carbonate is predefined but cannot be created by any name. *)
Theorem C78_calcium_carbonate_refuted : forall hash, In (m_calcium_carbonate hash) (media hash) /\
  forall s m, create_medium hash s = Ok m -> md_name m <> md_name (m_calcium_carbonate hash).
Proof. exact calcium_carbonate. Qed.
Print Assumptions C78_calcium_carbonate_refuted.
(** All predefined media meet what is asked of media elsewhere: elements with positive
    numbers of atoms, a positive ionization potential and a positive density. *)
Theorem C78_sound : forall hash,
  Forall (fun m => sound_material (md_material m) /\ substance (mat_components (md_material m)) /\ 0 < md_density m) (media hash).
Proof. exact media_sound. Qed.
Print Assumptions C78_sound.
(** Water, ice, salt, calcium carbonate, the elements consist of what they are.
    Missing: mixtures, rocks, sea water and paraffin. *)
Theorem C78_composition_partial : forall hash,
  made_of (m_water_2001 hash) [(1, 2); (8, 1)] /\ made_of (m_water_2020 hash) [(1, 2); (8, 1)] /\
  made_of (m_ice_2001 hash) [(1, 2); (8, 1)] /\ made_of (m_ice_2020 hash) [(1, 2); (8, 1)] /\
  made_of (m_salt hash) [(11, 1); (17, 1)] /\ made_of (m_calcium_carbonate hash) [(20, 1); (6, 1); (8, 3)] /\
  made_of (m_hydrogen hash) [(1, 2)] /\ made_of (m_iron hash) [(26, 1)] /\ made_of (m_copper hash) [(29, 1)] /\
  made_of (m_lead hash) [(82, 1)] /\ made_of (m_uranium hash) [(92, 1)] /\ made_of (m_liquid_argon hash) [(18, 1)].
Proof. exact compositions. Qed.
Print Assumptions C78_composition_partial.
(** Paraffin, a mixture of hydrocarbons (C25 H52), contains oxygen and no hydrogen. *)
Theorem C78_paraffin_refuted : forall hash, exists c, In c (mat_components (md_material (m_paraffin hash))) /\ c_charge c = 8 /\
  amount 1 (mat_components (md_material (m_paraffin hash))) = 0.
Proof. exact no_hydrogen. Qed.
Print Assumptions C78_paraffin_refuted.
(** The ions in the water of Cascadia Basin are neutral within one per cent ... *)
Theorem C78_sea_water : forall hash,
  Rabs (cations (m_cascadia_basin_water hash) - anions (m_cascadia_basin_water hash)) <= cations (m_cascadia_basin_water hash) / 100.
Proof. exact cascadia_neutral. Qed.
Print Assumptions C78_sea_water.
(** ... but in the water of Antares anions have almost twice the charge of cations: there
    is ten times the sulfur that would make it neutral. *)
Theorem C78_sea_water_refuted : forall hash, anions (m_antares_water hash) > 18 / 10 * cations (m_antares_water hash).
Proof. exact antares_charged. Qed.
Print Assumptions C78_sea_water_refuted.
