(** Property theorems about vectors and directions: C29, C30, C37. *)
From Verif Require Import Prelude Vec_Model Shapes_Spec Vec_Proofs.

(** ** C29: deflection *)
(** Two azimuths differ by the angle between the deflected directions around the
    original one, in the positive sense. *)
Theorem C29_deflect : forall d c t, unit d -> -1 <= c <= 1 ->
  unit (deflect d c t) /\ dot d (deflect d c t) = c /\
  forall t', dot (deflect d c t) (deflect d c t') = c * c + (1 - c * c) * cos (t - t').
Proof. exact c29_deflect. Qed.
Print Assumptions C29_deflect.

Theorem C29_sense_of_rotation : forall d c t t', unit d -> -1 <= c <= 1 ->
  dot d (cross (deflect d c t) (deflect d c t')) = (1 - c * c) * sin (t' - t).
Proof. exact c29_sense. Qed.
Print Assumptions C29_sense_of_rotation.

Theorem C29_no_deflection : forall d c t, unit d -> c = 1 -> deflect d c t = d.
Proof. exact c29_identity. Qed.
Print Assumptions C29_no_deflection.

(** The length matters. *)
Theorem C29_not_normalised_refuted : exists d c t, dot d d = 4 /\ -1 <= c <= 1 /\
  dot (deflect d c t) (deflect d c t) <> dot d d.
Proof. exact c29_not_normalised_refuted. Qed.
Print Assumptions C29_not_normalised_refuted.

Example C29_example : unit (mkvec (3 / 5) 0 (- (4 / 5))) /\ unit (mkvec 0 0 (-1)) /\ -1 <= - (1 / 2) <= 1.
Proof. unfold unit, dot. cbn. repeat split; lra. Qed.

(** ** C30: coordinates *)
Theorem C30_there_and_back : forall a, from_spherical (to_spherical a) = a.
Proof. exact c30_from_to. Qed.
Print Assumptions C30_there_and_back.

Theorem C30_ranges : forall a, 0 <= radius (to_spherical a) /\ - PI < azimuth (to_spherical a) <= PI /\
  0 <= zenith (to_spherical a) <= PI /\ radius (to_spherical a) = dist a (mkvec 0 0 0).
Proof. exact c30_range. Qed.
Print Assumptions C30_ranges.

Theorem C30_back_and_there : forall s, 0 < radius s -> - PI < azimuth s <= PI -> 0 < zenith s < PI ->
  to_spherical (from_spherical s) = s.
Proof. exact c30_to_from. Qed.
Print Assumptions C30_back_and_there.

Example C30_example : 0 < radius (mksph 2 PI 1) /\ - PI < azimuth (mksph 2 PI 1) <= PI /\ 0 < zenith (mksph 2 PI 1) < PI.
Proof. pose proof PI_RGT_0. pose proof PI2_1. cbn. repeat split; lra. Qed.

(** ** C37: multiple scattering *)
Theorem C37_unit_directions : forall d o, unit d ->
  o_sx o * o_sx o + o_sy o * o_sy o <= 1 -> o_tx o * o_tx o + o_ty o * o_ty o <= 1 ->
  let '(mean, final) := scatter_initial_direction d o in
  unit mean /\ unit final /\
  dot d mean = sqrt (1 - (o_sx o * o_sx o + o_sy o * o_sy o)) /\
  dot d final = sqrt (1 - (o_tx o * o_tx o + o_ty o * o_ty o)).
Proof. exact c37_scatter. Qed.
Print Assumptions C37_unit_directions.

Theorem C37_no_scattering : forall d, unit d -> scatter_initial_direction d (mkoffset 0 0 0 0) = (d, d).
Proof. exact c37_zero. Qed.
Print Assumptions C37_no_scattering.

(** Larger offsets are not rejected and give directions of another length. *)
Theorem C37_large_offsets_refuted : exists d o, unit d /\
  forall mean final, scatter_initial_direction d o = (mean, final) -> ~ unit final.
Proof. exact c37_large_refuted. Qed.
Print Assumptions C37_large_offsets_refuted.

Example C37_example : let o := mkoffset (1 / 10) (- (1 / 5)) (3 / 10) (1 / 10) in
  unit (mkvec 0 0 (-1)) /\ o_sx o * o_sx o + o_sy o * o_sy o <= 1 /\ o_tx o * o_tx o + o_ty o * o_ty o <= 1.
Proof. unfold unit, dot. cbn. repeat split; lra. Qed.
