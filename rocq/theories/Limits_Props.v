(** Property C15: kinematic limits. *)
From Verif Require Import Prelude PreludeFacts Particle_Model Limits_Model Limits_Spec Limits_Proofs.

(** Bremsstrahlung, all parametrizations, with and without the Lorenz cut *)
Theorem C15_bremsstrahlung : forall lorenz m Z E, 0 < m <= E -> 1 <= Z -> (forall c, lorenz = Some c -> 0 <= c) ->
  ordered (brems_limits lorenz m Z E) /\ leaves m E (brems_limits lorenz m Z E).
Proof. exact brems_ok. Qed.
Print Assumptions C15_bremsstrahlung.
Theorem C15_bremsstrahlung_default : forall m E, 0 < m <= E ->
  ordered (brems_default_limits m E) /\ leaves m E (brems_default_limits m E).
Proof. exact brems_default_ok. Qed.
Print Assumptions C15_bremsstrahlung_default.
Theorem C15_ionization : forall m I E, 0 < m <= E -> ordered (ionization_limits m I E) /\ leaves m E (ionization_limits m I E).
Proof. exact ionization_ok. Qed.
Print Assumptions C15_ionization.
Theorem C15_bhabha : forall m E, 0 < m <= E -> ordered (bhabha_limits m E) /\ leaves m E (bhabha_limits m E).
Proof. exact bhabha_ok. Qed.
Print Assumptions C15_bhabha.
(** The two electrons cannot be told apart: the one that is called the secondary
    has at most the kinetic energy of the other one. *)
Theorem C15_moller : forall m E, 0 < m <= E -> ordered (moller_limits m E) /\
  (v_min (moller_limits m E) < v_max (moller_limits m E) ->
   forall v, in_limits (moller_limits m E) v -> m <= E * (1 - v) /\ E * v <= E * (1 - v) - m).
Proof. exact moller_ok. Qed.
Print Assumptions C15_moller.
Theorem C15_epair : forall m Z E, 0 < m <= E -> 1 <= Z -> ordered (epair_limits m Z E) /\ leaves m E (epair_limits m Z E).
Proof. exact epair_ok. Qed.
Print Assumptions C15_epair.
Theorem C15_mupair : forall m E, 0 < m <= E -> ordered (mupair_limits m E) /\ leaves m E (mupair_limits m E).
Proof. exact mupair_ok. Qed.
Print Assumptions C15_mupair.
(** Photonuclear interactions of particles lighter than the pion. *)
Theorem C15_photonuclear_partial : forall m M E, 0 < m <= E -> 0 < M -> m < MPI ->
  ordered (photonuclear_limits m M E) /\ leaves m E (photonuclear_limits m M E).
Proof. exact photonuclear_ok. Qed.
Print Assumptions C15_photonuclear_partial.
(** Heavier ones (tau leptons) are left with less than their rest mass. *)
Theorem C15_photonuclear_refuted : exists m M E, MPI <= m <= E /\ 0 < M /\
  v_min (photonuclear_limits m M E) < v_max (photonuclear_limits m M E) /\ E * (1 - v_max (photonuclear_limits m M E)) < m.
Proof. exact photonuclear_heavy_refuted. Qed.
Print Assumptions C15_photonuclear_refuted.
Theorem C15_compton : forall E, 0 < E -> ordered (compton_limits E) /\ v_max (compton_limits E) < 1.
Proof. exact compton_ok. Qed.
Print Assumptions C15_compton.
(** Both partners of a pair made by a photon have at least their rest mass. *)
Theorem C15_photo_pair : forall E, 2 * ME < E -> v_min (photo_pair_limits E) < v_max (photo_pair_limits E) /\
  forall x, in_limits (photo_pair_limits E) x -> ME <= E * x /\ ME <= E * (1 - x).
Proof. exact photo_pair_ok. Qed.
Print Assumptions C15_photo_pair.
Theorem C15_photo_mupair_partial : forall E, 0 < E -> ordered (photo_mupair_limits E) /\
  (forall x, in_limits (photo_mupair_limits E) x <-> in_limits (photo_mupair_limits E) (1 - x)) /\
  0 <= v_min (photo_mupair_limits E).
Proof. exact photo_mupair_ordered. Qed.
Print Assumptions C15_photo_mupair_partial.
(** Above about 600 MeV the limits of muon pairs made by photons allow muons with
    less than their rest mass. *)
Theorem C15_photo_mupair_refuted : forall E, 2 * MMU < (2 - SQRTE) * E ->
  v_min (photo_mupair_limits E) < v_max (photo_mupair_limits E) /\ E * v_min (photo_mupair_limits E) < MMU.
Proof. exact photo_mupair_refuted. Qed.
Print Assumptions C15_photo_mupair_refuted.
(** The limits of weak interactions are not clamped. *)
Theorem C15_weak_partial : forall E, 64 <= E -> ordered (weak_limits E).
Proof. exact weak_ok. Qed.
Print Assumptions C15_weak_partial.
Theorem C15_weak_refuted : exists E, ME <= E /\ v_max (weak_limits E) < v_min (weak_limits E).
Proof. exact weak_refuted. Qed.
Print Assumptions C15_weak_refuted.

(** A muon with 1 TeV in hydrogen: there is something to sample from, and half of
    the energy is an allowed loss. *)
Example C15_example : let l := brems_limits None MMU 1 1000000 in
  v_min l < v_max l /\ in_limits l (1 / 2) /\ MMU <= 1000000 * (1 - 1 / 2).
Proof. exact muon_brems. Qed.
Example C15_example_pairs : let l := mupair_limits MMU 1000 in
  v_min l < v_max l /\ in_limits l (1 / 2) /\ 2 * MMU < (2 - SQRTE) * 1000.
Proof. exact muon_pairs. Qed.
