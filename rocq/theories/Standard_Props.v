(** The standard cross sections of a particle (C82). *)
From Coq Require Import String ZArith Permutation.
From Verif Require Import Prelude Cross_Model Config_Model Config_Spec Factory_Model Factory_Spec Standard_Model Standard_Spec Standard_Proofs.
Local Open Scope string_scope.
Local Open Scope list_scope.

(** For the particles of the documentation the standard cross sections are the listed
    ones, in this order, each with the medium, the cuts where it takes them, and the
    tables, without LPM effect.
    Cases: [Standard_Examples.muon_described], [muon_standard], [positron_standard]. *)
Theorem C82_documented : forall type d M (m : M) cut t, described_as type = Some d -> cut <> None \/ d = Gamma ->
  exists sels, Forall2 (stands_for_entry m cut t) (documented d) sels /\
  forall X (construct : selection M -> outcome X) l, standard_list construct type m cut t = Ok l <-> Forall2 (fun s x => construct s = Ok x) sels l.
Proof. exact standard_documented. Qed.
Print Assumptions C82_documented.

(** Other particles have none.
    Case: [Standard_Examples.muon_described], the last one. *)
Theorem C82_other_particles : forall type M X (construct : selection M -> outcome X) m cut t, described_as type = None ->
  standard_list construct type m cut t = Throw invalid_argument.
Proof. exact standard_unknown. Qed.
Print Assumptions C82_other_particles.

(** Without cuts, which is how "no cuts" is given to every single cross section, the
    list of a lepton cannot be had: the null pointer is dereferenced. *)
Theorem C82_no_cut_refuted : forall type d M X (construct : selection M -> outcome X) m t, described_as type = Some d -> d <> Gamma ->
  standard_list construct type m None t = UB null_deref.
Proof. exact standard_no_cut. Qed.
Print Assumptions C82_no_cut_refuted.

(** A configuration that lists the documented parametrizations gives the same cross
    sections up to their order, for leptons, and for photons if no tables are used.
    Cases: [Standard_Examples.choices_ignore], [choices_made]. *)
Theorem C82_configured_partial : forall M X U (construct : selection M -> outcome X) scaled (b : builders M X U),
  (forall f m c t r o, make b f m c t r o = make_cross construct scaled f m c t r o) -> ignores_correction construct ->
  forall type d m cut t r, described_as type = Some d -> d <> Gamma \/ t = false ->
  (forall l, standard_list construct type m (Some cut) t = Ok l ->
     exists l', cross_section_list b m cut t r (written d) = Ok l' /\ Permutation l l') /\
  (forall l', cross_section_list b m cut t r (written d) = Ok l' ->
     exists l, standard_list construct type m (Some cut) t = Ok l /\ Permutation l l').
Proof. exact @same_configured. Qed.
Print Assumptions C82_configured_partial.

(** What is missing: photons with tables.  The standard cross sections all use tables,
    the configured ones do not for photoproduction. *)
Theorem C82_photon_tables_refuted : forall M U scaled (b : builders M (selection M) U) m cut,
  (forall f m c t r o, make b f m c t r o = make_cross choices scaled f m c t r o) ->
  exists l l', standard_list choices 22 m (Some cut) true = Ok l /\
    (forall r, cross_section_list b m cut true r (written Gamma) = Ok l') /\
    (forall s, In s l -> s_tables s = true) /\ exists s, In s l' /\ s_factory s = Photoproduction /\ s_tables s = false.
Proof. exact photon_tables. Qed.
Print Assumptions C82_photon_tables_refuted.
