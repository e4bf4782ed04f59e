(** Options of cross sections (C79) and scattering (C80) in a configuration. *)
From Coq Require Import String.
From Verif Require Import Prelude Vec_Model Propagator_Model Secondaries_Model Deflection_Model Deflection_Spec Particle_Model
  Cross_Model Config_Model Config_Spec Catalogue_Spec Factory_Model Factory_Spec Factory_Proofs.
Local Open Scope string_scope.
Local Open Scope list_scope.

(** A cross section is constructed exactly if a documented parametrization is asked for
    and the options are well formed, with these options and defaults, the cuts, tables
    and density correction where they apply, and scaled by the multiplier.
    Cases: [Factory_Examples.brems_example], [q2_example]. *)
Theorem C79_selected : forall M X (construct : selection M -> outcome X) scaled f m cuts tables correction config y,
  make_cross construct scaled f m (when (has_cuts f) cuts) (when (has_tables f) tables) (when (has_lpm f) correction) config = Ok y <->
  exists sel x, selected f m cuts tables correction config sel /\ construct sel = Ok x /\ with_multiplier scaled config x y.
Proof. exact @offered_iff. Qed.
Print Assumptions C79_selected.

(** A name stands for at most one parametrization.
    Case: [Factory_Examples.one_name]. *)
Theorem C79_unambiguous : forall f p q s,
  In p (available f) -> In q (available f) -> same_letters s p -> same_letters s q -> p = q.
Proof. exact available_same. Qed.
Print Assumptions C79_unambiguous.

(** The same for the list of a configuration (C75): "photo" stands for both kinds of
    photonuclear parametrizations.
    Cases: [Factory_Examples.list_builders], [photo_example]. *)
Theorem C79_list_partial : forall M X U (construct : selection M -> outcome X) scaled (b : builders M X U),
  (forall f m c t r o, make b f m c t r o = make_cross construct scaled f m c t r o) ->
  forall i o m cuts tables correction y, In i interactions ->
  made b m cuts tables correction (i, o) y <->
  (exists sel x, selected (i_factory i) m cuts tables correction o sel /\ construct sel = Ok x /\ with_multiplier scaled o x y) \/
  (i_name i = "photo" /\ (exists h, optional o "hard_component" boolean true h) /\
   exists sel x, selected PhotoQ2 m cuts tables correction o sel /\ construct sel = Ok x /\ with_multiplier scaled o x y).
Proof. intros M X U construct scaled b. exact (made_iff construct scaled b). Qed.
Print Assumptions C79_list_partial.
(** What is missing: without the condition on "hard_component", which does not concern
    these parametrizations, it is false. *)
Theorem C79_hard_component_refuted : exists o, forall M X U (construct : selection M -> outcome X) scaled (b : builders M X U),
  (forall f m c t r o, make b f m c t r o = make_cross construct scaled f m c t r o) ->
  forall m cuts tables correction, (exists sel, selected PhotoQ2 m cuts tables correction o sel) /\
  forall i y, In i interactions -> i_name i = "photo" -> ~ made b m cuts tables correction (i, o) y.
Proof. exact hard_component_blocks. Qed.
Print Assumptions C79_hard_component_refuted.

(** No configuration leads to undefined behaviour.
    Case: [Factory_Examples.total_construct]. *)
Theorem C79_defined : forall M X (construct : selection M -> outcome X) scaled f m cuts tables correction config u,
  (forall sel u, construct sel <> UB u) ->
  make_cross construct scaled f m (when (has_cuts f) cuts) (when (has_tables f) tables) (when (has_lpm f) correction) config <> UB u.
Proof. exact @offered_defined. Qed.
Print Assumptions C79_defined.

(** Only the documented keywords matter; "LPM" is not one of them.
    Case: [Factory_Examples.capital_lpm]. *)
Theorem C79_other_keys : forall M X (construct : selection M -> outcome X) scaled f m cuts tables correction config config',
  agree cross_keywords config config' ->
  make_cross construct scaled f m (when (has_cuts f) cuts) (when (has_tables f) tables) (when (has_lpm f) correction) config =
  make_cross construct scaled f m (when (has_cuts f) cuts) (when (has_tables f) tables) (when (has_lpm f) correction) config'.
Proof. exact @offered_keys. Qed.
Print Assumptions C79_other_keys.

(** A multiplier need not be positive. *)
Theorem C79_negative_refuted : exists f config k, k < 0 /\ optional config "multiplier" real 1 k /\
  forall M X (construct : selection M -> outcome X) scaled m c t r, (forall sel, exists x, construct sel = Ok x) ->
  exists x, make_cross construct scaled f m (when (has_cuts f) c) (when (has_tables f) t) (when (has_lpm f) r) config = Ok (scaled k x).
Proof. exact negative_accepted. Qed.
Print Assumptions C79_negative_refuted.

(** A scattering object is exactly what the options describe.
    Cases: [Factory_Examples.documented_scattering], [documented_shape]. *)
Theorem C80_read : forall nan multiple charge m config sc, well_shaped config ->
  scattering_of_json nan multiple charge m config = Ok sc <->
  exists ms k ds ks, scattering_read config ms k ds ks /\ sc = make_scattering nan (option_map multiple ms) charge m ds k ks.
Proof. exact read_iff. Qed.
Print Assumptions C80_read.

(** Of several deflections for a type the last one is used, and its angle is scaled by
    the factor of the type.
    Case: [Factory_Examples.last_example]. *)
Theorem C80_deflection : forall nan multiple charge m config sc ms k ds ks t d q, well_shaped config ->
  scattering_of_json nan multiple charge m config = Ok sc -> scattering_read config ms k ds ks ->
  last_for ds t d -> factor_for ks t q ->
  exists f, sc_stochastic sc t = Some (required d, f) /\ forall e_i e_f rnd c,
    f e_i e_f rnd c = (olet a := deflection nan charge m d e_i e_f rnd c in Ok (fst a * q, snd a)).
Proof. exact read_deflection. Qed.
Print Assumptions C80_deflection.
(** Interactions that are not listed do not deflect.
    Case: [Factory_Examples.last_example]. *)
Theorem C80_not_listed : forall nan multiple charge m config sc ms k ds ks t, well_shaped config ->
  scattering_of_json nan multiple charge m config = Ok sc -> scattering_read config ms k ds ks ->
  sc_stochastic sc t = None <-> forall d, In d ds -> type_of d <> t.
Proof. exact read_no_deflection. Qed.
Print Assumptions C80_not_listed.
(** Multiple scattering is scaled "with a constant factor for each component"; without
    the keyword or with "NoScattering" there is none.
    Cases: [Factory_Examples.documented_scattering], [last_example]. *)
Theorem C80_multiple : forall nan multiple charge m config sc ms k ds ks, well_shaped config ->
  scattering_of_json nan multiple charge m config = Ok sc -> scattering_read config ms k ds ks ->
  match ms with
  | None => sc_multiple sc = None
  | Some q => exists g, sc_multiple sc = Some g /\ forall grammage e_i e_f rnd,
      g grammage e_i e_f rnd = (olet o := multiple q grammage e_i e_f rnd in Ok (mkoffset (o_sx o * k) (o_sy o * k) (o_tx o * k) (o_ty o * k)))
  end.
Proof. exact read_multiple. Qed.
Print Assumptions C80_multiple.
(** Other keys are ignored, and nothing is undefined.
    Case: [Factory_Examples.ignored_key]. *)
Theorem C80_other_keys : forall nan multiple charge m config config', agree scattering_keywords config config' ->
  scattering_of_json nan multiple charge m config = scattering_of_json nan multiple charge m config'.
Proof. exact read_keys. Qed.
Print Assumptions C80_other_keys.
Theorem C80_defined : forall nan multiple charge m config u, scattering_of_json nan multiple charge m config <> UB u.
Proof. exact scattering_defined. Qed.
Print Assumptions C80_defined.

(** "list of interaction types where PROPOSAL will use default parametrizations": it
    does for four types.  What is missing: the other types, see the next theorem.
    Case: [Factory_Examples.default_brems]. *)
Theorem C80_default_partial : forall s d, standard_deflector d ->
  (exists n, In (type_of d, n) type_names /\ same_letters s ("Default" ++ n)) -> deflection_entry (JString s) = Ok d.
Proof. exact default_found. Qed.
Print Assumptions C80_default_partial.
Theorem C80_default_refuted : exists t n, In (t, n) type_names /\ t = Propagator_Model.MuPair /\
  forall s, same_letters s ("Default" ++ n) -> deflection_entry (JString s) = Throw logic_error.
Proof. exact default_missing. Qed.
Print Assumptions C80_default_refuted.
(** A factor may turn an angle into one of more than half a turn, and a value that is
    not an array is accepted. *)
Theorem C80_angle_refuted : forall (nan : forall A, outcome A) multiple charge c, exists config sc f r0 theta,
  well_shaped config /\ scattering_of_json nan multiple charge MMU config = Ok sc /\
  sc_stochastic sc Propagator_Model.Epair = Some (2%nat, f) /\ 0 <= r0 < 1 /\
  deflection nan charge MMU EpairGinneken 10000 6000 [r0; 1 / 2] c = Ok (1, 2 * PI * (1 / 2)) /\
  f 10000 6000 [r0; 1 / 2] c = Ok (theta, 2 * PI * (1 / 2)) /\ PI < theta.
Proof. exact angle_beyond. Qed.
Print Assumptions C80_angle_refuted.
Theorem C80_shape_refuted : exists config s, find config "stochastic_deflection" = Some (JString s) /\
  forall nan multiple charge m, exists sc, scattering_of_json nan multiple charge m config = Ok sc /\
    sc_stochastic sc Propagator_Model.Ioniz <> None.
Proof. exact shape_ignored. Qed.
Print Assumptions C80_shape_refuted.
