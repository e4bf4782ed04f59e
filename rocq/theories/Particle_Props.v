(** Properties C31, C35, C36: decay tables, the particle registry, momenta. *)
From Verif Require Import Prelude Vec_Model Propagator_Model Particle_Model Particle_Spec Particle_Proofs
  Decay_Spec DecayAll_Proofs Decay_Examples.
From Coq Require Import Sorted Permutation.

(** ** C31: selection of decay channels *)
(** The channels in the order of their branching ratios share [0, 1) according to
    these; all ratios have to be different. *)
Theorem C31_slots_partial : forall l r,
  l <> [] -> NoDup (map fst l) -> Forall (fun x => 0 < fst x) l -> 0 <= r < 1 ->
  exists t, Permutation l t /\ StronglySorted Rlt (map fst t) /\
  exists t1 br c t2, t = t1 ++ (br, c) :: t2 /\
    total_branching t1 <= r * total_branching l < total_branching t1 + br /\
    select_channel (decay_table l) r = Ok c.
Proof. exact c31_slot. Qed.
Print Assumptions C31_slots_partial.

Theorem C31_share_partial : forall l br c,
  NoDup (map fst l) -> Forall (fun x => 0 < fst x) l -> In (br, c) l ->
  selected_with_share (select_channel (decay_table l)) c (br / total_branching l).
Proof. exact c31_share. Qed.
Print Assumptions C31_share_partial.

(** Refuted: of two channels with the same ratio only the last is kept. *)
Theorem C31_equal_ratios_refuted : exists l c, In (1 / 2, c) l /\ Forall (fun x => 0 < fst x) l /\
  forall r, select_channel (decay_table l) r <> Ok c.
Proof. exact c31_equal_refuted. Qed.
Print Assumptions C31_equal_ratios_refuted.

(** A table without channels is not checked for. *)
Theorem C31_empty_refuted : forall r, select_channel (decay_table []) r = UB deref_end.
Proof. exact c31_empty. Qed.
Print Assumptions C31_empty_refuted.

Example C31_example : exists l, pd_decays TauMinusDef = decay_table l /\ l <> [] /\ NoDup (map fst l) /\
  Forall (fun x => 0 < fst x) l /\ length l = 10%nat.
Proof.
  eexists. split; [reflexivity|]. split; [discriminate|]. cbn [map fst]. split; [|split; [repeat constructor; cbn; lra|reflexivity]].
  repeat (apply NoDup_cons || apply NoDup_nil); cbn [In]; intuition lra.
Qed.

(** ** C35: the particle registry *)
Theorem C35_lookup : forall ops t, snd (registry_run None (ops ++ [Lookup t])) = snd (registry_run None ops) ++
  [match first_definition ops t with Some d => Ok d | None => Throw invalid_argument end].
Proof. exact c35_lookup. Qed.
Print Assumptions C35_lookup.

Theorem C35_new : forall ops d, first_definition ops (pd_type d) = None ->
  snd (registry_run None (ops ++ [Construct d])) = snd (registry_run None ops) ++ [Ok d].
Proof. exact c35_first. Qed.
Print Assumptions C35_new.

Theorem C35_same : forall ops d, first_definition ops (pd_type d) = Some d ->
  snd (registry_run None (ops ++ [Construct d])) = snd (registry_run None ops) ++ [Ok d].
Proof. exact c35_same. Qed.
Print Assumptions C35_same.

Theorem C35_kept : forall ops more t d, first_definition ops t = Some d -> first_definition (ops ++ more) t = Some d.
Proof. exact c35_kept. Qed.
Print Assumptions C35_kept.

(** Missing from the full property: definitions that differ in their decay
    channels only. *)
Theorem C35_different_partial : forall ops d d',
  first_definition ops (pd_type d) = Some d' -> plain_data d <> plain_data d' ->
  snd (registry_run None (ops ++ [Construct d])) = snd (registry_run None ops) ++ [Throw invalid_argument].
Proof. exact c35_other. Qed.
Print Assumptions C35_different_partial.

(** Refuted: a many-body channel with daughters of the same masses counts as the
    same, ... *)
Theorem C35_daughters_refuted : exists a b, pd_decays a <> pd_decays b /\ a <> b /\
  snd (registry_run None [Construct a; Construct b; Lookup (pd_type b)]) = [Ok a; Ok b; Ok a].
Proof. exact c35_daughters_refuted. Qed.
Print Assumptions C35_daughters_refuted.

(** ... and so do the exact and the approximate leptonic channel. *)
Theorem C35_leptonic_refuted : exact_muon <> MuMinusDef /\
  snd (registry_run None [Construct exact_muon; Lookup 13]) = [Ok exact_muon; Ok MuMinusDef].
Proof. exact c35_leptonic_refuted. Qed.
Print Assumptions C35_leptonic_refuted.

(** A built definition has a lower limit of the energy that is not below the
    mass; so do the predefined ones. *)
Theorem C35_builder : forall d, let b := build d in pd_mass b = pd_mass d /\ pd_low b = Rmax (pd_low d) (pd_mass d) /\
  (pd_mass d <= pd_low d -> b = d) /\ pd_type b = pd_type d /\ pd_charge b = pd_charge d /\ pd_lifetime b = pd_lifetime d /\ pd_decays b = pd_decays d.
Proof. exact c35_builder. Qed.
Print Assumptions C35_builder.
Theorem C35_standard_limits : Forall (fun d => pd_mass d <= pd_low d) standard_particles.
Proof. exact c35_standard_low. Qed.
Print Assumptions C35_standard_limits.

Example C35_example : first_definition [Construct heavy; Lookup 13] (pd_type heavy) = Some heavy /\
  first_definition [Construct heavy] 13 = Some MuMinusDef /\ first_definition [] (pd_type heavy) = None /\
  plain_data heavy <> plain_data GammaDef.
Proof. repeat split. intros H. apply (f_equal (fun x => snd (fst x))) in H. discriminate H. Qed.

(** ** C36: energy and momentum of a particle *)
Theorem C36_set_get : forall nan reg p d q, lookup reg (p_type p) = Some d -> 0 <= q ->
  exists p', set_momentum reg p q = Ok p' /\ p_type p' = p_type p /\
  position (p_state p') = position (p_state p) /\ direction (p_state p') = direction (p_state p) /\
  time (p_state p') = time (p_state p) /\ propagated_distance (p_state p') = propagated_distance (p_state p) /\
  energy (p_state p') * energy (p_state p') = q * q + pd_mass d * pd_mass d /\ 0 <= energy (p_state p') /\
  get_momentum nan reg p' = Ok q.
Proof. exact c36_set_get. Qed.
Print Assumptions C36_set_get.

Theorem C36_get : forall nan reg p d, lookup reg (p_type p) = Some d -> 0 <= pd_mass d <= energy (p_state p) ->
  exists q, get_momentum nan reg p = Ok q /\ 0 <= q /\
  energy (p_state p) * energy (p_state p) = q * q + pd_mass d * pd_mass d.
Proof. exact c36_get. Qed.
Print Assumptions C36_get.

Theorem C36_unknown_type : forall nan reg p q, lookup reg (p_type p) = None ->
  set_momentum reg p q = Throw invalid_argument /\ get_momentum nan reg p = Throw invalid_argument.
Proof. exact c36_unknown. Qed.
Print Assumptions C36_unknown_type.

Example C36_example : lookup standard_registry 13 = Some MuMinusDef /\
  0 <= pd_mass MuMinusDef <= energy (p_state (mkparticle 13 (flying MMU))).
Proof. split; [reflexivity|]. cbn. unfold MMU. lra. Qed.
