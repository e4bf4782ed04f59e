(** Concrete cases for C79 and C80. *)
From Coq Require Import String Lra.
From Verif Require Import Prelude PreludeFacts Vec_Model Propagator_Model Secondaries_Model Deflection_Model Deflection_Spec Particle_Model
  Cross_Model Config_Model Config_Spec Catalogue_Spec Catalogue_Model Catalogue_Proofs Factory_Model Factory_Spec Factory_Proofs.
Local Open Scope string_scope.
Local Open Scope list_scope.

(** A toy cross section: what it was constructed with, and the factor *)
Definition toy (s : selection unit) : outcome (selection unit * R) := Ok (s, 1%R).
Definition toy_scaled (k : R) (x : selection unit * R) : selection unit * R := (fst x, (k * snd x)%R).
Definition a_cut : energy_cut := mkcut (Fin 500) (5 / 100) true.
Example total_construct : forall sel u, toy sel <> UB u.
Proof. discriminate. Qed.
Definition brems_options : json :=
  JObject [("parametrization", JString "kelnerkokoulinpetrukhin"); ("lpm", JBool false); ("multiplier", JFloat 2)].
Example brems_example : exists y,
  make_cross toy toy_scaled Brems tt (Some a_cut) (Some true) (Some 1%R) brems_options = Ok y /\
  s_name (fst y) = "KelnerKokoulinPetrukhin" /\ s_lpm (fst y) = Some (false, 1%R) /\ snd y = 2%R.
Proof.
  unfold make_cross, make_lpm, brems_options. cbn. unfold build.
  change (look_up (known Brems) "kelnerkokoulinpetrukhin") with (Some "KelnerKokoulinPetrukhin"). cbn. destruct (Reqb_spec 2 1) as [E|_]; [lra|]. cbn.
  eexists. split; [reflexivity|]. cbn. repeat split. ring.
Qed.
Definition q2_options : json := JObject [("parametrization", JString "AbtFT"); ("shadow", JString "DuttaRenoSarcevicSeckel")].
Example q2_example : exists y,
  make_cross toy toy_scaled PhotoQ2 tt (Some a_cut) (Some true) None q2_options = Ok y /\
  s_name (fst y) = "AbtFT" /\ s_shadow (fst y) = Some "duttarenosarcevicseckel".
Proof.
  unfold make_cross, make_q2, q2_options. cbn. unfold build.
  change (look_up (known PhotoQ2) "AbtFT") with (Some "AbtFT"). change (look_up shadows "DuttaRenoSarcevicSeckel") with (Some "duttarenosarcevicseckel").
  cbn. destruct (Reqb_spec 1 1) as [_|E]; [|lra]. cbn.
  eexists. split; [reflexivity|]. cbn. repeat split.
Qed.
Example one_name : In "Heck" (available Photoproduction) /\ same_letters "hECK" "Heck" /\ ~ same_letters "Heck" "HeckC7Shadowing".
Proof. split; [cbn; tauto|]. split; [now apply same_lower|]. rewrite same_lower. discriminate. Qed.
Definition toy_builders : builders unit (selection unit * R) unit :=
  mkbuilders _ _ _ (fun _ => Ok tt) (fun _ => 1%R) (make_cross toy toy_scaled) (fun _ _ _ => Ok []) (fun _ => Ok tt) (fun _ => Throw logic_error).
Example list_builders : forall f m c t r o, make toy_builders f m c t r o = make_cross toy toy_scaled f m c t r o.
Proof. reflexivity. Qed.
Example photo_example : exists i y, In i interactions /\ i_name i = "photo" /\ made toy_builders tt a_cut true 1 (i, q2_options) y.
Proof.
  exists (mkinteraction "photo" PhotoReal (Some PhotoQ2) true true false).
  destruct q2_example as [y [H _]]. exists y. split; [cbn; tauto|]. split; [reflexivity|]. right. exists PhotoQ2.
  split; [reflexivity|]. split; [reflexivity|exact H].
Qed.
Example capital_lpm : agree cross_keywords (JObject [("parametrization", JString "Tsai"); ("LPM", JBool false)]) (JObject [("parametrization", JString "Tsai")]).
Proof. split; [reflexivity|]. intros k H. cbn in H. repeat (destruct H as [<-|H]; [reflexivity|]). contradiction. Qed.

(** docs/config_docu.md:198-207 *)
Definition documented_config : json :=
  JObject [("multiple_scattering", JString "HighlandIntegral");
           ("stochastic_deflection", JArray [JString "DefaultIoniz"; JString "DefaultBrems"; JString "DefaultEpair"; JString "DefaultPhotonuclear"])].
Example documented_scattering :
  scattering_read documented_config (Some KindHighlandIntegral) 1 [IonizNaive; BremsTsai; EpairGinneken; PhotoBorog] [].
Proof. apply parts_iff; [|reflexivity]. split; intros j H; cbn in H; [injection H as <-; eauto | discriminate]. Qed.
Example documented_shape : well_shaped documented_config.
Proof. split; intros j H; cbn in H; [injection H as <-; eauto | discriminate]. Qed.
(** Two calculators for bremsstrahlung, with a factor *)
Definition last_config : json :=
  JObject [("stochastic_deflection", JArray [JString "BremsTsaiApproximation"; JString "bremsGinneken"]);
           ("stochastic_deflection_multiplier", JObject [("brems", JFloat (1 / 2))])].
Example last_example : well_shaped last_config /\ scattering_read last_config None 1 [BremsTsai; BremsGinneken] [(Propagator_Model.Brems, (1 / 2)%R)] /\
  last_for [BremsTsai; BremsGinneken] Propagator_Model.Brems BremsGinneken /\
  factor_for [(Propagator_Model.Brems, (1 / 2)%R)] Propagator_Model.Brems (1 / 2) /\
  (forall d, In d [BremsTsai; BremsGinneken] -> type_of d <> Propagator_Model.Ioniz).
Proof.
  assert (W : well_shaped last_config) by (split; intros j H; cbn in H; injection H as <-; eauto).
  split; [exact W|]. split; [apply parts_iff; [exact W | reflexivity]|].
  split; [exists [BremsTsai], []; repeat split; intros ? []|]. split; [constructor|].
  intros d [<-|[<-|[]]]; discriminate.
Qed.
Example ignored_key : agree scattering_keywords (JObject [("multiple_scatering", JString "Moliere")]) (JObject []).
Proof. split; [reflexivity|]. intros k H. cbn in H. repeat (destruct H as [<-|H]; [reflexivity|]). contradiction. Qed.
Example default_brems : standard_deflector BremsTsai /\ exists n, In (type_of BremsTsai, n) type_names /\ same_letters "defaultbrems" ("Default" ++ n).
Proof. split; [left; reflexivity|]. exists "Brems". split; [cbn; tauto|]. now apply same_lower. Qed.
