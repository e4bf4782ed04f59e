(** Concrete cases for the theorems about configurations. *)
From Coq Require Import String.
From Verif Require Import Prelude PreludeFacts Vec_Model Geometry_Model Propagator_Model Spline_Model DensityObj_Model Cross_Model
  Config_Model Config_Spec Config_Proofs.
Local Open Scope string_scope.
Local Open Scope list_scope.

(** A medium is its density, a cross section its factory with the density correction, and
    the utility what it is assembled from; no parametrization of real photons is known. *)
Definition traced : builders R (factory * option R) (parts R (factory * option R)) :=
  mkbuilders R (factory * option R) (parts R (factory * option R))
    (fun n => if String.eqb n "ice" then Ok 1 else if String.eqb n "air" then Ok 2 else Throw invalid_argument) (fun m => m)
    (fun f _ _ _ k _ => match f with PhotoReal => Throw invalid_argument | _ => Ok (f, k) end)
    (fun _ _ _ => Ok [(Ioniz, None)]) (fun p => Ok p) (fun _ => Throw math_exception).
(** The example of docs/config_docu.md, with an atmosphere. *)
Definition thin_air : json :=
  JObject [("type", JString "exponential"); ("mass_density", JInt 6); ("sigma", JFloat (-1040000)); ("axis_type", JString "radial");
           ("fp0", origin)].
Definition earth : json :=
  JObject
    [("global", JObject [("cuts", some_cuts); ("exact_time", JBool false)]);
     ("sectors",
      JArray
        [JObject [("medium", JString "ice"); ("geometries", JArray [ball []; ball []])];
         JObject [("medium", JString "air"); ("geometries", JArray [ball []]); ("do_interpolation", JBool false);
                  ("density_distribution", thin_air); ("exact_time", JBool true);
                  ("CrossSections", JObject [("photo", JObject []); ("brems", JObject []); ("photoeffect", JObject [])])]])].
Definition the_ball : body := mkbody "sphere" 0 (mkvec 0 0 0) (Sphere (10 ^ 20) 0).
Definition in_ice : parts R (factory * option R) := mkparts [(Ioniz, None)] 1 true None true true false.
Definition in_air : parts R (factory * option R) :=
  mkparts [(Brems, Some (6 / 2)); (PhotoQ2, None); (Photoeffect, None)] 2 false None true true true.
Example earth_arrays : arrays earth.
Proof.
  intros j [= <-]. eexists. split; [reflexivity|]. intros s x [<- | [<- | []]] [= <-]; eexists; reflexivity.
Qed.
(** The sectors of an object without brackets are its members *)
Example earth_without : with_or_without (JObject [("ice", an_ice_ball [ball []]); ("more ice", an_ice_ball [])]) [an_ice_ball [ball []]; an_ice_ball []].
Proof. reflexivity. Qed.
Example earth_ok : propagator_of_json traced true earth =
  Ok [(the_ball, in_ice, mkdobj default_axis 1 Homogeneous); (the_ball, in_ice, mkdobj default_axis 1 Homogeneous);
      (the_ball, in_air, mkdobj (Radial (mkvec 0 0 0)) 6 (Exponential (-1040000) 0))].
Proof.
  unfold propagator_of_json, settings_of_json. cbn -[ball pow cut_of_json initialize_sector].
  rewrite some_cuts_ok. cbn -[ball pow]. rewrite ball_ok. cbn -[ball pow].
  unfold cross_section_list, append. cbn -[ball pow].
  destruct (Reqb_spec 2 0); [lra | reflexivity].
Qed.
Example earth_nan : forall A (a : A), not_a_number traced A <> Ok a.
Proof. discriminate. Qed.
(** A misspelt keyword *)
Example misspelt : agree sector_keywords
  (JObject [("medium", JString "ice"); ("do_interpolaton", JBool false)]) (JObject [("medium", JString "ice")]).
Proof. split; [reflexivity|]. intros k H. cbn in H. repeat (destruct H as [<- | H]; [reflexivity|]). contradiction. Qed.
(** Without a medium *)
Example no_medium : setting (JObject [("geometries", JArray [ball []])]) (find earth "global") "medium" = None.
Proof. reflexivity. Qed.
Example cuts_example : described_cut some_cuts (mkcut PInf (5 / 100) true).
Proof. apply cuts_iff, some_cuts_ok. Qed.
(** The cut of the example in the documentation, given as a string *)
Example cuts_string : cut_of_json (JObject [("e_cut", JString "500"); ("v_cut", JInt 1); ("cont_rand", JBool false)]) = Throw invalid_argument.
Proof. reflexivity. Qed.
Example geometry_example : described_body (in_ball 637813700) (mkvec 0 0 0) (IZR 0) (Sphere (10 ^ 20) 637813700)
  /\ sound (Sphere (10 ^ 20) 637813700) /\ whole_inner (Sphere (10 ^ 20) 637813700).
Proof.
  split; [apply in_ball_described|]. split; [cbn [sound]; rewrite ten_20; lra|]. exists 637813700%Z. split; [reflexivity | lia].
Qed.
Example unsound_ball : described_body (in_ball (-1)) (mkvec 0 0 0) (IZR 0) (Sphere (10 ^ 20) (-1))
  /\ ~ sound (Sphere (10 ^ 20) (-1)) /\ whole_inner (Sphere (10 ^ 20) (-1)).
Proof.
  split; [apply in_ball_described|]. split; [cbn [sound]; lra|]. exists (-1)%Z. split; [reflexivity | lia].
Qed.
Example distribution_example : forall nan, described_distribution nan thin_air (mkdobj (Radial (mkvec 0 0 0)) 6 (Exponential (-1040000) 0)).
Proof.
  intro nan. split; [eexists; split; [reflexivity | right; exists 6%Z; auto]|]. split.
  - split; [reflexivity|]. split; [left; reflexivity | reflexivity].
  - split; [reflexivity|]. eexists. split; [reflexivity|]. eexists. split; [reflexivity|].
    do 3 (apply Forall2_cons; [right; exists 0%Z; split; reflexivity|]). constructor.
Qed.
