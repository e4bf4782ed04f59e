(** Property C85: components and media are found under their hashes. *)
From Coq Require Import String.
From Verif Require Import Prelude Propagator_Model Particle_Model Limits_Model Cross_Model Ionization_Model Medium_Model Keys_Model
  Registry_Model Registry_Spec Registry_Proofs Registry_Examples.

(** The component that is found under the hash of a constructed one has the same
    charge, mass number and number of atoms ... *)
Theorem C85_component_partial : forall of_double of_text history c, In c history ->
  no_collision of_double of_text (map (fun c => component_key (nc_component c)) history) ->
  exists d, get_for_hash (constructed (hash_of_component of_double of_text) history) (hash_of_component of_double of_text c) = Ok d /\
    In d history /\ same_numbers c d.
Proof. exact c85_component. Qed.
Print Assumptions C85_component_partial.
(** ... but it may have another name and compare as different. *)
Theorem C85_component_refuted : forall of_double of_text, exists history c d, In c history /\
  get_for_hash (constructed (hash_of_component of_double of_text) history) (hash_of_component of_double of_text c) = Ok d /\
  component_equal of_double of_text c d = false /\ nc_name c <> nc_name d.
Proof. exact c85_component_refuted. Qed.
Print Assumptions C85_component_refuted.
(** The predefined components are always found again. *)
Theorem C85_predefined : forall of_double of_text history c, Forall is_predefined history -> In c history ->
  no_collision of_double of_text (map (fun c => component_key (nc_component c)) history) ->
  exists d, get_for_hash (constructed (hash_of_component of_double of_text) history) (hash_of_component of_double of_text c) = Ok d /\
    component_equal of_double of_text c d = true.
Proof. exact c85_predefined. Qed.
Print Assumptions C85_predefined.
Theorem C85_component_named : forall of_double of_text history c, In c history ->
  no_collision of_double of_text (map (fun c => component_key (nc_component c)) history) ->
  (forall d, In d history -> same_numbers c d -> nc_name c = nc_name d) ->
  exists d, get_for_hash (constructed (hash_of_component of_double of_text) history) (hash_of_component of_double of_text c) = Ok d /\
    component_equal of_double of_text c d = true.
Proof. exact c85_component_named. Qed.
Print Assumptions C85_component_named.

(** The same for media. *)
Theorem C85_medium_partial : forall of_double of_text history m, In m history ->
  no_collision of_double of_text (map (fun m => medium_key (nm_data m)) history) ->
  exists n, get_for_hash (constructed (hash_of_medium of_double of_text) history) (hash_of_medium of_double of_text m) = Ok n /\
    In n history /\ same_medium m n.
Proof. exact c85_medium. Qed.
Print Assumptions C85_medium_partial.
Theorem C85_medium_refuted : forall of_double of_text names data, let m := fun s => mknamed_medium s names data in
  get_for_hash (constructed (hash_of_medium of_double of_text) [m "water"%string; m "tap water"%string])
    (hash_of_medium of_double of_text (m "tap water"%string)) = Ok (m "water"%string) /\
  medium_equal of_double of_text (m "tap water"%string) (m "water"%string) = Ok false.
Proof. exact c85_medium_refuted. Qed.
Print Assumptions C85_medium_refuted.
Theorem C85_medium_named : forall of_double of_text history m, In m history ->
  no_collision of_double of_text (map (fun m => medium_key (nm_data m)) history) -> Forall named_parts history ->
  (forall n, In n history -> same_medium m n -> nm_name m = nm_name n /\ nm_names m = nm_names n) ->
  exists n, get_for_hash (constructed (hash_of_medium of_double of_text) history) (hash_of_medium of_double of_text m) = Ok n /\
    medium_equal of_double of_text m n = Ok true.
Proof. exact c85_medium_named. Qed.
Print Assumptions C85_medium_named.

(** What is found does not change when more is constructed, whatever the hashes are;
    unknown hashes are refused, but a lookup before the first construction is
    undefined. *)
Theorem C85_stable : forall A (hash_of : A -> Z) history more h a, get_for_hash (constructed hash_of history) h = Ok a ->
  get_for_hash (constructed hash_of (history ++ more)) h = Ok a.
Proof. exact @c85_stable. Qed.
Print Assumptions C85_stable.
Theorem C85_unknown : forall A (hash_of : A -> Z) history h, history <> [] -> (forall a, In a history -> hash_of a <> h) ->
  get_for_hash (constructed hash_of history) h = Throw invalid_argument.
Proof. exact @c85_unknown. Qed.
Print Assumptions C85_unknown.
Theorem C85_none_refuted : forall A (hash_of : A -> Z) h, get_for_hash (constructed hash_of []) h = UB null_deref.
Proof. exact c85_none. Qed.
Print Assumptions C85_none_refuted.

(** Comparison: the same name and the same numbers; equal objects have equal hashes. *)
Theorem C85_equal_component : forall of_double of_text a b,
  component_equal of_double of_text a b = true <-> nc_name a = nc_name b /\ same_numbers a b.
Proof. exact c85_equal_component. Qed.
Print Assumptions C85_equal_component.
Theorem C85_equal_component_hash : forall of_double of_text a b, component_equal of_double of_text a b = true ->
  hash_of_component of_double of_text a = hash_of_component of_double of_text b.
Proof. exact c85_equal_hash. Qed.
Print Assumptions C85_equal_component_hash.
Theorem C85_equal_medium : forall of_double of_text m n, named_parts m -> named_parts n -> exists r, medium_equal of_double of_text m n = Ok r /\
  (r = true <-> nm_name m = nm_name n /\ nm_names m = nm_names n /\ same_medium m n).
Proof. exact c85_equal_medium. Qed.
Print Assumptions C85_equal_medium.
Theorem C85_equal_medium_hash : forall of_double of_text m n, named_parts m -> named_parts n ->
  medium_equal of_double of_text m n = Ok true -> hash_of_medium of_double of_text m = hash_of_medium of_double of_text n.
Proof. exact c85_equal_medium_hash. Qed.
Print Assumptions C85_equal_medium_hash.

(** Hydrogen and oxygen, with a hash that tells them apart. *)
Example C85_example : Forall is_predefined [hydrogen_named "H"; named_oxygen] /\
  no_collision eight no_text (map (fun c => component_key (nc_component c)) [hydrogen_named "H"; named_oxygen]).
Proof. split; [exact example_predefined|exact example_no_collision]. Qed.
Example C85_example_medium : forall mat d s, let m := mknamed_medium "water" ["H"%string; "O"%string] (mkdata mat d s) in
  mat_components mat = [nc_component (hydrogen_named "H"); nc_component named_oxygen] ->
  Forall named_parts [m] /\ no_collision eight no_text (map (fun m => medium_key (nm_data m)) [m]).
Proof.
  intros mat d s m H. split.
  - constructor; [|constructor]. unfold named_parts, m. cbn [nm_data nm_names md_material]. rewrite H. reflexivity.
  - intros v w [<-|[]] [<-|[]] _. reflexivity.
Qed.
