(** Proofs about the maps of components and media. *)
From Coq Require Import String.
From Verif Require Import Prelude PreludeFacts Propagator_Model Particle_Model Limits_Model Cross_Model Photo_Model Products_Model
  Differential_Model Integral_Model Ionization_Model Nuclear_Model Medium_Model Keys_Model Registry_Model Registry_Spec.

(** ** Maps *)
Section Maps.
Context {A : Type} (hash_of : A -> Z).
Definition entries (m : map_of A) : list (Z * A) := match m with None => [] | Some l => l end.
Lemma enter_find h a m k : find k (entries (enter h a m)) = match find k (entries m) with Some b => Some b | None => if (h =? k)%Z then Some a else None end.
Proof.
  unfold enter. fold (entries m). destruct (find h (entries m)) as [b|] eqn:F; cbn [entries find].
  - destruct (find k (entries m)) eqn:G; [reflexivity|]. destruct (Z.eqb_spec h k); [congruence|reflexivity].
  - destruct (Z.eqb_spec h k) as [E|_]; [subst; rewrite F; reflexivity|]. destruct (find k (entries m)); reflexivity.
Qed.
Lemma fold_keeps : forall l m k b, find k (entries m) = Some b -> find k (entries (fold_left (fun m a => enter (hash_of a) a m) l m)) = Some b.
Proof. induction l as [|a l IH]; intros m k b H; [exact H|]. cbn. apply IH. rewrite enter_find, H. reflexivity. Qed.
Lemma enter_some h a (m : map_of A) : exists l, enter h a m = Some l.
Proof. unfold enter. destruct (find h _); eexists; reflexivity. Qed.
Lemma fold_some : forall l (m : map_of A), (exists x, m = Some x) -> exists x, fold_left (fun m a => enter (hash_of a) a m) l m = Some x.
Proof. induction l as [|a l IH]; intros m H; [exact H|]. cbn. apply IH. apply enter_some. Qed.
Lemma get_entries m h : (exists l, m = Some l) -> get_for_hash m h = match find h (entries m) with Some a => Ok a | None => Throw invalid_argument end.
Proof. intros (l & ->). reflexivity. Qed.
(** What is found was constructed and has the hash. *)
Lemma fold_found : forall l m k b, find k (entries (fold_left (fun m a => enter (hash_of a) a m) l m)) = Some b ->
  find k (entries m) = Some b \/ In b l /\ hash_of b = k.
Proof.
  induction l as [|a l IH]; intros m k b H; [left; exact H|]. cbn in H. destruct (IH _ _ _ H) as [F|(I & E)]; [|right; split; [right; exact I|exact E]].
  rewrite enter_find in F. destruct (find k (entries m)) eqn:G; [left; exact F|]. destruct (Z.eqb_spec (hash_of a) k) as [E|_]; [|discriminate].
  injection F as <-. right. split; [left; reflexivity|exact E].
Qed.
Lemma fold_finds : forall l m a, In a l -> exists b, find (hash_of a) (entries (fold_left (fun m a => enter (hash_of a) a m) l m)) = Some b.
Proof.
  induction l as [|x l IH]; intros m a I; [destruct I|]. destruct I as [->|I]; [|apply IH; exact I]. cbn.
  destruct (find (hash_of a) (entries (enter (hash_of a) a m))) as [b|] eqn:F; [exists b; apply fold_keeps; exact F|].
  rewrite enter_find, Z.eqb_refl in F. destruct (find _ _); discriminate.
Qed.
Lemma constructed_some a l : exists x, constructed hash_of (a :: l) = Some x.
Proof. unfold constructed. cbn [fold_left]. apply fold_some. apply enter_some. Qed.
Lemma c85_stable history more h a : get_for_hash (constructed hash_of history) h = Ok a ->
  get_for_hash (constructed hash_of (history ++ more)) h = Ok a.
Proof.
  destruct history as [|x l]; [discriminate|]. rewrite get_entries by apply constructed_some.
  change ((x :: l) ++ more) with (x :: l ++ more). rewrite get_entries by apply constructed_some.
  unfold constructed. rewrite (app_comm_cons l more x), fold_left_app. destruct (find h _) as [b|] eqn:F; [|discriminate]. intro H. injection H as <-.
  rewrite (fold_keeps more _ _ _ F). reflexivity.
Qed.
Lemma c85_found history a : In a history -> exists b, get_for_hash (constructed hash_of history) (hash_of a) = Ok b /\ In b history /\ hash_of b = hash_of a.
Proof.
  intro I. destruct history as [|x l]; [destruct I|]. rewrite get_entries by apply constructed_some.
  destruct (fold_finds (x :: l) None a I) as (b & F). exists b. unfold constructed. rewrite F. split; [reflexivity|].
  destruct (fold_found _ _ _ _ F) as [X|X]; [discriminate|exact X].
Qed.
Lemma c85_unknown history h : history <> [] -> (forall a, In a history -> hash_of a <> h) ->
  get_for_hash (constructed hash_of history) h = Throw invalid_argument.
Proof.
  intros N H. destruct history as [|x l]; [congruence|]. rewrite get_entries by apply constructed_some.
  unfold constructed. destruct (find h _) as [b|] eqn:F; [|reflexivity]. destruct (fold_found _ _ _ _ F) as [X|(I & E)]; [discriminate|destruct (H b I E)].
Qed.
End Maps.
Lemma c85_none A (hash_of : A -> Z) h : get_for_hash (constructed hash_of []) h = UB null_deref.
Proof. reflexivity. Qed.

Lemma Forall2_length A B (P : A -> B -> Prop) l1 l2 : Forall2 P l1 l2 -> List.length l1 = List.length l2.
Proof. induction 1; cbn; congruence. Qed.
Arguments Forall2_length {A B P l1 l2}.
(** ** Components *)
Lemma key_numbers a b : component_key a = component_key b <-> c_charge a = c_charge b /\ c_atomic a = c_atomic b /\ c_atoms a = c_atoms b.
Proof.
  split.
  - unfold component_key. intro H. injection H. intros. auto.
  - destruct a as [ha za aa na], b as [hb zb ab nb]. cbn [c_charge c_atomic c_atoms]. intros (-> & -> & ->). reflexivity.
Qed.
Lemma reqb_refl x : (x =? x) = true.
Proof. unfold Reqb. destruct (Req_EM_T x x); congruence. Qed.
Lemma reqb_eq x y : (x =? y) = true -> x = y.
Proof. unfold Reqb. destruct (Req_EM_T x y); congruence. Qed.

Section Hashes.
Variables (of_double : ext -> Z) (of_text : string -> Z).
Notation digest := (hash of_double of_text).
Notation hash_of_component := (hash_of_component of_double of_text).
Notation hash_of_medium := (hash_of_medium of_double of_text).
Notation component_equal := (component_equal of_double of_text).
Notation medium_equal := (medium_equal of_double of_text).
Notation components_equal := (components_equal of_double of_text).

Lemma hash_component c : hash_of_component c = digest (component_key (nc_component c)).
Proof. reflexivity. Qed.
Lemma hash_medium m : hash_of_medium m = digest (medium_key (nm_data m)).
Proof. reflexivity. Qed.
Lemma same_key a b : same_numbers a b -> component_key (nc_component a) = component_key (nc_component b).
Proof. intro H. apply key_numbers. exact H. Qed.
Lemma c85_equal_component a b : component_equal a b = true <-> nc_name a = nc_name b /\ same_numbers a b.
Proof.
  split.
  - unfold Registry_Model.component_equal. intro H.
    destruct (String.eqb_spec (nc_name a) (nc_name b)) as [E|]; [|discriminate]. cbn [negb] in H.
    destruct (c_charge (nc_component a) =? c_charge (nc_component b)) eqn:E1; [|discriminate]. cbn [negb] in H.
    destruct (c_atomic (nc_component a) =? c_atomic (nc_component b)) eqn:E2; [|discriminate]. cbn [negb] in H.
    destruct (c_atoms (nc_component a) =? c_atoms (nc_component b)) eqn:E3; [|discriminate].
    repeat split; auto using reqb_eq.
  - intros (N & S). pose proof (same_key a b S) as K. unfold component_key in K. injection K as K1 K2 K3 K4 K5 K6 K7.
    unfold Registry_Model.component_equal. rewrite N, K1, K2, K3, K4, K5, K6, K7, String.eqb_refl, !reqb_refl. rewrite !hash_component,
    (same_key a b S), Z.eqb_refl. reflexivity.
Qed.
Lemma c85_equal_hash a b : component_equal a b = true -> hash_of_component a = hash_of_component b.
Proof. intro H. apply c85_equal_component in H. rewrite !hash_component, (same_key a b (proj2 H)). reflexivity. Qed.

Lemma c85_component history c : In c history -> no_collision of_double of_text (map (fun c => component_key (nc_component c)) history) ->
  exists d, get_for_hash (constructed hash_of_component history) (hash_of_component c) = Ok d /\ In d history /\ same_numbers c d.
Proof.
  intros I N. destruct (c85_found hash_of_component history c I) as (d & G & J & E). exists d. split; [exact G|]. split; [exact J|].
  rewrite !hash_component in E. apply key_numbers. apply N.
  - apply in_map_iff. exists c. auto.
  - apply in_map_iff. exists d. auto.
  - symmetry. exact E.
Qed.
Lemma c85_component_named history c : In c history -> no_collision of_double of_text (map (fun c => component_key (nc_component c)) history) ->
  (forall d, In d history -> same_numbers c d -> nc_name c = nc_name d) ->
  exists d, get_for_hash (constructed hash_of_component history) (hash_of_component c) = Ok d /\ component_equal c d = true.
Proof.
  intros I N U. destruct (c85_component history c I N) as (d & G & J & S). exists d. split; [exact G|]. apply c85_equal_component. auto.
Qed.
Lemma c85_component_refuted : exists history c d, In c history /\
  get_for_hash (constructed hash_of_component history) (hash_of_component c) = Ok d /\ component_equal c d = false /\ nc_name c <> nc_name d.
Proof.
  exists [hydrogen_named "H"; hydrogen_named "Protium"], (hydrogen_named "Protium"), (hydrogen_named "H").
  split; [right; left; reflexivity|]. split.
  - unfold constructed. cbn [fold_left]. assert (E : hash_of_component (hydrogen_named "Protium") = hash_of_component (hydrogen_named "H")) by (rewrite !hash_component; reflexivity).
    rewrite E. generalize (hash_of_component (hydrogen_named "H")). intro z. unfold enter, get_for_hash. cbn [find]. rewrite Z.eqb_refl. cbn [find]. rewrite Z.eqb_refl. reflexivity.
  - split; [|discriminate]. unfold Registry_Model.component_equal. reflexivity.
Qed.

(** ** Media *)
Lemma keys_forall : forall l1 l2, map component_key l1 = map component_key l2 <->
  Forall2 (fun a b => c_charge a = c_charge b /\ c_atomic a = c_atomic b /\ c_atoms a = c_atoms b) l1 l2.
Proof.
  induction l1 as [|x l1 IH]; intros [|y l2]; cbn [map]; split; intro H; try discriminate; try (inversion H; fail); try constructor.
  - apply key_numbers. exact (f_equal (fun l => match l with v :: _ => v | [] => Flag true end) H).
  - apply IH. exact (f_equal (@tl value) H).
  - inversion H as [|? ? ? ? H1 H2]; subst. f_equal; [apply key_numbers; exact H1|apply IH; exact H2].
Qed.
Lemma medium_key_numbers m n : medium_key (nm_data m) = medium_key (nm_data n) -> same_medium m n.
Proof.
  destruct m as [a1 l1 [p1 d1 s1]], n as [a2 l2 [p2 d2 s2]]. unfold medium_key, same_medium. cbn [nm_data md_material md_density md_summary].
  destruct p1 as [c1 i1 cc1 aa1 mm1 x1 y1 z1], p2 as [c2 i2 cc2 aa2 mm2 x2 y2 z2], s1 as [q1 q2 q3 q4 q5 q6], s2 as [r1 r2 r3 r4 r5 r6].
  cbn [mat_components mat_I mat_C mat_a mat_m mat_X0 mat_X1 mat_d0 su_charge su_nucleons su_ZA su_mol_density su_MM su_length].
  set (K1 := map component_key c1). set (K2 := map component_key c2). cbn [app].
  intro H. injection H as _ -> -> -> -> -> -> -> -> -> -> -> -> -> -> HC. split; [reflexivity|]. split; [reflexivity|]. split; [reflexivity|].
  apply keys_forall. exact HC.
Qed.
Lemma same_medium_key m n : same_medium m n -> medium_key (nm_data m) = medium_key (nm_data n).
Proof.
  intros (M & D & S & C). pose proof (Forall2_length C) as L. apply keys_forall in C. unfold medium_key. cbv zeta. rewrite L, S, D.
  injection M as -> -> -> -> -> -> ->. rewrite C. reflexivity.
Qed.
Lemma c85_medium history m : In m history -> no_collision of_double of_text (map (fun m => medium_key (nm_data m)) history) ->
  exists n, get_for_hash (constructed hash_of_medium history) (hash_of_medium m) = Ok n /\ In n history /\ same_medium m n.
Proof.
  intros I N. destruct (c85_found hash_of_medium history m I) as (n & G & J & E). exists n. split; [exact G|]. split; [exact J|].
  rewrite !hash_medium in E. apply medium_key_numbers. apply N.
  - apply in_map_iff. exists m. auto.
  - apply in_map_iff. exists n. auto.
  - symmetry. exact E.
Qed.
Lemma components_equal_ok : forall a b r, List.length a = List.length b -> exists r', components_equal r a b = Ok r' /\
  (r' = true <-> r = true /\ Forall2 (fun x y => component_equal x y = true) a b).
Proof.
  induction a as [|x a IH]; intros [|y b] r L; cbn [List.length] in L; try discriminate; cbn [Registry_Model.components_equal].
  - exists r. split; [reflexivity|]. split; [intro; split; [assumption|constructor]|tauto].
  - injection L as L. destruct (IH b (if negb (component_equal x y) then false else r) L) as (r' & -> & Q). exists r'. split; [reflexivity|].
    rewrite Q. destruct (component_equal x y) eqn:E; cbn [negb].
    + split; intros (R1 & F); (split; [exact R1|]); [constructor; assumption|inversion F; assumption].
    + split; [intros (X & _); discriminate|]. intros (_ & F). inversion F. congruence.
Qed.
Lemma parts_length m : named_parts m -> List.length (nm_components m) = List.length (md_components (nm_data m)).
Proof. unfold named_parts, nm_components. intro H. rewrite map_length, combine_length, H. apply Nat.min_id. Qed.
Lemma parts_equal : forall n1 n2 l1 l2, List.length n1 = List.length l1 -> List.length n2 = List.length l2 ->
  Forall2 (fun x y => component_equal x y = true) (map (fun p => mknamed (fst p) (snd p)) (combine n1 l1)) (map (fun p => mknamed (fst p) (snd p)) (combine n2 l2)) <->
  n1 = n2 /\ Forall2 (fun a b => c_charge a = c_charge b /\ c_atomic a = c_atomic b /\ c_atoms a = c_atoms b) l1 l2.
Proof.
  induction n1 as [|a n1 IH]; intros [|b n2] [|x l1] [|y l2] L1 L2; cbn [List.length combine map] in *; try discriminate.
  - split; intro; [split; constructor|constructor].
  - split; [intro H; inversion H|intros (H & _); discriminate].
  - split; [intro H; inversion H|intros (H & _); discriminate].
  - injection L1 as L1. injection L2 as L2. specialize (IH n2 l1 l2 L1 L2). split.
    + intro H. inversion H as [|? ? ? ? H1 H2]; subst. apply IH in H2. destruct H2 as (-> & H2). apply c85_equal_component in H1. cbn in H1.
      destruct H1 as (-> & H1). split; [reflexivity|]. constructor; assumption.
    + intros (E & F). injection E as -> ->. inversion F as [|? ? ? ? F1 F2]; subst. constructor; [|apply IH; auto].
      apply c85_equal_component. split; [reflexivity|exact F1].
Qed.
Lemma c85_equal_medium m n : named_parts m -> named_parts n -> exists r, medium_equal m n = Ok r /\
  (r = true <-> nm_name m = nm_name n /\ nm_names m = nm_names n /\ same_medium m n).
Proof.
  intros Pm Pn. unfold Registry_Model.medium_equal. cbv zeta.
  destruct (String.eqb_spec (nm_name m) (nm_name n)) as [E|E]; cbn [negb].
  2:{ eexists. split; [reflexivity|]. split; [discriminate|tauto]. }
  destruct (Nat.eqb_spec (List.length (md_components (nm_data m))) (List.length (md_components (nm_data n)))) as [L|L]; cbn [negb].
  2:{ eexists. split; [reflexivity|]. split; [discriminate|]. intros (_ & _ & _ & _ & _ & F). destruct (L (Forall2_length F)). }
  repeat match goal with |- context [negb (?x =? ?y)] => destruct (x =? y) eqn:?; cbn [negb];
    [|eexists; split; [reflexivity|]; split; [discriminate|]; intros (_ & _ & HM & HD & HS & _); exfalso;
      assert (NE : x <> y) by (let q := fresh in intro q; rewrite q, reqb_refl in *; discriminate);
      apply NE; first [exact HD | rewrite HS; reflexivity | congruence]] end.
  destruct (components_equal_ok (nm_components m) (nm_components n) true) as (r & -> & Q).
  { rewrite !parts_length by assumption. exact L. }
  exists r. split; [reflexivity|]. rewrite Q. unfold nm_components. rewrite parts_equal by assumption.
  split.
  - intros (_ & N & F). split; [exact E|]. split; [exact N|]. repeat match goal with H : (_ =? _) = true |- _ => apply reqb_eq in H end.
    unfold same_medium. cbv zeta. split; [congruence|]. split; [assumption|]. split; [|exact F].
    destruct (md_summary (nm_data m)), (md_summary (nm_data n)). cbn in *. congruence.
  - intros (_ & N & _ & _ & _ & F). auto.
Qed.
Lemma c85_equal_medium_hash m n : named_parts m -> named_parts n -> medium_equal m n = Ok true -> hash_of_medium m = hash_of_medium n.
Proof.
  intros Pm Pn H. destruct (c85_equal_medium m n Pm Pn) as (r & E & Q). rewrite H in E. injection E as <-. destruct (proj1 Q eq_refl) as (_ & _ & S).
  rewrite !hash_medium, (same_medium_key m n S). reflexivity.
Qed.
Lemma c85_medium_refuted names data : let m := fun s => mknamed_medium s names data in
  get_for_hash (constructed hash_of_medium [m "water"%string; m "tap water"%string]) (hash_of_medium (m "tap water"%string)) = Ok (m "water"%string) /\
  medium_equal (m "tap water"%string) (m "water"%string) = Ok false.
Proof.
  intro m. split; [|reflexivity]. unfold constructed. cbn [fold_left].
  assert (E : hash_of_medium (m "tap water"%string) = hash_of_medium (m "water"%string)) by (rewrite !hash_medium; reflexivity).
  rewrite E. generalize (hash_of_medium (m "water"%string)). intro z. unfold enter, get_for_hash. cbn [find]. rewrite Z.eqb_refl. cbn [find]. rewrite Z.eqb_refl. reflexivity.
Qed.
Lemma c85_medium_named history m : In m history -> no_collision of_double of_text (map (fun m => medium_key (nm_data m)) history) ->
  Forall named_parts history -> (forall n, In n history -> same_medium m n -> nm_name m = nm_name n /\ nm_names m = nm_names n) ->
  exists n, get_for_hash (constructed hash_of_medium history) (hash_of_medium m) = Ok n /\ medium_equal m n = Ok true.
Proof.
  intros I N P U. rewrite Forall_forall in P. destruct (c85_medium history m I N) as (n & G & J & S). exists n. split; [exact G|].
  destruct (c85_equal_medium m n (P m I) (P n J)) as (r & -> & Q). f_equal. apply Q. destruct (U n J S). auto.
Qed.
End Hashes.

(** ** Predefined components *)
Lemma predefined_unique a b : is_predefined a -> is_predefined b -> same_numbers a b -> nc_name a = nc_name b.
Proof.
  intros P Q (E1 & E2 & _). unfold is_predefined in *. cbn [In predefined] in P, Q.
  repeat match goal with H : _ \/ _ |- _ => destruct H as [H|H] end; try contradiction; injection P as P1 P2 P3; injection Q as Q1 Q2 Q3;
  first [congruence | exfalso; lra].
Qed.
Lemma c85_predefined of_double of_text history c : Forall is_predefined history -> In c history ->
  no_collision of_double of_text (map (fun c => component_key (nc_component c)) history) ->
  exists d, get_for_hash (constructed (hash_of_component of_double of_text) history) (hash_of_component of_double of_text c) = Ok d /\
    component_equal of_double of_text c d = true.
Proof.
  intros P I N. rewrite Forall_forall in P. apply c85_component_named; auto. intros d J S. apply predefined_unique; auto.
Qed.
