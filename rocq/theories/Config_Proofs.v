(** Proofs about configurations. *)
From Coq Require Import String.
From Verif Require Import Prelude Vec_Model Geometry_Model Shapes_Model Propagator_Model Function_Model Spline_Model
  Density_Model DensityObj_Model Limits_Model Cross_Model Config_Model Config_Spec PreludeFacts.
Local Open Scope string_scope.
Local Open Scope list_scope.

(** ** Outcomes and values *)
Lemma ok_bind : forall A B (x : outcome A) (f : A -> outcome B) y,
  obind x f = Ok y <-> exists a, x = Ok a /\ f a = Ok y.
Proof.
  intros. split.
  - destruct x as [a|e|u]; cbn; [|discriminate..]. eauto.
  - intros [a [-> H]]. exact H.
Qed.
Lemma bind_ext : forall A B (x y : outcome A) (f g : A -> outcome B),
  x = y -> (forall a, f a = g a) -> obind x f = obind y g.
Proof. intros A B x y f g -> H. destruct y; cbn; auto. Qed.
Lemma bind_ok : forall A (x : outcome A), obind x Ok = x.
Proof. destruct x; reflexivity. Qed.

Lemma contains_find : forall j k, contains j k = match find j k with Some _ => true | None => false end.
Proof. reflexivity. Qed.
Lemma item_find : forall j k v, find j k = Some v -> item j k = Ok v.
Proof. intros j k v H. destruct j; cbn in *; try discriminate. now rewrite H. Qed.
Lemma at_find : forall j k v, find j k = Some v -> at_key j k = Ok v.
Proof. intros j k v H. unfold at_key. now rewrite H. Qed.
Lemma found_object : forall j k v, find j k = Some v -> is_object j = true.
Proof. destruct j; cbn; discriminate || reflexivity. Qed.
Lemma double_iff : forall j x, get_double j = Ok x <-> number j x.
Proof.
  intros j x. unfold number. split.
  - destruct j; cbn; try discriminate; intros [= <-]; eauto.
  - intros [-> | [z [-> ->]]]; reflexivity.
Qed.
Lemma bool_iff : forall j x, get_bool j = Ok x <-> j = JBool x.
Proof. intros j x. split; [|now intros ->]. destruct j; cbn; congruence. Qed.
Lemma string_iff : forall j x, get_string j = Ok x <-> j = JString x.
Proof. intros j x. split; [|now intros ->]. destruct j; cbn; congruence. Qed.
Lemma number_is : forall j x, number j x -> is_number j = true.
Proof. intros j x [-> | [z [-> ->]]]; reflexivity. Qed.
Lemma all_iff : forall js l, get_all js = Ok l <-> Forall2 number js l.
Proof.
  induction js as [|j js IH]; intro l; cbn.
  - split; [intros [= <-]; constructor | intro H; now inversion H].
  - rewrite ok_bind. split.
    + intros [x [Hx H]]. apply ok_bind in H as [xs [Hs [= <-]]]. constructor; [now apply double_iff | now apply IH].
    + intro H. inversion H as [|? x ? xs Hx Hs]; subst. exists x. split; [now apply double_iff|].
      rewrite ok_bind. exists xs. split; [now apply IH | reflexivity].
Qed.
Lemma doubles_iff : forall j l, get_doubles j = Ok l <-> numbers j l.
Proof.
  intros j l. unfold numbers. split.
  - destruct j; cbn; try discriminate. intro H. eexists. split; [reflexivity|]. now apply all_iff.
  - intros [js [-> H]]. now apply all_iff.
Qed.
Lemma vector_iff : forall j v, vector_of_json j = Ok v <-> vector j v.
Proof.
  intros j v. unfold vector, numbers. split.
  - destruct j as [| | | | |l|]; cbn; try discriminate.
    destruct l as [|a [|c [|d [|]]]]; try discriminate.
    destruct (is_number a && is_number c && is_number d); [|discriminate].
    rewrite ok_bind. intros [x [Hx H]]. rewrite ok_bind in H. destruct H as [y [Hy H]]. rewrite ok_bind in H.
    destruct H as [z [Hz [= <-]]]. cbn. eexists. split; [reflexivity|].
    do 3 (apply Forall2_cons; [now apply double_iff|]). apply Forall2_nil.
  - intros [js [-> H]]. inversion H as [|a ? l ? Ha H1]; subst. inversion H1 as [|c ? l1 ? Hc H2]; subst.
    inversion H2 as [|d ? l2 ? Hd H3]; subst. inversion H3; subst. cbn.
    rewrite (number_is _ _ Ha), (number_is _ _ Hc), (number_is _ _ Hd). cbn.
    apply double_iff in Ha, Hc, Hd. rewrite Ha, Hc, Hd. cbn. now destruct v.
Qed.
Lemma value_iff : forall A (get : json -> outcome A) (P : json -> A -> Prop) j k d a,
  (forall v x, get v = Ok x <-> P v x) ->
  value get j k d = Ok a <-> is_object j = true /\ optional P (find j k) d a.
Proof.
  intros A get P j k d a H. unfold value, optional. destruct (is_object j).
  - destruct (find j k) as [v|].
    + rewrite H. tauto.
    + split; [intros [= <-]; auto | intros [_ ->]; reflexivity].
  - split; [discriminate | intros [E _]; discriminate].
Qed.

(** ** Energy cuts *)
Lemma new_cut_iff : forall e v r c, new_energy_cut e v r = Ok c <->
  c = mkcut e v r /\ match e with Fin x => 0 < x | PInf => True end /\ 0 < v <= 1.
Proof.
  intros e v r c. unfold new_energy_cut. split.
  - destruct e as [x|].
    + destruct (Rleb_spec x 0); [discriminate|]. destruct (Rleb_spec v 0); cbn; [discriminate|].
      destruct (Rltb_spec 1 v); cbn; [discriminate|]. intros [= <-]. repeat split; lra.
    + destruct (Rleb_spec v 0); cbn; [discriminate|].
      destruct (Rltb_spec 1 v); cbn; [discriminate|]. intros [= <-]. repeat split; lra.
  - intros [-> [He Hv]]. destruct e as [x|].
    + destruct (Rleb_spec x 0); [lra|]. destruct (Rleb_spec v 0); [lra|]. destruct (Rltb_spec 1 v); [lra|]. reflexivity.
    + destruct (Rleb_spec v 0); [lra|]. destruct (Rltb_spec 1 v); [lra|]. reflexivity.
Qed.
Lemma cuts_iff : forall j c, cut_of_json j = Ok c <-> described_cut j c.
Proof.
  intros j c. unfold cut_of_json, described_cut. rewrite !contains_find. split.
  - destruct (find j "e_cut") as [e|] eqn:Fe; cbn; [|discriminate].
    destruct (find j "v_cut") as [v|] eqn:Fv; cbn; [|discriminate].
    destruct (find j "cont_rand") as [r|] eqn:Fr; cbn; [|discriminate].
    rewrite (item_find _ _ _ Fe), (at_find _ _ _ Fv), (at_find _ _ _ Fr). cbn [obind].
    rewrite ok_bind. intros [x [Hx H]]. rewrite ok_bind in H. destruct H as [y [Hy H]]. rewrite ok_bind in H.
    destruct H as [z [Hz H]]. apply new_cut_iff in H as [-> [Hp Hv]]. apply double_iff in Hy. apply bool_iff in Hz. subst r.
    exists e, v. cbn [ecut vcut cut_cont_rand]. split; [reflexivity|]. split; [|auto].
    destruct e as [| |i|f|s| |]; cbn in Hx; try discriminate.
    + injection Hx as <-. cbn. split; [right; eauto | exact Hp].
    + injection Hx as <-. cbn. split; [left; reflexivity | exact Hp].
    + destruct (String.eqb_spec (lower s) "inf") as [E|]; cbn in Hx.
      * injection Hx as <-. exists s. auto.
      * destruct (String.eqb_spec (lower s) "infinity") as [E|]; [|discriminate]. injection Hx as <-. exists s. auto.
  - intros [e [v [Fe [He [Fv [Hv [Hr Fr]]]]]]]. rewrite Fe, Fv, Fr. cbn [negb].
    rewrite (item_find _ _ _ Fe), (at_find _ _ _ Fv), (at_find _ _ _ Fr). cbn [obind]. apply double_iff in Hv.
    rewrite ok_bind. exists (ecut c). split.
    + destruct (ecut c) as [x|]; cbn in He.
      * destruct He as [Hn _]. pose proof (proj2 (double_iff _ _) Hn) as G.
        destruct Hn as [-> | [z [-> ->]]]; reflexivity.
      * destruct He as [s [-> [E|E]]]; rewrite E; reflexivity.
    + rewrite Hv. cbn. apply new_cut_iff. split; [now destruct c|]. split; [|exact Hr].
      destruct (ecut c); cbn in He; tauto.
Qed.

(** ** Lists of cross sections *)
Section Cross.
Context {M X U : Type} (b : builders M X U) (m : M) (cuts : energy_cut) (tables : bool) (correction : R).
Definition attempt (i : interaction) (f : factory) (o : json) : outcome X :=
  make b f m (when (i_cuts i) cuts) (when (i_tables i) tables) (when (i_density i) correction) o.
Definition run_factories (i : interaction) (o : json) : outcome X :=
  match attempt i (i_factory i) o, i_fallback i with
  | Throw invalid_argument, Some f => attempt i f o
  | r, _ => r
  end.
Lemma made_run : forall i o x, made b m cuts tables correction (i, o) x <-> run_factories i o = Ok x.
Proof.
  intros i o x. unfold made, run_factories. cbv zeta. cbn [fst snd]. split.
  - intros [H | [f [-> [H G]]]]; unfold attempt; rewrite H; [reflexivity | exact G].
  - destruct (attempt i (i_factory i) o) as [a|e|u] eqn:E; intro H.
    + left. unfold attempt in E. rewrite E. exact H.
    + destruct e, (i_fallback i) as [f|] eqn:F; try discriminate. right. exists f. unfold attempt in *. auto.
    + discriminate.
Qed.
Variable config : json.
Fixpoint chain (is : list interaction) (l : list X) : outcome (list X) :=
  match is with
  | [] => Ok l
  | i :: is' => olet l := append config (i_name i) (run_factories i) l in chain is' l
  end.
Lemma append_ext : forall n f g (l : list X), (forall o, f o = g o) -> append config n f l = append config n g l.
Proof.
  intros n f g l H. unfold append. destruct (contains config n); [|reflexivity].
  apply bind_ext; [reflexivity|]. intro o. now rewrite H.
Qed.
Lemma list_chain : cross_section_list b m cuts tables correction config = chain interactions [].
Proof.
  unfold cross_section_list, interactions. cbn [chain].
  do 11 (apply bind_ext; [apply append_ext; intro o; unfold run_factories, attempt; cbn;
    destruct (make _ _ _ _ _ _ _) as [?|[]|]; reflexivity | intro]).
  symmetry. rewrite bind_ok. apply append_ext. intro o. unfold run_factories, attempt. cbn.
  destruct (make _ _ _ _ _ _ _) as [?|[]|]; reflexivity.
Qed.
Lemma chain_iff : forall is l l', chain is l = Ok l' <->
  exists r, l' = l ++ r /\
    Forall2 (made b m cuts tables correction)
      (flat_map (fun i => match find config (i_name i) with Some o => [(i, o)] | None => [] end) is) r.
Proof.
  induction is as [|i is IH]; intros l l'; cbn [chain flat_map].
  - split.
    + intros [= <-]. exists []. rewrite app_nil_r. split; [reflexivity | constructor].
    + intros [r [-> H]]. inversion H. now rewrite app_nil_r.
  - unfold append. rewrite contains_find. destruct (find config (i_name i)) as [o|] eqn:F; cbn [negb app].
    + rewrite (item_find _ _ _ F). cbn [obind]. rewrite ok_bind. split.
      * intros [k [Hk H]]. apply ok_bind in Hk as [x [Hx [= <-]]]. apply IH in H as [r [-> H]].
        exists (x :: r). rewrite <- app_assoc. split; [reflexivity|]. constructor; [now apply made_run | exact H].
      * intros [r [-> H]]. inversion H as [|? x ? r' Hx Hr]; subst. apply made_run in Hx.
        exists (l ++ [x]). rewrite Hx. split; [reflexivity|]. apply IH. exists r'. rewrite <- app_assoc. auto.
    + cbn [obind]. apply IH.
Qed.
Lemma cross_list_iff : forall l, cross_section_list b m cuts tables correction config = Ok l <->
  Forall2 (made b m cuts tables correction) (requested config) l.
Proof.
  intro l. rewrite list_chain, chain_iff. unfold requested. cbn [app]. split.
  - intros [r [-> H]]. exact H.
  - intro H. exists l. auto.
Qed.
End Cross.

(** ** Sectors *)
Section Sectors.
Context {M X U : Type} (b : builders M X U) (decays : bool).
Hypothesis nan : forall A (a : A), not_a_number b A <> Ok a.

(** The global settings that were read from [g] *)
Definition read_from (g : option json) (s : settings M) : Prop :=
  g_cross s = match setting JNull g "CrossSections" with Some c => c | None => JNull end /\
  g_scattering s = match setting JNull g "scattering" with Some c => c | None => JNull end /\
  match setting JNull g "cuts" with
  | Some v => exists c, described_cut v c /\ g_cuts s = Some c
  | None => g_cuts s = None
  end /\
  match setting JNull g "medium" with
  | Some v => exists n m, v = JString n /\ medium_named b n = Ok m /\ g_medium s = Some m
  | None => g_medium s = None
  end /\
  flag JNull g "exact_time" true (g_exact s) /\ flag JNull g "do_interpolation" true (g_interpolate s).
Lemma nothing_read : read_from None no_settings.
Proof. repeat split; reflexivity. Qed.
Lemma settings_iff : forall g s, settings_of_json b g = Ok s -> is_object g = true /\ read_from (Some g) s.
Proof.
  intros g s H. unfold settings_of_json in H.
  apply ok_bind in H as [m [Hm H]]. apply ok_bind in H as [x [Hx H]]. apply ok_bind in H as [c [Hc H]].
  apply ok_bind in H as [sc [Hs H]]. apply ok_bind in H as [t [Ht H]]. apply ok_bind in H as [i [Hi H]].
  injection H as <-.
  apply (proj1 (value_iff _ _ _ _ _ _ _ bool_iff)) in Ht as [Ho Ht].
  apply (proj1 (value_iff _ _ _ _ _ _ _ bool_iff)) in Hi as [_ Hi].
  split; [exact Ho|]. rewrite contains_find in *. unfold read_from, setting, flag, setting. cbn [find].
  cbn [g_cross g_scattering g_cuts g_medium g_exact g_interpolate].
  split. { destruct (find g "CrossSections") as [v|] eqn:F; [rewrite (item_find _ _ _ F) in Hx|]; congruence. }
  split. { destruct (find g "scattering") as [v|] eqn:F; [rewrite (item_find _ _ _ F) in Hs|]; congruence. }
  split.
  { destruct (find g "cuts") as [v|] eqn:F.
    - rewrite (item_find _ _ _ F) in Hc. cbn in Hc. apply ok_bind in Hc as [k [Hk [= <-]]].
      exists k. split; [now apply cuts_iff | reflexivity].
    - congruence. }
  split.
  { destruct (find g "medium") as [v|] eqn:F.
    - rewrite (item_find _ _ _ F) in Hm. cbn in Hm. apply ok_bind in Hm as [n [Hn Hm]]. apply ok_bind in Hm as [k [Hk [= <-]]].
      exists n, k. split; [now apply string_iff | auto].
    - congruence. }
  split; assumption.
Qed.
Lemma settings_valid : forall g, (exists s, settings_of_json b g = Ok s) <-> global_valid b g.
Proof.
  intro g. split.
  - intros [s H]. destruct (settings_iff g s H) as [Ho [_ [_ [Hc [Hm [Ht Hi]]]]]].
    unfold setting, flag, setting in *. cbn [find] in *. split; [exact Ho|]. repeat split.
    + destruct (find g "medium"); [|exact I]. destruct Hm as [n [m [H1 [H2 _]]]]. eauto.
    + destruct (find g "cuts"); [|exact I]. destruct Hc as [c [H1 _]]. eauto.
    + destruct (find g "exact_time"); eauto.
    + destruct (find g "do_interpolation"); eauto.
  - intros [Ho [Hm [Hc [Ht Hi]]]]. unfold settings_of_json, value. rewrite Ho, !contains_find.
    destruct (find g "medium") as [v|] eqn:F1.
    + destruct Hm as [n [m [-> Hn]]]. rewrite (item_find _ _ _ F1). cbn [obind get_string]. rewrite Hn. cbn [obind].
      destruct (find g "CrossSections") as [x|] eqn:F2; [rewrite (item_find _ _ _ F2)|]; cbn [obind];
      (destruct (find g "cuts") as [v|] eqn:F3;
        [destruct Hc as [c Hc]; apply cuts_iff in Hc; rewrite (item_find _ _ _ F3); cbn [obind]; rewrite Hc|]; cbn [obind]);
      (destruct (find g "scattering") as [y|] eqn:F4; [rewrite (item_find _ _ _ F4)|]; cbn [obind]);
      (destruct (find g "exact_time") as [e|]; [destruct Ht as [? ->]|]; cbn [obind get_bool]);
      (destruct (find g "do_interpolation") as [e'|]; [destruct Hi as [? ->]|]; cbn [obind get_bool]); eauto.
    + cbn [obind].
      destruct (find g "CrossSections") as [x|] eqn:F2; [rewrite (item_find _ _ _ F2)|]; cbn [obind];
      (destruct (find g "cuts") as [v|] eqn:F3;
        [destruct Hc as [c Hc]; apply cuts_iff in Hc; rewrite (item_find _ _ _ F3); cbn [obind]; rewrite Hc|]; cbn [obind]);
      (destruct (find g "scattering") as [y|] eqn:F4; [rewrite (item_find _ _ _ F4)|]; cbn [obind]);
      (destruct (find g "exact_time") as [e|]; [destruct Ht as [? ->]|]; cbn [obind get_bool]);
      (destruct (find g "do_interpolation") as [e'|]; [destruct Hi as [? ->]|]; cbn [obind get_bool]); eauto.
Qed.

Lemma setting_local : forall s g k, setting s g k = match find s k with Some v => Some v | None => setting JNull g k end.
Proof. reflexivity. Qed.
Lemma flag_value : forall s g k d x y, is_object s = true -> flag JNull g k d y ->
  value get_bool s k y = Ok x <-> flag s g k d x.
Proof.
  intros s g k d x y Ho H. rewrite (value_iff _ _ _ _ _ _ _ bool_iff). unfold flag in *. rewrite setting_local.
  unfold optional. destruct (find s k) as [v|]; [tauto|]. destruct (setting JNull g k) as [v|]; subst; [|tauto].
  split; [intros [_ ->]; reflexivity | intros [= ->]; auto].
Qed.
Lemma json_value : forall s g k x y, is_object s = true ->
  y = match setting JNull g k with Some c => c | None => JNull end ->
  value Ok s k y = Ok x <-> x = match setting s g k with Some c => c | None => JNull end.
Proof.
  intros s g k x y Ho ->. unfold value. rewrite Ho, (setting_local s).
  destruct (find s k); split; congruence.
Qed.

Definition default_distribution (m : M) : json :=
  JObject [("type", JString "homogeneous"); ("mass_density", JFloat (mass_density b m))].
Definition distribution_json (s : json) (m : M) : json :=
  match find s "density_distribution" with Some v => v | None => default_distribution m end.
Lemma distribution_iff : forall s m d,
  create_distribution (not_a_number b) (distribution_json s m) = Ok d <-> distribution_follows b s m d.
Proof.
  intros s m d. unfold distribution_json, distribution_follows. destruct (find s "density_distribution"); [reflexivity|].
  cbn. split; [intros [= <-]; reflexivity | now intros ->].
Qed.
Lemma base_density_iff : forall s m rho,
  value get_double (distribution_json s m) "mass_density" (mass_density b m) = Ok rho <-> base_density b s m rho.
Proof.
  intros s m rho. rewrite (value_iff _ _ _ _ _ _ _ double_iff). unfold distribution_json, base_density, optional.
  destruct (find s "density_distribution") as [v|]; [reflexivity|]. cbn. split.
  - intros [_ [[= H] | [z [H _]]]]; [now symmetry | discriminate].
  - intros ->. split; [reflexivity | now left].
Qed.

Lemma sectors_iff : forall s m u l out,
  sectors_of b u (distribution_json s m) l = Ok out <->
  Forall2 (fun j o => exists g d, create_geometry j = Ok g /\ distribution_follows b s m d /\ o = (g, u, d)) l out.
Proof.
  intros s m u. induction l as [|j l IH]; intro out; cbn [sectors_of].
  - split; [intros [= <-]; constructor | intro H; now inversion H].
  - rewrite ok_bind. split.
    + intros [g [Hg H]]. apply ok_bind in H as [d [Hd H]]. apply ok_bind in H as [r [Hr [= <-]]].
      constructor; [|now apply IH]. exists g, d. split; [exact Hg|]. split; [now apply distribution_iff | reflexivity].
    + intro H. inversion H as [|? o ? r [g [d [Hg [Hd ->]]]] Hr]; subst. exists g. split; [exact Hg|].
      rewrite ok_bind. exists d. split; [now apply distribution_iff|]. rewrite ok_bind. exists r.
      split; [now apply IH | reflexivity].
Qed.

Lemma correction_iff : forall m (rho k : R),
  (if (mass_density b m =? 0)%R then not_a_number b R else Ok (rho / mass_density b m)) = Ok k <->
  mass_density b m <> 0 /\ k = rho / mass_density b m.
Proof.
  intros m rho k. destruct (Reqb_spec (mass_density b m) 0) as [E|E].
  - split; [intro H; now apply nan in H | tauto].
  - split; [intros [= <-]; auto | intros [_ ->]; reflexivity].
Qed.

Lemma listed_elements : forall j l, with_or_without j l <-> l = elements j.
Proof. intros j l. destruct j; reflexivity. Qed.
Lemma sector_iff : forall g st s out, read_from g st ->
  initialize_sector b decays s st = Ok out <-> sector_follows b with_or_without decays g s out.
Proof.
  intros g st s out [Rx [Rs [Rc [Rm [Rt Ri]]]]]. unfold initialize_sector, sector_follows. split.
  - intro H. apply ok_bind in H as [i [Hi H]]. apply ok_bind in H as [t [Ht H]]. apply ok_bind in H as [sc [Hsc H]].
    assert (Ho : is_object s = true). { apply (value_iff _ _ _ _ _ _ _ bool_iff) in Hi. tauto. }
    apply ok_bind in H as [m [Hm H]]. apply ok_bind in H as [c [Hc H]]. apply ok_bind in H as [d [Hd H]].
    apply ok_bind in H as [cf [Hcf H]]. apply ok_bind in H as [cr [Hcr H]]. apply ok_bind in H as [u [Hu H]].
    apply (flag_value _ g _ true) in Hi; [|assumption..]. apply (flag_value _ g _ true) in Ht; [|assumption..].
    apply (json_value _ g) in Hsc; [|assumption..]. apply (json_value _ g) in Hcf; [|assumption..].
    split; [exact Ho|].
    assert (Gm : exists n, setting s g "medium" = Some (JString n) /\ medium_named b n = Ok m).
    { rewrite contains_find in Hm. rewrite setting_local. destruct (find s "medium") as [v|] eqn:F.
      - rewrite (item_find _ _ _ F) in Hm. cbn in Hm. apply ok_bind in Hm as [n [Hn Hm]]. apply string_iff in Hn. subst. eauto.
      - destruct (setting JNull g "medium") as [v|].
        + destruct Rm as [n [m' [-> [Hn E]]]]. rewrite E in Hm. injection Hm as <-. eauto.
        + rewrite Rm in Hm. discriminate. }
    assert (Gc : exists v, setting s g "cuts" = Some v /\ described_cut v c).
    { rewrite contains_find in Hc. rewrite setting_local. destruct (find s "cuts") as [v|] eqn:F.
      - rewrite (item_find _ _ _ F) in Hc. cbn in Hc. apply cuts_iff in Hc. eauto.
      - destruct (setting JNull g "cuts") as [v|].
        + destruct Rc as [k [Hk E]]. rewrite E in Hc. injection Hc as <-. eauto.
        + rewrite Rc in Hc. discriminate. }
    assert (Ed : d = distribution_json s m).
    { unfold distribution_json. rewrite contains_find in Hd. destruct (find s "density_distribution") as [v|] eqn:F.
      - rewrite (item_find _ _ _ F) in Hd. now injection Hd.
      - now injection Hd. }
    subst d. rewrite contains_find in H. destruct (find s "geometries") as [gj|] eqn:Fg; [|discriminate].
    rewrite (at_find _ _ _ Fg) in H. cbn [obind] in H. apply sectors_iff in H.
    destruct Gm as [n [Gm1 Gm2]]. destruct Gc as [v [Gc1 Gc2]].
    exists n, m, v, c, i, t, cr, u, gj, (elements gj). split; [exact Gm1|]. split; [exact Gm2|]. split; [exact Gc1|]. split; [exact Gc2|].
    split; [exact Hi|]. split; [exact Ht|]. split; [|split; [|split; [reflexivity | split; [now apply listed_elements | exact H]]]].
    + unfold cross_follows. cbv zeta. rewrite <- Hcf. destruct (empty cf); cbn [negb] in Hcr; [exact Hcr|].
      apply ok_bind in Hcr as [rho [Hr Hcr]]. apply ok_bind in Hcr as [k [Hk Hcr]]. apply base_density_iff in Hr.
      apply correction_iff in Hk as [Hz ->]. apply cross_list_iff in Hcr. eauto.
    + unfold create_utility in Hu. unfold scattering. rewrite Hsc in Hu. destruct (setting s g "scattering"); exact Hu.
  - intros [Ho [n [m [v [c [i [t [cr [u [gj [gs [Hm [Hn [Hc [Hd [Hi [Ht [Hx [Hu [Fg [Lg H]]]]]]]]]]]]]]]]]]]]]. apply listed_elements in Lg. subst gs.
    apply ok_bind. exists i. split; [now apply (flag_value _ g _ true)|].
    apply ok_bind. exists t. split; [now apply (flag_value _ g _ true)|].
    apply ok_bind. eexists. split; [now apply (json_value _ g)|].
    apply ok_bind. exists m. split.
    { rewrite contains_find. rewrite setting_local in Hm. destruct (find s "medium") as [w|] eqn:F.
      - injection Hm as ->. rewrite (item_find _ _ _ F). cbn. exact Hn.
      - rewrite Hm in Rm. destruct Rm as [n' [m' [[= <-] [Hn' ->]]]]. congruence. }
    apply ok_bind. exists c. split.
    { rewrite contains_find. rewrite setting_local in Hc. apply cuts_iff in Hd. destruct (find s "cuts") as [w|] eqn:F.
      - injection Hc as ->. rewrite (item_find _ _ _ F). cbn. exact Hd.
      - rewrite Hc in Rc. destruct Rc as [c' [Hc' ->]]. apply cuts_iff in Hc'. congruence. }
    apply ok_bind. exists (distribution_json s m). split.
    { unfold distribution_json. rewrite contains_find. destruct (find s "density_distribution") as [w|] eqn:F; [|reflexivity].
      now apply item_find. }
    apply ok_bind. eexists. split; [now apply (json_value _ g)|].
    apply ok_bind. exists cr. split.
    { unfold cross_follows in Hx. cbv zeta in Hx. set (cf := match setting s g "CrossSections" with Some c0 => c0 | None => JNull end) in *.
      destruct (empty cf); cbn [negb]; [exact Hx|]. destruct Hx as [rho [Hr [Hz Hl]]].
      apply ok_bind. exists rho. split; [now apply base_density_iff|].
      apply ok_bind. eexists. split; [now apply correction_iff|]. now apply cross_list_iff. }
    apply ok_bind. exists u. split.
    { unfold create_utility. unfold scattering in Hu. destruct (setting s g "scattering"); exact Hu. }
    rewrite contains_find, Fg, (at_find _ _ _ Fg). cbn [obind]. now apply sectors_iff.
Qed.

Lemma initialize_iff : forall g st ss out, read_from g st ->
  initialize b decays ss st = Ok out <->
  exists outs, Forall2 (sector_follows b with_or_without decays g) ss outs /\ out = List.concat outs.
Proof.
  intros g st ss out Hr. revert out. induction ss as [|s ss IH]; intros out; cbn [initialize].
  - split.
    + intros [= <-]. exists []. split; [constructor | reflexivity].
    + intros [outs [H ->]]. inversion H. reflexivity.
  - rewrite ok_bind. split.
    + intros [o [Ho H]]. apply ok_bind in H as [r [Hr' [= <-]]].
      apply (sector_iff g) in Ho; [|exact Hr].
      apply IH in Hr'. destruct Hr' as [outs [F ->]].
      exists (o :: outs). split; [now constructor | reflexivity].
    + intros [outs [F ->]]. inversion F as [|? o ? outs' Ho F']; subst. exists o. split.
      * apply (sector_iff g); [exact Hr | exact Ho].
      * apply ok_bind. exists (List.concat outs'). split; [|reflexivity]. apply IH. eauto.
Qed.

Lemma any_shape : forall config out, propagator_of_json b decays config = Ok out <-> described b with_or_without decays config out.
Proof.
  intros config out. unfold propagator_of_json, described. rewrite !contains_find. split.
  - intro H. apply ok_bind in H as [st [Hst H]].
    destruct (find config "sectors") as [j|] eqn:Fs; [|discriminate].
    rewrite (at_find _ _ _ Fs) in H. cbn [obind] in H. pose proof (proj2 (listed_elements j _) eq_refl) as L.
    destruct (find config "global") as [g|] eqn:F.
    + rewrite (item_find _ _ _ F) in Hst. cbn in Hst. split; [apply settings_valid; eauto|].
      apply settings_iff in Hst as [_ R]. apply (initialize_iff (Some g)) in H; [|assumption..]. destruct H as [outs [H ->]]. exists j, (elements j), outs. auto.
    + injection Hst as <-. split; [exact I|]. apply (initialize_iff None) in H; [|apply nothing_read].
      destruct H as [outs [H ->]]. exists j, (elements j), outs. auto.
  - intros [Hv [j [ss [outs [Fs [L [H ->]]]]]]]. apply listed_elements in L. subst ss. rewrite Fs, (at_find _ _ _ Fs). cbn [obind].
    destruct (find config "global") as [g|] eqn:F.
    + apply settings_valid in Hv as [st Hst]. rewrite (item_find _ _ _ F). cbn [obind]. rewrite Hst. cbn [obind].
      apply settings_iff in Hst as [_ R]. apply (initialize_iff (Some g)); eauto.
    + cbn [obind]. apply (initialize_iff None); [apply nothing_read | eauto].
Qed.
Lemma array_sector g s out : (forall x, find s "geometries" = Some x -> is_array x) ->
  sector_follows b with_or_without decays g s out <-> sector_follows b in_brackets decays g s out.
Proof.
  intro A. split; intros [Ho [n [m [v [c [i [t [cr [u [gj [gs [Hm [Hn [Hc [Hd [Hi [Ht [Hx [Hu [Fg [Lg H]]]]]]]]]]]]]]]]]]]]];
    (split; [exact Ho|]); exists n, m, v, c, i, t, cr, u, gj, gs; repeat (split; [assumption|]); (split; [|exact H]);
    destruct (A _ Fg) as [l ->]; cbn in *; unfold in_brackets in *; congruence.
Qed.
Lemma array_sectors g ss outs : (forall s x, In s ss -> find s "geometries" = Some x -> is_array x) ->
  Forall2 (sector_follows b with_or_without decays g) ss outs <-> Forall2 (sector_follows b in_brackets decays g) ss outs.
Proof.
  intro A. split; intro H; induction H as [|s o ss outs Hs H IH]; constructor;
    try (apply array_sector; [intros x; apply A; now left|exact Hs]); apply IH; intros s' x I; apply A; now right.
Qed.
Lemma described_iff : forall config out, arrays config ->
  propagator_of_json b decays config = Ok out <-> described b in_brackets decays config out.
Proof.
  intros config out Ha. rewrite any_shape. split; intros [Hv [j [ss [outs [Fs [L [H E]]]]]]]; (split; [exact Hv|]);
    destruct (Ha _ Fs) as [ss' [-> Hg]]; cbn in L; unfold in_brackets in L; exists (JArray ss'), ss', outs.
  - subst ss. split; [exact Fs|]. split; [reflexivity|]. split; [now apply array_sectors|exact E].
  - injection L as <-. split; [exact Fs|]. split; [reflexivity|]. split; [now apply array_sectors|exact E].
Qed.

Lemma mandatory : forall config j ss s out, find config "sectors" = Some j -> with_or_without j ss -> In s ss ->
  setting s (find config "global") "medium" = None \/ setting s (find config "global") "cuts" = None \/
  find s "geometries" = None ->
  propagator_of_json b decays config <> Ok out.
Proof.
  intros config j ss s out Fs L Hin Hn H. apply any_shape in H. destruct H as [_ [j' [ss' [outs [Fs' [L' [F _]]]]]]].
  rewrite Fs in Fs'. injection Fs' as <-. apply listed_elements in L, L'. rewrite <- L in L'. subst ss'. clear Fs L.
  induction F as [|s' o ss outs Hs F IH]; [contradiction|]. destruct Hin as [-> | Hin]; [|auto].
  destruct Hs as [_ [n [m [v [c [i [t [cr [u [gj [gs [Hm [_ [Hc [_ [_ [_ [_ [_ [Hg _]]]]]]]]]]]]]]]]]]]].
  destruct Hn as [E | [E | E]]; congruence.
Qed.
End Sectors.

(** ** Keys that are not read *)
Section Keys.
Context {M X U : Type} (b : builders M X U) (decays : bool).
Lemma item_as : forall j k, item j k =
  if is_object j then match find j k with Some v => Ok v | None => UB deref_end end else Throw type_error.
Proof. destruct j; reflexivity. Qed.
Lemma sector_keys : forall s s' st, agree sector_keywords s s' -> initialize_sector b decays s st = initialize_sector b decays s' st.
Proof.
  intros s s' st [Ho H]. unfold sector_keywords in H. unfold initialize_sector, value. rewrite !contains_find, !item_as.
  unfold at_key. rewrite Ho.
  rewrite (H "medium"), (H "cuts"), (H "geometries"), (H "do_interpolation"), (H "exact_time"), (H "scattering"),
    (H "density_distribution"), (H "CrossSections") by (cbn; tauto). reflexivity.
Qed.
Lemma global_keys : forall s s', agree global_keywords s s' -> settings_of_json b s = settings_of_json b s'.
Proof.
  intros s s' [Ho H]. unfold global_keywords in H. unfold settings_of_json, value. rewrite !contains_find, !item_as.
  rewrite Ho.
  rewrite (H "medium"), (H "cuts"), (H "do_interpolation"), (H "exact_time"), (H "scattering"),
    (H "CrossSections") by (cbn; tauto). reflexivity.
Qed.
Lemma other_keys : forall config config' ss ss',
  find config "sectors" = Some (JArray ss) -> find config' "sectors" = Some (JArray ss') ->
  Forall2 (agree sector_keywords) ss ss' ->
  match find config "global", find config' "global" with
  | Some g, Some g' => agree global_keywords g g'
  | None, None => True
  | _, _ => False
  end ->
  propagator_of_json b decays config = propagator_of_json b decays config'.
Proof.
  intros config config' ss ss' Fs Fs' H G. unfold propagator_of_json. rewrite !contains_find, Fs, Fs'.
  rewrite (at_find _ _ _ Fs), (at_find _ _ _ Fs'). cbn [obind elements].
  apply bind_ext.
  - destruct (find config "global") as [g|] eqn:F, (find config' "global") as [g'|] eqn:F'; try contradiction; [|reflexivity].
    rewrite (item_find _ _ _ F), (item_find _ _ _ F'). cbn [obind]. now apply global_keys.
  - intro st. induction H as [|s s' ss ss' Hs H IH]; [reflexivity|]. cbn [initialize].
    rewrite (sector_keys _ _ _ Hs). apply bind_ext; [reflexivity|]. intro o. apply bind_ext; [|reflexivity].
    clear - H. induction H as [|s s' ss ss' Hs H IH]; [reflexivity|]. cbn [initialize].
    rewrite (sector_keys _ _ _ Hs). apply bind_ext; [reflexivity|]. intro o. apply bind_ext; [exact IH | reflexivity].
Qed.
End Keys.

(** ** Geometries *)
Lemma int_part_is : forall r z, r - 1 < IZR z <= r -> Int_part r = z.
Proof.
  intros r z H. destruct (base_Int_part r) as [A B].
  assert (C : (IZR (Int_part r) < IZR (z + 1)) /\ (IZR z < IZR (Int_part r + 1))) by (rewrite !plus_IZR; lra).
  destruct C as [C D]. apply lt_IZR in C, D. lia.
Qed.
Lemma cut_off_whole : forall z, cut_off (IZR z) = z.
Proof.
  intro z. unfold cut_off. destruct (Rleb_spec 0 (IZR z)).
  - apply int_part_is. lra.
  - rewrite <- opp_IZR. rewrite (int_part_is (IZR (- z)) (- z)); [lia | lra].
Qed.
Lemma int_whole : forall v z, number v (IZR z) -> (- 2 ^ 31 <= z < 2 ^ 31)%Z -> get_int v = Ok z.
Proof.
  intros v z [-> | [y [-> E]]] H; cbn [get_int].
  - rewrite cut_off_whole. destruct (Z.leb_spec (- 2 ^ 31) z); [|lia]. destruct (Z.ltb_spec z (2 ^ 31)); [|lia]. reflexivity.
  - apply eq_IZR in E. subst y. unfold wrap. f_equal. rewrite Z.mod_small by lia. lia.
Qed.
Lemma optional_int : forall j k z, is_object j = true -> optional number (find j k) 0 (IZR z) -> (- 2 ^ 31 <= z < 2 ^ 31)%Z ->
  value get_int j k 0%Z = Ok z.
Proof.
  intros j k z Ho H Hz. unfold value, optional in *. rewrite Ho. destruct (find j k) as [v|].
  - now apply int_whole.
  - apply eq_IZR in H. now subst z.
Qed.
Lemma base_created : forall j c h s t n, find j "shape" = Some (JString n) ->
  described_body j c (IZR h) s -> (0 <= h < 2 ^ 31)%Z -> base_of_json j t = Ok (mkbody n (Z.to_N h) c t).
Proof.
  intros j c h s t n Fn [o [Fo [Hc [Hh Hs]]]] Hr. unfold base_of_json. pose proof (found_object _ _ _ Fo) as Ho. rewrite Ho. cbn [negb].
  unfold value at 1. rewrite Ho, Fn. cbn [get_string obind].
  rewrite (optional_int j "hierarchy" h Ho Hh) by lia. cbn [obind]. rewrite contains_find, Fo, (at_find _ _ _ Fo). cbn [negb obind].
  apply vector_iff in Hc. rewrite Hc. cbn [obind]. rewrite Z.mod_small by lia. reflexivity.
Qed.
Lemma field_read : forall j k x, field j k x -> exists v, find j k = Some v /\ get_double v = Ok x /\ is_number v = true.
Proof. intros j k x [v [F H]]. exists v. split; [exact F|]. split; [now apply double_iff | now apply (number_is v x)]. Qed.

Lemma of_sound : forall n h c s, sound s -> geometry_of (mkbody n h c s) = constructed h c s.
Proof.
  intros n h c s H. unfold geometry_of, constructed. destruct s as [r i|x y z|r i z]; cbn [b_shape b_hierarchy b_position sound] in *.
  - unfold sphere. destruct (Rltb_spec r i); [lra | reflexivity].
  - reflexivity.
  - unfold cylinder. destruct (Rltb_spec r i); [lra | reflexivity].
Qed.
Lemma shape_name : forall j s, described_shape j s -> exists n, find j "shape" = Some (JString n) /\
  lower n = match s with Sphere _ _ => "sphere" | Box _ _ _ => "box" | Cylinder _ _ _ => "cylinder" end.
Proof. intros j s [n [F H]]. exists n. split; [exact F|]. destruct s; tauto. Qed.
Lemma created : forall j c h s, described_body j c (IZR h) s -> (0 <= h < 2 ^ 31)%Z -> sound s -> whole_inner s ->
  exists n, find j "shape" = Some (JString n) /\ create_geometry j = Ok (mkbody n (Z.to_N h) c s).
Proof.
  intros j c h s H Hh Hs Hw. pose proof H as [o [Fo [Hc [_ Hd]]]]. destruct (shape_name _ _ Hd) as [n [Fn Hn]]. exists n. split; [exact Fn|].
  unfold create_geometry. rewrite contains_find, Fn, (item_find _ _ _ Fn). cbn [obind get_string]. rewrite Hn.
  pose proof (found_object _ _ _ Fn) as Ho. destruct Hd as [n' [Fn' Hd]]. destruct s as [r i|x y z|r i z]; cbn [String.eqb].
  - cbn. destruct Hd as [_ [Hr Hi]]. destruct Hw as [k [-> Hk]]. unfold sphere_of_json.
    rewrite (base_created j c h _ _ n Fn H Hh). cbn [obind]. destruct (field_read _ _ _ Hr) as [v [Fv [Gv Nv]]].
    rewrite (at_find _ _ _ Fv). cbn [obind]. rewrite Nv, Gv. cbn [negb obind]. rewrite (optional_int _ _ k Ho Hi Hk). cbn [obind].
    cbn in Hs. destruct (Rltb_spec (IZR k) 0); [lra|]. destruct (Rltb_spec r (IZR k)); [lra|]. reflexivity.
  - cbn. destruct Hd as [_ [Hx [Hy Hz]]]. unfold box_of_json.
    rewrite (base_created j c h _ _ n Fn H Hh). cbn [obind].
    destruct (field_read _ _ _ Hx) as [v [Fv [Gv Nv]]]. rewrite (at_find _ _ _ Fv). cbn [obind]. rewrite Nv. cbn [negb].
    destruct (field_read _ _ _ Hy) as [w [Fw [Gw Nw]]]. rewrite (at_find _ _ _ Fw). cbn [obind]. rewrite Nw. cbn [negb].
    destruct (field_read _ _ _ Hz) as [u [Fu [Gu Nu]]]. rewrite (at_find _ _ _ Fu). cbn [obind]. rewrite Nu. cbn [negb].
    rewrite Gv, Gw, Gu. cbn [obind]. cbn in Hs.
    destruct (Rltb_spec x 0); [lra|]. destruct (Rltb_spec y 0); [lra|]. destruct (Rltb_spec z 0); [lra|]. reflexivity.
  - cbn. destruct Hd as [_ [Hr [Hi Hz]]]. destruct Hw as [k [-> Hk]]. unfold cylinder_of_json.
    rewrite (base_created j c h _ _ n Fn H Hh). cbn [obind]. destruct (field_read _ _ _ Hr) as [v [Fv [Gv _]]].
    rewrite (item_find _ _ _ Fv). cbn [obind]. rewrite Gv. cbn [obind]. rewrite (optional_int _ _ k Ho Hi Hk). cbn [obind].
    destruct (field_read _ _ _ Hz) as [u [Fu [Gu _]]]. rewrite (item_find _ _ _ Fu). cbn [obind]. rewrite Gu. reflexivity.
Qed.
Lemma rejected : forall j c h s, described_body j c (IZR h) s -> (0 <= h < 2 ^ 31)%Z -> ~ sound s -> whole_inner s ->
  match s with Cylinder _ _ _ => True | _ => create_geometry j = Throw logic_error end.
Proof.
  intros j c h s H Hh Hs Hw. pose proof H as [o [Fo [Hc [_ Hd]]]]. destruct (shape_name _ _ Hd) as [n [Fn Hn]].
  unfold create_geometry. rewrite contains_find, Fn, (item_find _ _ _ Fn). cbn [obind get_string]. rewrite Hn.
  pose proof (found_object _ _ _ Fn) as Ho. destruct Hd as [n' [Fn' Hd]]. destruct s as [r i|x y z|r i z]; [| |exact I].
  - cbn. destruct Hd as [_ [Hr Hi]]. destruct Hw as [k [-> Hk]]. unfold sphere_of_json.
    rewrite (base_created j c h _ _ n Fn H Hh). cbn [obind]. destruct (field_read _ _ _ Hr) as [v [Fv [Gv Nv]]].
    rewrite (at_find _ _ _ Fv). cbn [obind]. rewrite Nv, Gv. cbn [negb obind]. rewrite (optional_int _ _ k Ho Hi Hk). cbn [obind].
    cbn in Hs. destruct (Rltb_spec (IZR k) 0); [reflexivity|]. destruct (Rltb_spec r (IZR k)); [reflexivity|]. exfalso. apply Hs. lra.
  - cbn. destruct Hd as [_ [Hx [Hy Hz]]]. unfold box_of_json.
    rewrite (base_created j c h _ _ n Fn H Hh). cbn [obind].
    destruct (field_read _ _ _ Hx) as [v [Fv [Gv Nv]]]. rewrite (at_find _ _ _ Fv). cbn [obind]. rewrite Nv. cbn [negb].
    destruct (field_read _ _ _ Hy) as [w [Fw [Gw Nw]]]. rewrite (at_find _ _ _ Fw). cbn [obind]. rewrite Nw. cbn [negb].
    destruct (field_read _ _ _ Hz) as [u [Fu [Gu Nu]]]. rewrite (at_find _ _ _ Fu). cbn [obind]. rewrite Nu. cbn [negb].
    rewrite Gv, Gw, Gu. cbn [obind]. cbn in Hs.
    destruct (Rltb_spec x 0); [reflexivity|]. destruct (Rltb_spec y 0); [reflexivity|]. destruct (Rltb_spec z 0); [reflexivity|].
    exfalso. apply Hs. lra.
Qed.

Lemma eqb_same : forall x : R, (x =? x)%R = true.
Proof. intro x. now apply Reqb_true. Qed.
Lemma vec_eqb_same : forall v, vec_eqb v v = true.
Proof. intro v. unfold vec_eqb. now rewrite !eqb_same. Qed.
Lemma equal_bodies : forall n h c s, sound s -> h = 0%N ->
  body_eqb (mkbody n h c s) (from_numbers c s) = true <->
  n = match s with Sphere _ _ => "Sphere" | Box _ _ _ => "Box" | Cylinder _ _ _ => "Cylinder" end.
Proof.
  intros n h c s Hs ->. unfold body_eqb.
  assert (E : from_numbers c s = mkbody (match s with Sphere _ _ => "Sphere" | Box _ _ _ => "Box" | Cylinder _ _ _ => "Cylinder" end) 0 c s).
  { unfold from_numbers, new_sphere, new_box, new_cylinder. destruct s as [r i|x y z|r i z]; cbn in Hs; [|reflexivity|].
    - destruct (Rltb_spec r i); [lra | reflexivity].
    - destruct (Rltb_spec r i); [lra | reflexivity]. }
  rewrite E. cbn [b_position b_name b_hierarchy b_shape]. rewrite vec_eqb_same.
  assert (S : shape_eqb s s = true) by (destruct s; cbn; now rewrite !eqb_same).
  rewrite S, N.eqb_refl. cbn [andb]. rewrite !andb_true_r. apply String.eqb_eq.
Qed.

(** ** Density distributions *)
Section Densities.
Variable nan : forall A, outcome A.
Lemma axis_read : forall j a rho, described_axis j a -> field j "mass_density" rho -> distribution_base j = Ok (a, rho).
Proof.
  intros j a rho Ha Hr. unfold distribution_base. destruct (field_read _ _ _ Hr) as [v [Fv [Gv _]]]. rewrite !contains_find, Fv.
  destruct a as [d p|p]; cbn in Ha.
  - destruct Ha as [Ft [u [w [Fu [Hu [Fw Hw]]]]]]. rewrite Ft, (item_find _ _ _ Ft), (item_find _ _ _ Fv). cbn.
    unfold axis_of_json. rewrite !contains_find, Fu, Fw, (at_find _ _ _ Fu), (at_find _ _ _ Fw). cbn.
    apply vector_iff in Hu, Hw. rewrite Hu, Hw. cbn. rewrite Gv. reflexivity.
  - destruct Ha as [Ft [u [Fu Hu]]]. rewrite Ft, (item_find _ _ _ Ft), (item_find _ _ _ Fv). cbn.
    unfold axis_of_json. rewrite !contains_find, Fu, (at_find _ _ _ Fu). cbn.
    apply vector_iff in Hu. rewrite Hu. cbn. rewrite Gv. reflexivity.
Qed.
Lemma nodes_read : forall j x y, nodes j x y -> nodes_of_json j = Ok (x, y).
Proof.
  intros j x y [u [v [Fu [Hu [Fv [Hv E]]]]]]. unfold nodes_of_json. rewrite !contains_find, Fu, Fv, (item_find _ _ _ Fu), (item_find _ _ _ Fv).
  cbn. pose proof Hu as [ju [-> _]]. pose proof Hv as [jv [-> _]]. apply doubles_iff in Hu, Hv. cbn [obind]. rewrite Hu. cbn [obind].
  rewrite Hv. cbn [obind]. rewrite E, Nat.eqb_refl. reflexivity.
Qed.
Lemma distribution_created : forall j d, described_distribution nan j d -> (forall c, do_kind d <> Polynomial c) ->
  create_distribution nan j = Ok d.
Proof.
  intros j d [Hr [Hk Ha]] Hp. destruct d as [a rho k]. cbn [do_rho do_kind do_axis] in *. unfold create_distribution.
  rewrite contains_find. destruct k as [|s e|c|p q s]; cbn [described_kind] in Hk.
  - rewrite Hk, (item_find _ _ _ Hk). cbn. unfold homogeneous_of_json. destruct (field_read _ _ _ Hr) as [v [Fv [Gv _]]].
    rewrite contains_find, Fv, (item_find _ _ _ Fv). cbn. rewrite Gv. cbn. now rewrite Ha.
  - destruct Hk as [Ft [Hs Hd]]. rewrite Ft, (item_find _ _ _ Ft). cbn. unfold exponential_of_json.
    rewrite (axis_read _ _ _ Ha Hr). cbn [obind fst snd]. pose proof (found_object _ _ _ Ft) as Ho.
    rewrite (proj2 (value_iff _ _ _ j "sigma" 1 s double_iff) (conj Ho Hs)). cbn [obind].
    rewrite (proj2 (value_iff _ _ _ j "d0" 0 e double_iff) (conj Ho Hd)). reflexivity.
  - destruct (Hp c eq_refl).
  - destruct Hk as [Ft [-> [-> [x [y [Hn [[s' Hs'] Hs]]]]]]]. rewrite Ft, (item_find _ _ _ Ft). cbn. unfold splines_of_json.
    rewrite (axis_read _ _ _ Ha Hr). cbn [obind fst snd]. rewrite contains_find. destruct Hs as [[Fs Hs] | [Fs Hs]].
    + rewrite Fs, (item_find _ _ _ Fs). cbn. rewrite (nodes_read _ _ _ Hn). cbn [obind fst snd]. rewrite Hs. cbn [obind].
      rewrite Hs'. reflexivity.
    + rewrite Fs, (item_find _ _ _ Fs). cbn. rewrite (nodes_read _ _ _ Hn). cbn [obind fst snd]. rewrite Hs. cbn [obind].
      rewrite Hs'. reflexivity.
Qed.
Lemma no_polynomial : forall j d, find j "type" = Some (JString "polynomial") -> create_distribution nan j <> Ok d.
Proof.
  intros j d Ft. unfold create_distribution. rewrite contains_find, Ft, (item_find _ _ _ Ft). cbn.
  unfold polynomial_of_json. destruct (distribution_base j); cbn; [|discriminate..].
  destruct j; cbn in *; discriminate.
Qed.
End Densities.

(** ** Witnesses *)
(** A medium is its density; every request succeeds. *)
Definition plain : builders R unit unit :=
  mkbuilders R unit unit (fun n => if String.eqb n "ice" then Ok (917 / 1000) else Throw invalid_argument) (fun m => m)
    (fun _ _ _ _ _ _ => Ok tt) (fun _ _ _ => Ok [tt]) (fun _ => Ok tt) (fun _ => Throw math_exception).
Lemma plain_nan : forall A (a : A), not_a_number plain A <> Ok a.
Proof. discriminate. Qed.
Definition some_cuts : json := JObject [("e_cut", JString "Inf"); ("v_cut", JFloat (5 / 100)); ("cont_rand", JBool true)].
Lemma some_cuts_ok : cut_of_json some_cuts = Ok (mkcut PInf (5 / 100) true).
Proof.
  apply cuts_iff. exists (JString "Inf"), (JFloat (5 / 100)). cbn [ecut vcut cut_cont_rand].
  split; [reflexivity|]. split; [exists "Inf"; split; [reflexivity | left; reflexivity]|]. split; [reflexivity|].
  split; [left; reflexivity|]. split; [lra | reflexivity].
Qed.
Definition origin : json := JArray [JInt 0; JInt 0; JInt 0].
Definition ball (inner : list (string * json)) : json :=
  JObject ([("shape", JString "sphere"); ("origin", origin); ("outer_radius", JFloat (10 ^ 20))] ++ inner).
Definition half_density : json := JObject [("type", JString "homogeneous"); ("mass_density", JFloat (1 / 2))].
Definition an_ice_ball (geometries : list json) : json := JObject [("medium", JString "ice"); ("geometries", JArray geometries)].
Definition with_global (l : list (string * json)) (s : json) : json :=
  JObject [("global", JObject (("cuts", some_cuts) :: l)); ("sectors", JArray [s])].
Lemma ball_ok : create_geometry (ball []) = Ok (mkbody "sphere" 0 (mkvec 0 0 0) (Sphere (10 ^ 20) 0)).
Proof.
  cbn -[pow]. unfold sphere_of_json. cbn -[pow]. destruct (Rltb_spec 0 0); [lra|].
  destruct (Rltb_spec (10 ^ 20) 0) as [H|]; [|reflexivity]. assert (0 < 10 ^ 20) by (apply pow_lt; lra). lra.
Qed.
Lemma global_density : exists (b : builders R unit unit) decays config g s j d gb u d',
  (forall A (a : A), not_a_number b A <> Ok a) /\ arrays config /\
  find config "global" = Some g /\ find config "sectors" = Some (JArray [s]) /\
  setting s (Some g) "density_distribution" = Some j /\ create_distribution (not_a_number b) j = Ok d /\
  propagator_of_json b decays config = Ok [(gb, u, d')] /\ do_rho d' <> do_rho d.
Proof.
  set (s := an_ice_ball [ball []]). set (g := JObject [("cuts", some_cuts); ("density_distribution", half_density)]).
  exists plain, true, (with_global [("density_distribution", half_density)] s), g, s, half_density,
    (mkdobj default_axis (1 / 2) Homogeneous), (mkbody "sphere" 0 (mkvec 0 0 0) (Sphere (10 ^ 20) 0)), tt,
    (mkdobj default_axis (917 / 1000) Homogeneous).
  split; [apply plain_nan|]. split.
  { intros j [= <-]. eexists. split; [reflexivity|]. intros s' x [<- | []] [= <-]. eexists. reflexivity. }
  split; [reflexivity|]. split; [reflexivity|]. split; [reflexivity|]. split; [reflexivity|]. split; [|cbn; lra].
  unfold propagator_of_json, settings_of_json. cbn -[ball pow cut_of_json initialize_sector].
  rewrite some_cuts_ok. cbn -[ball pow]. rewrite ball_ok. reflexivity.
Qed.
Lemma null_sectors : exists (b : builders R unit unit) decays config,
  (forall A (a : A), not_a_number b A <> Ok a) /\ find config "sectors" = Some JNull /\ ~ arrays config /\
  propagator_of_json b decays config = Ok [].
Proof.
  exists plain, true, (JObject [("sectors", JNull)]). split; [apply plain_nan|]. split; [reflexivity|]. split; [|reflexivity].
  intro A. destruct (A _ eq_refl) as [ss [E _]]. discriminate.
Qed.
Lemma no_geometry : exists (b : builders R unit unit) decays config s,
  (forall A (a : A), not_a_number b A <> Ok a) /\ arrays config /\ find config "sectors" = Some (JArray [s]) /\
  propagator_of_json b decays config = Ok [].
Proof.
  exists plain, true, (with_global [] (an_ice_ball [])), (an_ice_ball []).
  split; [apply plain_nan|]. split.
  { intros j [= <-]. eexists. split; [reflexivity|]. intros s' x [<- | []] [= <-]. eexists. reflexivity. }
  split; [reflexivity|].
  unfold propagator_of_json, settings_of_json. cbn -[cut_of_json initialize_sector].
  rewrite some_cuts_ok. reflexivity.
Qed.

Lemma ten_20 : 10 ^ 20 = 100000000000000000000.
Proof. cbn [pow]. lra. Qed.
Definition in_ball (i : R) : json := ball [("inner_radius", JFloat i)].
Lemma in_ball_described : forall i, described_body (in_ball i) (mkvec 0 0 0) (IZR 0) (Sphere (10 ^ 20) i).
Proof.
  intro i. exists origin. split; [reflexivity|]. split.
  { eexists. split; [reflexivity|]. do 3 (apply Forall2_cons; [right; exists 0%Z; split; reflexivity|]). constructor. }
  split; [reflexivity|]. exists "sphere". split; [reflexivity|]. split; [reflexivity|].
  split; [eexists; split; [reflexivity | left; reflexivity] | left; reflexivity].
Qed.
Lemma fraction_lost : exists j c h s t n, described_body j c (IZR h) s /\ (0 <= h < 2 ^ 31)%Z /\ sound s /\
  create_geometry j = Ok (mkbody n (Z.to_N h) c t) /\ t <> s.
Proof.
  exists (in_ball (21 / 2)), (mkvec 0 0 0), 0%Z, (Sphere (10 ^ 20) (21 / 2)), (Sphere (10 ^ 20) 10), "sphere".
  split; [apply in_ball_described|]. split; [lia|]. split; [cbn [sound]; rewrite ten_20; lra|]. split.
  - cbn -[pow]. unfold sphere_of_json. cbn -[pow get_int]. unfold get_int, cut_off.
    destruct (Rleb_spec 0 (21 / 2)); [|lra]. rewrite (int_part_is (21 / 2) 10) by lra. cbn -[pow].
    destruct (Rltb_spec 10 0); [lra|]. rewrite ten_20. destruct (Rltb_spec 100000000000000000000 10); [lra | reflexivity].
  - intros [= E]. lra.
Qed.
Lemma large_radius : exists j c h s, described_body j c (IZR h) s /\ (0 <= h < 2 ^ 31)%Z /\ sound s /\
  create_geometry j = UB bad_conversion.
Proof.
  exists (in_ball 3000000000), (mkvec 0 0 0), 0%Z, (Sphere (10 ^ 20) 3000000000).
  split; [apply in_ball_described|]. split; [lia|]. split; [cbn [sound]; rewrite ten_20; lra|].
  cbn -[pow]. unfold sphere_of_json. cbn -[pow get_int]. unfold get_int, cut_off.
  destruct (Rleb_spec 0 3000000000); [|lra]. rewrite (int_part_is 3000000000 3000000000) by lra. reflexivity.
Qed.
Definition at_level (z : Z) : json := ball [("hierarchy", JInt z)].
Lemma level_reversed : exists j j' c h h' s g g', described_body j c (IZR h) s /\ described_body j' c (IZR h') s /\ (h < h')%Z /\
  create_geometry j = Ok g /\ create_geometry j' = Ok g' /\ (b_hierarchy g' < b_hierarchy g)%N.
Proof.
  exists (at_level (-1)), (at_level 1), (mkvec 0 0 0), (-1)%Z, 1%Z, (Sphere (10 ^ 20) 0),
    (mkbody "sphere" 4294967295 (mkvec 0 0 0) (Sphere (10 ^ 20) 0)), (mkbody "sphere" 1 (mkvec 0 0 0) (Sphere (10 ^ 20) 0)).
  assert (D : forall z, described_body (at_level z) (mkvec 0 0 0) (IZR z) (Sphere (10 ^ 20) 0)).
  { intro z. exists origin. split; [reflexivity|]. split.
    { eexists. split; [reflexivity|]. do 3 (apply Forall2_cons; [right; exists 0%Z; split; reflexivity|]). constructor. }
    split; [right; exists z; auto|]. exists "sphere". split; [reflexivity|]. split; [reflexivity|].
    split; [eexists; split; [reflexivity | left; reflexivity] | reflexivity]. }
  split; [apply D|]. split; [apply D|]. split; [lia|].
  assert (P : 0 < 10 ^ 20) by (rewrite ten_20; lra).
  split; [|split; [|cbn; lia]].
  - cbn -[pow]. unfold sphere_of_json. cbn -[pow]. destruct (Rltb_spec 0 0); [lra|]. destruct (Rltb_spec (10 ^ 20) 0); [lra | reflexivity].
  - cbn -[pow]. unfold sphere_of_json. cbn -[pow]. destruct (Rltb_spec 0 0); [lra|]. destruct (Rltb_spec (10 ^ 20) 0); [lra | reflexivity].
Qed.
Definition thick_cylinder : json :=
  JObject [("shape", JString "cylinder"); ("origin", origin); ("outer_radius", JInt 1); ("inner_radius", JInt 2); ("height", JInt 3)].
Lemma unsound_cylinder : exists j c h s n, described_body j c (IZR h) s /\ (0 <= h < 2 ^ 31)%Z /\ whole_inner s /\ ~ sound s /\
  create_geometry j = Ok (mkbody n (Z.to_N h) c s).
Proof.
  exists thick_cylinder, (mkvec 0 0 0), 0%Z, (Cylinder 1 2 3), "cylinder". split.
  { exists origin. split; [reflexivity|]. split.
    { eexists. split; [reflexivity|]. do 3 (apply Forall2_cons; [right; exists 0%Z; split; reflexivity|]). constructor. }
    split; [reflexivity|]. exists "cylinder". split; [reflexivity|]. split; [reflexivity|].
    split; [eexists; split; [reflexivity | right; exists 1%Z; auto]|].
    split; [right; exists 2%Z; auto|]. eexists. split; [reflexivity | right; exists 3%Z; auto]. }
  split; [lia|]. split; [exists 2%Z; split; [reflexivity | lia]|]. split; [cbn; lra | reflexivity].
Qed.
Lemma unequal_bodies : exists j c s g, described_body j c (IZR 0) s /\ sound s /\ whole_inner s /\ create_geometry j = Ok g /\
  body_eqb g (from_numbers c s) = false.
Proof.
  exists (ball []), (mkvec 0 0 0), (Sphere (10 ^ 20) 0), (mkbody "sphere" 0 (mkvec 0 0 0) (Sphere (10 ^ 20) 0)). split.
  { exists origin. split; [reflexivity|]. split.
    { eexists. split; [reflexivity|]. do 3 (apply Forall2_cons; [right; exists 0%Z; split; reflexivity|]). constructor. }
    split; [reflexivity|]. exists "sphere". split; [reflexivity|]. split; [reflexivity|].
    split; [eexists; split; [reflexivity | left; reflexivity] | reflexivity]. }
  assert (S : sound (Sphere (10 ^ 20) 0)) by (cbn [sound]; rewrite ten_20; lra).
  split; [exact S|]. split; [exists 0%Z; split; [reflexivity | lia]|]. split; [apply ball_ok|].
  apply not_true_is_false. intro H. apply equal_bodies in H; [discriminate | exact S | reflexivity].
Qed.
Lemma geometry_created : forall j c h s, described_body j c (IZR h) s -> (0 <= h < 2 ^ 31)%Z -> sound s -> whole_inner s ->
  exists g, create_geometry j = Ok g /\ geometry_of g = constructed (Z.to_N h) c s /\
    (h = 0%Z -> find j "shape" = Some (JString (b_name (from_numbers c s))) -> body_eqb g (from_numbers c s) = true).
Proof.
  intros j c h s H Hh Hs Hw. destruct (created j c h s H Hh Hs Hw) as [n [Fn E]]. exists (mkbody n (Z.to_N h) c s).
  split; [exact E|]. split; [now apply of_sound|]. intros -> F. rewrite Fn in F. injection F as ->.
  apply equal_bodies; [exact Hs | reflexivity|]. now destruct s.
Qed.
Lemma polynomial_refuted : forall nan, ~ (forall j d, described_distribution nan j d -> create_distribution nan j = Ok d).
Proof.
  intros nan H.
  set (j := JObject [("type", JString "polynomial"); ("mass_density", JInt 1); ("axis_type", JString "radial"); ("fp0", origin);
                     ("coefficients", JArray [JInt 1; JInt 2])]).
  assert (D : described_distribution nan j (mkdobj (Radial (mkvec 0 0 0)) 1 (Polynomial [1; 2]))).
  { split; [eexists; split; [reflexivity | right; exists 1%Z; auto]|]. split.
    - split; [reflexivity|]. eexists. split; [reflexivity|]. eexists. split; [reflexivity|].
      apply Forall2_cons; [right; exists 1%Z; auto|]. apply Forall2_cons; [right; exists 2%Z; auto|]. constructor.
    - split; [reflexivity|]. eexists. split; [reflexivity|]. eexists. split; [reflexivity|].
      do 3 (apply Forall2_cons; [right; exists 0%Z; split; reflexivity|]). constructor. }
  apply (no_polynomial nan j _ eq_refl (H _ _ D)).
Qed.
