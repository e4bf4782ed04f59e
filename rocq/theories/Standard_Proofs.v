(** The standard cross sections. *)
From Coq Require Import String ZArith Permutation.
From Verif Require Import Prelude PreludeFacts Cross_Model Config_Model Config_Spec Catalogue_Spec Catalogue_Model Catalogue_Proofs
  Factory_Model Factory_Spec Factory_Proofs Standard_Model Standard_Spec.
Local Open Scope string_scope.
Local Open Scope list_scope.

Lemma append_iff {M X} (construct : selection M -> outcome X) l : forall xs,
  append_cross construct l = Ok xs <-> Forall2 (fun s x => construct s = Ok x) l xs.
Proof.
  induction l as [|s l IH]; intro xs; cbn.
  - split; intro H; [injection H as <-; constructor|inversion H; reflexivity].
  - rewrite bind_iff. split.
    + intros (x & Hx & H). apply bind_iff in H. destruct H as (ys & Hy & H). injection H as <-. constructor; [exact Hx|]. apply IH. exact Hy.
    + intro H. inversion H as [|a b c d A B]; subst. exists b. split; [exact A|]. apply bind_iff. exists d. split; [apply IH; exact B|reflexivity].
Qed.

(** The selections *)
Definition standard_selections {M} (d : described) (m : M) (cut : option energy_cut) (t : bool) : list (selection M) :=
  match d with
  | Electrons => [with_lpm Brems "ElectronScreening" m cut t; with_lpm Epair "ForElectronPositron" m cut t;
                  plain Ioniz "BergerSeltzerMoller" m cut t; allm97 m cut t]
  | Positrons => [with_lpm Brems "ElectronScreening" m cut t; with_lpm Epair "ForElectronPositron" m cut t;
                  plain Ioniz "BergerSeltzerBhabha" m cut t; allm97 m cut t; plain Annihilation "Heitler" m None t]
  | Muons | Taus => [with_lpm Brems "KelnerKokoulinPetrukhin" m cut t; with_lpm Epair "KelnerKokoulinPetrukhin" m cut t;
                     plain Ioniz "BetheBlochRossi" m cut t; allm97 m cut t]
  | Gamma => [with_lpm Photopair "kochmotz" m None t; plain Compton "KleinNishina" m cut t;
              plain Photoproduction "Rhode" m None t; plain Photoeffect "Sauter" m None t]
  end.
Lemma described_values type d : described_as type = Some d ->
  match d with Electrons => type = 11 | Positrons => type = -11 | Muons => type = 13 \/ type = -13 | Taus => type = 15 \/ type = -15 | Gamma => type = 22 end%Z.
Proof.
  unfold described_as. destruct (Z.eqb_spec type 11) as [E|_]; [intro H; injection H as <-; exact E|].
  destruct (Z.eqb_spec type (-11)) as [E|_]; [intro H; injection H as <-; exact E|].
  destruct (Z.eqb_spec (Z.abs type) 13) as [E|_]; [intro H; injection H as <-; lia|].
  destruct (Z.eqb_spec (Z.abs type) 15) as [E|_]; [intro H; injection H as <-; lia|].
  destruct (Z.eqb_spec type 22) as [E|_]; [intro H; injection H as <-; exact E|discriminate].
Qed.
Lemma standard_selected {M X} (construct : selection M -> outcome X) type d m cut t : described_as type = Some d -> cut <> None \/ d = Gamma ->
  standard_list construct type m cut t = append_cross construct (standard_selections d m cut t).
Proof.
  intros H C. apply described_values in H.
  destruct d; try (destruct H as [H|H]); subst type; cbn [standard_list]; try reflexivity;
    (destruct cut as [c|]; [reflexivity|destruct C as [C|C]; [contradiction|discriminate]]).
Qed.
Ltac pick l := match l with ?i :: ?r =>
  first [exists i; split; [cbn; tauto|split; [reflexivity|first [left; reflexivity|right; reflexivity]]]|pick r] end.
Ltac entry := split; [let l := eval unfold interactions in interactions in pick l|];
  split; [cbn; tauto|]; split; [apply same_lower; reflexivity|]; split; [reflexivity|]; split; [reflexivity|]; split; [reflexivity|].
Lemma selections_documented {M} d (m : M) cut t : Forall2 (stands_for_entry m cut t) (documented d) (standard_selections d m cut t).
Proof.
  destruct d; cbn [documented standard_selections]; repeat apply Forall2_cons; try apply Forall2_nil; entry;
    (split; [cbn; eauto|]; split; [reflexivity|]); cbn -[same_letters]; try reflexivity;
    (eexists; split; [reflexivity|]; split; [tauto|apply same_lower; reflexivity]).
Qed.
Lemma standard_documented type d M (m : M) cut t : described_as type = Some d -> cut <> None \/ d = Gamma ->
  exists sels, Forall2 (stands_for_entry m cut t) (documented d) sels /\
  forall X (construct : selection M -> outcome X) l, standard_list construct type m cut t = Ok l <-> Forall2 (fun s x => construct s = Ok x) sels l.
Proof.
  intros H C. exists (standard_selections d m cut t). split; [apply selections_documented|]. intros X construct l.
  rewrite (standard_selected construct type d m cut t H C). apply append_iff.
Qed.
Lemma standard_unknown type M X (construct : selection M -> outcome X) m cut t : described_as type = None ->
  standard_list construct type m cut t = Throw invalid_argument.
Proof.
  unfold described_as. destruct (Z.eqb_spec type 11) as [E|E1]; [discriminate|]. destruct (Z.eqb_spec type (-11)) as [E|E2]; [discriminate|].
  destruct (Z.eqb_spec (Z.abs type) 13) as [E|E3]; [discriminate|]. destruct (Z.eqb_spec (Z.abs type) 15) as [E|E4]; [discriminate|].
  destruct (Z.eqb_spec type 22) as [E|E5]; [discriminate|]. intros _.
  unfold standard_list. destruct type as [|p|p]; [reflexivity| |];
    repeat (destruct p as [p|p|]; try reflexivity; try (exfalso; lia)).
Qed.
Lemma standard_no_cut type d M X (construct : selection M -> outcome X) m t : described_as type = Some d -> d <> Gamma ->
  standard_list construct type m None t = UB null_deref.
Proof.
  intros H N. apply described_values in H. destruct d; try (destruct H as [H|H]); subst type; try reflexivity. contradiction.
Qed.

(** ** The same as a configuration *)
Section Configured.
Context {M X U : Type} (construct : selection M -> outcome X) (scaled : R -> X -> X) (b : builders M X U).
Hypothesis make_b : forall f m c t r o, make b f m c t r o = make_cross construct scaled f m c t r o.
Hypothesis ignores : ignores_correction construct.
Definition options (n : string) : json :=
  JObject [("parametrization", JString n); ("lpm", JBool false); ("shadow", JString "ButkevichMikheyev")].
Lemma lpm_options f m c t r n p : look_up (known f) n = Some p ->
  make_lpm construct scaled f m c t r (options n) = construct (with_lpm f p m c t).
Proof using ignores.
  intro L. unfold make_lpm, parametrization, options. cbn. unfold build. rewrite L. cbn. destruct (Reqb_spec 1 1) as [_|E]; [|contradiction E; reflexivity]. cbn.
  unfold with_lpm. rewrite (ignores f p m c t r 1%R). destruct (construct _); reflexivity.
Qed.
Lemma plain_options f m c t n p : look_up (known f) n = Some p -> (f = Ioniz -> c <> None) ->
  make_plain construct scaled f m c t (options n) = construct (plain f p m c t).
Proof.
  intros L I. unfold make_plain, parametrization, options. cbn. unfold build. rewrite L.
  assert (Q : (match f, c with Ioniz, None => UB null_deref | _, _ => Ok (mkselection f p m c t None None None) end) = Ok (plain f p m c t)).
  { destruct f, c; try reflexivity. exfalso. apply I; reflexivity. }
  rewrite Q. cbn. destruct (Reqb_spec 1 1) as [_|E]; [|contradiction E; reflexivity]. cbn. destruct (construct _); reflexivity.
Qed.
Lemma real_options m c t n : look_up (known PhotoReal) n = None -> make_real construct scaled m c t (options n) = Throw invalid_argument.
Proof. intro L. unfold make_real, parametrization, options. cbn. unfold build. rewrite L. reflexivity. Qed.
Lemma q2_options m c t : make_q2 construct scaled m c t (options "AbramowiczLevinLevyMaor97") = construct (allm97 m c t).
Proof.
  unfold make_q2, parametrization, options. cbn -[look_up shadows]. unfold build.
  change (look_up (known PhotoQ2) "AbramowiczLevinLevyMaor97") with (Some "AbramowiczLevinLevyMaor97").
  change (look_up shadows "ButkevichMikheyev") with (Some "butkevichmikheyev").
  cbn. destruct (Reqb_spec 1 1) as [_|E]; [|contradiction E; reflexivity]. cbn. unfold allm97. destruct (construct _); reflexivity.
Qed.
Lemma made_photo m c t : (match make b PhotoReal m (Some c) (Some t) None (options "AbramowiczLevinLevyMaor97") with
  | Throw invalid_argument => make b PhotoQ2 m (Some c) (Some t) None (options "AbramowiczLevinLevyMaor97") | r => r end) = construct (allm97 m (Some c) t).
Proof using make_b. rewrite !make_b. cbn [make_cross]. rewrite real_options by reflexivity. apply q2_options. Qed.
Lemma made_brems m c t r n p : look_up (known Brems) n = Some p ->
  make b Brems m (Some c) (Some t) (Some r) (options n) = construct (with_lpm Brems p m (Some c) t).
Proof using make_b ignores. intro L. rewrite make_b. apply lpm_options, L. Qed.
Lemma made_epair m c t r n p : look_up (known Epair) n = Some p ->
  make b Epair m (Some c) (Some t) (Some r) (options n) = construct (with_lpm Epair p m (Some c) t).
Proof using make_b ignores. intro L. rewrite make_b. apply lpm_options, L. Qed.
Lemma made_ioniz m c t n p : look_up (known Ioniz) n = Some p ->
  make b Ioniz m (Some c) (Some t) None (options n) = construct (plain Ioniz p m (Some c) t).
Proof using make_b. intro L. rewrite make_b. apply plain_options; [exact L|discriminate]. Qed.
Lemma made_annihilation m t n p : look_up (known Annihilation) n = Some p ->
  make b Annihilation m None (Some t) None (options n) = construct (plain Annihilation p m None t).
Proof using make_b. intro L. rewrite make_b. apply plain_options; [exact L|discriminate]. Qed.

Lemma append_has {A} l k o (build : json -> outcome A) acc : find_key l k = Some o ->
  append (JObject l) k build acc = (olet x := build o in Ok (acc ++ [x])).
Proof. intro F. unfold append, contains, item, find. rewrite F. reflexivity. Qed.
Lemma append_not {A} l k (build : json -> outcome A) acc : find_key l k = None -> append (JObject l) k build acc = Ok acc.
Proof. intro F. unfold append, contains, item, find. rewrite F. reflexivity. Qed.
Lemma obind_ret_assoc {A B C} (x : outcome A) (f : A -> outcome B) (g : B -> outcome C) :
  obind (obind x f) g = obind x (fun a => obind (f a) g).
Proof. destruct x; reflexivity. Qed.

Lemma configured m cut t r d : d <> Gamma -> cross_section_list b m cut t r (written d) =
  append_cross construct (match d with
    | Positrons => plain Annihilation "Heitler" m None t :: firstn 4 (standard_selections d m (Some cut) t)
    | _ => standard_selections d m (Some cut) t end).
Proof using make_b ignores.
  intro N. unfold cross_section_list, written. Local Opaque append.
  Local Ltac step := match goal with |- context [append (JObject ?l) ?k ?bu ?acc] =>
    let v := eval vm_compute in (find_key l k) in
    match v with
    | None => rewrite (append_not l k bu acc eq_refl)
    | Some _ => rewrite (append_has l k _ bu acc eq_refl)
    end
  end; cbn [obind List.app].
  Local Ltac done_with := match goal with |- context [construct ?s] => destruct (construct s) as [?x|?e|?u]; [|reflexivity|reflexivity] end;
    cbn [obind List.app].
  destruct d; try contradiction; cbn [documented map fst snd standard_selections firstn append_cross];
    repeat match goal with |- context [JObject [("parametrization", JString ?n); ("lpm", JBool false); ("shadow", JString "ButkevichMikheyev")]] =>
      change (JObject [("parametrization", JString n); ("lpm", JBool false); ("shadow", JString "ButkevichMikheyev")]) with (options n) end.
  - do 2 step. rewrite (made_brems _ _ _ _ "ElectronScreening" "ElectronScreening" eq_refl). done_with.
    do 2 step. rewrite (made_epair _ _ _ _ "ForElectronPositron" "ForElectronPositron" eq_refl). done_with.
    step. rewrite (made_ioniz _ _ _ "BergerSeltzerMoller" "BergerSeltzerMoller" eq_refl). done_with.
    do 2 step. rewrite made_photo. done_with. do 5 step. reflexivity.
  - step. rewrite (made_annihilation _ _ "Heitler" "Heitler" eq_refl). done_with.
    step. rewrite (made_brems _ _ _ _ "ElectronScreening" "ElectronScreening" eq_refl). done_with.
    do 2 step. rewrite (made_epair _ _ _ _ "ForElectronPositron" "ForElectronPositron" eq_refl). done_with.
    step. rewrite (made_ioniz _ _ _ "BergerSeltzerBhabha" "BergerSeltzerBhabha" eq_refl). done_with.
    do 2 step. rewrite made_photo. done_with. do 5 step. reflexivity.
  - do 2 step. rewrite (made_brems _ _ _ _ "KelnerKokoulinPetrukhin" "KelnerKokoulinPetrukhin" eq_refl). done_with.
    do 2 step. rewrite (made_epair _ _ _ _ "KelnerKokoulinPetrukhin" "KelnerKokoulinPetrukhin" eq_refl). done_with.
    step. rewrite (made_ioniz _ _ _ "BetheBlochRossi" "BetheBlochRossi" eq_refl). done_with.
    do 2 step. rewrite made_photo. done_with. do 5 step. reflexivity.
  - do 2 step. rewrite (made_brems _ _ _ _ "KelnerKokoulinPetrukhin" "KelnerKokoulinPetrukhin" eq_refl). done_with.
    do 2 step. rewrite (made_epair _ _ _ _ "KelnerKokoulinPetrukhin" "KelnerKokoulinPetrukhin" eq_refl). done_with.
    step. rewrite (made_ioniz _ _ _ "BetheBlochRossi" "BetheBlochRossi" eq_refl). done_with.
    do 2 step. rewrite made_photo. done_with. do 5 step. reflexivity.
Qed.
Lemma configured_gamma m cut t r : cross_section_list b m cut t r (written Gamma) =
  append_cross construct [plain Compton "KleinNishina" m (Some cut) t; plain Photoeffect "Sauter" m None false;
    plain Photoproduction "Rhode" m None false; with_lpm Photopair "kochmotz" m None t].
Proof using make_b ignores.
  unfold cross_section_list, written. cbn [documented map fst snd append_cross];
    repeat match goal with |- context [JObject [("parametrization", JString ?n); ("lpm", JBool false); ("shadow", JString "ButkevichMikheyev")]] =>
      change (JObject [("parametrization", JString n); ("lpm", JBool false); ("shadow", JString "ButkevichMikheyev")]) with (options n) end.
  do 3 step. rewrite make_b. cbn [make_cross].
  rewrite (plain_options Compton m (Some cut) t "KleinNishina" "KleinNishina" eq_refl) by discriminate. done_with.
  do 5 step. rewrite make_b. cbn [make_cross]. rewrite (plain_options Photoeffect m None false "Sauter" "Sauter" eq_refl) by discriminate. done_with.
  do 2 step. rewrite make_b. cbn [make_cross]. rewrite (plain_options Photoproduction m None false "Rhode" "Rhode" eq_refl) by discriminate. done_with.
  step. rewrite make_b. cbn [make_cross]. rewrite (lpm_options Photopair m None t r "KochMotz" "kochmotz" eq_refl). done_with. step. reflexivity.
Qed.

(** Reordered selections give reordered cross sections. *)
Lemma append_reordered sels sels' l : Permutation sels sels' -> append_cross construct sels = Ok l ->
  exists l', append_cross construct sels' = Ok l' /\ Permutation l l'.
Proof.
  intros P. revert l. induction P as [|s sels sels' P IH|s s' sels|sels sels' sels'' P IH P' IH']; intros l H.
  - exists l. split; [exact H|reflexivity].
  - apply append_iff in H. inversion H as [|a x c xs Hx Hs]; subst. destruct (IH xs) as (l' & E & Q); [apply append_iff; exact Hs|].
    exists (x :: l'). split; [|apply perm_skip, Q]. apply append_iff. constructor; [exact Hx|]. apply append_iff. exact E.
  - apply append_iff in H. inversion H as [|a x c xs Hx Hs]; subst. inversion Hs as [|a y c ys Hy Ht]; subst.
    exists (y :: x :: ys). split; [apply append_iff; repeat apply Forall2_cons; assumption|apply perm_swap].
  - destruct (IH l H) as (l' & E & Q). destruct (IH' l' E) as (l'' & E' & Q'). exists l''. split; [exact E'|exact (perm_trans Q Q')].
Qed.
Lemma same_configured type d m cut t r : described_as type = Some d -> d <> Gamma \/ t = false ->
  (forall l, standard_list construct type m (Some cut) t = Ok l ->
     exists l', cross_section_list b m cut t r (written d) = Ok l' /\ Permutation l l') /\
  (forall l', cross_section_list b m cut t r (written d) = Ok l' ->
     exists l, standard_list construct type m (Some cut) t = Ok l /\ Permutation l l').
Proof using make_b ignores.
  intros H N. rewrite (standard_selected construct type d m (Some cut) t H) by (left; discriminate).
  assert (E : exists sels, cross_section_list b m cut t r (written d) = append_cross construct sels /\
    Permutation (standard_selections d m (Some cut) t) sels).
  { destruct d; try (eexists; split; [apply configured; discriminate|reflexivity]).
    - eexists. split; [apply configured; discriminate|]. cbn [standard_selections firstn].
      symmetry. refine (Permutation_cons_append [_; _; _; _] _).
    - destruct N as [N|N]; [contradiction|]. subst t. eexists. split; [apply configured_gamma|]. cbn [standard_selections].
      eapply perm_trans; [refine (Permutation_cons_append [_; _; _] _)|]. cbn [List.app].
      apply perm_skip. apply perm_swap. }
  destruct E as (sels & E & P). rewrite E. split; intros l H'.
  - apply (append_reordered _ _ l P H').
  - destruct (append_reordered _ _ l (Permutation_sym P) H') as (l' & A & B). exists l'. split; [exact A|symmetry; exact B].
Qed.
End Configured.

(** With tables, the photons differ. *)
Lemma photon_tables M U scaled (b : builders M (selection M) U) m cut :
  (forall f m c t r o, make b f m c t r o = make_cross choices scaled f m c t r o) ->
  exists l l', standard_list choices 22 m (Some cut) true = Ok l /\
    (forall r, cross_section_list b m cut true r (written Gamma) = Ok l') /\
    (forall s, In s l -> s_tables s = true) /\ exists s, In s l' /\ s_factory s = Photoproduction /\ s_tables s = false.
Proof.
  intros B. eexists. eexists. split; [reflexivity|]. split.
  { intro r. rewrite (configured_gamma choices scaled b B);
      [reflexivity|]. intros f n m' c t r0 r' h w. reflexivity. }
  split; [|eexists; split; [right; right; left; reflexivity|split; reflexivity]].
  intros s S. cbn in S. repeat (destruct S as [<-|S]; [reflexivity|]). contradiction.
Qed.
