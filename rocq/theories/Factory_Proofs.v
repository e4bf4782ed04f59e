From Coq Require Import String Ascii Lra Lia.
From Verif Require Import Prelude PreludeFacts Vec_Model Propagator_Model Secondaries_Model Deflection_Model Cross_Model Config_Model
  Config_Spec Deflection_Spec Deflection_Proofs Deflector_Proofs Particle_Model Limits_Model Catalogue_Model Catalogue_Spec Catalogue_Proofs Factory_Model Factory_Spec.
Local Open Scope string_scope.
Local Open Scope list_scope.

(** ** Options *)
Lemma value_iff {A} (get : json -> outcome A) (reads : json -> A -> Prop) :
  (forall j a, get j = Ok a <-> reads j a) ->
  forall config k d a, value get config k d = Ok a <-> is_object config = true /\ optional config k reads d a.
Proof.
  intros Hg config k d a. unfold value, optional. destruct (is_object config); [|split; [discriminate | intros [[=] _]]].
  destruct (find config k) as [j|].
  - rewrite Hg. tauto.
  - split; [intros [= <-]; auto | intros [_ ->]; reflexivity].
Qed.
Lemma get_bool_iff j b : get_bool j = Ok b <-> boolean j b.
Proof. unfold boolean. destruct j; cbn; split; intros H; try discriminate; injection H as ->; reflexivity. Qed.
Lemma get_double_iff j x : get_double j = Ok x <-> real j x.
Proof.
  unfold real, Config_Spec.number. destruct j; cbn; split; try discriminate; try (intros [H | [z [H _]]]; discriminate).
  - intros [= <-]. right. eauto.
  - intros [H | [z' [[= ->] ->]]]; [discriminate | reflexivity].
  - intros [= ->]. left. reflexivity.
  - intros [[= ->] | [z' [H _]]]; [reflexivity | discriminate].
Qed.
Lemma get_string_iff j s : get_string j = Ok s <-> text j s.
Proof. unfold text. destruct j; cbn; split; intros H; try discriminate; injection H as ->; reflexivity. Qed.
Definition bool_value := value_iff get_bool boolean get_bool_iff.
Definition real_value := value_iff get_double real get_double_iff.
Definition text_value := value_iff get_string text get_string_iff.
Lemma found_object config k j : find config k = Some j -> is_object config = true.
Proof. destruct config; cbn; try discriminate. reflexivity. Qed.
Lemma bind_iff {A B} (o : outcome A) (f : A -> outcome B) b : obind o f = Ok b <-> exists a, o = Ok a /\ f a = Ok b.
Proof.
  destruct o; cbn; split; [eauto | intros [? [[= ->] H]]; exact H | discriminate | intros [? [[=] _]] | discriminate | intros [? [[=] _]]].
Qed.
Lemma parametrization_iff config s : parametrization config = Ok s <-> find config "parametrization" = Some (JString s).
Proof.
  unfold parametrization, contains, item. destruct config; cbn [find]; cbn; try (split; discriminate).
  destruct (find_key l "parametrization") as [j|]; cbn; [|split; discriminate].
  rewrite get_string_iff. unfold text. split; [intros ->; reflexivity | intros [= ->]; reflexivity].
Qed.
Lemma look_up_some keys s p : look_up keys s = Some p -> In p keys /\ same_letters s p.
Proof.
  intros H. apply find_some in H as [I E]. apply String.eqb_eq in E. split; [exact I|]. now apply same_lower.
Qed.
Lemma look_up_found keys s p : NoDup (map lower keys) -> In p keys -> same_letters s p -> look_up keys s = Some p.
Proof.
  intros D I E. apply same_lower in E. unfold look_up. induction keys as [|q keys IH]; [contradiction|].
  cbn [List.find]. destruct I as [->|I].
  - rewrite E, String.eqb_refl. reflexivity.
  - cbn in D. inversion D as [|? ? N D']; subst. destruct (String.eqb_spec (lower q) (lower s)) as [Q|_].
    + exfalso. apply N. rewrite Q, E. apply in_map, I.
    + apply IH; assumption.
Qed.
Fixpoint all_distinct (l : list string) : bool :=
  match l with [] => true | s :: l' => negb (existsb (String.eqb s) l') && all_distinct l' end.
Lemma all_distinct_sound l : all_distinct l = true -> NoDup l.
Proof.
  induction l as [|s l IH]; cbn; [constructor|]. intros H. apply andb_prop in H as [N D]. constructor; [|auto].
  intros I. apply Bool.negb_true_iff in N. rewrite <- Bool.not_true_iff_false in N. apply N. apply existsb_exists. exists s.
  split; [exact I | apply String.eqb_refl].
Qed.
Lemma known_distinct f : NoDup (map lower (known f)).
Proof. apply all_distinct_sound. destruct f; reflexivity. Qed.
Lemma shadows_distinct : NoDup (map lower shadows).
Proof. apply all_distinct_sound. reflexivity. Qed.
Lemma known_available f p : In p (known f) <-> In p (available f).
Proof. destruct f; cbn; tauto. Qed.

Section Factories.
Context {M X : Type} (construct : selection M -> outcome X) (scaled : R -> X -> X).
Lemma build_iff f unknown config n sel y :
  find config "parametrization" = Some (JString n) ->
  build construct scaled f unknown config n sel = Ok y <->
  exists p s x, In p (available f) /\ same_letters n p /\ sel p = Ok s /\ construct s = Ok x /\ with_multiplier scaled config x y.
Proof.
  intros Hn. unfold build. split.
  - destruct (look_up (known f) n) as [p|] eqn:E; [|discriminate]. apply look_up_some in E as [I E].
    intros H. apply bind_iff in H as [s [Hs H]]. apply bind_iff in H as [x [Hx H]]. apply bind_iff in H as [k [Hk H]].
    exists p, s, x. split; [now apply known_available|]. split; [exact E|]. split; [exact Hs|]. split; [exact Hx|].
    apply real_value in Hk as [_ Hk]. exists k. split; [exact Hk|].
    destruct (Reqb_spec k 1) as [->|N]; cbn in H; injection H as <-; auto.
  - intros [p [s [x [I [E [Hs [Hx [k [Hk Hy]]]]]]]]].
    rewrite (look_up_found _ _ p (known_distinct f) (proj2 (known_available f p) I) E). rewrite Hs. cbn. rewrite Hx. cbn.
    rewrite (proj2 (real_value config "multiplier" 1 k) (conj (found_object _ _ _ Hn) Hk)). cbn.
    destruct (Reqb_spec k 1) as [->|N]; cbn; destruct Hy as [[H ->]|[H ->]]; congruence.
Qed.

Definition offered (f : factory) (m : M) (cuts : energy_cut) (tables : bool) (correction : R) (config : json) : outcome X :=
  make_cross construct scaled f m (when (has_cuts f) cuts) (when (has_tables f) tables) (when (has_lpm f) correction) config.
Definition result f m cuts tables correction config y :=
  exists sel x, selected f m cuts tables correction config sel /\ construct sel = Ok x /\ with_multiplier scaled config x y.

Lemma lpm_iff f m c t r config y : has_lpm f = true -> has_hard f = false -> has_shadow f = false -> has_tables f = true ->
  make_lpm construct scaled f m (when (has_cuts f) c) t r config = Ok y <-> result f m c t r config y.
Proof.
  intros L H S T. unfold make_lpm. rewrite bind_iff. split.
  - intros [n [Hn H']]. apply parametrization_iff in Hn. apply bind_iff in H' as [l [Hl H']].
    apply (build_iff f logic_error config n _ y Hn) in H' as [p [s [x [I [E [[= <-] [Hx Hy]]]]]]].
    apply bool_value in Hl as [_ Hl].
    exists (mkselection f p m (when (has_cuts f) c) t (Some (l, r)) None None), x. split; [|auto].
    unfold selected. rewrite L, H, S, T. cbn. repeat split; auto. { exists n. auto. } exists l. auto.
  - intros [[f' p m' c' t' l' h' w'] [x [Hs [Hx Hy]]]]. unfold selected in Hs. rewrite L, H, S, T in Hs. cbn in Hs.
    destruct Hs as [-> [-> [[n [Hn [I E]]] [-> [-> [[l [-> Hl]] [-> ->]]]]]]].
    exists n. split; [now apply parametrization_iff|].
    rewrite (proj2 (bool_value config "lpm" true l) (conj (found_object _ _ _ Hn) Hl)). cbn [obind].
    apply (build_iff f logic_error config n _ y Hn). exists p, (mkselection f p m (when (has_cuts f) c) t (Some (l, r)) None None), x.
    repeat split; auto.
Qed.
Lemma plain_iff f m c t r config y : has_lpm f = false -> has_hard f = false -> has_shadow f = false ->
  make_plain construct scaled f m (when (has_cuts f) c) (if has_tables f then t else false) config = Ok y <->
  result f m c t r config y.
Proof.
  intros L H S. unfold make_plain. rewrite bind_iff. 
  assert (E' : forall p, match f, when (has_cuts f) c with
                    | Ioniz, None => UB null_deref
                    | _, _ => Ok (mkselection f p m (when (has_cuts f) c) (if has_tables f then t else false) None None None)
                    end = Ok (mkselection f p m (when (has_cuts f) c) (if has_tables f then t else false) None None None)).
  { intros p. destruct f; reflexivity. }
  split.
  - intros [n [Hn H']]. apply parametrization_iff in Hn.
    apply (build_iff f logic_error config n _ y Hn) in H' as [p [s [x [I [E [Hs [Hx Hy]]]]]]].
    rewrite E' in Hs. injection Hs as <-.
    exists (mkselection f p m (when (has_cuts f) c) (if has_tables f then t else false) None None None), x. split; [|auto].
    unfold selected. rewrite L, H, S. cbn. repeat split; auto. exists n. auto.
  - intros [[f' p m' c' t' l' h' w'] [x [Hs [Hx Hy]]]]. unfold selected in Hs. rewrite L, H, S in Hs. cbn in Hs.
    destruct Hs as [-> [-> [[n [Hn [I E]]] [-> [-> [-> [-> ->]]]]]]].
    exists n. split; [now apply parametrization_iff|].
    apply (build_iff f logic_error config n _ y Hn).
    exists p, (mkselection f p m (when (has_cuts f) c) (if has_tables f then t else false) None None None), x.
    rewrite E'. repeat split; auto.
Qed.
Lemma real_iff m c t r config y : make_real construct scaled m (Some c) t config = Ok y <-> result PhotoReal m c t r config y.
Proof.
  unfold make_real. rewrite bind_iff. split.
  - intros [n [Hn H']]. apply parametrization_iff in Hn. apply bind_iff in H' as [l [Hl H']].
    apply (build_iff PhotoReal invalid_argument config n _ y Hn) in H' as [p [s [x [I [E [[= <-] [Hx Hy]]]]]]].
    apply bool_value in Hl as [_ Hl].
    exists (mkselection PhotoReal p m (Some c) t None (Some l) None), x. split; [|auto].
    unfold selected. cbn [has_lpm has_hard has_shadow has_cuts has_tables s_factory s_medium s_name s_cuts s_tables s_lpm s_hard s_shadow].
    repeat split; auto. { exists n. auto. } exists l. auto.
  - intros [[f' p m' c' t' l' h' w'] [x [Hs [Hx Hy]]]]. unfold selected in Hs.
    cbn [has_lpm has_hard has_shadow has_cuts has_tables s_factory s_medium s_name s_cuts s_tables s_lpm s_hard s_shadow] in Hs.
    destruct Hs as [-> [-> [[n [Hn [I E]]] [-> [-> [-> [[l [-> Hl]] ->]]]]]]].
    exists n. split; [now apply parametrization_iff|].
    rewrite (proj2 (bool_value config "hard_component" true l) (conj (found_object _ _ _ Hn) Hl)). cbn [obind].
    apply (build_iff PhotoReal invalid_argument config n _ y Hn).
    exists p, (mkselection PhotoReal p m (Some c) t None (Some l) None), x.
    repeat split; auto.
Qed.
Lemma q2_iff m c t r config y : make_q2 construct scaled m (Some c) t config = Ok y <-> result PhotoQ2 m c t r config y.
Proof.
  unfold make_q2. rewrite bind_iff. split.
  - intros [n [Hn H']]. apply parametrization_iff in Hn. apply bind_iff in H' as [l [Hl H']].
    apply (build_iff PhotoQ2 invalid_argument config n _ y Hn) in H' as [p [s [x [I [E [Hs [Hx Hy]]]]]]].
    apply text_value in Hl as [_ Hl].
    destruct (look_up shadows l) as [w|] eqn:W; [|discriminate]. injection Hs as <-. apply look_up_some in W as [IW EW].
    exists (mkselection PhotoQ2 p m (Some c) t None None (Some w)), x. split; [|auto].
    unfold selected. cbn [has_lpm has_hard has_shadow has_cuts has_tables s_factory s_medium s_name s_cuts s_tables s_lpm s_hard s_shadow].
    repeat split; auto. { exists n. auto. } exists w, l. auto.
  - intros [[f' p m' c' t' l' h' w'] [x [Hs [Hx Hy]]]]. unfold selected in Hs.
    cbn [has_lpm has_hard has_shadow has_cuts has_tables s_factory s_medium s_name s_cuts s_tables s_lpm s_hard s_shadow] in Hs.
    destruct Hs as [-> [-> [[n [Hn [I E]]] [-> [-> [-> [-> [w [l [-> [Hl [IW EW]]]]]]]]]]]].
    exists n. split; [now apply parametrization_iff|].
    rewrite (proj2 (text_value config "shadow" "ButkevichMikheyev" l) (conj (found_object _ _ _ Hn) Hl)). cbn [obind].
    apply (build_iff PhotoQ2 invalid_argument config n _ y Hn).
    exists p, (mkselection PhotoQ2 p m (Some c) t None None (Some w)), x.
    rewrite (look_up_found _ _ w shadows_distinct IW EW). repeat split; auto.
Qed.
Lemma offered_iff f m c t r config y : offered f m c t r config = Ok y <-> result f m c t r config y.
Proof.
  destruct f; unfold offered; cbn [has_cuts has_tables has_lpm when make_cross].
  - exact (plain_iff Annihilation m c t r config y eq_refl eq_refl eq_refl).
  - exact (lpm_iff Brems m c t r config y eq_refl eq_refl eq_refl eq_refl).
  - exact (plain_iff Compton m c t r config y eq_refl eq_refl eq_refl).
  - exact (lpm_iff Epair m c t r config y eq_refl eq_refl eq_refl eq_refl).
  - exact (plain_iff Ioniz m c t r config y eq_refl eq_refl eq_refl).
  - exact (plain_iff Mupair m c t r config y eq_refl eq_refl eq_refl).
  - apply real_iff.
  - apply q2_iff.
  - exact (plain_iff Photoeffect m c t r config y eq_refl eq_refl eq_refl).
  - exact (plain_iff Photomupair m c t r config y eq_refl eq_refl eq_refl).
  - exact (plain_iff Photoproduction m c t r config y eq_refl eq_refl eq_refl).
  - exact (lpm_iff Photopair m c t r config y eq_refl eq_refl eq_refl eq_refl).
  - exact (plain_iff Weak m c t r config y eq_refl eq_refl eq_refl).
Qed.
(** The options determine the cross section *)
Lemma available_same f p q s : In p (available f) -> In q (available f) -> same_letters s p -> same_letters s q -> p = q.
Proof.
  intros Ip Iq Ep Eq. apply known_available in Ip, Iq.
  pose proof (look_up_found _ _ _ (known_distinct f) Ip Ep) as A. pose proof (look_up_found _ _ _ (known_distinct f) Iq Eq) as B. congruence.
Qed.

Lemma offered_defined f m c t r config u : (forall sel u, construct sel <> UB u) -> offered f m c t r config <> UB u.
Proof.
  intros Hc.
  assert (B : forall f unknown n sel, (forall p u, sel p <> UB u) -> forall u, build construct scaled f unknown config n sel <> UB u).
  { intros f' unknown n sel Hs u'. unfold build. destruct (look_up (known f') n) as [p|]; [|discriminate].
    specialize (Hs p). destruct (sel p) as [s| |]; cbn; [|discriminate|destruct (Hs _ eq_refl)].
    specialize (Hc s). destruct (construct s) as [x| |]; cbn; [|discriminate|destruct (Hc _ eq_refl)].
    assert (V : forall v, value get_double config "multiplier" 1 <> UB v).
    { intros v. unfold value. destruct (is_object config); [|discriminate]. destruct (find config "multiplier") as [j|]; [destruct j|]; discriminate. }
    destruct (value get_double config "multiplier" 1) as [k| |]; cbn; [|discriminate|destruct (V _ eq_refl)]. destruct (negb _); discriminate. }
  assert (P : forall (k : string -> outcome X), (forall n u, k n <> UB u) -> forall u, (olet n := parametrization config in k n) <> UB u).
  { intros k Hk u'. unfold parametrization, contains, item. destruct config; cbn; try discriminate.
    destruct (find_key l "parametrization") as [j|]; cbn; [|discriminate]. destruct j; cbn; try discriminate. apply Hk. }
  assert (V : forall A (get : json -> outcome A) (d : A) (key : string) (k : A -> outcome X), (forall j u, get j <> UB u) -> (forall a u, k a <> UB u) -> forall u,
    (olet a := value get config key d in k a) <> UB u).
  { intros A get d key k Hg Hk u'. unfold value. destruct (is_object config); [|discriminate].
    destruct (find config key) as [j|]; cbn; [|apply Hk]. specialize (Hg j). destruct (get j); cbn; [apply Hk|discriminate|destruct (Hg _ eq_refl)]. }
  assert (Gb : forall j u, get_bool j <> UB u) by (intros []; discriminate).
  assert (Gs : forall j u, get_string j <> UB u) by (intros []; discriminate).
  destruct f; unfold offered; cbn [has_cuts has_tables has_lpm when make_cross]; unfold make_plain, make_lpm, make_real, make_q2;
    apply P; intros n u'; try (apply B; intros; discriminate); try (apply V; [assumption|]; intros a u''; apply B; intros p v; try discriminate;
      destruct (look_up shadows a); discriminate).
Qed.
Lemma offered_keys f m c t r config config' : agree cross_keywords config config' ->
  offered f m c t r config = offered f m c t r config'.
Proof.
  intros [O K]. assert (Hp := K "parametrization" ltac:(cbn; tauto)). assert (Hm := K "multiplier" ltac:(cbn; tauto)).
  assert (Hl := K "lpm" ltac:(cbn; tauto)). assert (Hh := K "hard_component" ltac:(cbn; tauto)). assert (Hw := K "shadow" ltac:(cbn; tauto)).
  assert (P : parametrization config = parametrization config').
  { unfold parametrization, contains. rewrite Hp. destruct (find config' "parametrization") as [j|] eqn:E; cbn [negb]; [|reflexivity].
    destruct config, config'; cbn in Hp, E, O |- *; try discriminate. rewrite Hp, E. reflexivity. }
  assert (B : forall f unknown n sel, build construct scaled f unknown config n sel = build construct scaled f unknown config' n sel).
  { intros. unfold build, value. rewrite O, Hm. reflexivity. }
  destruct f; unfold offered; cbn [has_cuts has_tables has_lpm when make_cross]; unfold make_plain, make_lpm, make_real, make_q2; rewrite P;
    destruct (parametrization config'); cbn [obind]; try reflexivity; rewrite ?B; try reflexivity; unfold value; rewrite ?O, ?Hl, ?Hh, ?Hw; try reflexivity;
    match goal with |- obind ?o _ = _ => destruct o; cbn [obind]; [apply B | reflexivity | reflexivity] end.
Qed.

(** In the list of a configuration *)
Lemma real_or_q2 p : In p (available PhotoReal) -> forall q, In q (available PhotoQ2) -> lower p <> lower q.
Proof. intros I q J. cbn in I, J. repeat (destruct I as [<-|I]; [repeat (destruct J as [<-|J]; [discriminate|]); contradiction|]). contradiction. Qed.
Lemma real_refuses m c t r config p : asked_for config (available PhotoQ2) p ->
  (exists h, optional config "hard_component" boolean true h) <-> offered PhotoReal m c t r config = Throw invalid_argument.
Proof.
  intros [s [Hs [I E]]]. unfold offered. cbn [has_cuts has_tables has_lpm when make_cross]. unfold make_real.
  rewrite (proj2 (parametrization_iff config s) Hs). cbn [obind].
  assert (L : look_up (known PhotoReal) s = None).
  { destruct (look_up (known PhotoReal) s) as [q|] eqn:L; [|reflexivity]. exfalso. apply look_up_some in L as [J F].
    apply known_available in J. apply same_lower in E, F. apply (real_or_q2 q J p I). congruence. }
  pose proof (found_object _ _ _ Hs) as O. split.
  - intros [h Hh]. rewrite (proj2 (bool_value config "hard_component" true h) (conj O Hh)). cbn [obind]. unfold build. rewrite L. reflexivity.
  - destruct (value get_bool config "hard_component" true) as [h|e|e] eqn:V; cbn [obind]; try discriminate.
    + intros _. exists h. now apply bool_value in V.
    + unfold value in V. rewrite O in V. destruct (find config "hard_component") as [j|]; [|discriminate]. destruct j; cbn in V; try discriminate V; injection V as <-; discriminate.
Qed.
Section Builders.
Context {U : Type} (b : builders M X U) (Hb : forall f m c t r o, make b f m c t r o = make_cross construct scaled f m c t r o).
Lemma made_iff i o m c t r y : In i interactions ->
  made b m c t r (i, o) y <->
  result (i_factory i) m c t r o y \/
  (i_name i = "photo" /\ (exists h, optional o "hard_component" boolean true h) /\ result PhotoQ2 m c t r o y).
Proof using Hb.
  intros I.
  assert (E : forall f, f = i_factory i \/ i_fallback i = Some f ->
    make b f m (when (i_cuts i) c) (when (i_tables i) t) (when (i_density i) r) o = offered f m c t r o).
  { intros f F. rewrite Hb. unfold offered. cbn in I.
    repeat (destruct I as [<-|I]; [cbn in F |- *; destruct F as [->|F]; [reflexivity|]; first [discriminate F | injection F as <-; reflexivity]|]). contradiction. }
  unfold made. cbn [fst snd]. rewrite (E (i_factory i)) by auto. rewrite offered_iff. split.
  - intros [H|[f [F [H1 H2]]]]; [left; exact H|]. right.
    rewrite (E f) in H2 by auto.
    assert (N : i_name i = "photo" /\ i_factory i = PhotoReal /\ f = PhotoQ2).
    { cbn in I. repeat (destruct I as [<-|I]; [cbn in F |- *; first [discriminate F | injection F as <-; auto]|]). contradiction. }
    destruct N as [N [F1 ->]]. rewrite F1 in H1. apply offered_iff in H2. split; [exact N|]. split; [|exact H2].
    destruct H2 as [sel [x [[_ [_ [A _]]] _]]]. eapply real_refuses; [exact A | exact H1].
  - intros [H|[N [Hh H]]]; [left; exact H|]. right. exists PhotoQ2.
    assert (F : i_fallback i = Some PhotoQ2 /\ i_factory i = PhotoReal).
    { cbn in I. repeat (destruct I as [<-|I]; [cbn in N |- *; first [discriminate N | auto]|]). contradiction. }
    destruct F as [F F1]. split; [exact F|]. rewrite F1, (E PhotoQ2) by auto.
    split; [|now apply offered_iff]. destruct H as [sel [x [[_ [_ [A _]]] _]]]. eapply real_refuses; [exact A | exact Hh].
Qed.
End Builders.
End Factories.

(** ** Scattering *)
Lemma lower_idem s : lower (lower s) = lower s.
Proof.
  induction s as [|c s IH]; [reflexivity|]. cbn [lower]. rewrite IH. f_equal.
  unfold lower_ascii at 2 3. destruct ((65 <=? nat_of_ascii c)%nat && (nat_of_ascii c <=? 90)%nat) eqn:E.
  - apply andb_prop in E as [A B]. apply Nat.leb_le in A, B. unfold lower_ascii.
    rewrite nat_ascii_embedding by lia. replace (nat_of_ascii c + 32 <=? 90)%nat with false by (symmetry; apply Nat.leb_gt; lia).
    rewrite Bool.andb_false_r. reflexivity.
  - unfold lower_ascii. rewrite E. reflexivity.
Qed.
Lemma lower_app s t : lower (s ++ t) = (lower s ++ lower t)%string.
Proof. induction s as [|c s IH]; [reflexivity|]. cbn. rewrite IH. reflexivity. Qed.
Lemma substring_all s n : (String.length s <= n)%nat -> substring 0 n s = s.
Proof. revert n. induction s as [|c s IH]; intros [|n] H; cbn in *; try lia; try reflexivity. rewrite IH by lia. reflexivity. Qed.
Lemma prefix_split p : forall s, prefix p s = true ->
  s = (p ++ substring (String.length p) (String.length s - String.length p) s)%string.
Proof.
  induction p as [|c p IH]; intros s H.
  - cbn [String.append String.length]. rewrite Nat.sub_0_r. symmetry. apply substring_all. lia.
  - destruct s as [|d s]; [discriminate|]. cbn [prefix] in H. destruct (ascii_dec c d) as [->|]; [|discriminate].
    cbn [String.length String.append Nat.sub substring]. f_equal. apply IH, H.
Qed.

Lemma multiple_iff s ms : multiple_of s = Ok ms <-> reads_multiple (JString s) ms.
Proof.
  split.
  - unfold multiple_of, find_in, multiple_table. cbn [List.find fst snd]. intros H.
    assert (R : forall k, lower s = lower (multiple_name k) -> ms = match k with NoScattering => None | _ => Some k end -> reads_multiple (JString s) ms).
    { intros k E N. exists s, k. split; [reflexivity|]. split; [now apply same_lower|exact N]. }
    destruct (String.eqb_spec "moliere" (lower s)) as [E|_]; [cbn in H; injection H as <-; apply (R KindMoliere); [symmetry; exact E|reflexivity]|].
    destruct (String.eqb_spec "highland" (lower s)) as [E|_]; [cbn in H; injection H as <-; apply (R KindHighland); [symmetry; exact E|reflexivity]|].
    destruct (String.eqb_spec "highlandintegral" (lower s)) as [E|_]; [cbn in H; injection H as <-; apply (R KindHighlandIntegral); [symmetry; exact E|reflexivity]|].
    destruct (String.eqb_spec "noscattering" (lower s)) as [E|_]; [cbn in H; injection H as <-; apply (R NoScattering); [symmetry; exact E|reflexivity]|].
    destruct (String.eqb_spec "moliereinterpol" (lower s)) as [E|_]; [cbn in H; injection H as <-; apply (R KindMoliereInterpol); [symmetry; exact E|reflexivity]|].
    discriminate.
  - intros [s' [k [[= <-] [E ->]]]]. apply same_lower in E. unfold multiple_of. rewrite E. destruct k; reflexivity.
Qed.
Lemma deflection_of_iff s d : deflection_of s = Ok d <-> same_letters s (deflector_name d).
Proof.
  rewrite same_lower. split.
  - unfold deflection_of, find_in, deflection_table. cbn [List.find fst snd]. intros H.
    repeat match type of H with context [if String.eqb ?x (lower s) then _ else _] => destruct (String.eqb_spec x (lower s)) as [E|_]; [cbn in H; injection H as <-; symmetry; exact E|] end.
    discriminate.
  - intros E. unfold deflection_of. rewrite E. destruct d; reflexivity.
Qed.
Lemma type_named_iff s t : type_named (lower s) = Some t <-> type_called s t.
Proof.
  unfold type_named. split.
  - destruct (List.find _ type_names) as [[t' n]|] eqn:F; [|discriminate]. intros [= <-]. apply find_some in F as [I E].
    apply String.eqb_eq in E. cbn [fst snd] in *. exists n. split; [exact I|]. apply same_lower. symmetry. exact E.
  - intros [n [I E]]. apply same_lower in E. rewrite E. cbn in I.
    repeat (destruct I as [I|I]; [injection I as <- <-; reflexivity|]). contradiction.
Qed.
Lemma default_iff t d : default_deflection t = Ok d <-> standard_deflector d /\ type_of d = t.
Proof.
  unfold standard_deflector. split.
  - destruct t; try discriminate; intros [= <-]; split; auto.
  - intros [[-> | [-> | [-> | ->]]] <-]; reflexivity.
Qed.
Lemma entry_iff s d : deflection_entry (JString s) = Ok d <-> stands_for s d.
Proof.
  unfold deflection_entry. cbn [get_string obind]. unfold stands_for. split.
  - destruct (deflection_of (lower s)) as [d'|e|e] eqn:D.
    + intros [= <-]. left. apply deflection_of_iff in D. apply same_lower in D. rewrite lower_idem in D. now apply same_lower.
    + assert (e = out_of_range) as ->. { unfold deflection_of in D. destruct (find_in _ _); congruence. }
      destruct (prefix "default" (lower s)) eqn:P; [|discriminate].
      apply prefix_split in P. set (rest := substring 7 (String.length (lower s) - 7) (lower s)) in *. cbn [String.length] in P. fold rest in P.
      intros H. destruct (type_named rest) as [t|] eqn:T; [|discriminate]. apply default_iff in H as [S <-]. right. split; [exact S|].
      assert (R : lower rest = rest).
      { pose proof (lower_idem s) as I. rewrite P in I. rewrite lower_app in I. cbn in I. now injection I. }
      rewrite <- R in T. apply type_named_iff in T as [n [I E]]. exists n. split; [exact I|]. apply same_lower. rewrite lower_app, P.
      apply same_lower in E. rewrite <- E, R. reflexivity.
    + unfold deflection_of in D. destruct (find_in _ _); discriminate.
  - intros [E | [S [n [I E]]]].
    + apply same_lower in E. rewrite E. destruct d; reflexivity.
    + apply same_lower in E. rewrite E. clear E. destruct S as [-> | [-> | [-> | ->]]]; cbn in I;
        repeat (destruct I as [I|I]; [first [discriminate I | injection I as <-; reflexivity]|]); contradiction.
Qed.
Lemma entries_iff js : forall ds, deflection_entries js = Ok ds <-> Forall2 (fun j d => exists s, j = JString s /\ stands_for s d) js ds.
Proof.
  induction js as [|j js IH]; intros ds; cbn [deflection_entries].
  - split; [intros [= <-]; constructor | intros H; inversion H; reflexivity].
  - rewrite bind_iff. split.
    + intros [d [D H]]. apply bind_iff in H as [ds' [E [= <-]]]. constructor; [|now apply IH].
      destruct j; try discriminate. exists s. split; [reflexivity|]. now apply entry_iff.
    + intros H. inversion H as [|? d ? ds' [s [-> D]] F]; subst. exists d. split; [now apply entry_iff|].
      apply bind_iff. exists ds'. split; [now apply IH|reflexivity].
Qed.
Lemma factors_iff l : forall ks, deflection_factors l = Ok ks <->
  Forall2 (fun p q => type_called (fst p) (fst q) /\ real (snd p) (snd q)) l ks.
Proof.
  induction l as [|[k j] l IH]; intros ks; cbn [deflection_factors].
  - split; [intros [= <-]; constructor | intros H; inversion H; reflexivity].
  - split.
    + destruct (type_named (lower k)) as [t|] eqn:T; [|discriminate]. intros H. apply bind_iff in H as [x [D H]].
      apply bind_iff in H as [r [E [= <-]]]. constructor; [|now apply IH]. cbn. split; [now apply type_named_iff | now apply get_double_iff].
    + intros H. inversion H as [|? [t x] ? ks' [T D] F]; subst. cbn in T, D. rewrite (proj2 (type_named_iff k t) T).
      rewrite (proj2 (get_double_iff j x) D). cbn [obind]. rewrite (proj2 (IH ks') F). reflexivity.
Qed.
Lemma parts_iff config ms k ds ks : well_shaped config ->
  scattering_parts config = Ok (ms, k, ds, ks) <-> scattering_read config ms k ds ks.
Proof.
  intros [Sd Sk]. unfold scattering_parts, scattering_read.
  destruct (is_object config) eqn:O.
  2: { split; [|intros [[=] _]]. intros H. exfalso. apply bind_iff in H as [ms' [_ H]]. apply bind_iff in H as [k' [H _]].
       unfold value in H. rewrite O in H. discriminate. }
  assert (I : forall key j, find config key = Some j -> item config key = Ok j).
  { intros key j H. destruct config; try discriminate. cbn in *. rewrite H. reflexivity. }
  assert (A1 : forall v, (if contains config "multiple_scattering" then olet j := item config "multiple_scattering" in olet s := get_string j in multiple_of s
              else Ok None) = Ok v <-> optional config "multiple_scattering" reads_multiple None v).
  { intros v. unfold contains, optional. destruct (find config "multiple_scattering") as [j|] eqn:E.
    - rewrite (I _ _ E). cbn [obind]. destruct j; cbn [get_string obind];
        try (split; [discriminate | intros [? [? [[=] _]]]]). apply multiple_iff.
    - split; [intros [= <-]; reflexivity | intros ->; reflexivity]. }
  assert (A3 : forall v, (if contains config "stochastic_deflection" then olet j := at_key config "stochastic_deflection" in deflection_entries (elements j)
              else Ok []) = Ok v <-> optional config "stochastic_deflection" reads_deflections [] v).
  { intros v. unfold contains, optional, at_key. destruct (find config "stochastic_deflection") as [j|] eqn:E.
    - cbn [obind]. destruct (Sd j eq_refl) as [l ->]. cbn [elements]. rewrite entries_iff. split; [intros H; exists l; auto | intros [l' [[= <-] H]]; exact H].
    - split; [intros [= <-]; reflexivity | intros ->; reflexivity]. }
  assert (A4 : forall v, (if contains config "stochastic_deflection_multiplier" then olet j := item config "stochastic_deflection_multiplier" in deflection_factors (items j)
              else Ok []) = Ok v <-> optional config "stochastic_deflection_multiplier" reads_factors [] v).
  { intros v. unfold contains, optional. destruct (find config "stochastic_deflection_multiplier") as [j|] eqn:E.
    - rewrite (I _ _ E). cbn [obind]. destruct (Sk j eq_refl) as [l ->]. cbn [items]. rewrite factors_iff. split; [intros H; exists l; auto | intros [l' [[= <-] H]]; exact H].
    - split; [intros [= <-]; reflexivity | intros ->; reflexivity]. }
  split.
  - intros H. apply bind_iff in H as [ms' [H1 H]]. apply bind_iff in H as [k' [H2 H]]. apply bind_iff in H as [ds' [H3 H]].
    apply bind_iff in H as [ks' [H4 [= <- <- <- <-]]]. apply A1 in H1. apply real_value in H2 as [_ H2]. apply A3 in H3. apply A4 in H4. auto.
  - intros [_ [H1 [H2 [H3 H4]]]]. rewrite (proj2 (A1 ms) H1). cbn [obind].
    rewrite (proj2 (real_value config _ 1 k) (conj O H2)). cbn [obind]. rewrite (proj2 (A3 ds) H3). cbn [obind]. rewrite (proj2 (A4 ks) H4). reflexivity.
Qed.

Section Scattering.
Context (nan : forall A, outcome A) (multiple : multiple_kind -> R -> R -> R -> list R -> outcome offset)
  (charge : N -> outcome R) (m : R).
Let read := scattering_of_json nan multiple charge m.
Lemma read_iff config sc : well_shaped config -> read config = Ok sc <->
  exists ms k ds ks, scattering_read config ms k ds ks /\ sc = make_scattering nan (option_map multiple ms) charge m ds k ks.
Proof.
  intros W. unfold read, scattering_of_json. rewrite bind_iff. split.
  - intros [[[[ms k] ds] ks] [P [= <-]]]. exists ms, k, ds, ks. split; [now apply parts_iff | reflexivity].
  - intros [ms [k [ds [ks [P ->]]]]]. exists (ms, k, ds, ks). split; [now apply parts_iff | reflexivity].
Qed.
Lemma read_parts config sc ms k ds ks : well_shaped config -> read config = Ok sc -> scattering_read config ms k ds ks ->
  sc = make_scattering nan (option_map multiple ms) charge m ds k ks.
Proof.
  intros W H P. apply parts_iff in P; [|exact W]. unfold read, scattering_of_json in H. rewrite P in H. cbn in H. now injection H.
Qed.
Lemma read_deflection config sc ms k ds ks t d q : well_shaped config -> read config = Ok sc -> scattering_read config ms k ds ks ->
  last_for ds t d -> factor_for ks t q ->
  exists f, sc_stochastic sc t = Some (required d, f) /\ forall e_i e_f rnd c,
    f e_i e_f rnd c = (olet a := deflection nan charge m d e_i e_f rnd c in Ok (fst a * q, snd a)).
Proof.
  intros W H P L F. rewrite (read_parts _ _ _ _ _ _ W H P). clear H P.
  destruct (sc_stochastic (make_scattering nan (option_map multiple ms) charge m ds k ks) t) as [[n f]|] eqn:E.
  - destruct (stochastic_query nan _ charge m ds k ks t n f E) as [d' [L' [-> Hf]]].
    assert (d' = d) as ->.
    { destruct L as [b1 [a1 [E1 [T1 N1]]]], L' as [b2 [a2 [E2 [T2 N2]]]]. subst ds. clear -E2 T1 T2 N1 N2.
      revert b2 E2. induction b1 as [|x b1 IH]; intros [|y b2] E2; cbn in E2.
      - now injection E2.
      - injection E2 as -> ->. exfalso. apply (N1 d'); [apply in_or_app; right; left; reflexivity | exact T2].
      - injection E2 as -> <-. exfalso. apply (N2 d); [apply in_or_app; right; left; reflexivity | exact T1].
      - injection E2 as _ E2. now apply (IH b2). }
    exists f. split; [reflexivity|]. intros. apply Hf, F.
  - exfalso. rewrite stochastic_none in E. destruct L as [b1 [a1 [-> [T1 _]]]]. apply (E d); [apply in_or_app; right; left; reflexivity | exact T1].
Qed.
Lemma read_no_deflection config sc ms k ds ks t : well_shaped config -> read config = Ok sc -> scattering_read config ms k ds ks ->
  sc_stochastic sc t = None <-> forall d, In d ds -> type_of d <> t.
Proof. intros W H P. rewrite (read_parts _ _ _ _ _ _ W H P). apply stochastic_none. Qed.
Lemma read_multiple config sc ms k ds ks : well_shaped config -> read config = Ok sc -> scattering_read config ms k ds ks ->
  match ms with
  | None => sc_multiple sc = None
  | Some q => exists g, sc_multiple sc = Some g /\ forall grammage e_i e_f rnd,
      g grammage e_i e_f rnd = (olet o := multiple q grammage e_i e_f rnd in Ok (mkoffset (o_sx o * k) (o_sy o * k) (o_tx o * k) (o_ty o * k)))
  end.
Proof.
  intros W H P. rewrite (read_parts _ _ _ _ _ _ W H P). destruct ms as [q|]; [|reflexivity].
  destruct (multiple_query nan (multiple q) charge m ds k ks) as [g [E Hg]]. exists g. split; [exact E | exact Hg].
Qed.
Lemma read_keys config config' : agree scattering_keywords config config' -> read config = read config'.
Proof.
  intros [O K]. unfold read, scattering_of_json. enough (scattering_parts config = scattering_parts config') as ->; [reflexivity|].
  assert (H1 := K "multiple_scattering" ltac:(cbn; tauto)). assert (H2 := K "multiple_scattering_multiplier" ltac:(cbn; tauto)).
  assert (H3 := K "stochastic_deflection" ltac:(cbn; tauto)). assert (H4 := K "stochastic_deflection_multiplier" ltac:(cbn; tauto)).
  assert (I : forall k j, find config k = Some j -> find config' k = Some j -> item config k = item config' k).
  { intros k j A B. destruct config, config'; try discriminate. cbn in *. rewrite A, B. reflexivity. }
  assert (S : forall A (k : string) (g : json -> outcome A) (d : A), find config k = find config' k ->
    (if contains config k then olet j := item config k in g j else Ok d) = (if contains config' k then olet j := item config' k in g j else Ok d)).
  { intros A k g d E. unfold contains. rewrite E. destruct (find config' k) as [j|] eqn:E'; [|reflexivity]. rewrite (I k j) by congruence. reflexivity. }
  unfold scattering_parts. rewrite (S _ _ _ _ H1). unfold value. rewrite O, H2. rewrite (S _ _ _ _ H4). unfold contains at 2 6. unfold at_key. rewrite H3. reflexivity.
Qed.
End Scattering.

(** Defaults *)
Lemma default_found s d : standard_deflector d -> (exists n, In (type_of d, n) type_names /\ same_letters s ("Default" ++ n)) ->
  deflection_entry (JString s) = Ok d.
Proof. intros S [n H]. apply entry_iff. right. eauto. Qed.
Lemma default_missing : exists t n, In (t, n) type_names /\ t = Propagator_Model.MuPair /\
  forall s, same_letters s ("Default" ++ n) -> deflection_entry (JString s) = Throw logic_error.
Proof.
  exists Propagator_Model.MuPair, "MuPair". split; [cbn; tauto|]. split; [reflexivity|]. intros s E. apply same_lower in E.
  unfold deflection_entry. cbn [get_string obind]. rewrite E. reflexivity.
Qed.
(** Factors are not checked *)
Lemma mean_positive : epair_mean (10000 / 1000) (lost_part MMU 10000 6000) <> 0.
Proof.
  unfold epair_mean. assert (L : 0 < lost_part MMU 10000 6000 < 1).
  { unfold lost_part, MMU. split; [apply Rdiv_lt_0_compat; lra | apply Rcomplements.Rlt_div_l; lra]. }
  assert (L' : 4 / 10 < lost_part MMU 10000 6000) by (unfold lost_part, MMU; apply Rcomplements.Rlt_div_r; lra).
  set (nu := lost_part MMU 10000 6000) in *. replace (10000 / 1000)%R with 10%R by field.
  assert (0 < ln 10) by (rewrite <- ln_1; apply ln_increasing; lra).
  apply Rgt_not_eq. repeat apply Rmult_lt_0_compat; try apply Rinv_0_lt_compat; try lra.
  - unfold ME; lra.
  - unfold ME; lra.
  - apply Rmin_glb_lt; [|lra]. pose proof (exp_pos (1 / 4 * ln nu)) as P. fold (Rpower nu (1 / 4)) in P.
    apply Rplus_lt_0_compat; [repeat apply Rmult_lt_0_compat; lra|]. apply Rmult_lt_0_compat; [lra|]. apply Rdiv_lt_0_compat; lra.
Qed.
Lemma angle_beyond : forall (nan : forall A, outcome A) multiple charge c, exists config sc f r0 theta,
  well_shaped config /\ scattering_of_json nan multiple charge MMU config = Ok sc /\
  sc_stochastic sc Propagator_Model.Epair = Some (2%nat, f) /\ 0 <= r0 < 1 /\
  deflection nan charge MMU EpairGinneken 10000 6000 [r0; 1 / 2] c = Ok (1, 2 * PI * (1 / 2)) /\
  f 10000 6000 [r0; 1 / 2] c = Ok (theta, 2 * PI * (1 / 2)) /\ PI < theta.
Proof.
  intros nan multiple charge c.
  set (config := JObject [("stochastic_deflection", JArray [JString "DefaultEpair"]); ("stochastic_deflection_multiplier", JObject [("Epair", JInt 5)])]).
  destruct (epair_any nan MMU 10000 6000 1 (1 / 2)) as [r0 [R0 D]]; [unfold MMU; lra | lra | exact mean_positive | lra|].
  exists config. eexists _, _, r0, 5.
  split; [split; intros j H; cbn in H; injection H as <-; eauto|].
  split; [reflexivity|]. split; [reflexivity|]. split; [exact R0|].
  split; [exact D|]. split.
  - change (deflection nan charge MMU EpairGinneken 10000 6000 [r0; 1 / 2] c) with (epair_ginneken nan MMU 10000 6000 [r0; 1 / 2]).
    cbn [deflection]. rewrite D. cbn [obind fst snd scale_deflect type_of itype_eqb]. unfold itype_eqb. destruct (itype_eq_dec _ _) as [_|N]; [|destruct N; reflexivity].
    f_equal. f_equal. lra.
  - pose proof PI_4. lra.
Qed.
Lemma negative_accepted : exists f config k, k < 0 /\ optional config "multiplier" real 1 k /\
  forall M X (construct : selection M -> outcome X) scaled m c t r, (forall sel, exists x, construct sel = Ok x) ->
  exists x, make_cross construct scaled f m (when (has_cuts f) c) (when (has_tables f) t) (when (has_lpm f) r) config = Ok (scaled k x).
Proof.
  exists Ioniz, (JObject [("parametrization", JString "BetheBlochRossi"); ("multiplier", JInt (-1))]), (-1).
  split; [lra|]. split; [right; exists (-1)%Z; auto|]. intros M X construct scaled m c t r H.
  destruct (H (mkselection Ioniz "BetheBlochRossi" m (Some c) t None None None)) as [x Hx]. exists x.
  change (make_cross construct scaled Ioniz m (when (has_cuts Ioniz) c) (when (has_tables Ioniz) t) (when (has_lpm Ioniz) r)
    (JObject [("parametrization", JString "BetheBlochRossi"); ("multiplier", JInt (-1))])) with
    (olet x := construct (mkselection Ioniz "BetheBlochRossi" m (Some c) t None None None) in
     if negb (IZR (-1) =? 1)%R then Ok (scaled (IZR (-1)) x) else Ok x).
  rewrite Hx. cbn [obind]. destruct (Reqb_spec (IZR (-1)) 1) as [E|_]; [lra|]. reflexivity.
Qed.
Lemma shape_ignored : exists config s, find config "stochastic_deflection" = Some (JString s) /\
  forall nan multiple charge m, exists sc, scattering_of_json nan multiple charge m config = Ok sc /\ sc_stochastic sc Propagator_Model.Ioniz <> None.
Proof.
  exists (JObject [("stochastic_deflection", JString "IonizNaive")]), "IonizNaive". split; [reflexivity|].
  intros. eexists. split; [reflexivity|]. cbn. discriminate.
Qed.
Lemma scattering_defined nan multiple charge m config u : scattering_of_json nan multiple charge m config <> UB u.
Proof.
  assert (Bd : forall A B (o : outcome A) (f : A -> outcome B), (forall u, o <> UB u) -> (forall a u, f a <> UB u) -> forall u, obind o f <> UB u).
  { intros A B o f Ho Hf v. destruct o; cbn; [apply Hf | discriminate | destruct (Ho _ eq_refl)]. }
  assert (G1 : forall j u, get_string j <> UB u) by (intros []; discriminate).
  assert (G2 : forall j u, get_double j <> UB u) by (intros []; discriminate).
  assert (Df : forall t u, default_deflection t <> UB u) by (intros [] v; discriminate).
  assert (Dd : forall s u, deflection_of s <> UB u) by (intros s v; unfold deflection_of; destruct (find_in _ _); discriminate).
  assert (E : forall j u, deflection_entry j <> UB u).
  { intros j. unfold deflection_entry. apply Bd; [apply G1|]. intros s v. specialize (Dd (lower s)). destruct (deflection_of (lower s)) as [d|e|e]; [discriminate| |destruct (Dd _ eq_refl)].
    destruct e; try discriminate. destruct (prefix _ _); [|discriminate]. destruct (type_named _); [apply Df|discriminate]. }
  assert (Es : forall l u, deflection_entries l <> UB u).
  { induction l as [|j l IH]; intros v; cbn [deflection_entries]; [discriminate|]. apply Bd; [apply E|]. intros d. apply Bd; [apply IH|]. discriminate. }
  assert (Fs : forall l u, deflection_factors l <> UB u).
  { induction l as [|[k j] l IH]; intros v; cbn [deflection_factors]; [discriminate|]. destruct (type_named _); [|discriminate].
    apply Bd; [apply G2|]. intros d. apply Bd; [apply IH|]. discriminate. }
  assert (I : forall k (A : Type) (g : json -> outcome A) d, (forall j u, g j <> UB u) -> forall u,
    (if contains config k then olet j := item config k in g j else Ok d) <> UB u).
  { intros k A g d Hg v. unfold contains. destruct config; cbn; try discriminate. destruct (find_key l k); cbn; [apply Hg | discriminate]. }
  unfold scattering_of_json, scattering_parts. apply Bd; [|intros [[[? ?] ?] ?]; discriminate].
  apply Bd; [apply I; intros j; apply Bd; [apply G1|]; intros s v; unfold multiple_of; destruct (find_in _ _) as [[]|]; discriminate|]. intros ms.
  apply Bd; [intros v; unfold value; destruct (is_object config); [|discriminate]; destruct (find config _); [apply G2|discriminate]|]. intros k.
  apply Bd; [intros v; unfold contains, at_key; destruct (find config _); cbn; [apply Es|discriminate]|]. intros ds.
  apply Bd; [apply I; intros j; apply Fs|]. discriminate.
Qed.
Lemma hard_component_blocks : exists o, forall M X U (construct : selection M -> outcome X) scaled (b : builders M X U),
  (forall f m c t r o, make b f m c t r o = make_cross construct scaled f m c t r o) ->
  forall m cuts tables correction, (exists sel, selected PhotoQ2 m cuts tables correction o sel) /\
  forall i y, In i interactions -> i_name i = "photo" -> ~ made b m cuts tables correction (i, o) y.
Proof.
  exists (JObject [("parametrization", JString "AbtFT"); ("hard_component", JInt 1)]).
  intros M X U construct scaled b Hb m cuts tables correction. split.
  - exists (mkselection PhotoQ2 "AbtFT" m (Some cuts) tables None None (Some "butkevichmikheyev")). unfold selected. cbn.
    repeat split. { exists "AbtFT". cbn. repeat split; auto. tauto. }
    exists "butkevichmikheyev", "ButkevichMikheyev". split; [reflexivity|]. split; [reflexivity|]. split; [auto|]. now apply (same_lower "ButkevichMikheyev").
  - intros i y I N H. apply (made_iff construct scaled b Hb i _ m cuts tables correction y I) in H as [[sel [x [S _]]]|[_ [[h Hh] _]]]; [|discriminate].
    assert (F : i_factory i = PhotoReal).
    { cbn in I. repeat (destruct I as [<-|I]; [cbn in N |- *; first [discriminate N | reflexivity]|]). contradiction. }
    rewrite F in S. destruct S as [_ [_ [[s [[= <-] [J E]]] _]]]. apply same_lower in E. cbn in J.
    repeat (destruct J as [J|J]; [rewrite <- J in E; discriminate|]). contradiction.
Qed.
