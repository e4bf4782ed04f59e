(** Density objects (C50, C51). *)
From Verif Require Import Prelude PreludeFacts Vec_Model Geometry_Model Propagator_Model Function_Model Spline_Model
  Math_Model Density_Model DensityObj_Model DensityObj_Spec.

(** ** Comparison *)
Lemma vec_eqb_true a b : vec_eqb a b = true -> a = b.
Proof.
  unfold vec_eqb. intros H. apply andb_true_iff in H as [H H3]. apply andb_true_iff in H as [H1 H2].
  apply Reqb_true in H1, H2, H3. destruct a, b. cbn in *. congruence.
Qed.
Lemma poly_eqb_true c d : poly_eqb c d = true -> c = d.
Proof.
  revert d. induction c as [|a c IH]; intros [|b d] H; cbn in H; try discriminate; auto.
  apply andb_true_iff in H as [H1 H2]. apply Reqb_true in H1. f_equal; auto.
Qed.
Lemma c50_equal x y : density_eqb x y = true -> parallel (do_axis x) (do_axis y) ->
  same_pointees (do_kind x) (do_kind y) -> forall nan, density_of nan x = density_of nan y.
Proof.
  intros H HP HS nan. unfold density_eqb in H. apply andb_true_iff in H as [H H3]. apply andb_true_iff in H as [H1 H2].
  apply vec_eqb_true in H1. apply Reqb_true in H2.
  assert (HA : do_axis x = do_axis y).
  { destruct (do_axis x), (do_axis y); cbn in *; subst; auto; contradiction. }
  unfold density_of. rewrite HA, H2. destruct (do_kind x) as [|s d|c|p i sp], (do_kind y) as [|s' d'|c'|p' i' sp']; cbn in H3; try discriminate; auto.
  - apply andb_true_iff in H3 as [A B]. apply Reqb_true in A, B. subst. auto.
  - apply poly_eqb_true in H3. subst. auto.
  - apply andb_true_iff in H3 as [A B]. apply Nat.eqb_eq in A, B. cbn in HS. rewrite (HS A). auto.
Qed.
Lemma c50_refuted : exists x y, density_eqb x y = true /\ do_kind x = Exponential 1 0 /\
  forall nan, exists dx dy p, density_of nan x = Ok dx /\ density_of nan y = Ok dy /\ d_evaluate dx p <> d_evaluate dy p.
Proof.
  exists (mkdobj (Cartesian (mkvec 1 0 0) (mkvec 0 0 0)) 1 (Exponential 1 0)),
         (mkdobj (Cartesian (mkvec 0 0 1) (mkvec 0 0 0)) 1 (Exponential 1 0)).
  split.
  { unfold density_eqb, vec_eqb. cbn. destruct (Reqb_spec 0 0); [|lra]. destruct (Reqb_spec 1 1); [|lra]. auto. }
  split; auto. intros nan. eexists _, _, (mkvec 1 0 0). split; [reflexivity|]. split; [reflexivity|].
  cbn. unfold exponential_depth. cbn. unfold dot, vsub. cbn. intros E.
  replace ((1 * (1 - 0) + 0 * (0 - 0) + 0 * (0 - 0) - 0) / 1) with 1 in E by field.
  replace ((0 * (1 - 0) + 0 * (0 - 0) + 1 * (0 - 0) - 0) / 1) with 0 in E by field.
  rewrite exp_0 in E. pose proof (exp_ineq1 1 ltac:(lra)). lra.
Qed.
(** A clone of a spline density equals it, an identical second construction does
    not: the pointers are compared. *)
Lemma c50_splines_refuted : exists x y, density_eqb x y = false /\ do_axis x = do_axis y /\ do_rho x = do_rho y /\
  (exists s p i q j, do_kind x = Splines p i s /\ do_kind y = Splines q j s) /\
  forall nan, density_of nan x = density_of nan y.
Proof.
  exists (mkdobj (Radial (mkvec 0 0 0)) 1 (Splines 1 2 (mkspline [[1]] [0; 1] 1))),
         (mkdobj (Radial (mkvec 0 0 0)) 1 (Splines 4 5 (mkspline [[1]] [0; 1] 1))).
  split; [unfold density_eqb; rewrite andb_comm; auto|]. split; auto. split; auto. split; [do 5 eexists; split; reflexivity|]. auto.
Qed.

(** ** Ownership *)
Lemma update_length {A} (l : list A) i v : length (update l i v) = length l.
Proof. revert i. induction l as [|a l IH]; intros [|i]; cbn; auto. Qed.
Lemma update_same {A} (l : list A) i v : (i < length l)%nat -> nth_error (update l i v) i = Some v.
Proof. revert i. induction l as [|a l IH]; intros [|i] H; cbn in *; try lia; auto. apply IH. lia. Qed.
Lemma update_other {A} (l : list A) i j v : i <> j -> nth_error (update l i v) j = nth_error l j.
Proof. revert i j. induction l as [|a l IH]; intros [|i] [|j] H; cbn; auto; try congruence. Qed.

Definition held (w : option owner) : list nat :=
  match w with Some w => ow_splines w ++ [ow_axis w] | None => [] end.
(** Every pointer of an existing object leads to a cell of its own. *)
Definition owned (m : memory) : Prop :=
  let '(h, os) := m in
  (forall i w p, nth_error os i = Some (Some w) -> In p (held (Some w)) -> nth_error h p = Some true) /\
  (forall i w, nth_error os i = Some (Some w) -> NoDup (held (Some w))) /\
  (forall i j w v p, i <> j -> nth_error os i = Some (Some w) -> nth_error os j = Some (Some v) ->
     In p (held (Some w)) -> ~ In p (held (Some v))).
(** The bookkeeping of the specification. *)
Definition tracked (m : memory) (live sp : list bool) : Prop :=
  length live = length (snd m) /\ length sp = length (snd m) /\
  forall i w, nth_error (snd m) i = Some w ->
    nth_error live i = Some (match w with Some _ => true | None => false end) /\
    forall v, w = Some v -> nth_error sp i = Some false -> ow_splines v = [].

Lemma delete_all_ok ps : forall h, NoDup ps -> (forall p, In p ps -> nth_error h p = Some true) ->
  exists h', delete_all h ps = Ok h' /\ length h' = length h /\
    (forall q, ~ In q ps -> nth_error h' q = nth_error h q).
Proof.
  induction ps as [|p ps IH]; intros h HN HA; cbn.
  - exists h. auto.
  - inversion HN as [|? ? H1 H2]; subst. unfold delete. rewrite (HA p) by (cbn; auto). cbn [obind].
    destruct (IH (update h p false) H2) as (h' & E & L & F).
    + intros q Hq. rewrite update_other; [apply HA; cbn; auto|]. intros ->. auto.
    + exists h'. split; auto. split; [rewrite L; apply update_length|].
      intros q Hq. rewrite F; [|intros HC; apply Hq; cbn; auto]. apply update_other. intros ->. apply Hq. cbn; auto.
Qed.
Lemma access_ok h ps : (forall p, In p ps -> nth_error h p = Some true) -> access h ps = Ok tt.
Proof.
  intros H. unfold access. replace (forallb (fun p => nth p h false) ps) with true; auto. symmetry.
  apply forallb_forall. intros p Hp. apply nth_error_nth. auto.
Qed.
Lemma nth_error_snoc {A} (l : list A) v i w : nth_error (l ++ [v]) i = Some w ->
  nth_error l i = Some w \/ (i = length l /\ w = v).
Proof.
  intros H. destruct (lt_dec i (length l)).
  - left. rewrite nth_error_app1 in H; auto.
  - right. rewrite nth_error_app2 in H by lia. destruct (i - length l)%nat as [|k] eqn:E; cbn in H.
    + injection H as <-. split; auto. lia.
    + destruct k; discriminate.
Qed.
Lemma owned_new h os w k : owned (h, os) -> NoDup (held (Some w)) ->
  (forall p, In p (held (Some w)) -> (length h <= p < length h + k)%nat) ->
  owned (h ++ repeat true k, os ++ [Some w]).
Proof.
  intros (O1 & O2 & O3) HN HF.
  assert (HB : forall i v p, nth_error os i = Some (Some v) -> In p (held (Some v)) -> (p < length h)%nat).
  { intros i v p Hi Hp. apply nth_error_Some. rewrite (O1 i v p); auto. discriminate. }
  split; [|split].
  - intros i v p Hi Hp. apply nth_error_snoc in Hi as [Hi|[-> Hv]].
    + rewrite nth_error_app1; eauto.
    + injection Hv as ->. apply HF in Hp. rewrite nth_error_app2 by lia.
      rewrite nth_error_repeat by lia. auto.
  - intros i v Hi. apply nth_error_snoc in Hi as [Hi|[-> Hv]]; eauto. injection Hv as ->. auto.
  - intros i j v u p Hij Hi Hj Hp Hq. apply nth_error_snoc in Hi as [Hi|[-> Hv]]; apply nth_error_snoc in Hj as [Hj|[-> Hu]].
    + apply (O3 i j v u p); auto.
    + injection Hu as ->. apply HF in Hq. apply (HB i v p) in Hi; auto. lia.
    + injection Hv as ->. apply HF in Hp. apply (HB j u p) in Hj; auto. lia.
    + lia.
Qed.
Lemma tracked_new h h' os live sp w b : tracked (h, os) live sp -> (b = false -> ow_splines w = []) ->
  tracked (h', os ++ [Some w]) (live ++ [true]) (sp ++ [b]).
Proof.
  intros (T1 & T2 & T3) HB. split; [|split]; cbn [snd] in *; try (rewrite !app_length; cbn; lia).
  intros i v Hi. apply nth_error_snoc in Hi as [Hi|[-> ->]].
  - destruct (T3 i v Hi) as [A B]. assert (i < length os)%nat by (apply nth_error_Some; congruence).
    rewrite !nth_error_app1 by lia. auto.
  - rewrite !nth_error_app2 by lia. rewrite T1, T2, Nat.sub_diag. cbn. split; auto.
    intros v [= <-] [= ->]. auto.
Qed.

Lemma c51_run ops : forall m live sp, owned m -> tracked m live sp -> proper live ops -> no_spline_copies sp ops ->
  exists m', density_run m ops = Ok m'.
Proof.
  induction ops as [|o ops IH]; intros [h os] live sp HO HT HP HC; cbn [density_run]; [eauto|].
  pose proof HO as (O1 & O2 & O3). pose proof HT as (T1 & T2 & T3). cbn [snd] in *.
  assert (HL : forall i, nth_error live i = Some true -> exists w, nth_error os i = Some (Some w)).
  { intros i Hi. destruct (nth_error os i) as [w|] eqn:E.
    - destruct (T3 i w E) as [A _]. destruct w; [eauto|congruence].
    - apply nth_error_None in E. assert (i < length live)%nat by (apply nth_error_Some; congruence). lia. }
  destruct o as [b|i|i|i]; cbn [proper no_spline_copies] in HP, HC.
  - destruct b; cbn [density_step obind].
    + apply (IH _ (live ++ [true]) (sp ++ [true])); auto.
      * apply (owned_new h os _ 3); auto; cbn.
        -- repeat constructor; cbn; intuition lia.
        -- intuition lia.
      * eapply tracked_new; eauto. discriminate.
    + apply (IH _ (live ++ [true]) (sp ++ [false])); auto.
      * apply (owned_new h os _ 1); auto; cbn.
        -- repeat constructor; cbn; intuition lia.
        -- intuition lia.
      * eapply tracked_new; eauto.
  - destruct HP as [HP1 HP2], HC as [HC1 HC2]. destruct (HL i HP1) as (w & Hw).
    cbn [density_step]. rewrite Hw. rewrite access_ok; cbn [obind].
    2:{ intros p [<-|[]]. apply (O1 i w); auto. apply in_or_app. cbn. auto. }
    destruct (T3 i _ Hw) as [_ B]. rewrite (B w eq_refl HC1).
    apply (IH _ (live ++ [true]) (sp ++ [false])); auto.
    + apply (owned_new h os _ 1); auto; cbn.
      * repeat constructor; cbn; intuition lia.
      * intuition lia.
    + eapply tracked_new; eauto.
  - destruct HP as [HP1 HP2]. destruct (HL i HP1) as (w & Hw).
    cbn [density_step]. rewrite Hw. rewrite access_ok; cbn [obind]; eauto.
    intros p Hp. apply (O1 i w); auto. apply in_or_app. destruct Hp as [<-|Hp]; cbn; auto.
  - destruct HP as [HP1 HP2]. destruct (HL i HP1) as (w & Hw).
    cbn [density_step]. rewrite Hw.
    destruct (delete_all_ok (ow_splines w ++ [ow_axis w]) h) as (h' & E & L & F).
    { apply (O2 i w Hw). } { intros p Hp. apply (O1 i w); auto. }
    rewrite E. cbn [obind].
    assert (HU : forall j v, nth_error (update os i None) j = Some (Some v) -> j <> i /\ nth_error os j = Some (Some v)).
    { intros j v Hj. destruct (Nat.eq_dec j i) as [->|Hji].
      - rewrite update_same in Hj; [discriminate|]. apply nth_error_Some. congruence.
      - rewrite update_other in Hj; auto. }
    apply (IH _ (update live i false) sp); auto.
    + split; [|split].
      * intros j v p Hj Hp. apply HU in Hj as [Hji Hj]. rewrite F; [eauto|]. apply (O3 j i v w p); auto.
      * intros j v Hj. apply HU in Hj as [Hji Hj]. eauto.
      * intros j k v u p Hjk Hj Hk. apply HU in Hj as [_ Hj]. apply HU in Hk as [_ Hk]. eauto.
    + split; [|split]; cbn [snd]; rewrite ?update_length; auto.
      intros j v Hj. destruct (Nat.eq_dec j i) as [->|Hji].
      * rewrite update_same in Hj by (apply nth_error_Some; congruence). injection Hj as <-.
        rewrite update_same; [split; auto; discriminate|]. apply nth_error_Some. congruence.
      * rewrite update_other in Hj by auto. rewrite update_other by auto. auto.
Qed.
Lemma c51_safe ops : proper [] ops -> no_spline_copies [] ops -> exists m, density_run ([], []) ops = Ok m.
Proof.
  apply c51_run.
  - split; [|split]; intros [|i]; cbn; try discriminate; intros [|j]; discriminate.
  - split; [|split]; auto. intros [|i]; discriminate.
Qed.
Lemma c51_double_free_refuted : exists ops, proper [] ops /\ density_run ([], []) ops = UB double_free /\
  ~ (exists i, In (Query i) ops).
Proof.
  exists [Create true; Clone 0; Destroy 1; Destroy 0]. split; [cbn; auto|]. split; [reflexivity|].
  intros [i H]. cbn in H. intuition discriminate.
Qed.
Lemma c51_dangling_refuted : exists ops, proper [] ops /\ density_run ([], []) ops = UB use_after_free.
Proof. exists [Create true; Clone 0; Destroy 0; Query 1]. split; [cbn; auto|reflexivity]. Qed.
