From Verif Require Import Prelude PreludeFacts Vec_Model Geometry_Model Propagator_Model Propagator_Spec Propagator_Proofs.
Require Import Arith.

Definition rows (t : track) : list row := combine (combine (tr_states t) (tr_types t)) (tr_hashes t).
Definition even_track (t : track) : Prop :=
  length (tr_types t) = length (tr_states t) /\ length (tr_hashes t) = length (tr_states t).

Lemma combine_app_eq {A B} (l1 l2 : list A) (k1 k2 : list B) :
  length l1 = length k1 -> combine (l1 ++ l2) (k1 ++ k2) = combine l1 k1 ++ combine l2 k2.
Proof.
  revert k1; induction l1 as [|a l1 IH]; intros [|b k1] H; cbn in *; try discriminate; auto.
  f_equal; apply IH; lia.
Qed.

Lemma even_push t st ty h : even_track t -> even_track (push_back t st ty h).
Proof. unfold even_track, push_back; cbn; rewrite !app_length; cbn; lia. Qed.

Lemma rows_push t st ty h : even_track t -> rows (push_back t st ty h) = rows t ++ [(st, ty, h)].
Proof.
  intros [H1 H2]; unfold rows, push_back; cbn.
  rewrite combine_app_eq by lia. rewrite combine_app_eq; [reflexivity|].
  rewrite combine_length; lia.
Qed.

Lemma rows_types t : even_track t -> map (fun r => snd (fst r)) (rows t) = tr_types t.
Proof.
  intros [H1 H2]; unfold rows. destruct t as [a b c]; cbn in *. revert b c H1 H2.
  induction a as [|x a IH]; intros [|y b] [|z c] H1 H2; cbn in *; try discriminate; auto.
  f_equal; apply IH; lia.
Qed.
Lemma rows_states t : even_track t -> map (fun r => fst (fst r)) (rows t) = tr_states t.
Proof.
  intros [H1 H2]; unfold rows. destruct t as [a b c]; cbn in *. revert b c H1 H2.
  induction a as [|x a IH]; intros [|y b] [|z c] H1 H2; cbn in *; try discriminate; auto.
  f_equal; apply IH; lia.
Qed.

Lemma itype_eqb_spec a b : reflect (a = b) (itype_eqb a b).
Proof. unfold itype_eqb; destruct (itype_eq_dec a b); constructor; auto. Qed.

Section Prop_.
Variable rs : nat -> R.
Variable sectors : list sector.

Lemma advance_iteration_sector max_steps st e_next md k a r :
  In (a_sector a) sectors ->
  advance_iteration rs sectors max_steps st e_next md k a = Ok r ->
  match r with inl a' => In (a_sector a') sectors | inr f => In (f_sector f) sectors end.
Proof.
  intros Hin H. unfold advance_iteration in H.
  apply obind_Ok in H. destruct H as ([[[[gr e] dist] c0] n0] & _ & H).
  destruct (directions_scatter _ _ _ _ _ _ _ _) as [[dirs c] n].
  apply obind_Ok in H. destruct H as ([mean new] & _ & H).
  destruct (Nat.ltb max_steps k).
  - apply obind_Ok in H; destruct H as (g' & _ & H).
    apply obind_Ok in H; destruct H as (e' & _ & H). injection H as <-; auto.
  - destruct (negb _).
    + apply obind_Ok in H; destruct H as (s' & Hs & H).
      apply obind_Ok in H; destruct H as (gn & _ & H).
      destruct (if a_backscatter a then _ else _). injection H as <-. cbn.
      eapply get_current_sector_In; eauto.
    + destruct dist as [x|]; [|injection H as <-; auto].
      destruct (_ && _ && _) in H; [injection H as <-; auto|].
      destruct (_ && _) in H; [injection H as <-; auto|].
      destruct (_ <=? _) in H; injection H as <-; auto.
Qed.

Lemma advance_loop_sector fuel max_steps st e_next md : forall k a f,
  In (a_sector a) sectors ->
  advance_loop rs sectors fuel max_steps st e_next md k a = Some (Ok f) -> In (f_sector f) sectors.
Proof.
  induction fuel as [|fuel IH]; intros k a f Hin H; cbn in H; [discriminate|].
  destruct (advance_iteration _ _ _ _ _ _ _ _) as [[a'|f']| |] eqn:E; try discriminate;
    apply advance_iteration_sector in E; auto.
  - eapply IH; eauto.
  - injection H as <-; auto.
Qed.

Lemma advance_particle_sector fuel max_steps st e_next final s mes me n st' at' s' n' :
  In s sectors ->
  advance_particle rs sectors fuel max_steps st e_next final s mes me n = Some (Ok (st', at', s', n')) ->
  In s' sectors.
Proof.
  intros Hin H. unfold advance_particle, advance_init in H.
  destruct (u_track_integral _ _ _) as [gn| |]; cbn [obind] in H; try discriminate.
  destruct (advance_loop _ _ _ _ _ _ _ _ _) as [r|] eqn:E; [|discriminate].
  injection H as H. apply obind_Ok in H. destruct H as (f & -> & H).
  apply advance_loop_sector in E; [|auto].
  unfold advance_finish in H. apply obind_Ok in H. destruct H as (dt & _ & H).
  destruct (mes && _) in H.
  - injection H as _ _ <- _; auto.
  - destruct (energy_randomize _ _ _ _ _ _ _) as [[re c'] n1] in H.
    apply obind_Ok in H. destruct H as (e' & _ & H). injection H as _ _ <- _; auto.
Qed.

(** Everything an iteration does, in one lemma. *)
Variables (fuel max_steps : nat) (max_distance min_energy : R) (cond : N).
Hypothesis proper : forall s, In s sectors -> proper_losses s.

Definition last_state (t : track) (st : pstate) : Prop := exists l, tr_states t = l ++ [st].

(** iteration facts *)
Lemma iteration_facts p p' ev b :
  In (p_sector p) sectors -> even_track (p_track p) ->
  propagate_iteration rs sectors fuel max_steps max_distance min_energy cond p = Some (Ok (p', ev, b)) ->
  In (p_sector p') sectors /\ even_track (p_track p') /\
  (exists r, step_rows r /\ rows (p_track p') = rows (p_track p) ++ r /\
     (Exists (fun x => snd (fst x) = DecayType) r -> b = false /\
        exists st, r = [(st, ContinuousEnergyLoss, 0%N); (st, DecayType, 0%N)])) /\
  (b = false <-> stop_reason cond ev) /\
  (b = false -> observable_stop sectors max_distance min_energy cond (p_track p')) /\
  (ev_advancement ev <> ReachedBorder -> propagated_distance (p_state p') <= max_distance) /\
  (exists st, last_state (p_track p') st /\ position st = position (p_state p') /\
     energy st = energy (p_state p') /\ time st = time (p_state p') /\
     propagated_distance st = propagated_distance (p_state p')).
Proof using proper.
  intros Hin Hev H. unfold propagate_iteration in H.
  destruct (energy_decay _ _ _ _) as [rd n1].
  destruct rd as [e_decay| |]; try discriminate.
  destruct (energy_interaction _ _ _) as [ri n2].
  destruct ri as [e_stoch| |]; try discriminate.
  cbv zeta in H.
  set (e_min := Rmax min_energy (u_lower_lim (s_utility (p_sector p)))) in *.
  set (k := maximize e_decay e_min e_stoch) in *.
  set (e_next := match k with Decay => e_decay | MinimalE => e_min | Stochastic => e_stoch end) in *.
  destruct (advance_particle _ _ _ _ _ _ _ _ _ _ _) as [[[[[st1 at1] s1] n3]| |]|] eqn:Ea; try discriminate.
  assert (Hs1 := advance_particle_sector _ _ _ _ _ _ _ _ _ _ _ _ _ Hin Ea).
  apply c04_legal in Ea. destruct Ea as (mean & dist & border & e_step & g_step & x_step & [Hpos Hprop] & _ & Hb & _ & _ & Hcase).
  injection H as H.
  set (t1 := push_back (p_track p) st1 ContinuousEnergyLoss 0) in *.
  assert (Ht1 : even_track t1) by (apply even_push; auto).
  assert (Hr1 : rows t1 = rows (p_track p) ++ [(st1, ContinuousEnergyLoss, 0%N)]) by (apply rows_push; auto).
  assert (Hl1 : last_state t1 st1) by (eexists; reflexivity).
  destruct at1.
  - (* ReachedInteraction *)
    destruct Hcase as (_ & _ & Hd1 & Hd2 & Hcont & Hen).
    assert (Hle : propagated_distance st1 <= max_distance) by lra.
    destruct k eqn:Ek.
    + (* decay *)
      injection H as <- <- <-. cbn [p_sector p_track p_state p_draws ev_advancement].
      split; [auto|]. split; [apply even_push; auto|]. split; [|split; [|split; [|split]]].
      * eexists; split; [apply (with_event st1 st1 DecayType 0); auto; discriminate|].
        split; [rewrite rows_push, Hr1, <- app_assoc by auto; reflexivity|]. intros _; split; eauto.
      * unfold stop_reason; cbn; split; auto.
      * intros _. exists st1. split; [eexists; reflexivity|]. left; eexists; reflexivity.
      * auto.
      * exists st1; split; [eexists; reflexivity|]; auto.
    + (* minimal energy *)
      injection H as <- <- <-. cbn [p_sector p_track p_state p_draws ev_advancement].
      split; [auto|]. split; [auto|]. split; [|split; [|split; [|split]]].
      * eexists; split; [apply only_continuous|]. split; [eauto|].
        intros HE. inversion HE as [? ? HH|? ? HH]; subst; cbn in HH; [discriminate|inversion HH].
      * unfold stop_reason; cbn; split; auto.
      * intros _. exists st1. split; [auto|]. right; left. exists (p_sector p); split; auto.
        rewrite Hen. unfold e_next. apply Rle_refl.
      * auto.
      * exists st1; auto.
    + (* stochastic *)
      apply obind_Ok in H. destruct H as ([[st2 l] n4] & Hst & H).
      injection H as <- <- <-. cbn [p_sector p_track p_state p_draws ev_advancement].
      unfold do_stochastic_interaction in Hst. apply obind_Ok in Hst. destruct Hst as (l' & Hl & Hst).
      destruct (direction_deflect _ _ _ _ _ _ _ _) as [rd' n'].
      apply obind_Ok in Hst. destruct Hst as (d' & _ & Hst). injection Hst as <- -> <-.
      destruct (proper s1 Hs1 _ _ _ Hl) as (P1 & P2 & P3).
      set (st2 := mkpstate _ _ _ _ _) in *.
      destruct (itype_eqb_spec (loss_type l) Undefined) as [Eu|Eu].
      * assert (He : energy st2 = energy st1) by (cbn; rewrite P3 by auto; ring).
        split; [auto|]. split; [auto|]. split; [|split; [|split; [|split]]].
        -- eexists; split; [apply only_continuous|]. split; [eauto|].
           intros HE. inversion HE as [? ? HH|? ? HH]; subst; cbn in HH; [discriminate|inversion HH].
        -- unfold stop_reason; cbn [ev_kind ev_advancement ev_energy ev_min_energy].
           rewrite negb_false_iff, Rleb_true. cbn. split; intros HH; [tauto|].
           destruct HH as [[? _]|[[? _]|[?|[(_ & _ & ?)|[? _]]]]]; try discriminate; auto.
        -- rewrite negb_false_iff, Rleb_true. intros Hle'. exists st1; split; [auto|].
           right; left; exists (p_sector p); split; auto. fold e_min. rewrite <- He. exact Hle'.
        -- auto.
        -- exists st1; split; [auto|]; repeat split; cbn; auto.
      * split; [auto|]. split; [apply even_push; auto|]. split; [|split; [|split; [|split]]].
        -- eexists; split; [apply (with_event st1 st2 (loss_type l) (loss_hash l)); auto; intros; contradiction|].
           split; [rewrite rows_push, Hr1, <- app_assoc by auto; reflexivity|].
           intros HE. inversion HE as [? ? HH|? ? HH]; subst; cbn in HH; [discriminate|].
           inversion HH as [? ? HH'|? ? HH']; subst; cbn in HH'; [contradiction|inversion HH'].
        -- unfold stop_reason; cbn [ev_kind ev_advancement ev_energy ev_min_energy].
           rewrite negb_false_iff, Rleb_true. cbn. split; intros HH; [tauto|].
           destruct HH as [[? _]|[[? _]|[?|[(_ & _ & ?)|[? _]]]]]; try discriminate; auto.
        -- rewrite negb_false_iff, Rleb_true. intros Hle'. exists st2; split; [eexists; reflexivity|].
           right; left; exists (p_sector p); split; auto.
        -- auto.
        -- exists st2; split; [eexists; reflexivity|]; auto.
  - (* ReachedMaxDistance *)
    injection H as <- <- <-. cbn [p_sector p_track p_state p_draws ev_advancement].
    destruct Hcase as (Hd1 & Hd2 & Hcont).
    split; [auto|]. split; [auto|]. split; [|split; [|split; [|split]]].
    + eexists; split; [apply only_continuous|]. split; [eauto|].
      intros HE. inversion HE as [? ? HH|? ? HH]; subst; cbn in HH; [discriminate|inversion HH].
    + unfold stop_reason; cbn; split; auto.
    + intros _. exists st1. split; [auto|]. right; right; left. lra.
    + intros _. lra.
    + exists st1; auto.
  - (* ReachedBorder *)
    apply obind_Ok in H. destruct H as (s2 & Hs2 & H). injection H as <- <- <-. cbn [p_sector p_track p_state p_draws ev_advancement].
    split; [eapply get_current_sector_In; eauto|]. split; [auto|]. split; [|split; [|split; [|split]]].
    + eexists; split; [apply only_continuous|]. split; [eauto|].
      intros HE. inversion HE as [? ? HH|? ? HH]; subst; cbn in HH; [discriminate|inversion HH].
    + unfold stop_reason; cbn. rewrite negb_false_iff, andb_true_iff, !N.ltb_lt.
      split; intros HH; [tauto|].
      destruct HH as [[_ ?]|[[_ ?]|[?|[(_ & ? & _)|[_ ?]]]]]; try discriminate; auto.
    + rewrite negb_false_iff, andb_true_iff, !N.ltb_lt. intros [_ Hc].
      exists st1; split; [auto|]. right; right; right. exists s2; split; auto.
      apply get_current_sector_spec; auto.
    + intros []; auto.
    + exists st1; auto.
Qed.

Lemma loop_facts outer : forall p p' evs,
  In (p_sector p) sectors -> even_track (p_track p) ->
  propagate_loop rs sectors outer fuel max_steps max_distance min_energy cond p = Some (Ok (p', evs)) ->
  even_track (p_track p') /\
  (exists steps, steps <> [] /\ Forall step_rows steps /\ rows (p_track p') = rows (p_track p) ++ concat steps /\
     forall l1 x l2, concat steps = l1 ++ x :: l2 -> snd (fst x) = DecayType -> l2 = []) /\
  (exists pre last, evs = pre ++ [last] /\ stop_reason cond last /\ Forall (fun e => ~ stop_reason cond e) pre /\
     (ev_advancement last <> ReachedBorder -> propagated_distance (p_state p') <= max_distance)) /\
  observable_stop sectors max_distance min_energy cond (p_track p') /\
  (exists st, last_state (p_track p') st /\ 
     propagated_distance st = propagated_distance (p_state p')).
Proof using proper.
  induction outer as [|outer IH]; intros p p' evs Hin Hev H; cbn in H; [discriminate|].
  destruct (propagate_iteration _ _ _ _ _ _ _ _) as [[[[p1 ev] b]| |]|] eqn:E; try discriminate.
  - apply iteration_facts in E; auto.
    destruct E as (F1 & F2 & (r & R1 & R2 & R3) & F4 & F5 & F6 & F7).
    destruct b.
    + destruct (propagate_loop _ _ _ _ _ _ _ _ _) as [[[p2 evs2]| |]|] eqn:E2; try discriminate.
      injection H as <- <-. specialize (IH _ _ _ F1 F2 E2).
      destruct IH as (I1 & (steps & S0 & S1 & S2 & S3) & (pre & last & L1 & L2 & L3 & L4) & I4 & I5).
      split; [auto|]. split; [|split; [|split]]; auto.
      * exists (r :: steps). split; [discriminate|]. split; [constructor; auto|]. split.
        -- cbn. rewrite S2, R2, app_assoc; reflexivity.
        -- cbn. intros l1 x l2 Hl Hx.
           assert (Hnot : ~ In x r).
           { intros Hx'. destruct R3 as [R3 _]; [|discriminate].
             apply Exists_exists. exists x; auto. }
           clear - Hl Hnot S3 Hx.
           revert l1 Hl. induction r as [|y r IHr]; intros l1 Hl; cbn in Hl.
           ++ eapply S3; eauto.
           ++ destruct l1 as [|z l1]; cbn in Hl; injection Hl as Hy Hl.
              ** exfalso; apply Hnot; left; auto.
              ** eapply IHr; eauto. intros Hn; apply Hnot; right; auto.
      * exists (ev :: pre), last. subst evs2. repeat split; auto.
        constructor; auto. intros Hs. apply F4 in Hs. discriminate.
    + injection H as <- <-. split; [auto|]. split; [|split; [|split]]; auto.
      * exists [r]. split; [discriminate|]. split; [constructor; auto|]. cbn; rewrite app_nil_r. split; [auto|].
        intros l1 x l2 Hl Hx.
        destruct R3 as [_ [st ->]]; [apply Exists_exists; exists x; split; auto; rewrite Hl; apply in_elt|].
        destruct l1 as [|a l1]; cbn in Hl; injection Hl as Ha Hl.
        -- subst x; discriminate.
        -- destruct l1 as [|a' l1]; cbn in Hl; injection Hl as Ha' Hl; auto.
           destruct l1; discriminate.
      * exists [], ev. repeat split; auto. apply F4; auto.
      * destruct F7 as (st & K1 & _ & _ & _ & K5). exists st; auto.
Qed.

Lemma init_facts st p :
  propagate_init sectors st = Ok p ->
  In (p_sector p) sectors /\ even_track (p_track p) /\ rows (p_track p) = [(st, ContinuousEnergyLoss, 0%N)] /\
  p_state p = st.
Proof.
  unfold propagate_init. intros H. apply obind_Ok in H. destruct H as (s & Hs & H).
  injection H as <-. cbn. split; [eapply get_current_sector_In; eauto|].
  repeat split.
Qed.
End Prop_.

Section Final.
Variable rs : nat -> R.
Variable sectors : list sector.
Hypothesis proper : forall s, In s sectors -> proper_losses s.

Lemma propagate_events_loop fuel max_steps st md me cond t evs :
  propagate_events rs sectors fuel max_steps st md me cond = Some (Ok (t, evs)) ->
  exists p p', propagate_init sectors st = Ok p /\
    propagate_loop rs sectors fuel (S max_steps) max_steps md me cond p = Some (Ok (p', evs)) /\ t = p_track p'.
Proof using.
  unfold propagate_events. intros H. destruct (propagate_init sectors st) as [p| |]; try discriminate.
  destruct (propagate_loop _ _ _ _ _ _ _ _ _) as [[[p' evs']| |]|] eqn:E; try discriminate.
  injection H as <- <-. eauto.
Qed.

Lemma propagate_has_events fuel max_steps st md me cond t :
  propagate rs sectors fuel max_steps st md me cond = Some (Ok t) ->
  exists evs, propagate_events rs sectors fuel max_steps st md me cond = Some (Ok (t, evs)).
Proof using.
  unfold propagate. destruct (propagate_events _ _ _ _ _ _ _ _) as [[[t' evs]| |]|]; try discriminate.
  intros H; injection H as <-; eauto.
Qed.

Lemma c06_shape fuel max_steps st md me cond t :
  propagate rs sectors fuel max_steps st md me cond = Some (Ok t) -> well_shaped st t.
Proof using proper.
  intros H. apply propagate_has_events in H. destruct H as (evs & H).
  apply propagate_events_loop in H. destruct H as (p & p' & Hi & Hl & ->).
  apply init_facts in Hi. destruct Hi as (I1 & I2 & I3 & I4).
  apply loop_facts in Hl; auto. destruct Hl as (L1 & (steps & S0 & S1 & S2 & S3) & _ & _ & _).
  rewrite I3 in S2. destruct L1 as [L1 L2]. repeat split; auto.
  - exists steps; auto.
  - intros i Hi.
    assert (Hrt := rows_types (p_track p') (conj L1 L2)).
    rewrite <- Hrt in *. rewrite S2 in *. cbn [app map] in *.
    destruct i as [|i]; cbn in Hi; [discriminate|].
    cbn [length]. f_equal.
    apply nth_error_split in Hi. destruct Hi as (l1 & l2 & E & <-).
    rewrite E, app_length; cbn.
    assert (l2 = []) as ->; [|cbn; lia].
    clear - E S3.
    revert E S3. generalize (concat steps) as c; intros c E S3.
    assert (exists c1 x c2, c = c1 ++ x :: c2 /\ snd (fst x) = DecayType /\ map (fun r => snd (fst r)) c2 = l2) as (c1 & x & c2 & Ec & Ex & Em).
    { clear S3. revert l1 E. induction c as [|y c IH]; intros [|z l1] E; cbn in E; try discriminate; injection E as E1 E2.
      - exists [], y, c; repeat split; auto.
      - destruct (IH _ E2) as (c1 & x & c2 & -> & ? & ?). exists (y :: c1), x, c2; auto. }
    rewrite (S3 _ _ _ Ec Ex) in Em. cbn in Em; auto.
Qed.

Lemma c07_events fuel max_steps st md me cond t :
  propagate rs sectors fuel max_steps st md me cond = Some (Ok t) ->
  exists pre last,
    propagate_events rs sectors fuel max_steps st md me cond = Some (Ok (t, pre ++ [last])) /\
    stop_reason cond last /\ Forall (fun e => ~ stop_reason cond e) pre.
Proof using proper.
  intros H. apply propagate_has_events in H. destruct H as (evs & H).
  assert (H' := H).
  apply propagate_events_loop in H. destruct H as (p & p' & Hi & Hl & ->).
  apply init_facts in Hi. destruct Hi as (I1 & I2 & I3 & I4).
  apply loop_facts in Hl; auto. destruct Hl as (_ & _ & (pre & last & -> & E2 & E3 & _) & _).
  exists pre, last; auto.
Qed.

Lemma c07_observable fuel max_steps st md me cond t :
  propagate rs sectors fuel max_steps st md me cond = Some (Ok t) ->
  observable_stop sectors md me cond t.
Proof using proper.
  intros H. apply propagate_has_events in H. destruct H as (evs & H).
  apply propagate_events_loop in H. destruct H as (p & p' & Hi & Hl & ->).
  apply init_facts in Hi. destruct Hi as (I1 & I2 & I3 & I4).
  apply loop_facts in Hl; auto. destruct Hl as (_ & _ & _ & Ho & _). exact Ho.
Qed.

Lemma c05_partial fuel max_steps st md me cond t pre last st' l :
  propagate_events rs sectors fuel max_steps st md me cond = Some (Ok (t, pre ++ [last])) ->
  tr_states t = l ++ [st'] ->
  ev_advancement last <> ReachedBorder -> propagated_distance st' <= md.
Proof using proper.
  intros H Ht Ha.
  apply propagate_events_loop in H. destruct H as (p & p' & Hi & Hl & ->).
  apply init_facts in Hi. destruct Hi as (I1 & I2 & I3 & I4).
  apply loop_facts in Hl; auto. destruct Hl as (_ & _ & (pre' & last' & E1 & E2 & E3 & E4) & _ & (s2 & (l' & Hl') & E5)).
  apply app_inj_tail in E1. destruct E1 as [-> ->].
  rewrite Hl' in Ht. apply app_inj_tail in Ht. destruct Ht as [_ <-].
  rewrite E5; auto.
Qed.
End Final.
