From Verif Require Import Prelude PreludeFacts Vec_Model Geometry_Model Propagator_Model Propagator_Spec.
Require Import Arith.

(** * Sector lookup (C01) *)
Lemma is_inside_contains s p d : is_inside (s_geometry s) p d = true <-> contains s p d.
Proof.
  unfold is_inside, contains.
  destruct (g_distance_to_border (s_geometry s) p d) as [a b]; cbn [fst snd].
  rewrite andb_true_iff, !Rltb_true; reflexivity.
Qed.

Lemma filter_split {A} (f : A -> bool) l l1 x l2 :
  filter f l = l1 ++ x :: l2 ->
  exists k1 k2, l = k1 ++ x :: k2 /\ filter f k1 = l1 /\ filter f k2 = l2 /\ f x = true.
Proof.
  revert l1; induction l as [|a l IH]; intros l1 H; cbn in H.
  - destruct l1; discriminate.
  - destruct (f a) eqn:E.
    + destruct l1 as [|b l1]; cbn in H; injection H as Ha Hl.
      * subst. exists [], l; repeat split; auto.
      * subst b. destruct (IH _ Hl) as (k1 & k2 & H1 & H2 & H3 & H4).
        exists (a :: k1), k2; subst; cbn; rewrite E; auto.
    + destruct (IH _ H) as (k1 & k2 & H1 & H2 & H3 & H4).
      exists (a :: k1), k2; subst; cbn; rewrite E; auto.
Qed.

Definition hlt (a b : sector) : bool := N.ltb (hierarchy a) (hierarchy b).

Lemma select_innermost sectors p d :
  match max_element hlt (filter (fun s => is_inside (s_geometry s) p d) sectors) with
  | Some s => innermost sectors p d s
  | None => forall s, In s sectors -> ~ contains s p d
  end.
Proof.
  destruct (filter _ sectors) as [|x l] eqn:E; cbn [max_element].
  - intros s Hs Hc. rewrite <- is_inside_contains in Hc.
    assert (In s []) as [] by (rewrite <- E; apply filter_In; auto).
  - destruct (max_element_from_spec hlt) with (l := l) (x := x) as (l1 & m & l2 & H1 & H2 & H3 & H4).
    + intros a; unfold hlt; apply N.ltb_irrefl.
    + unfold hlt; intros a b c; rewrite !N.ltb_lt; lia.
    + unfold hlt; intros a b c; rewrite !N.ltb_ge; lia.
    + rewrite H2. rewrite H1 in E. destruct (filter_split _ _ _ _ _ E) as (k1 & k2 & K1 & K2 & K3 & K4).
      exists k1, k2; repeat split; auto.
      * rewrite <- is_inside_contains; exact K4.
      * intros s' Hs Hc. rewrite <- is_inside_contains in Hc.
        apply N.ltb_lt. apply (H3 s'). rewrite <- K2; apply filter_In; auto.
      * intros s' Hs Hc. rewrite <- is_inside_contains in Hc.
        apply N.ltb_ge. apply (H4 s'). rewrite <- K3; apply filter_In; auto.
Qed.

Lemma innermost_unique sectors p d s s' :
  innermost sectors p d s -> innermost sectors p d s' -> s = s'.
Proof.
  intros (l1 & l2 & H1 & H2 & H3 & H4) (k1 & k2 & K1 & K2 & K3 & K4).
  rewrite K1 in H1. clear K1 sectors.
  revert k1 K3 H1; induction l1 as [|a l1 IH]; intros k1 K3 H1; destruct k1 as [|b k1];
    cbn in H1; injection H1 as Ha Hl.
  - auto.
  - subst b. assert (In s' l2) by (rewrite <- Hl; apply in_elt).
    specialize (H4 s' H K2). assert (In s (s :: k1)) as Hs by (left; auto).
    specialize (K3 s Hs H2). lia.
  - subst a. assert (In s k2) by (rewrite Hl; apply in_elt).
    specialize (K4 s H H2). assert (In s' (s' :: l1)) as Hs by (left; auto).
    specialize (H3 s' Hs K2). lia.
  - subst b. apply IH with k1; auto.
    + intros s1 Hs1; apply H3; right; auto.
    + intros s1 Hs1; apply K3; right; auto.
Qed.

Lemma get_current_sector_spec sectors p d s :
  get_current_sector sectors p d = Ok s <-> innermost sectors p d s.
Proof.
  unfold get_current_sector. fold hlt.
  pose proof (select_innermost sectors p d) as H. fold hlt in *.
  change (fun a b => (hierarchy a <? hierarchy b)%N) with hlt.
  destruct (max_element hlt _) as [m|].
  - split; intros H'.
    + injection H' as <-; auto.
    + f_equal. eapply innermost_unique; eauto.
  - split; intros H'; [discriminate|].
    destruct H' as (l1 & l2 & -> & Hc & _). exfalso; apply (H s); auto. apply in_elt.
Qed.

Lemma get_current_sector_none sectors p d :
  get_current_sector sectors p d = UB deref_end <-> (forall s, In s sectors -> ~ contains s p d).
Proof.
  unfold get_current_sector.
  pose proof (select_innermost sectors p d) as H.
  change (fun a b => (hierarchy a <? hierarchy b)%N) with hlt.
  destruct (max_element hlt _) as [m|]; split; intros H'; try discriminate; auto.
  destruct H as (l1 & l2 & -> & Hc & _). exfalso; apply (H' m); auto. apply in_elt.
Qed.

Lemma get_current_sector_total sectors p d :
  (exists s, get_current_sector sectors p d = Ok s) \/ get_current_sector sectors p d = UB deref_end.
Proof. unfold get_current_sector. destruct (max_element _ _); eauto. Qed.

Lemma secondaries_get_current_sector_eq sectors p d :
  secondaries_get_current_sector sectors p d =
  match get_current_sector sectors p d with Ok s => Ok s | _ => Throw logic_error end.
Proof.
  unfold secondaries_get_current_sector, get_current_sector.
  destruct (filter _ sectors); reflexivity.
Qed.

Lemma c01_lookup sectors p d :
  (forall s, get_current_sector sectors p d = Ok s <-> innermost sectors p d s) /\
  (forall s, secondaries_get_current_sector sectors p d = Ok s <-> innermost sectors p d s) /\
  ((forall s, In s sectors -> ~ contains s p d) ->
     get_current_sector sectors p d = UB deref_end /\
     secondaries_get_current_sector sectors p d = Throw logic_error) /\
  ((exists s, In s sectors /\ contains s p d) ->
     exists s, get_current_sector sectors p d = Ok s).
Proof.
  repeat split.
  - apply get_current_sector_spec.
  - apply get_current_sector_spec.
  - rewrite secondaries_get_current_sector_eq.
    destruct (get_current_sector sectors p d) eqn:E; try discriminate.
    intros H; injection H as <-; apply get_current_sector_spec; auto.
  - intros H; rewrite secondaries_get_current_sector_eq.
    rewrite <- get_current_sector_spec in H. rewrite H; auto.
  - apply get_current_sector_none; auto.
  - rewrite secondaries_get_current_sector_eq.
    rewrite (proj2 (get_current_sector_none _ _ _)); auto.
  - intros (s & Hs & Hc). destruct (get_current_sector_total sectors p d) as [H|H]; auto.
    rewrite get_current_sector_none in H. exfalso; eapply H; eauto.
Qed.

(** * Distance to border (C02) *)
Definition border_fold (p d : vec) (g : geometry) (acc : R) (l : list sector) : R :=
  fold_left
    (fun distance_border s =>
       let g' := s_geometry s in
       if N.ltb (g_hierarchy g) (g_hierarchy g') then
         let tmp := fst (g_distance_to_border g' p d) in
         if 0 <=? tmp then Rmin distance_border tmp else distance_border
       else distance_border) l acc.

Lemma border_fold_spec p d g l : forall acc,
  let r := border_fold p d g acc l in
  let cand x := x = acc \/ exists s, In s l /\ (g_hierarchy g < hierarchy s)%N /\
      x = fst (g_distance_to_border (s_geometry s) p d) /\ 0 <= x in
  cand r /\ forall y, cand y -> r <= y.
Proof.
  induction l as [|s l IH]; intros acc r cand; subst r cand; cbn [border_fold fold_left].
  - split; [left; reflexivity|]. intros y [->|(s & [] & _)]; lra.
  - match goal with |- context [fold_left _ l ?a] => set (acc' := a) end.
    destruct (IH acc') as [IH1 IH2]. unfold border_fold in IH1, IH2.
    match goal with |- context [fold_left ?f l acc'] => set (r := fold_left f l acc') in * end.
    assert (Hacc : (acc' = acc /\ ((g_hierarchy g < hierarchy s)%N ->
                      fst (g_distance_to_border (s_geometry s) p d) < 0 \/
                      acc <= fst (g_distance_to_border (s_geometry s) p d))) \/
                   (acc' <= acc /\ acc' = fst (g_distance_to_border (s_geometry s) p d) /\
                    0 <= acc' /\ (g_hierarchy g < hierarchy s)%N)).
    { subst acc'; cbn zeta. fold (hierarchy s).
      destruct (N.ltb_spec (g_hierarchy g) (hierarchy s)).
      - rcases.
        + unfold Rmin; destruct (Rle_dec _ _).
          * left; split; auto.
          * right; repeat split; auto; lra.
        + left; split; auto. intros; left; lra.
      - left; split; auto; intros; lia. }
    split.
    + destruct IH1 as [->|(s' & Hs' & H)].
      * destruct Hacc as [[-> _]|(_ & -> & H0 & H1)]; [left; auto|right; exists s; repeat split; auto; left; auto].
      * right; exists s'; split; [right; auto|exact H].
    + assert (Hr : r <= acc') by (apply IH2; left; auto).
      intros y [->|(s' & [<-|Hs'] & H1 & H2 & H3)].
      * destruct Hacc as [[-> _]|(? & _)]; lra.
      * destruct Hacc as [[E HH]|(HH1 & HH2 & _)]; [|lra].
        destruct (HH H1); lra.
      * apply IH2; right; exists s'; auto.
Qed.

Lemma c02_border sectors p d g x :
  calculate_distance_to_border sectors p d g = x <-> is_nearest_border sectors p d g x.
Proof.
  pose proof (border_fold_spec p d g sectors (fst (g_distance_to_border g p d))) as [H1 H2].
  unfold is_nearest_border, border_candidate.
  change (calculate_distance_to_border sectors p d g) with
    (border_fold p d g (fst (g_distance_to_border g p d)) sectors).
  split.
  - intros <-; split; auto.
  - intros [K1 K2]. apply Rle_antisym; [apply H2, K1|apply K2, H1].
Qed.

(** * Arbitration (C03) *)
Lemma c03_maximize e_decay e_min e_stoch k :
  maximize e_decay e_min e_stoch = k <-> wins e_decay e_min e_stoch k.
Proof.
  unfold maximize, wins. cbn [max_element max_element_from snd].
  split.
  - intros <- k' Hk'. revert Hk'.
    destruct (Rltb_spec e_decay e_min); cbn [snd];
      [destruct (Rltb_spec e_min e_stoch)|destruct (Rltb_spec e_decay e_stoch)];
      destruct k'; intros Hk'; try congruence; cbn [kind_energy];
      (match goal with |- ?a < ?b \/ _ =>
         destruct (Rlt_dec a b);
         [left; assumption|first [exfalso; lra | right; split; [lra|cbn; lia]]] end).
  - intros H.
    pose proof (H Decay) as HD; pose proof (H MinimalE) as HM; pose proof (H Stochastic) as HS; clear H.
    destruct (Rltb_spec e_decay e_min); cbn [snd];
      [destruct (Rltb_spec e_min e_stoch)|destruct (Rltb_spec e_decay e_stoch)];
      destruct k; auto; exfalso; cbn in *;
      repeat match goal with H : ?a <> ?b -> _ |- _ =>
        first [specialize (H ltac:(discriminate)) | clear H] end;
      repeat match goal with H : _ \/ _ |- _ => destruct H | H : _ /\ _ |- _ => destruct H end; try lra; lia.
Qed.

(** * AdvanceParticle (C04) *)
Section Adv.
Variable rs : nat -> R.
Variable sectors : list sector.

(** Loop invariant. *)
Definition step_inv (st : pstate) (e_next : R) (a : adv) : Prop :=
  u_track_integral (s_utility (a_sector a)) (energy st) e_next = Ok (a_grammage_next a) /\
  (a_energy a = -1 \/ a_energy a = e_next).

Definition consistent_ext (s : sector) (st : pstate) (e g : R) (dist : ext) : Prop :=
  match dist with PInf => True | Fin x => consistent_step s st e g x end.

Lemma correct_or_inf_consistent s st e g m dist :
  u_track_integral (s_utility s) (energy st) e = Ok g ->
  correct_or_inf (s_density s) (position st) (direction st) g m = Ok dist ->
  consistent_ext s st e g dist.
Proof.
  intros Hg. unfold correct_or_inf.
  destruct (d_correct _ _ _ _ _) as [x|[]|] eqn:E; try discriminate; intros H; injection H as <-; cbn; auto.
  left; eauto.
Qed.

Lemma propose_consistent st e_next md a g e dist c n :
  step_inv st e_next a ->
  propose rs st e_next md a = Ok (g, e, dist, c, n) -> consistent_ext (a_sector a) st e g dist.
Proof.
  intros [I1 I2]. unfold propose.
  destruct (negb (a_energy a =? -1) && ext_is (a_distance a) (-1)).
  - intros H. apply obind_Ok in H. destruct H as (g0 & Hg & H).
    apply obind_Ok in H. destruct H as (d0 & Hd & H). injection H as <- <- <- _ _.
    eapply correct_or_inf_consistent; eauto.
  - destruct ((a_energy a =? -1) && negb (ext_is (a_distance a) (-1))); [|discriminate].
    destruct (a_distance a) as [x|]; [|discriminate].
    intros H. apply obind_Ok in H. destruct H as (g0 & Hg & H).
    destruct (g0 <? a_grammage_next a).
    + apply obind_Ok in H. destruct H as (e0 & He & H). injection H as <- <- <- _ _.
      right; auto.
    + destruct (resample rs (a_cache a) (a_draws a)) as [c0 n0].
      apply obind_Ok in H. destruct H as (d0 & Hd & H). injection H as <- <- <- _ _.
      eapply correct_or_inf_consistent; eauto.
Qed.

Lemma directions_scatter_scattered s g ei ef st c n mean new c' n' :
  directions_scatter rs (s_utility s) g ei ef (direction st) c n = (Ok (mean, new), c', n') ->
  scattered s st mean new.
Proof.
  unfold directions_scatter, scattered. destruct (u_scattering (s_utility s)) as [sc|].
  - destruct (sc_multiple sc) as [ms|].
    + destruct (cached_rnds rs 4 c n) as [[l c1] n1].
      destruct (ms g ei ef l) as [o| |]; try discriminate. intros H. exists o. congruence.
    + intros H. exists (mkoffset 0 0 0 0). congruence.
  - intros H. injection H as -> -> _ _. auto.
Qed.

(** What one loop iteration guarantees when it ends the loop. *)
Definition done_ok (st : pstate) (e_next max_distance : R) (f : adv_done) : Prop :=
  exists x,
  let border := calculate_distance_to_border sectors (position st) (f_mean f) (s_geometry (f_sector f)) in
  is_nearest_border sectors (position st) (f_mean f) (s_geometry (f_sector f)) border /\
  scattered (f_sector f) st (f_mean f) (f_new f) /\
  consistent_step (f_sector f) st (f_energy f) (f_grammage f) x /\
  match f_type f with
  | ReachedInteraction =>
      f_distance f = x /\
      f_distance f <= border /\ f_distance f <= max_distance /\
      contains (f_sector f) (position st) (f_mean f) /\ f_energy f = e_next
  | ReachedMaxDistance =>
      f_distance f = x /\
      f_distance f = max_distance /\ f_distance f <= border /\
      contains (f_sector f) (position st) (f_mean f)
  | ReachedBorder => f_distance f = border /\ Rabs (x - border) <= / 1000
  end.

Lemma resolution_value : PARTICLE_POSITION_RESOLUTION = / 1000.
Proof. unfold PARTICLE_POSITION_RESOLUTION. f_equal. ring. Qed.

Lemma scattered_straight s st new mean : 
  scattered s st mean new -> u_scattering (s_utility s) = None -> mean = direction st.
Proof. unfold scattered; intros H E; rewrite E in H; apply H. Qed.

Lemma advance_iteration_done max_steps st e_next max_distance k a f :
  step_inv st e_next a ->
  advance_iteration rs sectors max_steps st e_next max_distance k a = Ok (inr f) ->
  done_ok st e_next max_distance f.
Proof.
  unfold advance_iteration. intros HI H.
  apply obind_Ok in H. destruct H as ([[[[gr e] dist] c0] n0] & HP & H).
  apply propose_consistent in HP; auto.
  destruct (directions_scatter _ _ _ _ _ _ _ _) as [[dirs c] n] eqn:ED.
  apply obind_Ok in H. destruct H as ([mean new] & -> & H).
  apply directions_scatter_scattered in ED.
  assert (B := proj1 (c02_border sectors (position st) mean (s_geometry (a_sector a)) _) eq_refl).
  destruct (Nat.ltb max_steps k).
  - apply obind_Ok in H; destruct H as (g' & Hg & H).
    apply obind_Ok in H; destruct H as (e' & He & H).
    injection H as <-. eexists. cbn. split; [exact B|]. split; [exact ED|].
    split; [right; eauto|]. split; auto. 
    match goal with |- Rabs (?a - _) <= _ => replace (a - a) with 0 by ring end.
    rewrite Rabs_R0. apply Rlt_le, Rinv_0_lt_compat; lra.
  - destruct (is_inside _ _ _) eqn:Ei; cbn [negb] in H.
    + apply is_inside_contains in Ei.
      destruct dist as [x|]; [|discriminate]. cbn [consistent_ext] in HP.
      destruct (_ && _ && _) eqn:E1.
      { injection H as <-. apply andb_true_iff in E1; destruct E1 as [E1 E2].
        apply andb_true_iff in E1; destruct E1 as [E0 E1].
        rewrite Rleb_true in *. rewrite Reqb_true in *.
        exists x. cbn. repeat (split; [solve [auto]|]). auto. }
      clear E1. destruct (_ && _) eqn:E2.
      { injection H as <-. apply andb_true_iff in E2; destruct E2 as [E2 E3].
        rewrite Rleb_true in *. rewrite Reqb_true in *.
        exists x. cbn. repeat (split; [solve [auto]|]). auto. }
      clear E2. destruct (_ <=? _) eqn:E3; [|discriminate].
      rewrite Rleb_true in E3. rewrite resolution_value in E3.
      injection H as <-. exists x. cbn. repeat (split; [solve [auto]|]). auto.
    + apply obind_Ok in H; destruct H as (s' & _ & H).
      apply obind_Ok in H; destruct H as (gn & _ & H).
      destruct (if a_backscatter a then _ else _); discriminate.
Qed.

Lemma advance_iteration_inv max_steps st e_next max_distance k a a' :
  step_inv st e_next a ->
  advance_iteration rs sectors max_steps st e_next max_distance k a = Ok (inl a') ->
  step_inv st e_next a'.
Proof.
  unfold advance_iteration. intros [I1 I2] H.
  apply obind_Ok in H. destruct H as ([[[[gr e] dist] c0] n0] & HP & H).
  destruct (directions_scatter _ _ _ _ _ _ _ _) as [[dirs c] n] eqn:ED.
  apply obind_Ok in H. destruct H as ([mean new] & -> & H).
  destruct (Nat.ltb max_steps k).
  { apply obind_Ok in H; destruct H as (g' & Hg & H).
    apply obind_Ok in H; destruct H as (e' & He & H). discriminate. }
  destruct (is_inside _ _ _); cbn [negb] in H.
  - destruct dist as [x|].
    + destruct (_ && _ && _); [discriminate|]. destruct (_ && _); [discriminate|].
      destruct (_ <=? _); [discriminate|]. injection H as <-. split; cbn; auto.
    + injection H as <-. split; cbn; auto.
  - apply obind_Ok in H; destruct H as (s' & _ & H).
    apply obind_Ok in H; destruct H as (gn & Hgn & H).
    destruct (if a_backscatter a then _ else _) as [c1 n1]. injection H as <-. split; cbn; auto.
Qed.

Lemma advance_loop_done fuel max_steps st e_next max_distance : forall k a f,
  step_inv st e_next a ->
  advance_loop rs sectors fuel max_steps st e_next max_distance k a = Some (Ok f) ->
  done_ok st e_next max_distance f.
Proof.
  induction fuel as [|fuel IH]; intros k a f HI H; cbn in H; [discriminate|].
  destruct (advance_iteration _ _ _ _ _ _ _ _) as [[a'|f']| |] eqn:E; try discriminate.
  - eapply IH; [|exact H]. eapply advance_iteration_inv; eauto.
  - injection H as <-. eapply advance_iteration_done; eauto.
Qed.

Lemma energy_randomize_Ok u e_i e_f c n m e' c' n' :
  energy_randomize rs u e_i e_f c n m = (Ok e', c', n') ->
  (u_cont_rand u = None /\ e' = e_f) \/ exists cr r, u_cont_rand u = Some cr /\ cr e_i e_f r m = Ok e'.
Proof.
  unfold energy_randomize. destruct (u_cont_rand u) as [cr|].
  - destruct (cached_rnd rs c n) as [[r c1] n1]. intros H; injection H as H _ _; eauto.
  - intros H; injection H as H _ _; auto.
Qed.

Lemma c04_legal fuel max_steps st e_next final s mes me n st' at' s' n' :
  advance_particle rs sectors fuel max_steps st e_next final s mes me n = Some (Ok (st', at', s', n')) ->
  legal_ending sectors st e_next final me mes st' at' s'.
Proof.
  unfold advance_particle. intros H.
  destruct (advance_init st e_next s n) as [a| |] eqn:EI; try discriminate.
  assert (HI : step_inv st e_next a).
  { unfold advance_init in EI. apply obind_Ok in EI. destruct EI as (gn & Hgn & EI).
    injection EI as <-. split; cbn; auto. }
  destruct (advance_loop _ _ _ _ _ _ _ _ _) as [r|] eqn:E; [|discriminate].
  injection H as H. apply obind_Ok in H. destruct H as (f & -> & H).
  apply advance_loop_done in E; auto. destruct E as (x & Hb & Hs & Hx & Hc).
  unfold advance_finish in H. apply obind_Ok in H. destruct H as (dt & Hdt & H).
  exists (f_mean f), (f_distance f),
    (calculate_distance_to_border sectors (position st) (f_mean f) (s_geometry (f_sector f))),
    (f_energy f), (f_grammage f), x.
  destruct (mes && _) eqn:Em.
  - injection H as <- <- <- <-. apply andb_true_iff in Em. destruct Em as [-> Em].
    destruct (f_type f); try discriminate.
    split; [split; reflexivity|]. split; [exact Hs|]. split; [exact Hb|]. split; [exact Hx|].
    split; [exists dt; auto|]. destruct Hc as (H1 & H2 & H3 & H4 & H5). cbn. tauto.
  - destruct (energy_randomize _ _ _ _ _ _ _) as [[re c'] n1] eqn:Er.
    apply obind_Ok in H. destruct H as (e' & -> & H). injection H as <- <- <- <-.
    apply energy_randomize_Ok in Er.
    split; [split; reflexivity|]. split; [exact Hs|]. split; [exact Hb|]. split; [exact Hx|].
    split; [exists dt; auto|].
    destruct (f_type f).
    + rewrite andb_true_r in Em; subst mes.
      destruct Hc as (H1 & H2 & H3 & H4 & H5).
      rewrite H5 in Er. unfold energy_up_to_randomisation; cbn. tauto.
    + unfold energy_up_to_randomisation; cbn. tauto.
    + unfold energy_up_to_randomisation; cbn. tauto.
Qed.

(** Termination: at most [S max_steps] iterations. *)
Lemma advance_iteration_last max_steps st e_next max_distance k a a' :
  (max_steps < k)%nat ->
  advance_iteration rs sectors max_steps st e_next max_distance k a <> Ok (inl a').
Proof.
  intros Hk H. unfold advance_iteration in H.
  apply obind_Ok in H. destruct H as ([[[[gr e] dist] c0] n0] & _ & H).
  destruct (directions_scatter _ _ _ _ _ _ _ _) as [[dirs c] n].
  apply obind_Ok in H. destruct H as ([mean new] & _ & H).
  apply Nat.ltb_lt in Hk. rewrite Hk in H.
  apply obind_Ok in H; destruct H as (g' & _ & H).
  apply obind_Ok in H; destruct H as (e' & _ & H). discriminate.
Qed.

Lemma advance_loop_terminates fuel max_steps st e_next max_distance : forall k a,
  (max_steps < fuel + k)%nat -> (k <= max_steps)%nat ->
  advance_loop rs sectors fuel max_steps st e_next max_distance k a <> None.
Proof.
  induction fuel as [|fuel IH]; intros k a H Hk.
  - cbn in H; lia.
  - cbn. destruct (advance_iteration _ _ _ _ _ _ _ _) as [[a'|f']| |] eqn:E; try discriminate.
    destruct (Nat.eq_dec k max_steps) as [->|Hne].
    + exfalso. eapply advance_iteration_last; [|exact E]; lia.
    + apply IH; lia.
Qed.

Lemma c04_terminates max_steps st e_next final s mes me n :
  advance_particle rs sectors (S max_steps) max_steps st e_next final s mes me n <> None.
Proof.
  unfold advance_particle. destruct (advance_init st e_next s n); try discriminate.
  destruct (advance_loop _ _ _ _ _ _ _ _ _) eqn:E; [discriminate|].
  exfalso; eapply advance_loop_terminates; [| |exact E]; lia.
Qed.

(** Fuel is irrelevant once it suffices. *)
Lemma advance_loop_fuel fuel max_steps st e_next max_distance : forall k a r fuel',
  (fuel <= fuel')%nat ->
  advance_loop rs sectors fuel max_steps st e_next max_distance k a = Some r ->
  advance_loop rs sectors fuel' max_steps st e_next max_distance k a = Some r.
Proof.
  induction fuel as [|fuel IH]; intros k a r fuel' Hf H; [discriminate|].
  destruct fuel' as [|fuel']; [lia|]. cbn in *.
  destruct (advance_iteration _ _ _ _ _ _ _ _) as [[a'|f']| |]; auto.
  apply IH; auto; lia.
Qed.

Lemma c04_fuel fuel max_steps st e_next final s mes me n r :
  advance_particle rs sectors fuel max_steps st e_next final s mes me n = Some r ->
  advance_particle rs sectors (S max_steps) max_steps st e_next final s mes me n = Some r.
Proof.
  unfold advance_particle. destruct (advance_init st e_next s n); auto.
  intros H.
  destruct (advance_loop rs sectors (S max_steps) _ _ _ _ _ _) as [x|] eqn:E.
  2:{ exfalso; eapply advance_loop_terminates; [| |exact E]; lia. }
  destruct (advance_loop rs sectors fuel _ _ _ _ _ _) as [y|] eqn:E'; [|discriminate].
  destruct (Nat.le_ge_cases fuel (S max_steps)) as [Hle|Hle].
  - rewrite (advance_loop_fuel _ _ _ _ _ _ _ _ _ Hle E') in E. injection E as <-; auto.
  - rewrite (advance_loop_fuel _ _ _ _ _ _ _ _ _ Hle E) in E'. injection E' as <-; auto.
Qed.

(** The logic_error branch. *)
Definition adv_inv (e_next max_distance : R) (a : adv) : Prop :=
  (a_energy a = e_next /\ a_distance a = Fin (-1)) \/
  (a_energy a = -1 /\ exists x, a_distance a = Fin x /\ 0 <= x).

Lemma get_current_sector_In p d s : get_current_sector sectors p d = Ok s -> In s sectors.
Proof. rewrite get_current_sector_spec. intros (l1 & l2 & -> & _). apply in_elt. Qed.

Hypothesis quiet : forall s, In s sectors -> quiet_sector s.

Lemma correct_or_inf_quiet s p d g m :
  quiet_sector s -> correct_or_inf (s_density s) p d g m <> Throw logic_error.
Proof using.
  intros (_ & _ & _ & _ & _ & Hc & _). specialize (Hc p d g m). unfold correct_or_inf, no_logic_error in *.
  destruct (d_correct _ _ _ _ _) as [|e|]; try discriminate.
  destruct e; try discriminate; congruence.
Qed.

Lemma advance_iteration_quiet max_steps st e_next max_distance k a :
  e_next <> -1 -> 0 <= max_distance ->
  quiet_sector (a_sector a) ->
  adv_inv e_next max_distance a ->
  match advance_iteration rs sectors max_steps st e_next max_distance k a with
  | Ok (inl a') => adv_inv e_next max_distance a' /\ quiet_sector (a_sector a')
  | Ok (inr f) => quiet_sector (f_sector f)
  | Throw e => e <> logic_error
  | UB _ => True
  end.
Proof using quiet.
  intros He Hm Hq Hinv.
  pose proof Hq as (Q1 & Q2 & Q3 & Q4 & Q5 & Q6 & Q7).
  unfold no_logic_error in *.
  unfold advance_iteration.
  (* the proposal *)
  assert (Hp : match propose rs st e_next max_distance a with
               | Throw e => e <> logic_error | _ => True end).
  { unfold propose. destruct Hinv as [[E1 E2]|[E1 [x [E2 Hx]]]]; rewrite E1, E2; cbn [ext_is].
    - destruct (Reqb_spec e_next (-1)); [contradiction|].
      destruct (Reqb_spec (-1) (-1)); [|exfalso; auto]. cbn [negb andb].
      specialize (Q1 (energy st) e_next).
      destruct (u_track_integral _ _ _) as [g|ex|w]; cbn; try congruence; auto.
      pose proof (correct_or_inf_quiet (a_sector a) (position st) (direction st) g max_distance Hq).
      destruct (correct_or_inf _ _ _ _ _); cbn; try congruence; auto.
    - destruct (Reqb_spec (-1) (-1)); [|exfalso; auto]. cbn [negb andb].
      destruct (Reqb_spec x (-1)); [lra|]. cbn [negb].
      specialize (Q7 (position st) (direction st) x).
      destruct (d_calculate _ _ _ _) as [g|ex|w]; cbn; try congruence; auto.
      destruct (g <? _).
      + specialize (Q2 (energy st) g). destruct (u_upper_limit _ _ _); cbn; try congruence; auto.
      + pose proof (correct_or_inf_quiet (a_sector a) (position st) (direction st) (a_grammage_next a) max_distance Hq).
        destruct (correct_or_inf _ _ _ _ _); cbn; try congruence; auto. }
  destruct (propose _ _ _ _ _) as [[[[[gr e] dist] c0] n0]|e|w]; cbn [obind]; auto.
  assert (Hs : match fst (fst (directions_scatter rs (s_utility (a_sector a)) gr (energy st) e (direction st) c0 n0)) with
               | Throw e => e <> logic_error | _ => True end).
  { unfold directions_scatter. destruct (u_scattering _) as [sc|] eqn:Es; cbn; auto.
    destruct (sc_multiple sc) as [ms|] eqn:Em; cbn; auto.
    destruct (cached_rnds rs 4 c0 n0) as [[l c'] n'] eqn:Ec. 
    unfold cached_rnds in Ec. rewrite Ec. cbn.
    specialize (Q5 sc ms eq_refl Em gr (energy st) e l).
    destruct (ms _ _ _ _); auto; congruence. }
  destruct (directions_scatter _ _ _ _ _ _ _ _) as [[dirs c] n]; cbn [fst] in Hs.
  destruct dirs as [[mean new]|x|w]; cbn [obind]; auto.
  assert (B := proj1 (c02_border sectors (position st) mean (s_geometry (a_sector a)) _) eq_refl).
  set (border := calculate_distance_to_border _ _ _ _) in *.
  destruct (Nat.ltb max_steps k).
  { specialize (Q7 (position st) (direction st) border).
    destruct (d_calculate _ _ _ _) as [g'|x|w]; cbn; try congruence; auto.
    specialize (Q2 (energy st) g'). destruct (u_upper_limit _ _ _) as [e'|x|w]; cbn; try congruence; auto. }
  destruct (is_inside _ _ _) eqn:Ei; cbn [negb].
  - apply is_inside_contains in Ei. 
    assert (Hb : 0 <= border).
    { destruct B as [[B|(s & _ & _ & _ & B)] _]; [|exact B].
      unfold contains in Ei. destruct (g_distance_to_border _ _ _); cbn in *; lra. }
    assert (Hnt : adv_inv e_next max_distance
      (mkadv (-1) (Fin (Rmin border max_distance)) (a_grammage_next a) (a_sector a) (a_backscatter a) c n)).
    { right; split; auto. cbn. eexists; split; [reflexivity|]. apply Rmin_glb; auto. }
    destruct dist as [x|].
    + destruct (_ && _ && _); cbn; auto. destruct (_ && _); cbn; auto. destruct (_ <=? _); cbn; auto.
    + cbn; auto.
  - destruct (get_current_sector sectors (position st) mean) as [s'|x|w] eqn:Eg; cbn; auto.
    + apply get_current_sector_In in Eg. specialize (quiet _ Eg).
      pose proof quiet as (Q1' & _). specialize (Q1' (energy st) e_next). unfold no_logic_error in Q1'.
      destruct (u_track_integral (s_utility s') _ _); cbn; try congruence; auto.
      destruct (if a_backscatter a then _ else _) as [c' n']. cbn. split; auto. left; auto.
    + destruct (get_current_sector_total sectors (position st) mean) as [[s' Hs']|H']; congruence.
Qed.

Lemma advance_loop_quiet fuel max_steps st e_next max_distance :
  e_next <> -1 -> 0 <= max_distance ->
  forall k a,
  quiet_sector (a_sector a) -> adv_inv e_next max_distance a ->
  match advance_loop rs sectors fuel max_steps st e_next max_distance k a with
  | Some (Ok f) => quiet_sector (f_sector f)
  | Some (Throw e) => e <> logic_error
  | _ => True
  end.
Proof using quiet.
  intros He Hm. induction fuel as [|fuel IH]; intros k a Hq Hinv; cbn; auto.
  pose proof (advance_iteration_quiet max_steps st e_next max_distance (S k) a He Hm Hq Hinv) as H.
  destruct (advance_iteration _ _ _ _ _ _ _ _) as [[a'|f']| |]; auto.
  destruct H; apply IH; auto.
Qed.

Lemma c04_no_logic_error fuel max_steps st e_next final s mes me n :
  quiet_sector s -> e_next <> -1 -> propagated_distance st <= final ->
  advance_particle rs sectors fuel max_steps st e_next final s mes me n <> Some (Throw logic_error).
Proof using quiet.
  intros Hq He Hf H. unfold advance_particle, advance_init in H.
  pose proof Hq as (Q1 & _). specialize (Q1 (energy st) e_next). unfold no_logic_error in Q1.
  destruct (u_track_integral _ _ _) as [gn|x|w]; cbn [obind] in H; try congruence.
  pose proof (advance_loop_quiet fuel max_steps st e_next (final - propagated_distance st) He ltac:(lra) 0%nat
                (mkadv e_next (Fin (-1)) gn s false empty_cache n) Hq
                ltac:(left; auto)) as HL.
  destruct (advance_loop _ _ _ _ _ _ _ _ _) as [[f|x|w]|]; try discriminate; cbn [obind] in H.
  2: congruence.
  injection H as H. unfold advance_finish in H.
  destruct HL as (_ & _ & Q3 & Q4 & _). unfold no_logic_error in *.
  match type of H with obind ?x _ = _ => destruct x eqn:Et; cbn [obind] in H end;
    try discriminate; [|injection H as ->; exact (Q3 _ _ _ _ Et)].
  destruct (mes && _); [discriminate|].
  unfold energy_randomize in H. destruct (u_cont_rand _) as [cr|] eqn:Ecr; [|discriminate].
  destruct (cached_rnd _ _ _) as [[r c'] n'].
  specialize (Q4 cr eq_refl (energy st) (f_energy f) r me).
  destruct (cr _ _ _ _); cbn in H; congruence.
Qed.
End Adv.
