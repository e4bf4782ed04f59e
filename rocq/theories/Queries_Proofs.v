(** Proofs about the state queries of a track. *)
From Verif Require Import Prelude PreludeFacts Vec_Model Geometry_Model Propagator_Model Propagator_Spec
  Propagator_Proofs Propagate_Proofs Shapes_Model Shapes_Spec Shapes_Proofs Secondaries_Model Secondaries_Spec Secondaries_Proofs.

Lemma magnitude_nonneg v : 0 <= magnitude v.
Proof. apply sqrt_pos. Qed.
Lemma magnitude_sq v : magnitude v * magnitude v = dot v v.
Proof. unfold magnitude, dot. apply sqrt_sqrt. nra. Qed.

Lemma normalize_some v d : normalize v = Some d ->
  0 < magnitude v /\ unit d /\ v = scale (magnitude v) d.
Proof.
  unfold normalize. destruct (Reqb_spec (magnitude v) 0) as [|N]; [discriminate|].
  pose proof (magnitude_nonneg v). pose proof (magnitude_sq v) as S. intros [= <-].
  split; [lra|]. split.
  - unfold unit, dot in *; cbn. field_simplify; [|lra]. apply Rmult_eq_reg_r with (magnitude v * magnitude v); [|nra].
    rewrite S at 2. field. lra.
  - destruct v as [a b c]; unfold scale; cbn. f_equal; field; lra.
Qed.
Lemma normalize_none v : normalize v = None -> magnitude v = 0.
Proof. unfold normalize. destruct (Reqb_spec (magnitude v) 0); [auto|discriminate]. Qed.

Lemma heading_of a b d : normalize (vsub (position b) (position a)) = Some d -> heading a b d /\ 0 < apart a b.
Proof.
  intros H. apply normalize_some in H. destruct H as (H1 & H2 & H3). split; auto. split; auto.
  unfold apart. unfold at_. rewrite <- H3.
  destruct (position a), (position b); unfold vadd, vsub; cbn; f_equal; ring.
Qed.
Lemma heading_way a b d x : heading a b d -> 0 < apart a b -> 0 <= x <= apart a b ->
  on_way a b x (at_ (position a) d x).
Proof.
  intros [_ H] P Hx. split; [auto|]. split; [auto|]. rewrite H. unfold at_, vadd, scale; cbn.
  split; [field; lra|]. split; field; lra.
Qed.

Lemma re_propagate_distance_spec sectors a b d x r :
  heading a b d -> 0 < apart a b -> 0 <= x <= apart a b ->
  re_propagate_distance sectors a d x = Ok r -> continued sectors a b x r.
Proof.
  intros H P Hx. unfold re_propagate_distance.
  destruct (secondaries_get_current_sector sectors (position a) d) as [s| |] eqn:Es; cbn; try discriminate.
  apply c01_lookup in Es.
  destruct (d_calculate _ _ _ _) as [g| |] eqn:Eg; cbn; try discriminate.
  destruct (u_upper_limit _ _ _) as [e| |] eqn:Ee; cbn; try discriminate.
  destruct (u_time _ _ _ _ _) as [dt| |] eqn:Et; cbn; try discriminate.
  intros [= <-]. unfold continued; cbn. split; [apply heading_way; auto|]. split; [auto|].
  split; [auto|]. eauto 6.
Qed.

Section Q.
Variable sectors : list sector.

Lemma first_is {A} (l : list A) a : at_index l 0 = Ok a -> exists l', l = a :: l'.
Proof. destruct l; cbn; [discriminate|]. unfold at_index; cbn. intros [= <-]; eauto. Qed.
Lemma at_index_ok {A} (l : list A) i a : at_index l i = Ok a <-> nth_error l i = Some a.
Proof. unfold at_index. destruct (nth_error l i); split; intros; congruence. Qed.
Lemma last_is {A} (l : list A) a : at_index l (length l - 1) = Ok a -> exists l', l = l' ++ [a].
Proof.
  rewrite at_index_ok. destruct l as [|y l]; [cbn; intros H; discriminate H|].
  destruct (exists_last (l := y :: l)) as (l' & x & E); [discriminate|]. rewrite E.
  rewrite app_length; cbn [length]. replace (length l' + 1 - 1)%nat with (length l') by lia.
  rewrite nth_error_app2, Nat.sub_diag by lia. cbn. intros [= ->]. eauto.
Qed.

Lemma c43_distance nan t x r : measured t ->
  get_state_for_distance sectors nan t x = Ok r ->
  exists first, nth_error (tr_states t) 0 = Some first /\
  ((x <= propagated_distance first /\ r = first) \/
   (propagated_distance first < x /\ (forall s, In s (tr_states t) -> propagated_distance s <= x) /\
    exists l, tr_states t = l ++ [r]) \/
   (exists i a b, neighbours t i a b /\ propagated_distance a <= x < propagated_distance b /\
    (forall j s, (j <= i)%nat -> nth_error (tr_states t) j = Some s -> propagated_distance s <= x) /\
    propagated_distance r = x /\
    continued sectors a b (x - propagated_distance a) r)).
Proof.
  intros HM. unfold get_state_for_distance.
  destruct (at_index (tr_states t) 0) as [f| |] eqn:Ef; cbn [obind]; try discriminate.
  apply at_index_ok in Ef. intros H. exists f. split; auto.
  destruct (Rleb_spec x (propagated_distance f)) as [L|L].
  { injection H as <-. auto. }
  right. destruct (find_index _ _ _) as [i|] eqn:Ei.
  - right. apply find_index_spec in Ei. destruct Ei as (k & s & -> & K1 & K2 & K3).
    rewrite nth_error_tl in K1. apply Rltb_true in K2.
    replace (1 + k - 1)%nat with k in H by lia. change (1 + k)%nat with (S k) in H.
    destruct (at_index (tr_states t) k) as [a| |] eqn:Ea; cbn [obind] in H; try discriminate.
    apply at_index_ok in Ea.
    destruct (at_index (tr_states t) (S k)) as [b| |] eqn:Eb; cbn [obind] in H; try discriminate.
    apply at_index_ok in Eb. assert (b = s) by congruence. subst s.
    assert (HN : neighbours t k a b) by (split; auto).
    assert (Hj : forall j s, (j <= k)%nat -> nth_error (tr_states t) j = Some s -> propagated_distance s <= x).
    { intros [|j] s Hj Hs; [assert (s = f) by congruence; subst; lra|].
      specialize (K3 j s ltac:(lia)). rewrite nth_error_tl in K3. specialize (K3 Hs).
      apply Rltb_false in K3. lra. }
    pose proof (HM _ _ _ HN) as Hap. pose proof (Hj k a (le_n _) Ea) as Hax.
    assert (Hp : 0 < apart a b) by lra.
    unfold normalize_or in H. destruct (normalize _) as [d|] eqn:En.
    2:{ apply normalize_none in En. unfold apart in *. lra. }
    apply heading_of in En. destruct En as [Hh _].
    apply re_propagate_distance_spec with (b := b) in H; auto; [|lra].
    exists k, a, b. split; [auto|]. split; [lra|]. split; [auto|]. split; [|auto].
    destruct H as (_ & _ & H & _). rewrite H. ring.
  - left. split; [lra|]. rewrite find_index_none in Ei. split.
    + intros s Hs. destruct (tr_states t) as [|y l] eqn:El; [destruct Hs|].
      cbn in Ef. injection Ef as ->. destruct Hs as [<-|Hs]; [lra|].
      specialize (Ei s Hs). apply Rltb_false in Ei. lra.
    + apply last_is in H. auto.
Qed.

(** The query never reads outside of the track, and the NaN case does not
    happen. *)
Lemma c43_defined nan t x : measured t -> tr_states t <> [] ->
  (forall i a b d, neighbours t i a b -> propagated_distance a <= x < propagated_distance b -> heading a b d ->
     exists s g e dt, innermost sectors (position a) d s /\
       d_calculate (s_density s) (position a) (direction a) (x - propagated_distance a) = Ok g /\
       u_upper_limit (s_utility s) (energy a) g = Ok e /\
       u_time (s_utility s) (energy a) e (x - propagated_distance a) (d_evaluate (s_density s) (position a)) = Ok dt) ->
  exists r, get_state_for_distance sectors nan t x = Ok r.
Proof.
  intros HM HE HC. unfold get_state_for_distance.
  destruct (tr_states t) as [|f l] eqn:El; [contradiction|]. unfold at_index at 1. cbn [nth_error obind].
  destruct (Rleb_spec x (propagated_distance f)) as [L|L]; [eauto|].
  destruct (find_index _ _ _) as [i|] eqn:Ei.
  - apply find_index_spec in Ei. destruct Ei as (k & s & -> & K1 & K2 & K3).
    rewrite nth_error_tl in K1. apply Rltb_true in K2.
    replace (1 + k - 1)%nat with k by lia. change (1 + k)%nat with (S k).
    destruct (nth_error (f :: l) k) as [a|] eqn:Ea.
    2:{ apply nth_error_None in Ea. assert (nth_error (f :: l) (S k) <> None) as K by congruence.
        apply nth_error_Some in K. lia. }
    unfold at_index. rewrite Ea, K1. cbn [obind].
    assert (HN : neighbours t k a s) by (split; rewrite El; auto).
    assert (Hax : propagated_distance a <= x).
    { destruct k as [|k]; [cbn in Ea; injection Ea as ->; lra|].
      specialize (K3 k a ltac:(lia)). rewrite nth_error_tl in K3. specialize (K3 Ea).
      apply Rltb_false in K3. lra. }
    pose proof (HM _ _ _ HN) as Hap. unfold normalize_or.
    destruct (normalize _) as [d|] eqn:En.
    2:{ apply normalize_none in En. unfold apart in *. lra. }
    destruct (HC k a s d HN ltac:(lra)) as (s' & g & e & dt & I1 & I2 & I3 & I4); [apply heading_of; auto|].
    unfold re_propagate_distance. apply c01_lookup in I1. rewrite I1. cbn [obind].
    rewrite I2. cbn [obind]. rewrite I3. cbn [obind]. rewrite I4. cbn [obind]. eauto.
  - unfold at_index. destruct (nth_error (f :: l) (length (f :: l) - 1)) eqn:E; eauto.
    apply nth_error_None in E. cbn [length] in E. lia.
Qed.

Lemma re_propagate_energy_spec a d lost m r : re_propagate_energy sectors a d lost m = Ok r ->
  exists s g x, innermost sectors (position a) d s /\
    u_track_integral (s_utility s) (energy a) (energy a - lost) = Ok g /\
    d_correct (s_density s) (position a) (direction a) g m = Ok x /\
    position r = at_ (position a) d x /\ direction r = d /\ energy r = energy a - lost /\
    propagated_distance r = propagated_distance a + x.
Proof.
  unfold re_propagate_energy.
  destruct (secondaries_get_current_sector sectors (position a) d) as [s| |] eqn:Es; cbn; try discriminate.
  apply c01_lookup in Es.
  destruct (u_track_integral _ _ _) as [g| |] eqn:Eg; cbn; try discriminate.
  destruct (d_correct _ _ _ _ _) as [x| |] eqn:Ex; cbn; try discriminate.
  destruct (u_time _ _ _ _ _) as [dt| |] eqn:Et; cbn; try discriminate.
  intros [= <-]. exists s, g, x. cbn. auto 8.
Qed.

Lemma c44_energy nan t e r : parallel t ->
  (forall i a b, neighbours t i a b -> energy b < energy a ->
     nth_error (tr_types t) (S i) = Some ContinuousEnergyLoss -> 0 < apart a b) ->
  get_state_for_energy sectors nan t e = Ok r ->
  exists first, nth_error (tr_states t) 0 = Some first /\
  ((energy first <= e /\ r = first) \/
   (e < energy first /\ (forall s, In s (tr_states t) -> e <= energy s) /\
    exists l, tr_states t = l ++ [r]) \/
   (exists i a b ty, neighbours t i a b /\ nth_error (tr_types t) (S i) = Some ty /\
    energy b < e <= energy a /\
    (forall j s, (j <= i)%nat -> nth_error (tr_states t) j = Some s -> e <= energy s) /\
    (ty <> ContinuousEnergyLoss -> r = a) /\
    (ty = ContinuousEnergyLoss ->
       energy r = e /\ heading a b (direction r) /\
       exists s g x m, innermost sectors (position a) (direction r) s /\
         u_track_integral (s_utility s) (energy a) e = Ok g /\
         d_correct (s_density s) (position a) (direction a) g m = Ok x /\
         position r = at_ (position a) (direction r) x /\
         propagated_distance r = propagated_distance a + x))).
Proof.
  intros HP HM. unfold get_state_for_energy.
  destruct (at_index (tr_states t) 0) as [f| |] eqn:Ef; cbn [obind]; try discriminate.
  apply at_index_ok in Ef. intros H. exists f. split; auto.
  destruct (Rleb_spec (energy f) e) as [L|L].
  { injection H as <-. auto. }
  right. destruct (find_index _ _ _) as [i|] eqn:Ei.
  - right. apply find_index_spec in Ei. destruct Ei as (k & s & -> & K1 & K2 & K3).
    rewrite nth_error_tl in K1. apply Rltb_true in K2.
    replace (1 + k - 1)%nat with k in H by lia. change (1 + k)%nat with (S k) in H.
    destruct (at_index (tr_types t) (S k)) as [ty| |] eqn:Ety; cbn [obind] in H; try discriminate.
    apply at_index_ok in Ety.
    destruct (at_index (tr_states t) k) as [a| |] eqn:Ea; cbn [obind] in H; try discriminate.
    apply at_index_ok in Ea.
    destruct (at_index (tr_states t) (S k)) as [b| |] eqn:Eb; cbn [obind] in H; try discriminate.
    apply at_index_ok in Eb. assert (b = s) by congruence. subst s.
    assert (HN : neighbours t k a b) by (split; auto).
    assert (Hj : forall j s, (j <= k)%nat -> nth_error (tr_states t) j = Some s -> e <= energy s).
    { intros [|j] s Hj Hs; [assert (s = f) by congruence; subst; lra|].
      specialize (K3 j s ltac:(lia)). rewrite nth_error_tl in K3. specialize (K3 Hs).
      apply Rltb_false in K3. lra. }
    pose proof (Hj k a (le_n _) Ea) as Hax.
    exists k, a, b, ty. split; [auto|]. split; [auto|]. split; [lra|]. split; [auto|].
    destruct (itype_eqb_spec ty ContinuousEnergyLoss) as [T|T].
    + split; [contradiction|]. intros _. subst ty. unfold normalize_or in H.
      specialize (HM _ _ _ HN ltac:(lra) Ety).
      destruct (normalize _) as [d|] eqn:En.
      2:{ apply normalize_none in En. unfold apart in *. lra. }
      apply heading_of in En. destruct En as [Hh _].
      apply re_propagate_energy_spec in H. destruct H as (s & g & x & H1 & H2 & H3 & H4 & H5 & H6 & H7).
      replace (energy a - (energy a - e)) with e in * by ring. rewrite H5 in *.
      split; [auto|]. split; [auto|]. exists s, g, x. eexists. repeat (split; [eassumption|]). auto.
    + split; [|contradiction]. intros _. congruence.
  - left. split; [lra|]. rewrite find_index_none in Ei. split.
    + intros s Hs. destruct (tr_states t) as [|y l] eqn:El; [destruct Hs|].
      cbn in Ef. injection Ef as ->. destruct Hs as [<-|Hs]; [lra|].
      specialize (Ei s Hs). apply Rltb_false in Ei. lra.
    + apply last_is in H. auto.
Qed.

(** ** Entry and exit points *)
Lemma apart_sym a b : apart a b = apart b a.
Proof. unfold apart, magnitude, vsub; cbn. f_equal. ring. Qed.
Lemma heading_back a b d : heading a b d -> heading b a (vneg d).
Proof.
  intros [U H]. split.
  - unfold unit, dot, vneg in *; cbn. nra.
  - rewrite (apart_sym b a), H. unfold at_, vadd, scale, vneg; cbn. destruct (position a); cbn. f_equal; ring.
Qed.

Lemma heading_unique a b d d' : normalize (vsub (position b) (position a)) = Some d -> heading a b d' -> d' = d.
Proof.
  intros Hn [U H]. apply heading_of in Hn. destruct Hn as [[U' H'] P].
  rewrite H in H'. unfold at_, vadd, scale in H'; cbn in H'. injection H' as A B C.
  assert (HH : forall u v w, u + v * apart a b = u + w * apart a b -> v = w).
  { intros u v w K. apply Rmult_eq_reg_r with (apart a b); lra. }
  destruct d, d'; cbn in *. f_equal; eauto.
Qed.

Lemma entry_loop_spec g l r : entry_loop sectors g l = Ok (Some r) ->
  exists l1 a b l2 d x, l = l1 ++ a :: b :: l2 /\ heading a b d /\
    x = fst (g_distance_to_border g (position a) d) /\ found_on sectors a b b x (apart a b - x) r /\
    forall l1' a' b' l2' d', l = l1' ++ a' :: b' :: l2' -> (length l1' < length l1)%nat ->
      0 < apart a' b' -> heading a' b' d' ->
      ~ (0 <= fst (g_distance_to_border g (position a') d') <= apart a' b').
Proof.
  induction l as [|a [|b l] IH]; cbn [entry_loop]; try discriminate.
  set (rec := entry_loop sectors g (b :: l)) in *.
  destruct (normalize (vsub (position b) (position a))) as [d|] eqn:En.
  - pose proof (heading_of _ _ _ En) as [Hh Hp].
    destruct (Rleb_spec (fst (g_distance_to_border g (position a) d)) (magnitude (vsub (position b) (position a)))) as [L1|L1];
    [destruct (Rleb_spec 0 (fst (g_distance_to_border g (position a) d))) as [L2|L2]|]; cbn [andb].
    + intros H. exists [], a, b, l, d, (fst (g_distance_to_border g (position a) d)).
      split; [reflexivity|]. split; [auto|]. split; [auto|]. split; [|cbn; intros; lia].
      fold (apart a b) in *. split; [lra|]. split; [auto|].
      rewrite Rabs_right in H by lra.
      destruct (Rltb_spec (apart a b - fst (g_distance_to_border g (position a) d)) PARTICLE_POSITION_RESOLUTION) as [L3|L3].
      * left. injection H as <-. auto.
      * right. split; [lra|].
        destruct (re_propagate_distance sectors a d _) as [r'| |] eqn:Er; cbn in H; try discriminate.
        injection H as <-. apply re_propagate_distance_spec with (b := b) in Er; auto; lra.
    + intros H. destruct (IH H) as (l1 & a1 & b1 & l2 & d1 & x & E & H1 & H2 & H3 & H4).
      exists (a :: l1), a1, b1, l2, d1, x. split; [cbn; congruence|]. repeat (split; [auto|]).
      intros [|z l1'] a' b' l2' d' E' Hl P' Hd'; cbn in E'; injection E'; clear E'; intros E' ->; [intros; try (injection E'; clear E'; intros; subst)|].
      { subst. rewrite (heading_unique _ _ _ _ En Hd'). lra. }
      apply (H4 _ _ _ _ _ E'); auto. cbn in Hl; lia.
    + intros H. destruct (IH H) as (l1 & a1 & b1 & l2 & d1 & x & E & H1 & H2 & H3 & H4).
      exists (a :: l1), a1, b1, l2, d1, x. split; [cbn; congruence|]. repeat (split; [auto|]).
      intros [|z l1'] a' b' l2' d' E' Hl P' Hd'; cbn in E'; injection E'; clear E'; intros E' ->; [intros; try (injection E'; clear E'; intros; subst)|].
      { subst. rewrite (heading_unique _ _ _ _ En Hd'). unfold apart; lra. }
      apply (H4 _ _ _ _ _ E'); auto. cbn in Hl; lia.
  - apply normalize_none in En. intros H.
    destruct (IH H) as (l1 & a1 & b1 & l2 & d1 & x & E & H1 & H2 & H3 & H4).
    exists (a :: l1), a1, b1, l2, d1, x. split; [cbn; congruence|]. repeat (split; [auto|]).
    intros [|z l1'] a' b' l2' d' E' Hl P' Hd'; cbn in E'; injection E'; clear E'; intros E' ->; [intros; try (injection E'; clear E'; intros; subst)|].
    { subst. unfold apart in P'. lra. }
    apply (H4 _ _ _ _ _ E'); auto. cbn in Hl; lia.
Qed.
Lemma exit_loop_spec g l r : exit_loop sectors g l = Ok (Some r) ->
  exists l1 a b l2 d x, l = l1 ++ b :: a :: l2 /\ heading a b d /\
    x = fst (g_distance_to_border g (position b) (vneg d)) /\ found_on sectors a b a (apart a b - x) (apart a b - x) r /\
    forall l1' a' b' l2' d', l = l1' ++ b' :: a' :: l2' -> (length l1' < length l1)%nat ->
      0 < apart a' b' -> heading a' b' d' ->
      ~ (0 <= fst (g_distance_to_border g (position b') (vneg d')) <= apart a' b').
Proof.
  induction l as [|b [|a l] IH]; cbn [exit_loop]; try discriminate.
  set (rec := exit_loop sectors g (a :: l)) in *.
  destruct (normalize (vsub (position b) (position a))) as [d|] eqn:En.
  - pose proof (heading_of _ _ _ En) as [Hh Hp].
    destruct (Rleb_spec (fst (g_distance_to_border g (position b) (vneg d))) (magnitude (vsub (position b) (position a)))) as [L1|L1];
    [destruct (Rleb_spec 0 (fst (g_distance_to_border g (position b) (vneg d)))) as [L2|L2]|]; cbn [andb].
    + intros H. exists [], a, b, l, d, (fst (g_distance_to_border g (position b) (vneg d))).
      split; [reflexivity|]. split; [auto|]. split; [auto|]. split; [|cbn; intros; lia].
      fold (apart a b) in *. split; [lra|]. split; [auto|].
      rewrite Rabs_right in H by lra.
      destruct (Rltb_spec (apart a b - fst (g_distance_to_border g (position b) (vneg d))) PARTICLE_POSITION_RESOLUTION) as [L3|L3].
      * left. injection H as <-. auto.
      * right. split; [lra|].
        destruct (re_propagate_distance sectors a d _) as [r'| |] eqn:Er; cbn in H; try discriminate.
        injection H as <-. apply re_propagate_distance_spec with (b := b) in Er; auto; lra.
    + intros H. destruct (IH H) as (l1 & a1 & b1 & l2 & d1 & x & E & H1 & H2 & H3 & H4).
      exists (b :: l1), a1, b1, l2, d1, x. split; [cbn; congruence|]. repeat (split; [auto|]).
      intros [|z l1'] a' b' l2' d' E' Hl P' Hd'; cbn in E'; injection E'; clear E'; intros E' ->; [intros; try (injection E'; clear E'; intros; subst)|].
      { subst. rewrite (heading_unique _ _ _ _ En Hd'). lra. }
      apply (H4 _ _ _ _ _ E'); auto. cbn in Hl; lia.
    + intros H. destruct (IH H) as (l1 & a1 & b1 & l2 & d1 & x & E & H1 & H2 & H3 & H4).
      exists (b :: l1), a1, b1, l2, d1, x. split; [cbn; congruence|]. repeat (split; [auto|]).
      intros [|z l1'] a' b' l2' d' E' Hl P' Hd'; cbn in E'; injection E'; clear E'; intros E' ->; [intros; try (injection E'; clear E'; intros; subst)|].
      { subst. rewrite (heading_unique _ _ _ _ En Hd'). unfold apart; lra. }
      apply (H4 _ _ _ _ _ E'); auto. cbn in Hl; lia.
  - apply normalize_none in En. intros H.
    destruct (IH H) as (l1 & a1 & b1 & l2 & d1 & x & E & H1 & H2 & H3 & H4).
    exists (b :: l1), a1, b1, l2, d1, x. split; [cbn; congruence|]. repeat (split; [auto|]).
    intros [|z l1'] a' b' l2' d' E' Hl P' Hd'; cbn in E'; injection E'; clear E'; intros E' ->; [intros; try (injection E'; clear E'; intros; subst)|].
    { subst. unfold apart in P'. lra. }
    apply (H4 _ _ _ _ _ E'); auto. cbn in Hl; lia.
Qed.

Lemma entry_loop_none g l : entry_loop sectors g l = Ok None ->
  forall l1 a b l2 d, l = l1 ++ a :: b :: l2 -> 0 < apart a b -> heading a b d ->
    ~ (0 <= fst (g_distance_to_border g (position a) d) <= apart a b).
Proof.
  induction l as [|a [|b l] IH]; cbn [entry_loop].
  { intros _ [|? ?]; discriminate. }
  { intros _ [|? [|? ?]]; discriminate. }
  set (rec := entry_loop sectors g (b :: l)) in *.
  intros H [|z l1] a' b' l2 d' E P Hd; cbn in E; injection E as -> E.
  - subst. destruct (normalize _) as [d|] eqn:En.
    + rewrite (heading_unique _ _ _ _ En Hd). fold (apart a' b') in H.
      destruct (Rleb_spec (fst (g_distance_to_border g (position a') d)) (apart a' b')) as [L1|L1]; [|lra].
      destruct (Rleb_spec 0 (fst (g_distance_to_border g (position a') d))) as [L2|L2]; [|lra].
      cbn [andb] in H. destruct (_ <? _) in H; [discriminate|].
      destruct (re_propagate_distance _ _ _ _); discriminate.
    + apply normalize_none in En. unfold apart in P. lra.
  - assert (rec = Ok None).
    { destruct (normalize _) as [d|]; auto. destruct (_ && _) in H; auto.
      destruct (_ <? _) in H; [discriminate|]. destruct (re_propagate_distance _ _ _ _); discriminate. }
    eapply IH; eauto.
Qed.
Lemma exit_loop_none g l : exit_loop sectors g l = Ok None ->
  forall l1 a b l2 d, l = l1 ++ b :: a :: l2 -> 0 < apart a b -> heading a b d ->
    ~ (0 <= fst (g_distance_to_border g (position b) (vneg d)) <= apart a b).
Proof.
  induction l as [|a [|b l] IH]; cbn [exit_loop].
  { intros _ [|? ?]; discriminate. }
  { intros _ [|? [|? ?]]; discriminate. }
  set (rec := exit_loop sectors g (b :: l)) in *.
  intros H [|z l1] b' a' l2 d' E P Hd; cbn in E; injection E as -> E.
  - subst. destruct (normalize _) as [d|] eqn:En.
    + rewrite (heading_unique _ _ _ _ En Hd). fold (apart b' a') in H.
      destruct (Rleb_spec (fst (g_distance_to_border g (position a') (vneg d))) (apart b' a')) as [L1|L1]; [|lra].
      destruct (Rleb_spec 0 (fst (g_distance_to_border g (position a') (vneg d)))) as [L2|L2]; [|lra].
      cbn [andb] in H. destruct (_ <? _) in H; [discriminate|].
      destruct (re_propagate_distance _ _ _ _); discriminate.
    + apply normalize_none in En. unfold apart in P. lra.
  - assert (rec = Ok None).
    { destruct (normalize _) as [d|]; auto. destruct (_ && _) in H; auto.
      destruct (_ <? _) in H; [discriminate|]. destruct (re_propagate_distance _ _ _ _); discriminate. }
    eapply IH; eauto.
Qed.

Lemma nth_split {A} (l : list A) i a b : nth_error l i = Some a -> nth_error l (S i) = Some b ->
  exists l1 l2, l = l1 ++ a :: b :: l2 /\ length l1 = i.
Proof.
  intros Ha Hb. apply nth_error_split in Ha. destruct Ha as (l1 & l2 & -> & L).
  rewrite nth_error_app2 in Hb by lia. replace (S i - length l1)%nat with 1%nat in Hb by lia.
  cbn in Hb. destruct l2 as [|z l2]; [discriminate|]. injection Hb as ->. eauto.
Qed.
Lemma split_nth {A} (l1 l2 : list A) a b : 
  nth_error (l1 ++ a :: b :: l2) (length l1) = Some a /\ nth_error (l1 ++ a :: b :: l2) (S (length l1)) = Some b.
Proof.
  rewrite !nth_error_app2 by lia. rewrite Nat.sub_diag. replace (S (length l1) - length l1)%nat with 1%nat by lia. auto.
Qed.
Lemma rev_split {A} (l l1 l2 : list A) a b : rev l = l1 ++ b :: a :: l2 -> l = rev l2 ++ a :: b :: rev l1.
Proof.
  intros H. rewrite <- (rev_involutive l), H, rev_app_distr. cbn. rewrite <- !app_assoc. reflexivity.
Qed.

Lemma c45_entry_some t g r : get_entry_point sectors t g = Ok (Some r) ->
  exists first, nth_error (tr_states t) 0 = Some first /\
  ((is_entering g (position first) (direction first) = true /\ r = first) \/
   (is_inside g (position first) (direction first) = false /\
    exists i a b d, neighbours t i a b /\ heading a b d /\
      (let x := fst (g_distance_to_border g (position a) d) in
       found_on sectors a b b x (apart a b - x) r) /\
      forall j a' b' d', (j < i)%nat -> neighbours t j a' b' -> 0 < apart a' b' -> heading a' b' d' ->
        ~ (0 <= fst (g_distance_to_border g (position a') d') <= apart a' b'))).
Proof.
  unfold get_entry_point.
  destruct (at_index (tr_states t) 0) as [f| |] eqn:Ef; cbn [obind]; try discriminate.
  apply at_index_ok in Ef. intros H. exists f. split; auto.
  destruct (is_entering _ _ _) eqn:E1 in H; [injection H as <-; auto|].
  destruct (is_inside _ _ _) eqn:E2 in H; [discriminate|]. right. split; auto.
  apply entry_loop_spec in H. destruct H as (l1 & a & b & l2 & d & x & E & H1 & -> & H3 & H4).
  exists (length l1), a, b, d. split; [unfold neighbours; rewrite E; apply split_nth|]. split; [auto|].
  split; [auto|]. intros j a' b' d' Hj [N1 N2] P Hd.
  destruct (nth_split _ _ _ _ N1 N2) as (k1 & k2 & K & <-). eapply H4; eauto.
Qed.
Lemma c45_entry_none t g : get_entry_point sectors t g = Ok None ->
  exists first, nth_error (tr_states t) 0 = Some first /\
    is_entering g (position first) (direction first) = false /\
  (is_inside g (position first) (direction first) = true \/
   forall i a b d, neighbours t i a b -> 0 < apart a b -> heading a b d ->
     ~ (0 <= fst (g_distance_to_border g (position a) d) <= apart a b)).
Proof.
  unfold get_entry_point.
  destruct (at_index (tr_states t) 0) as [f| |] eqn:Ef; cbn [obind]; try discriminate.
  apply at_index_ok in Ef. intros H. exists f. split; auto.
  destruct (is_entering _ _ _) eqn:E1 in H; [discriminate|]. split; auto.
  destruct (is_inside _ _ _) eqn:E2 in H; [auto|]. right.
  intros i a b d [N1 N2] P Hd. destruct (nth_split _ _ _ _ N1 N2) as (k1 & k2 & K & <-).
  eapply entry_loop_none; eauto.
Qed.

Lemma c45_exit_some t g r : get_exit_point sectors t g = Ok (Some r) ->
  exists first last l, nth_error (tr_states t) 0 = Some first /\ tr_states t = l ++ [last] /\
  ((is_leaving g (position last) (direction last) = true /\ r = last) \/
   (is_inside g (position last) (direction last) = false /\
    ((exists i a b d, neighbours t i a b /\ heading a b d /\
      (let x := fst (g_distance_to_border g (position b) (vneg d)) in
       found_on sectors a b a (apart a b - x) (apart a b - x) r) /\
      forall j a' b' d', (i < j)%nat -> neighbours t j a' b' -> 0 < apart a' b' -> heading a' b' d' ->
        ~ (0 <= fst (g_distance_to_border g (position b') (vneg d')) <= apart a' b')) \/
     (is_leaving g (position first) (direction first) = true /\ r = first)))).
Proof.
  unfold get_exit_point.
  destruct (at_index (tr_states t) (length (tr_states t) - 1)) as [f| |] eqn:Ef; cbn [obind]; try discriminate.
  apply last_is in Ef. destruct Ef as (l & El). intros H.
  assert (exists f0, nth_error (tr_states t) 0 = Some f0) as (f0 & E0).
  { rewrite El. destruct l; cbn; eauto. }
  exists f0, f, l. split; [auto|]. split; [auto|].
  destruct (is_leaving _ _ _) eqn:E1 in H; [injection H as <-; auto|].
  destruct (is_inside _ _ _) eqn:E2 in H; [discriminate|]. right. split; auto.
  destruct (exit_loop sectors g (rev (tr_states t))) as [[r'|]| |] eqn:E3; cbn [obind] in H; try discriminate.
  - injection H as ->. left.
    apply exit_loop_spec in E3. destruct E3 as (l1 & a & b & l2 & d & x & E & H1 & -> & H3 & H4).
    pose proof (rev_split _ _ _ _ _ E) as E'.
    exists (length (rev l2)), a, b, d. split; [unfold neighbours; rewrite E'; apply split_nth|]. split; [auto|].
    split; [auto|]. intros j a' b' d' Hj [N1 N2] P Hd.
    destruct (nth_split _ _ _ _ N1 N2) as (k1 & k2 & K & <-).
    assert (HL : length (tr_states t) = length (tr_states t)) by auto.
    rewrite E' in HL at 1. rewrite K in HL. rewrite !app_length in HL. cbn [length] in HL. rewrite !rev_length in *.
    apply (H4 (rev k2) a' b' (rev k1) d'); auto.
    + rewrite K, rev_app_distr. cbn. rewrite <- !app_assoc. reflexivity.
    + rewrite rev_length. lia.
  - right. unfold at_index in H. rewrite E0 in H. cbn [obind] in H.
    destruct (is_leaving g (position f0) (direction f0)) eqn:E4; [|discriminate]. injection H as <-. auto.
Qed.

Lemma found_point a b d x near gap r :
  heading a b d -> found_on sectors a b near x gap r ->
  near = b /\ gap = apart a b - x ->
  magnitude (vsub (position r) (at_ (position a) d x)) < PARTICLE_POSITION_RESOLUTION /\
  (PARTICLE_POSITION_RESOLUTION <= gap -> position r = at_ (position a) d x).
Proof.
  intros [U Hd] (Hx & P & Hf) [-> ->].
  destruct Hf as [[G ->]|[G (W & [U' W'] & _)]].
  - split; [|lra]. rewrite Hd.
    replace (vsub _ _) with (scale (apart a b - x) d)
      by (unfold vsub, at_, vadd, scale; cbn; f_equal; ring).
    replace (magnitude (scale (apart a b - x) d)) with (apart a b - x); auto.
    unfold magnitude, scale; cbn. unfold unit, dot in U.
    replace (_ + _ + _) with ((apart a b - x) * (apart a b - x) * (vx d * vx d + vy d * vy d + vz d * vz d)) by ring.
    rewrite U, Rmult_1_r, sqrt_square; lra.
  - assert (E : position r = at_ (position a) d x).
    { destruct W as (_ & _ & W1 & W2 & W3). rewrite Hd in W1, W2, W3. unfold at_, vadd, scale in *; cbn in *.
      destruct (position r); cbn in *. rewrite W1, W2, W3. f_equal; field; lra. }
    split; [|auto]. rewrite E. unfold vsub, magnitude; cbn.
    replace (_ + _ + _) with 0 by ring. rewrite sqrt_0. unfold PARTICLE_POSITION_RESOLUTION. lra.
Qed.

(** For the three shapes, an entry point that is not the start of the track
    lies on the surface, up to the position resolution. *)
Lemma c45_entry_border t g r (surface : vec -> Prop) :
  (forall p d, unit d -> fst (g_distance_to_border g p d) = -1 \/
     surface (at_ p d (fst (g_distance_to_border g p d)))) ->
  get_entry_point sectors t g = Ok (Some r) ->
  (exists first, nth_error (tr_states t) 0 = Some first /\
     is_entering g (position first) (direction first) = true /\ r = first) \/
  exists q, surface q /\ magnitude (vsub (position r) q) < PARTICLE_POSITION_RESOLUTION.
Proof.
  intros HB H. apply c45_entry_some in H. destruct H as (f & F & [[H1 H2]|(_ & i & a & b & d & HN & Hh & Hf & _)]); eauto.
  right. destruct (HB (position a) d (proj1 Hh)) as [K|K].
  { destruct Hf as (Hf & _). lra. }
  eexists; split; [exact K|]. eapply found_point; eauto.
Qed.

Lemma c45_exit_border t g r (surface : vec -> Prop) :
  (forall p d, unit d -> fst (g_distance_to_border g p d) = -1 \/
     surface (at_ p d (fst (g_distance_to_border g p d)))) ->
  get_exit_point sectors t g = Ok (Some r) ->
  (exists s, In s (tr_states t) /\ is_leaving g (position s) (direction s) = true /\ r = s) \/
  exists q, surface q /\ magnitude (vsub (position r) q) < PARTICLE_POSITION_RESOLUTION.
Proof.
  intros HB H. apply c45_exit_some in H.
  destruct H as (f & l & ll & F & E & [[H1 H2]|(_ & [(i & a & b & d & HN & Hh & Hf & _)|[H1 H2]])]).
  - left. exists l. split; [rewrite E; apply in_or_app; right; left; auto|auto].
  - right. pose proof (heading_back _ _ _ Hh) as Hb.
    destruct (HB (position b) (vneg d) (proj1 Hb)) as [K|K].
    { cbv zeta in Hf. destruct Hf as (Hf & _). lra. }
    eexists; split; [exact K|]. cbv zeta in Hf. set (x := fst _) in *.
    assert (Eq : at_ (position b) (vneg d) x = at_ (position a) d (apart a b - x)).
    { rewrite (proj2 Hh). unfold at_, vadd, scale, vneg; cbn. f_equal; ring. }
    rewrite Eq. destruct Hf as (Hx & P & [[G ->]|[G (W & _)]]).
    + unfold unit, dot in *. destruct Hh as [U _]. unfold unit, dot in U.
      unfold magnitude, vsub, at_, vadd, scale; cbn.
      replace (_ + _ + _) with ((apart a b - x) * (apart a b - x) * (vx d * vx d + vy d * vy d + vz d * vz d)) by ring.
      rewrite U, Rmult_1_r, sqrt_square; lra.
    + assert (E' : position r = at_ (position a) d (apart a b - x)).
      { destruct W as (_ & _ & W1 & W2 & W3). rewrite (proj2 Hh) in W1, W2, W3. unfold at_, vadd, scale in *; cbn in *.
        destruct (position r); cbn in *. rewrite W1, W2, W3. f_equal; field; lra. }
      rewrite E'. unfold vsub, magnitude; cbn.
      replace (_ + _ + _) with 0 by ring. rewrite sqrt_0. unfold PARTICLE_POSITION_RESOLUTION. lra.
  - left. exists f. split; [eapply nth_error_In; eauto|auto].
Qed.
End Q.
