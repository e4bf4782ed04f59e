(** Which values of the random stream a propagation step uses (C55). *)
From Verif Require Import Prelude PreludeFacts Vec_Model Geometry_Model Propagator_Model Propagator_Spec
  Propagator_Proofs Shapes_Spec Toy.

Section Numbers.
Variable rs : nat -> R.
Variable sectors : list sector.
Hypothesis no_sentinel : forall k, rs k <> -1.

(** The cache holds the block of four values drawn last, or nothing at all. *)
Definition filled (n0 : nat) (c : cache) (n : nat) : Prop :=
  exists k, n = (n0 + 4 * k + 4)%nat /\ slots c 0 = rs (n0 + 4 * k) /\ slots c 1 = rs (n0 + 4 * k + 1) /\
    slots c 2 = rs (n0 + 4 * k + 2) /\ slots c 3 = rs (n0 + 4 * k + 3).
Definition blank (n0 : nat) (c : cache) (n : nat) : Prop :=
  n = n0 /\ slots c 0 = -1 /\ slots c 1 = -1 /\ slots c 2 = -1 /\ slots c 3 = -1.
Definition cache_ok (n0 : nat) (c : cache) (n : nat) : Prop :=
  (exists m, cache_i c = (m * 4)%nat) /\ (blank n0 c n \/ filled n0 c n).

Lemma resample_filled n0 c n c' n' :
  cache_ok n0 c n -> resample rs c n = (c', n') -> cache_ok n0 c' n' /\ filled n0 c' n'.
Proof.
  intros [Hi Hc] H. unfold resample in H. injection H as <- <-.
  assert (F : exists k, n = (n0 + 4 * k)%nat).
  { destruct Hc as [(-> & _)|(k & -> & _)]; [exists 0%nat; lia|exists (S k); lia]. }
  destruct F as (k & ->).
  assert (filled n0 (mkcache (fun j => match j with
                     | O => rs (n0 + 4 * k) | S O => rs (S (n0 + 4 * k))
                     | S (S O) => rs (S (S (n0 + 4 * k)))
                     | _ => rs (S (S (S (n0 + 4 * k)))) end) (cache_i c)) (n0 + 4 * k + 4)).
  { exists k. cbn [slots]. repeat split; auto; f_equal; lia. }
  split; auto. split; auto.
Qed.

Lemma mod_block m j : (j < 4)%nat -> Nat.modulo (j + m * 4) 4 = j.
Proof. intros. rewrite Nat.mod_add by lia. apply Nat.mod_small; auto. Qed.

Lemma cached_hit c n m j : (j < 4)%nat -> cache_i c = (j + m * 4)%nat -> slots c j <> -1 ->
  cached_rnd rs c n = (slots c j, mkcache (slots c) (S (cache_i c)), n).
Proof.
  intros Hj Hi Hs. unfold cached_rnd. rewrite Hi, mod_block; auto.
  destruct (Reqb_spec (slots c j) (-1)); [contradiction|reflexivity].
Qed.

Lemma cached_miss c n m j : (j < 4)%nat -> cache_i c = (j + m * 4)%nat -> slots c j = -1 ->
  cached_rnd rs c n = (rs n, mkcache (set_slot (slots c) j (rs n)) (S (cache_i c)), S n).
Proof.
  intros Hj Hi Hs. unfold cached_rnd. rewrite Hi, mod_block; auto.
  destruct (Reqb_spec (slots c j) (-1)); [|contradiction].
  cbn [slots]. unfold set_slot at 1. rewrite Nat.eqb_refl. reflexivity.
Qed.


(** Four calls of the lambda return the block in the cache and leave it there;
    an empty cache is filled first. *)
Lemma four_numbers n0 c n l c' n' :
  cache_ok n0 c n -> cached_rnds rs 4 c n = (l, c', n') ->
  cache_ok n0 c' n' /\ filled n0 c' n' /\ exists k, n' = (n0 + 4 * k + 4)%nat /\ l = block rs (n0 + 4 * k) /\
    slots c' 0 = rs (n0 + 4 * k).
Proof.
  intros [(m & Hi) Hc] H. cbn [cached_rnds] in H.
  destruct Hc as [(-> & H0 & H1 & H2 & H3)|(k & -> & H0 & H1 & H2 & H3)].
  - rewrite (cached_miss c n0 m 0) in H by (auto; lia).
    rewrite (cached_miss _ (S n0) m 1) in H by (cbn; auto; lia).
    rewrite (cached_miss _ (S (S n0)) m 2) in H by (cbn; auto; lia).
    rewrite (cached_miss _ (S (S (S n0))) m 3) in H by (cbn; auto; lia).
    injection H as <- <- <-.
    assert (F : filled n0 {| slots := set_slot (set_slot (set_slot (set_slot (slots c) 0 (rs n0)) 1 (rs (S n0)))
       2 (rs (S (S n0)))) 3 (rs (S (S (S n0)))); cache_i := S (S (S (S (cache_i c)))) |} (S (S (S (S n0))))).
    { exists 0%nat. cbn. repeat split; solve [lia|f_equal; lia]. }
    split.
    { split; [exists (S m); cbn [cache_i]; lia|auto]. }
    split; auto. exists 0%nat. split; [lia|]. split.
    { unfold block. repeat f_equal; lia. }
    cbn. f_equal; lia.
  - assert (N : forall j, (j < 4)%nat -> slots c j <> -1).
    { intros [|[|[|[|]]]] ?; try lia; rewrite ?H0, ?H1, ?H2, ?H3; auto. }
    rewrite (cached_hit c _ m 0) in H by (try apply N; lia).
    rewrite (cached_hit _ _ m 1) in H by (cbn [slots cache_i]; try apply N; lia).
    rewrite (cached_hit _ _ m 2) in H by (cbn [slots cache_i]; try apply N; lia).
    rewrite (cached_hit _ _ m 3) in H by (cbn [slots cache_i]; try apply N; lia).
    cbn [slots cache_i] in H. injection H as <- <- <-.
    assert (F : filled n0 {| slots := slots c; cache_i := S (S (S (S (cache_i c)))) |} (n0 + 4 * k + 4)).
    { exists k. cbn [slots]. auto. }
    split.
    { split; [exists (S m); cbn [cache_i]; lia|auto]. }
    split; auto. exists k. split; auto. split; [|auto].
    rewrite H0, H1, H2, H3. reflexivity.
Qed.

Lemma first_block n : exists c, cached_rnds rs 4 empty_cache n = (block rs n, c, (n + 4)%nat) /\
  slots c 0 = rs n /\ cache_i c = 4%nat.
Proof.
  eexists. split.
  - cbn [cached_rnds].
    rewrite (cached_miss empty_cache n 0 0) by (cbn; auto; lia).
    rewrite (cached_miss _ (S n) 0 1) by (cbn; auto; lia).
    rewrite (cached_miss _ (S (S n)) 0 2) by (cbn; auto; lia).
    rewrite (cached_miss _ (S (S (S n))) 0 3) by (cbn; auto; lia).
    f_equal; [f_equal|lia]. unfold block. repeat f_equal; lia.
  - split; reflexivity.
Qed.

Lemma scatter_numbers n0 s g ei ef d c n mean new c' n' :
  cache_ok n0 c n ->
  directions_scatter rs (s_utility s) g ei ef d c n = (Ok (mean, new), c', n') ->
  cache_ok n0 c' n' /\
  forall ms, multiple_of s = Some ms -> exists k o, n' = (n0 + 4 * k + 4)%nat /\
    slots c' 0 = rs (n0 + 4 * k) /\
    ms g ei ef (block rs (n0 + 4 * k)) = Ok o /\ (mean, new) = scatter_initial_direction d o.
Proof.
  intros Hc H. unfold directions_scatter in H. unfold multiple_of.
  destruct (u_scattering (s_utility s)) as [sc|].
  - destruct (sc_multiple sc) as [ms|].
    + destruct (cached_rnds rs 4 c n) as [[l c1] n1] eqn:E.
      apply (four_numbers n0) in E; auto. destruct E as (C & F & k & Hn & -> & Hs).
      destruct (ms g ei ef (block rs (n0 + 4 * k))) as [o| |] eqn:Em; try discriminate.
      assert ((mean, new) = scatter_initial_direction d o) as Ho by congruence.
      assert (c1 = c') as <- by congruence. assert (n1 = n') as <- by congruence. split; [exact C|].
      intros ms' Hm. injection Hm as <-. exists k, o. auto.
    + assert (c = c') as <- by congruence. assert (n = n') as <- by congruence.
      split; [exact Hc|discriminate].
  - injection H as _ _ <- <-. split; [exact Hc|discriminate].
Qed.

Lemma propose_numbers n0 st e_next md a g e dist c n :
  cache_ok n0 (a_cache a) (a_draws a) ->
  propose rs st e_next md a = Ok (g, e, dist, c, n) -> cache_ok n0 c n.
Proof.
  intros Hc H. unfold propose in H.
  destruct (_ && _).
  { apply obind_Ok in H. destruct H as (gs & _ & H).
    apply obind_Ok in H. destruct H as (d0 & _ & H). injection H as _ _ _ <- <-. exact Hc. }
  destruct (_ && _); [|discriminate].
  destruct (a_distance a); [|discriminate].
  apply obind_Ok in H. destruct H as (gs & _ & H).
  destruct (_ <? _).
  - apply obind_Ok in H. destruct H as (e0 & _ & H). injection H as _ _ _ <- <-. exact Hc.
  - destruct (resample rs (a_cache a) (a_draws a)) as [c1 n1] eqn:E.
    apply (resample_filled n0) in E; auto.
    apply obind_Ok in H. destruct H as (d0 & _ & H). injection H as _ _ _ <- <-. apply E.
Qed.

(** What the end of the loop says about the random numbers. *)
Definition done_numbers (n0 : nat) (st : pstate) (f : adv_done) : Prop :=
  cache_ok n0 (f_cache f) (f_draws f) /\
  forall ms, multiple_of (f_sector f) = Some ms -> exists k o g e, f_draws f = (n0 + 4 * k + 4)%nat /\
    slots (f_cache f) 0 = rs (n0 + 4 * k) /\
    ms g (energy st) e (block rs (n0 + 4 * k)) = Ok o /\
    (f_mean f, f_new f) = scatter_initial_direction (direction st) o /\
    (f_type f <> ReachedBorder -> e = f_energy f /\ g = f_grammage f).

Lemma iteration_numbers n0 max_steps st e_next md k a r :
  cache_ok n0 (a_cache a) (a_draws a) ->
  advance_iteration rs sectors max_steps st e_next md k a = Ok r ->
  match r with
  | inl a' => cache_ok n0 (a_cache a') (a_draws a')
  | inr f => done_numbers n0 st f
  end.
Proof.
  unfold advance_iteration. intros Hc H.
  apply obind_Ok in H. destruct H as ([[[[gr e] dist] c0] n1] & HP & H).
  apply (propose_numbers n0) in HP; auto.
  destruct (directions_scatter _ _ _ _ _ _ _ _) as [[dirs c] n] eqn:ED.
  apply obind_Ok in H. destruct H as ([mean new] & -> & H).
  apply (scatter_numbers n0) in ED; auto. destruct ED as [C D].
  assert (F : forall t d, done_numbers n0 st (mkadv_done t d gr e mean new (a_sector a) c n)).
  { intros t d. split; [exact C|]. intros ms Hm. cbn [f_sector] in Hm.
    destruct (D ms Hm) as (k0 & o & D1 & D2 & D3 & D4).
    exists k0, o, gr, e. cbn. auto 6. }
  destruct (Nat.ltb max_steps k).
  - apply obind_Ok in H; destruct H as (g' & _ & H).
    apply obind_Ok in H; destruct H as (e' & _ & H). injection H as <-.
    split; [exact C|]. intros ms Hm. cbn [f_sector] in Hm.
    destruct (D ms Hm) as (k0 & o & D1 & D2 & D3 & D4).
    exists k0, o, gr, e. cbn. repeat (split; [assumption|]). intros N; contradiction.
  - destruct (is_inside _ _ _); cbn [negb] in H.
    + destruct dist as [x|].
      * destruct (_ && _ && _); [injection H as <-; apply F|].
        destruct (_ && _); [injection H as <-; apply F|].
        destruct (_ <=? _); [injection H as <-; apply F|].
        injection H as <-. exact C.
      * injection H as <-. exact C.
    + apply obind_Ok in H; destruct H as (s' & _ & H).
      apply obind_Ok in H; destruct H as (gn & _ & H).
      destruct (a_backscatter a).
      * destruct (resample rs c n) as [c1 n2] eqn:E. apply (resample_filled n0) in E; auto.
        injection H as <-. apply E.
      * injection H as <-. exact C.
Qed.

Lemma loop_numbers n0 fuel max_steps st e_next md : forall k a f,
  cache_ok n0 (a_cache a) (a_draws a) ->
  advance_loop rs sectors fuel max_steps st e_next md k a = Some (Ok f) -> done_numbers n0 st f.
Proof.
  induction fuel as [|fuel IH]; intros k a f HI H; cbn in H; [discriminate|].
  destruct (advance_iteration _ _ _ _ _ _ _ _) as [[a'|f']| |] eqn:E; try discriminate.
  - apply (iteration_numbers n0) in E; auto. eapply IH; eauto.
  - injection H as <-. apply (iteration_numbers n0) in E; auto.
Qed.

(** The number handed to the continuous randomisation is the first one of the
    block. *)
Lemma randomize_number n0 u e_i e_f c n m e' c' n' cr :
  cache_ok n0 c n -> u_cont_rand u = Some cr ->
  energy_randomize rs u e_i e_f c n m = (Ok e', c', n') ->
  exists k, cr e_i e_f (rs (n0 + 4 * k)) m = Ok e' /\
    (filled n0 c n -> n' = n /\ slots c 0 = rs (n0 + 4 * k)).
Proof.
  intros [(j & Hi) Hc] Hcr H. unfold energy_randomize in H. rewrite Hcr in H.
  destruct Hc as [(-> & H0 & _)|(k & -> & H0 & H1)].
  - rewrite (cached_miss c n0 j 0) in H by (auto; lia).
    assert (cr e_i e_f (rs n0) m = Ok e') as Hr by congruence.
    exists 0%nat. replace (n0 + 4 * 0)%nat with n0 by lia. split; auto.
    intros (k & E & _). lia.
  - rewrite (cached_hit c _ j 0) in H by (auto; try lia; rewrite H0; auto).
    rewrite H0 in H. injection H as H _ <-. exists k. auto.
Qed.

Lemma c55_numbers fuel max_steps st e_next final s mes me n st' at' s' n' :
  advance_particle rs sectors fuel max_steps st e_next final s mes me n = Some (Ok (st', at', s', n')) ->
  (forall ms, multiple_of s' = Some ms ->
   exists k g e o, n' = (n + 4 * k + 4)%nat /\
     ms g (energy st) e (block rs (n + 4 * k)) = Ok o /\
     direction st' = snd (scatter_initial_direction (direction st) o) /\
     moved st st' (fst (scatter_initial_direction (direction st) o))
       (propagated_distance st' - propagated_distance st) /\
     (forall cr, u_cont_rand (s_utility s') = Some cr -> mes = false \/ at' <> ReachedInteraction ->
      exists e', cr (energy st) e' (rs (n + 4 * k)) me = Ok (energy st') /\
        (at' <> ReachedBorder -> e' = e))) /\
  (forall cr, u_cont_rand (s_utility s') = Some cr -> mes = false \/ at' <> ReachedInteraction ->
   exists k e', cr (energy st) e' (rs (n + 4 * k)) me = Ok (energy st')).
Proof.
  unfold advance_particle. intros H.
  destruct (advance_init st e_next s n) as [a| |] eqn:EI; try discriminate.
  assert (HI : cache_ok n (a_cache a) (a_draws a)).
  { unfold advance_init in EI. apply obind_Ok in EI. destruct EI as (gn & Hgn & EI).
    injection EI as <-. cbn. split; [exists 0%nat; reflexivity|]. left. repeat split. }
  destruct (advance_loop _ _ _ _ _ _ _ _ _) as [r|] eqn:E; [|discriminate].
  injection H as H. apply obind_Ok in H. destruct H as (f & -> & H).
  apply (loop_numbers n) in E; auto. destruct E as [C D].
  unfold advance_finish in H. apply obind_Ok in H. destruct H as (dt & Hdt & H).
  destruct (mes && _) eqn:Em.
  - injection H as <- <- <- <-. cbn [s_utility energy position direction propagated_distance].
    apply andb_true_iff in Em. destruct Em as [-> Em].
    assert (f_type f = ReachedInteraction) as Ft by (destruct (f_type f); congruence).
    split.
    + intros ms Hm. destruct (D ms Hm) as (k & o & g & e & D1 & D2 & D3 & D4 & D5).
      exists k, g, e, o. split; [exact D1|]. split; [exact D3|]. rewrite <- D4. cbn [fst snd].
      split; [reflexivity|]. split.
      { unfold moved. cbn [position propagated_distance]. split; [do 2 f_equal; ring|ring]. }
      intros cr _ [X|X]; [discriminate|contradiction].
    + intros cr _ [X|X]; [discriminate|contradiction].
  - destruct (energy_randomize _ _ _ _ _ _ _) as [[re c'] n1] eqn:Er.
    apply obind_Ok in H. destruct H as (e' & -> & H). injection H as <- <- <- <-.
    cbn [s_utility energy position direction propagated_distance].
    split.
    + intros ms Hm. destruct (D ms Hm) as (k & o & g & e & D1 & D2 & D3 & D4 & D5).
      assert (Hfill : filled n (f_cache f) (f_draws f)).
      { destruct C as [_ [(B & _)|B]]; [lia|exact B]. }
      exists k, g, e, o. split.
      { destruct (u_cont_rand (s_utility (f_sector f))) as [cr|] eqn:Ec.
        - destruct (randomize_number _ _ _ _ _ _ _ _ _ _ _ C Ec Er) as (k' & _ & X).
          destruct (X Hfill) as [-> _]. exact D1.
        - unfold energy_randomize in Er. rewrite Ec in Er. injection Er as _ _ <-. exact D1. }
      split; [exact D3|]. rewrite <- D4. cbn [fst snd].
      split; [reflexivity|]. split.
      { unfold moved. cbn [position propagated_distance]. split; [do 2 f_equal; ring|ring]. }
      intros cr Hcr _. exists (f_energy f).
      destruct (randomize_number _ _ _ _ _ _ _ _ _ _ _ C Hcr Er) as (k' & Y & X).
      destruct (X Hfill) as [_ Z]. rewrite D2 in Z. rewrite Z.
      split; [exact Y|]. intros N. destruct (D5 N); auto.
    + intros cr Hcr _. 
      destruct (randomize_number _ _ _ _ _ _ _ _ _ _ _ C Hcr Er) as (k' & Y & _). eauto.
Qed.
End Numbers.
