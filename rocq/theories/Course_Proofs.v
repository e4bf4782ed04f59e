(** Energies and times along a track. *)
From Verif Require Import Prelude PreludeFacts Vec_Model Geometry_Model Propagator_Model Propagator_Spec Propagator_Proofs Propagate_Proofs
  Integral_Model Utility_Model Course_Model Course_Spec.

Section Course.
Variable rs : nat -> R.
Variable sectors : list sector.

(** The random numbers in the cache come from the generator. *)
Definition drawn (c : cache) : Prop := forall j, slots c j = -1 \/ exists k, slots c j = rs k.
Lemma drawn_empty : drawn empty_cache.
Proof. intro j. left. reflexivity. Qed.
Lemma drawn_rnd c n : drawn c -> drawn (snd (fst (cached_rnd rs c n))) /\ exists k, fst (fst (cached_rnd rs c n)) = rs k.
Proof.
  intro D. unfold cached_rnd. generalize (Nat.modulo (cache_i c) 4). intro k.
  destruct (Reqb_spec (slots c k) (-1)) as [E|E]; cbn [fst snd slots].
  - split.
    + intro j. cbn [slots]. unfold set_slot. destruct (Nat.eqb j k); [right; eauto|apply D].
    + exists n. unfold set_slot. rewrite Nat.eqb_refl. reflexivity.
  - split; [exact D|]. destruct (D k) as [X|X]; [contradiction|exact X].
Qed.
Lemma drawn_rnds m : forall c n, drawn c -> drawn (snd (fst (cached_rnds rs m c n))).
Proof.
  induction m as [|m IH]; intros c n D; cbn; [exact D|].
  pose proof (proj1 (drawn_rnd c n D)) as X. destruct (cached_rnd rs c n) as [[r c1] n1]. cbn in X.
  pose proof (IH c1 n1 X) as Y. destruct (cached_rnds rs m c1 n1) as [[l c2] n2]. exact Y.
Qed.
Lemma drawn_resample c n : drawn (fst (resample rs c n)).
Proof. intros [|[|[|j]]]; right; cbn; eauto. Qed.
Lemma drawn_scatter u g ei ef d c n : drawn c -> drawn (snd (fst (directions_scatter rs u g ei ef d c n))).
Proof.
  intro D. unfold directions_scatter. destruct (u_scattering u) as [sc|]; [|exact D]. destruct (sc_multiple sc) as [ms|]; [|exact D].
  pose proof (drawn_rnds 4 c n D) as X. destruct (cached_rnds rs 4 c n) as [[l c'] n']. exact X.
Qed.

Definition course_inv (st : pstate) (e_next : R) (a : adv) : Prop :=
  In (a_sector a) sectors /\ drawn (a_cache a) /\ (a_energy a = -1 \/ a_energy a = e_next).
Definition course_done (st : pstate) (e_next : R) (f : adv_done) : Prop :=
  In (f_sector f) sectors /\ drawn (f_cache f) /\
  (f_energy f = e_next \/ exists g, u_upper_limit (s_utility (f_sector f)) (energy st) g = Ok (f_energy f)).

Lemma propose_course st e_next md a g e dist c n :
  course_inv st e_next a -> propose rs st e_next md a = Ok (g, e, dist, c, n) ->
  drawn c /\ (e = e_next \/ exists g, u_upper_limit (s_utility (a_sector a)) (energy st) g = Ok e).
Proof.
  intros (_ & D & I) H. unfold propose in H.
  destruct (Reqb_spec (a_energy a) (-1)) as [E|E]; cbn [negb andb] in H.
  - destruct (negb _); [|discriminate]. destruct (a_distance a) as [x|]; [|discriminate].
    apply obind_Ok in H. destruct H as (g0 & Hg & H). destruct (g0 <? a_grammage_next a).
    + apply obind_Ok in H. destruct H as (e0 & He & H). injection H as <- <- <- <- <-. split; [exact D|]. right. eauto.
    + pose proof (drawn_resample (a_cache a) (a_draws a)) as X. destruct (resample rs (a_cache a) (a_draws a)) as [c0 n0].
      apply obind_Ok in H. destruct H as (d0 & _ & H). injection H as <- <- <- <- <-. split; [exact X|]. left. reflexivity.
  - destruct (ext_is _ _); cbn [negb andb] in H; [|discriminate].
    apply obind_Ok in H. destruct H as (g0 & Hg & H). apply obind_Ok in H. destruct H as (d0 & _ & H). injection H as <- <- <- <- <-.
    split; [exact D|]. left. destruct I as [I|I]; [contradiction|exact I].
Qed.

Lemma iteration_course max_steps st e_next md k a r :
  course_inv st e_next a -> advance_iteration rs sectors max_steps st e_next md k a = Ok r ->
  match r with inl a' => course_inv st e_next a' | inr f => course_done st e_next f end.
Proof.
  intros I H. pose proof (advance_iteration_sector rs sectors max_steps st e_next md k a r (proj1 I) H) as HS.
  unfold advance_iteration in H. apply obind_Ok in H. destruct H as ([[[[gr e] dist] c0] n0] & HP & H).
  apply (propose_course _ _ _ _ _ _ _ _ _ I) in HP. destruct HP as (D & HE).
  pose proof (drawn_scatter (s_utility (a_sector a)) gr (energy st) e (direction st) c0 n0 D) as D'.
  destruct (directions_scatter _ _ _ _ _ _ _ _) as [[dirs c] n]. cbn [fst snd] in D'.
  apply obind_Ok in H. destruct H as ([mean new] & _ & H).
  destruct (Nat.ltb max_steps k).
  - apply obind_Ok in H; destruct H as (g' & _ & H). apply obind_Ok in H; destruct H as (e' & He & H). injection H as <-.
    split; [exact HS|]. split; [exact D'|]. right. eauto.
  - destruct (negb _).
    + apply obind_Ok in H; destruct H as (s' & Hs & H). apply obind_Ok in H; destruct H as (gn & _ & H).
      assert (D2 : drawn (fst (if a_backscatter a then resample rs c n else (c, n)))) by (destruct (a_backscatter a); [apply drawn_resample|exact D']).
      destruct (if a_backscatter a then _ else _) as [c1 n1]. injection H as <-. split; [exact HS|]. split; [exact D2|]. right. reflexivity.
    + destruct dist as [x|].
      * destruct (_ && _ && _) in H; [|destruct (_ && _) in H; [|destruct (_ <=? _) in H]]; injection H as <-;
          (split; [exact HS|]; split; [exact D'|]); try exact HE. left. reflexivity.
      * injection H as <-. split; [exact HS|]. split; [exact D'|]. left. reflexivity.
Qed.
Lemma loop_course fuel max_steps st e_next md : forall k a f,
  course_inv st e_next a -> advance_loop rs sectors fuel max_steps st e_next md k a = Some (Ok f) -> course_done st e_next f.
Proof.
  induction fuel as [|fuel IH]; intros k a f I H; cbn in H; [discriminate|].
  destruct (advance_iteration _ _ _ _ _ _ _ _) as [[a'|f']| |] eqn:E; try discriminate;
    apply iteration_course in E; auto.
  - eapply IH; eauto.
  - injection H as <-. exact E.
Qed.

(** ** One step *)
Section Range.
Variable L : R.
Hypothesis numbers : forall k, 0 <= rs k <= 1.
Hypothesis range : forall s, In s sectors -> in_range L s.

Lemma step_course fuel max_steps st e_next final s mes me n st' at' s' n' :
  In s sectors -> L <= energy st -> me = L -> L <= e_next <= energy st ->
  advance_particle rs sectors fuel max_steps st e_next final s mes me n = Some (Ok (st', at', s', n')) ->
  In s' sectors /\ L <= energy st' <= energy st /\
  exists e g t, L <= e <= energy st /\ u_time (s_utility s') (energy st) e g (d_evaluate (s_density s') (position st)) = Ok t /\ time st' = time st + t.
Proof.
  intros HS HL -> HE H. unfold advance_particle, advance_init in H.
  destruct (u_track_integral _ _ _) as [gn| |]; cbn [obind] in H; try discriminate.
  destruct (advance_loop _ _ _ _ _ _ _ _ _) as [r|] eqn:E; [|discriminate].
  injection H as H. apply obind_Ok in H. destruct H as (f & -> & H).
  apply loop_course in E; [|split; [exact HS|split; [apply drawn_empty|right; reflexivity]]].
  destruct E as (F & D & U).
  assert (B : L <= f_energy f <= energy st).
  { destruct U as [->|(g & U)]; [exact HE|]. apply (ir_upper L _ (range _ F) _ g); [exact HL|exact U]. }
  unfold advance_finish in H. apply obind_Ok in H. destruct H as (dt & Hd & H).
  destruct (mes && _) in H.
  - injection H as <- _ <- _. cbn. split; [exact F|]. split; [exact B|]. exists (f_energy f), (f_grammage f), dt. auto.
  - unfold Propagator_Model.energy_randomize in H.
    destruct (u_cont_rand (s_utility (f_sector f))) as [cr|] eqn:C.
    + pose proof (drawn_rnd (f_cache f) (f_draws f) D) as (_ & (k & K)).
      destruct (cached_rnd rs (f_cache f) (f_draws f)) as [[r c'] n1]. cbn [fst snd] in K. subst r.
      apply obind_Ok in H. destruct H as (e' & He & H). injection H as <- _ <- _. cbn.
      split; [exact F|]. split; [|exists (f_energy f), (f_grammage f), dt; auto].
      rewrite <- (Rmax_left L L (Rle_refl L)). apply (ir_cont_rand L _ (range _ F) cr _ _ _ _ _ C (numbers k)) with (2 := He).
      rewrite (Rmax_left L L (Rle_refl L)). exact B.
    + cbn in H. injection H as <- _ <- _. cbn. split; [exact F|]. split; [exact B|]. exists (f_energy f), (f_grammage f), dt. auto.
Qed.

(** ** The track *)
Variables (fuel max_steps : nat) (max_distance min_energy : R) (cond : N).
Hypothesis positive : 0 <= L.
Hypothesis minimum : min_energy <= L.
Variable clock : Prop.
Hypothesis times : clock -> forall s, In s sectors -> forward_time L s.

Definition follows (a b : pstate) : Prop := L <= energy a /\ 0 <= energy b <= energy a /\ (clock -> time a <= time b).
Inductive chain : list pstate -> Prop :=
| chain_one a : chain [a]
| chain_more l a b : chain (l ++ [a]) -> follows a b -> chain (l ++ [a] ++ [b]).
Lemma chain_followed l : chain l -> forall i a b, nth_error l i = Some a -> nth_error l (S i) = Some b -> follows a b.
Proof.
  induction 1 as [a|l a b C IH F]; intros i x y X Y.
  - cbn in Y. destruct i; discriminate.
  - rewrite app_assoc in X, Y. pose proof (nth_error_Some (l ++ [a]) (S i)) as Q.
    destruct (lt_dec (S i) (length (l ++ [a]))) as [Z|Z].
    + rewrite nth_error_app1 in X, Y by lia. apply (IH i); assumption.
    + rewrite nth_error_app2 in Y by lia. rewrite app_length in *. cbn [length] in *.
      assert (W : (S i - (length l + 1) = 0)%nat).
      { destruct (S i - (length l + 1))%nat as [|j] eqn:J; [reflexivity|]. cbn in Y. destruct j; discriminate. }
      rewrite W in Y. cbn in Y. injection Y as <-. assert (i = length l) by lia. subst i.
      rewrite nth_error_app1 in X by (rewrite app_length; cbn; lia). rewrite nth_error_app2 in X by lia. rewrite Nat.sub_diag in X. cbn in X. injection X as <-. exact F.
Qed.

(** The last state of the track is above the present one, or the propagation ends. *)
Definition good (p : prop) : Prop :=
  In (p_sector p) sectors /\ exists l a, tr_states (p_track p) = l ++ [a] /\ chain (l ++ [a]) /\
    0 <= energy (p_state p) <= energy a /\ time a = time (p_state p) /\ L <= energy a.

Lemma maximize_value a b c : let k := maximize a b c in
  let e := match k with Decay => a | MinimalE => b | Stochastic => c end in b <= e /\ (e = a \/ e = b \/ e = c).
Proof.
  cbv zeta. pose proof (proj1 (c03_maximize a b c (maximize a b c)) eq_refl) as W. unfold wins in W. destruct (maximize a b c); cbn in W |- *.
  - split; [|auto]. destruct (W MinimalE ltac:(discriminate)) as [X|(X & _)]; cbn in X; lra.
  - split; [lra|auto].
  - split; [|auto]. destruct (W MinimalE ltac:(discriminate)) as [X|(X & _)]; cbn in X; lra.
Qed.

Lemma track_course p p' ev b : good p -> L <= energy (p_state p) ->
  propagate_iteration rs sectors fuel max_steps max_distance min_energy cond p = Some (Ok (p', ev, b)) ->
  chain (tr_states (p_track p')) /\ (b = true -> good p' /\ L <= energy (p_state p')).
Proof.
  intros (HS & l & a & T & C & P & Q & LA) HL H. unfold propagate_iteration in H.
  pose proof (range _ HS) as Rg. rewrite (ir_lower _ _ Rg) in H. rewrite (Rmax_right _ _ minimum) in H.
  destruct (Propagator_Model.energy_decay rs (s_utility (p_sector p)) _ _ _) as [rd n1] eqn:ED. destruct rd as [e_decay| |]; try discriminate.
  assert (BD : e_decay <= energy (p_state p)).
  { unfold Propagator_Model.energy_decay in ED. destruct (u_decay (s_utility (p_sector p))) as [f|] eqn:U.
    - injection ED as ED _. apply (ir_decay _ _ Rg f _ _ _ _ U HL (numbers _) ED).
    - injection ED as <- _. lra. }
  unfold Propagator_Model.energy_interaction in H. destruct (u_interaction (s_utility (p_sector p)) (energy (p_state p)) (rs n1)) as [e_stoch| |] eqn:EI; try discriminate.
  assert (BI : e_stoch <= energy (p_state p)) by (apply (ir_interaction _ _ Rg _ _ _ HL (numbers _) EI)).
  cbv zeta in H. pose proof (maximize_value e_decay L e_stoch) as M. cbv zeta in M.
  set (k := maximize e_decay L e_stoch) in *.
  set (e_next := match k with Decay => e_decay | MinimalE => L | Stochastic => e_stoch end) in *.
  assert (BN : L <= e_next <= energy (p_state p)) by (destruct M as (M1 & [M2|[M2|M2]]); lra).
  destruct (advance_particle _ _ _ _ _ _ _ _ _ _ _) as [[[[[st1 at1] s1] n3]| |]|] eqn:Ea; try discriminate.
  apply step_course in Ea; [|exact HS|exact HL|reflexivity|exact BN].
  destruct Ea as (HS1 & B1 & e & g & t & Be & Ht & Tm).
  injection H as H.
  set (t1 := push_back (p_track p) st1 ContinuousEnergyLoss 0) in *.
  assert (F1 : follows a st1).
  { split; [exact LA|]. split; [lra|]. intro K. pose proof (times K s1 HS1 _ _ _ _ _ Be Ht). lra. }
  assert (C1 : chain ((l ++ [a]) ++ [st1])) by (rewrite <- app_assoc; apply chain_more; assumption).
  assert (T1 : tr_states t1 = (l ++ [a]) ++ [st1]) by (cbn; rewrite T; reflexivity).
  assert (G1 : forall s n, In s sectors -> good (mkprop t1 st1 s n) /\ L <= energy st1).
  { intros s n Hs. split; [|lra]. split; [exact Hs|]. exists (l ++ [a]), st1. split; [exact T1|]. split; [exact C1|].
    cbn [p_state]. split; [lra|]. split; [reflexivity|lra]. }
  destruct at1.
  - destruct k eqn:Ek.
    + injection H as <- <- <-. cbn [p_track p_state]. split; [|discriminate]. cbn [push_back tr_states]. rewrite T1.
      rewrite <- !app_assoc. rewrite app_assoc. apply chain_more; [exact C1|]. split; [lra|]. split; [lra|]. intros _. lra.
    + injection H as <- <- <-. cbn [p_track p_state]. rewrite T1. split; [exact C1|discriminate].
    + apply obind_Ok in H. destruct H as ([[st2 lo] n4] & Hst & H).
      injection H as <- <- <-. cbn [p_track p_state].
      unfold do_stochastic_interaction in Hst. apply obind_Ok in Hst. destruct Hst as (lo' & Hl & Hst).
      destruct (direction_deflect _ _ _ _ _ _ _ _) as [rd' n'].
      apply obind_Ok in Hst. destruct Hst as (d' & _ & Hst). injection Hst as <- -> <-.
      pose proof (ir_loss _ _ (range _ HS1) _ _ _ Hl) as V.
      set (st2 := mkpstate _ _ _ _ _) in *.
      assert (E2 : 0 <= energy st2 <= energy st1) by (cbn; split; nra).
      assert (T2 : time st2 = time st1) by reflexivity.
      clearbody st2.
      destruct (itype_eqb (loss_type lo) Undefined).
      * rewrite T1. split; [exact C1|]. intro Hb. apply negb_true_iff in Hb. apply Rleb_false in Hb. split; [|lra].
        split; [exact HS1|]. exists (l ++ [a]), st1. split; [exact T1|]. split; [exact C1|]. cbn [p_state]. split; [exact E2|]. split; [congruence|lra].
      * assert (C2 : chain (((l ++ [a]) ++ [st1]) ++ [st2])).
        { rewrite <- app_assoc. apply chain_more; [exact C1|]. split; [lra|]. split; [exact E2|]. intros _. lra. }
        split; [cbn [push_back tr_states]; rewrite T1; exact C2|].
        intro Hb. apply negb_true_iff in Hb. apply Rleb_false in Hb. split; [|lra].
        split; [exact HS1|]. exists ((l ++ [a]) ++ [st1]), st2. split; [cbn [p_track push_back tr_states]; rewrite T1; reflexivity|].
        split; [exact C2|]. cbn [p_state]. split; [lra|]. split; [reflexivity|lra].
  - injection H as <- <- <-. cbn [p_track p_state]. rewrite T1. split; [exact C1|discriminate].
  - apply obind_Ok in H. destruct H as (s2 & Hs2 & H). injection H as <- <- <-. cbn [p_track p_state]. rewrite T1. split; [exact C1|].
    intros _. apply G1. eapply get_current_sector_In; eauto.
Qed.

Lemma tracks_course outer : forall p p' evs, good p -> L <= energy (p_state p) ->
  propagate_loop rs sectors outer fuel max_steps max_distance min_energy cond p = Some (Ok (p', evs)) ->
  chain (tr_states (p_track p')).
Proof.
  induction outer as [|outer IH]; intros p p' evs G HL H; cbn in H; [discriminate|].
  destruct (propagate_iteration _ _ _ _ _ _ _ _) as [[[[q ev] b]| |]|] eqn:E; try discriminate.
  apply track_course in E; [|assumption|assumption]. destruct E as (C & N). destruct b.
  - destruct (N eq_refl) as (G' & L'). destruct (propagate_loop _ _ _ _ _ _ _ _ _) as [[[p'' evs']| |]|] eqn:E2; try discriminate.
    injection H as <- _. apply (IH q p'' evs' G' L' E2).
  - injection H as <- _. exact C.
Qed.
End Range.

Lemma course L max_steps outer st md me cond t (clock : Prop) : (forall k, 0 <= rs k <= 1) -> 0 <= L -> me <= L ->
  (forall s, In s sectors -> in_range L s) -> (clock -> forall s, In s sectors -> forward_time L s) -> L <= energy st ->
  propagate rs sectors outer max_steps st md me cond = Some (Ok t) ->
  forall a b, followed_by t a b -> L <= energy a /\ 0 <= energy b <= energy a /\ (clock -> time a <= time b).
Proof.
  intros N P M R K S H a b (i & A & B). unfold propagate in H.
  destruct (propagate_events _ _ _ _ _ _ _ _) as [[[t' evs]| |]|] eqn:E; try discriminate. injection H as ->.
  unfold propagate_events in E. destruct (propagate_init sectors st) as [p| |] eqn:EI; try discriminate.
  destruct (propagate_loop _ _ _ _ _ _ _ _ _) as [[[p' evs']| |]|] eqn:EL; try discriminate. injection E as <- _.
  unfold propagate_init in EI. apply obind_Ok in EI. destruct EI as (s & Es & EI). injection EI as <-.
  apply (tracks_course L N R (Datatypes.S max_steps) max_steps md me cond P M clock K) in EL.
  - exact (chain_followed L clock _ EL i a b A B).
  - split; [eapply get_current_sector_In; eauto|]. exists [], st. split; [reflexivity|]. split; [apply chain_one|]. cbn. split; [lra|]. split; [reflexivity|exact S].
  - exact S.
Qed.
End Course.
