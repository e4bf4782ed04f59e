(** Proofs for C86. *)
From Verif Require Import Prelude PreludeFacts Vec_Model Propagator_Model Particle_Model Particle_Spec Particle_Proofs Shapes_Spec
  Math_Proofs Decay_Model Decay_Spec Decay_Proofs ManyBody_Proofs Weights_Model Weights_Spec.

(** ** Equality of definitions *)
Lemma list_eqb_euclid {A} (f : A -> A -> bool) (x y z : list A) : (forall u v w, f u v = true -> f u w = true -> f v w = true) ->
  list_eqb f x y = true -> list_eqb f x z = true -> list_eqb f y z = true.
Proof.
  intro E. revert y z. induction x as [|u x IH]; intros [|v y] [|w z]; cbn; try discriminate; auto.
  rewrite !andb_true_iff. intros (A1 & A2) (B1 & B2). split; eauto.
Qed.
Lemma Reqb_euclid u v w : (u =? v) = true -> (u =? w) = true -> (v =? w) = true.
Proof. intros A B. apply Reqb_true in A. apply Reqb_true in B. subst. apply Reqb_refl. Qed.
Lemma pdef_eqb_euclid d : forall a b, pdef_eqb d a = true -> pdef_eqb d b = true -> pdef_eqb a b = true.
Proof.
  apply (pdef_rec' (fun d => forall a b, pdef_eqb d a = true -> pdef_eqb d b = true -> pdef_eqb a b = true)
    (fun c => forall a b, channel_eqb c a = true -> channel_eqb c b = true -> channel_eqb a b = true)).
  - intros n m l t c h ds p w Hd [n1 m1 l1 t1 c1 h1 ds1 p1 w1] [n2 m2 l2 t2 c2 h2 ds2 p2 w2]. cbn. rewrite !andb_true_iff.
    intros ((((((((A1 & A2) & A3) & A4) & A5) & A6) & A7) & A8) & A9) ((((((((B1 & B2) & B3) & B4) & B5) & B6) & B7) & B8) & B9).
    apply String.eqb_eq in A1, B1. apply Z.eqb_eq in A8, A9, B8, B9. apply lifetime_eqb_eq in A4, B4. subst.
    splits; try (eapply Reqb_euclid; eassumption); try apply String.eqb_refl; try apply Z.eqb_refl.
    + apply lifetime_eqb_eq. reflexivity.
    + eapply list_eqb_euclid; [|exact A6|exact B6]. intros u v w'. apply list_eqb_euclid. exact Reqb_euclid.
    + clear - Hd A7 B7. revert ds1 ds2 A7 B7. induction ds as [|(k & e) ds IH]; intros [|(k1 & e1) ds1] [|(k2 & e2) ds2]; try discriminate; auto.
      inversion Hd as [|? ? He Hd']; subst. rewrite !andb_true_iff. intros ((A1 & A2) & A3) ((B1 & B2) & B3). splits; [eapply Reqb_euclid; eassumption|exact (He _ _ A2 B2)|exact (IH Hd' _ _ A3 B3)].
  - intros [] []; cbn; congruence.
  - intros x y Hx Hy [| | | |] [| | | |]; cbn; try discriminate. rewrite !andb_true_iff. intros (A1 & A2) (B1 & B2). split; auto.
  - intros ds u s e _ [| | | |] [| | | |]; cbn; try discriminate. rewrite !andb_true_iff.
    intros (((A1 & A2) & A3) & A4) (((B1 & B2) & B3) & B4). apply eqb_prop in A2, A4, B2, B4. apply Z.eqb_eq in A3, B3. subst.
    splits; [eapply list_eqb_euclid; [exact Reqb_euclid|eassumption|eassumption]|apply eqb_reflx|apply Z.eqb_refl|rewrite <- A4, <- B4; apply eqb_reflx].
  - intros x y z Hx Hy Hz [| | | |] [| | | |]; cbn; try discriminate; rewrite !andb_true_iff; intros ((A1 & A2) & A3) ((B1 & B2) & B3); splits; auto.
  - intros x y z Hx Hy Hz [| | | |] [| | | |]; cbn; try discriminate; rewrite !andb_true_iff; intros ((A1 & A2) & A3) ((B1 & B2) & B3); splits; auto.
Qed.

Section Sampled.
Variables (nan : forall A, outcome A) (reg : registry) (daughters : list pdef) (statistic : Z) (element : option (pstate -> list particle -> R)).
Notation step := (numbers_per_event daughters).
Notation event := (sample_event nan reg daughters element).

Lemma loop_limits n norm parent rnd : forall k ps lo hi par k', lo <= hi ->
  sample_loop nan reg daughters element n norm parent rnd k ps lo hi = Ok (par, k') ->
  normalization par = norm /\ k' = (k + n * step)%nat /\
  exists ws, length ws = n /\ successive (event norm parent rnd) step k ps ws /\
    weight_min par <= lo /\ hi <= weight_max par /\ Forall (fun w => weight_min par <= w <= weight_max par) ws /\
    (weight_min par = lo \/ In (weight_min par) ws) /\ (weight_max par = hi \/ In (weight_max par) ws).
Proof.
  induction n as [|n IH]; intros k ps lo hi par k' L H; cbn [sample_loop] in H.
  - injection H as <- <-. cbn. split; [reflexivity|]. split; [lia|]. exists []. cbn.
    splits; try reflexivity; try lra; try constructor; reflexivity.
  - apply obind_Ok in H. destruct H as ((w & ps') & Ev & H).
    set (lo' := if w <? lo then w else lo) in *. set (hi' := if hi <? w then w else hi) in *.
    assert (A : lo' <= lo /\ lo' <= w /\ (lo' = lo \/ lo' = w)) by (unfold lo'; destruct (Rltb_spec w lo); splits; try lra; auto).
    assert (B : hi <= hi' /\ w <= hi' /\ (hi' = hi \/ hi' = w)) by (unfold hi'; destruct (Rltb_spec hi w); splits; try lra; auto).
    clearbody lo' hi'. destruct (IH _ _ lo' hi' par k' ltac:(lra) H) as (N & K & ws & Le & Su & Lo & Hi & Fo & Mi & Ma).
    split; [exact N|]. split; [rewrite K; cbn; lia|]. exists (w :: ws). splits.
    + cbn. lia.
    + econstructor; eassumption.
    + lra.
    + lra.
    + constructor; [lra|exact Fo].
    + destruct Mi as [->|I]; [|right; right; exact I]. destruct A as (_ & _ & [->|E]); [left; reflexivity|right; left; symmetry; exact E].
    + destruct Ma as [->|I]; [|right; right; exact I]. destruct B as (_ & _ & [->|E]); [left; reflexivity|right; left; symmetry; exact E].
Qed.
Lemma sampled_limits norm parent rnd k par k' : sample_estimate nan reg daughters statistic element norm parent rnd k = Ok (par, k') ->
  normalization par = norm /\ exists ws, length ws = Z.to_nat (Z.max 1 statistic) /\ k' = (k + length ws * step)%nat /\
    successive (event norm parent rnd) step k (map (fun d => mkparticle (pd_type d) blank) daughters) ws /\
    Forall (fun w => weight_min par <= w <= weight_max par) ws /\ In (weight_min par) ws /\ In (weight_max par) ws.
Proof.
  intro H. unfold sample_estimate in H. apply obind_Ok in H. destruct H as ((w & ps') & Ev & H).
  destruct (loop_limits _ _ _ _ _ _ w w par k' ltac:(lra) H) as (N & K & ws & Le & Su & Lo & Hi & Fo & Mi & Ma).
  split; [exact N|]. exists (w :: ws). cbn [length]. splits.
  - rewrite Le. lia.
  - rewrite K, Le. cbn. lia.
  - econstructor; eassumption.
  - constructor; [lra|exact Fo].
  - destruct Mi as [->|I]; [left; reflexivity|right; exact I].
  - destruct Ma as [->|I]; [left; reflexivity|right; exact I].
Qed.

(** ** The map of parameters *)
Notation get := (get_params nan reg daughters statistic element).
Lemma recall_first cache parent par : recall ((parent, par) :: cache) parent = Some par.
Proof. cbn. rewrite pdef_eqb_refl. reflexivity. Qed.
Lemma get_recalled cache parent rnd k par cache' k' : get cache parent rnd k = Ok (par, cache', k') ->
  recall cache' parent = Some par.
Proof.
  intro H. unfold get_params in H. destruct (recall cache parent) as [p|] eqn:E; [injection H as <- <- <-; exact E|].
  apply obind_Ok in H. destruct H as (norm & _ & H). apply obind_Ok in H. destruct H as ((p & k1) & _ & H). injection H as <- <- <-. apply recall_first.
Qed.
(** Entries are never changed. *)
Lemma get_keeps cache parent rnd k par cache' k' d q : get cache parent rnd k = Ok (par, cache', k') -> recall cache d = Some q -> recall cache' d = Some q.
Proof.
  intros H E. unfold get_params in H. destruct (recall cache parent) as [p|] eqn:Er; [injection H as _ <- _; exact E|].
  apply obind_Ok in H. destruct H as (norm & _ & H). apply obind_Ok in H. destruct H as ((p' & k1) & _ & H). injection H as _ <- _.
  cbn. destruct (pdef_eqb d parent) eqn:Eq; [|exact E]. exfalso. clear - E Er Eq.
  induction cache as [|(x & p) cache IH]; cbn in *; [discriminate|].
  destruct (pdef_eqb d x) eqn:Ex.
  - rewrite (pdef_eqb_euclid d parent x Eq Ex) in Er. discriminate.
  - destruct (pdef_eqb parent x); [discriminate|auto].
Qed.
Lemma entry_estimated cache d par : remembered nan reg daughters statistic element cache -> recall cache d = Some par ->
  exists parent rnd k cache' k', pdef_eqb d parent = true /\ get [] parent rnd k = Ok (par, cache', k').
Proof.
  intro Re. revert d par. induction Re as [|cache parent rnd k p cache' k' Re IH H]; intros d par E; [discriminate|].
  unfold get_params in H. destruct (recall cache parent) as [q|] eqn:Er; [injection H as _ <- _; exact (IH _ _ E)|].
  pose proof H as H0. apply obind_Ok in H. destruct H as (norm & N & H). apply obind_Ok in H. destruct H as ((p' & k1) & X & H). injection H as <- <- <-.
  cbn in E. destruct (pdef_eqb d parent) eqn:Eq; [|exact (IH _ _ E)]. injection E as <-.
  exists parent, rnd, k, [(parent, p')], k1. split; [exact Eq|]. unfold get_params. cbn [recall]. rewrite N. cbn [obind]. rewrite X. reflexivity.
Qed.
Lemma remembered_params cache parent rnd k par cache' k' rnd' k0 : get cache parent rnd k = Ok (par, cache', k') ->
  get cache' parent rnd' k0 = Ok (par, cache', k0).
Proof. intro H. apply get_recalled in H. unfold get_params. rewrite H. reflexivity. Qed.
(** The parameters belong to the parent, whatever was decayed before. *)
Lemma params_estimated cache parent rnd k par cache' k' : remembered nan reg daughters statistic element cache ->
  get cache parent rnd k = Ok (par, cache', k') -> exists first rnd' i cache0 j, pdef_eqb parent first = true /\ get [] first rnd' i = Ok (par, cache0, j).
Proof.
  intros Re H. pose proof (get_recalled _ _ _ _ _ _ _ H) as E. apply (entry_estimated cache' parent par); [econstructor; eassumption|exact E].
Qed.
End Sampled.

Lemma c86_limits nan reg daughters statistic e cache parent rnd k par cache' k' : remembered nan reg daughters statistic (Some e) cache ->
  get_params nan reg daughters statistic (Some e) cache parent rnd k = Ok (par, cache', k') ->
  exists first rnd' i norm ws, pdef_eqb parent first = true /\
    calculate_normalization nan (map pd_mass daughters) (pd_mass first) = Ok norm /\ normalization par = norm /\
    length ws = Z.to_nat (Z.max 1 statistic) /\
    successive (sample_event nan reg daughters (Some e) norm first rnd') (numbers_per_event daughters) i
      (map (fun d => mkparticle (pd_type d) blank) daughters) ws /\
    Forall (fun w => weight_min par <= w <= weight_max par) ws /\ In (weight_min par) ws /\ In (weight_max par) ws.
Proof.
  intros Re H. destruct (params_estimated _ _ _ _ _ _ _ _ _ _ _ _ Re H) as (first & rnd' & i & cache0 & j & E & G).
  unfold get_params in G. cbn [recall] in G. apply obind_Ok in G. destruct G as (norm & N & G). apply obind_Ok in G. destruct G as ((p & k1) & X & G).
  injection G as -> _ _. destruct (sampled_limits _ _ _ _ _ _ _ _ _ _ _ X) as (Np & ws & Le & _ & Su & Fo & Mi & Ma).
  exists first, rnd', i, norm, ws. splits; assumption.
Qed.
Lemma c86_default nan reg daughters statistic cache parent rnd k par cache' k' : remembered nan reg daughters statistic None cache ->
  get_params nan reg daughters statistic None cache parent rnd k = Ok (par, cache', k') ->
  k' = k /\ exists norm, calculate_normalization nan (map pd_mass daughters) (pd_mass parent) = Ok norm /\
    estimate_max_weight nan (map pd_mass daughters) norm (pd_mass parent) = Ok par.
Proof.
  intros Re H. split.
  - unfold get_params in H. destruct (recall cache parent); [injection H as _ _ <-; reflexivity|].
    apply obind_Ok in H. destruct H as (norm & N & H). apply obind_Ok in H. destruct H as ((p & k1) & X & H). apply obind_Ok in X. destruct X as (q & _ & X).
    injection X as _ <-. injection H as _ _ <-. reflexivity.
  - destruct (params_estimated _ _ _ _ _ _ _ _ _ _ _ _ Re H) as (first & rnd' & i & cache0 & j & E & G).
    unfold get_params in G. cbn [recall] in G. apply obind_Ok in G. destruct G as (norm & N & G). apply obind_Ok in G. destruct G as ((p & k1) & X & G).
    injection G as -> _ _. apply obind_Ok in X. destruct X as (q & Q & X). injection X as -> _. exists norm.
    apply pdef_eqb_plain in E. destruct parent, first. unfold plain_data in E. cbn in *. injection E as _ -> _ _ _ _ _ _ _. split; assumption.
Qed.

(** ** Acceptance *)
Section Rejection.
Variables (nan : forall A, outcome A) (reg : registry) (daughters : list pdef) (par : params) (element : pstate -> list particle -> R)
          (parent : pdef) (c : pstate) (rnd : nat -> R).
Notation event := (weighted_event nan reg daughters par element parent c rnd).
Notation step := (numbers_per_event daughters).
Lemma rejection_between fuel : forall k ps out,
  rejection nan reg daughters par element parent c rnd fuel k ps = Some (Ok out) ->
  accepted_between event step rnd (weight_min par) (weight_max par) k ps out.
Proof.
  induction fuel as [|fuel IH]; intros k ps out H; [discriminate|]. cbn [rejection] in H.
  destruct (one_event nan reg daughters par parent rnd k ps) as [(kin & ps')| |] eqn:E; [|discriminate|discriminate].
  cbv zeta in H. assert (EV : event k ps = Ok (k_weight kin * element c ps', ps')) by (unfold weighted_event; rewrite E; reflexivity).
  replace (k + (length daughters - 2) + 2 * (length daughters - 1))%nat with (k + step)%nat in H by (unfold numbers_per_event; lia).
  match type of H with context [?a <? ?b] => destruct (Rltb_spec a b) as [L|L] end.
  - eapply between_later; [exact EV|lra|]. apply IH. replace (k + step + 1)%nat with (S (k + step)) by lia. exact H.
  - injection H as <-. eapply between_now; [exact EV|lra].
Qed.
Lemma decay_between fuel k out :
  many_body_decay nan reg daughters par element parent c rnd true fuel k = Some (Ok out) ->
  exists ps, accepted_between event step rnd (weight_min par) (weight_max par) k
    (map (fun d => product d c (direction c) (energy c)) daughters) ps /\ to_lab nan reg parent c ps = Ok out.
Proof.
  intro H. unfold many_body_decay in H. destruct (rejection _ _ _ _ _ _ _ _ _ _ _) as [[ps| |]|] eqn:E; cbn [obind] in H; try discriminate.
  exists ps. split; [apply (rejection_between fuel _ _ _ E)|congruence].
Qed.
Lemma between_floor least most k ps out : (forall i, 0 <= rnd i) -> least <= most -> accepted_between event step rnd least most k ps out ->
  exists i ps' w, event i ps' = Ok (w, out) /\ least <= w.
Proof.
  intros Rn L A. induction A as [k ps w out E H|k ps w ps' out E H A IH].
  - exists k, ps, w. split; [exact E|]. assert (0 <= rnd (k + step)%nat * (most - least)) by (apply Rmult_le_pos; [apply Rn|lra]). lra.
  - exact IH.
Qed.
End Rejection.

(** ** Motion of the parent *)
Definition same_outcome {A B} (r : A -> B -> Prop) (x : outcome A) (y : outcome B) : Prop :=
  match x, y with Ok a, Ok b => r a b | Throw e, Throw f => e = f | UB u, UB v => u = v | _, _ => False end.
Section Motion.
Variables (nan : forall A, outcome A) (reg : registry).
Notation alike := (fun p q : particle => seen p = seen q).
Lemma same_bind {A B C D} (r : A -> B -> Prop) (s : C -> D -> Prop) x y f g : same_outcome r x y -> (forall a b, r a b -> same_outcome s (f a) (g b)) ->
  same_outcome s (obind x f) (obind y g).
Proof. destruct x, y; cbn; intros H F; try contradiction; auto. Qed.
Lemma same_eq {A C D} (s : C -> D -> Prop) (x : outcome A) f g : (forall a, same_outcome s (f a) (g a)) -> same_outcome s (obind x f) (obind x g).
Proof. destruct x; cbn; auto. Qed.
Lemma alike_fields p q : seen p = seen q -> p_type p = p_type q /\ energy (p_state p) = energy (p_state q) /\ direction (p_state p) = direction (p_state q).
Proof. unfold seen. intro H. injection H as A B C. auto. Qed.
Lemma set_momentum_alike p q u m : p_type p = p_type q ->
  same_outcome alike (set_momentum reg (with_direction p u) m) (set_momentum reg (with_direction q u) m).
Proof.
  intro T. unfold set_momentum, mass_of. cbn [p_type with_direction]. rewrite T. destruct (lookup reg (p_type q)); cbn; [|reflexivity].
  unfold seen. cbn. rewrite T. reflexivity.
Qed.
Lemma boost_alike p q n g bg : seen p = seen q -> same_outcome alike (boost nan reg p n g bg) (boost nan reg q n g bg).
Proof.
  intro S. destruct (alike_fields _ _ S) as (T & E & D). unfold boost. apply same_eq. intro u.
  replace (get_momentum (nan R) reg q) with (get_momentum (nan R) reg p) by (unfold get_momentum, mass_of; rewrite T, E; reflexivity).
  apply same_eq. intro m. cbv zeta. rewrite E, D. unfold set_momentum, mass_of. rewrite T. destruct (lookup reg (p_type q)); cbn [obind]; [|reflexivity].
  apply same_eq. intro w. cbn. unfold seen. cbn. rewrite T. reflexivity.
Qed.
Lemma boost_all_alike ps qs n g bg : Forall2 alike ps qs -> same_outcome (Forall2 alike) (boost_all nan reg ps n g bg) (boost_all nan reg qs n g bg).
Proof.
  induction 1 as [|p q ps qs S F IH]; cbn [boost_all]; [cbn; constructor|].
  eapply same_bind; [apply boost_alike; exact S|]. intros a b Sab. eapply same_bind; [exact IH|]. intros as' bs' F'. cbn. constructor; assumption.
Qed.
Lemma chain_boosts_alike todo : forall todo' momenta vs dirs ps qs, Forall2 alike ps qs -> map p_type todo = map p_type todo' ->
  same_outcome (Forall2 alike) (chain_boosts nan reg ps todo momenta vs dirs) (chain_boosts nan reg qs todo' momenta vs dirs).
Proof.
  induction todo as [|p todo IH]; intros [|p' todo'] momenta vs dirs ps qs F T; try discriminate; cbn [chain_boosts]; [exact F|].
  injection T as T0 T. destruct momenta as [|m momenta]; [reflexivity|]. destruct vs as [|v vs]; [reflexivity|]. destruct dirs as [|d dirs]; [reflexivity|].
  eapply same_bind; [apply set_momentum_alike; exact T0|]. intros a b S. apply same_eq. intro g. apply same_eq. intro bg.
  destruct (alike_fields _ _ S) as (_ & _ & D). rewrite D.
  eapply same_bind; [apply boost_all_alike; exact F|]. intros as' bs' F'. apply IH; [|exact T]. apply Forall2_app; [exact F'|constructor; [exact S|constructor]].
Qed.
Lemma generate_alike ps qs k dirs : map p_type ps = map p_type qs ->
  same_outcome (Forall2 alike) (generate_event nan reg ps k dirs) (generate_event nan reg qs k dirs).
Proof.
  intro T. unfold generate_event. destruct ps as [|p0 [|p1 todo]], qs as [|q0 [|q1 todo']]; try discriminate; try reflexivity.
  cbn in T. injection T as T0 T1 T. destruct (k_momenta k) as [|m momenta]; [reflexivity|]. destruct (k_masses k) as [|v vs]; [reflexivity|]. destruct dirs as [|d dirs]; [reflexivity|].
  eapply same_bind; [apply set_momentum_alike; exact T1|]. intros a b S. eapply same_bind; [apply set_momentum_alike; exact T0|]. intros a' b' S'.
  apply chain_boosts_alike; [|exact T]. constructor; [exact S'|constructor; [exact S|constructor]].
Qed.
Lemma Forall2_map_seen ps qs : Forall2 alike ps qs -> map seen ps = map seen qs.
Proof. induction 1; cbn; congruence. Qed.
Lemma seen_types ps qs : map seen ps = map seen qs -> map p_type ps = map p_type qs.
Proof.
  revert qs. induction ps as [|p ps IH]; intros [|q qs] H; try discriminate; [reflexivity|]. cbn [map] in *. injection H as T _ _ H. rewrite T. f_equal. apply IH. exact H.
Qed.
Section Decays.
Variables (daughters : list pdef) (par : params) (element : pstate -> list particle -> R) (parent : pdef) (c c' : pstate) (rnd : nat -> R).
Lemma one_event_alike k ps qs : map p_type ps = map p_type qs ->
  same_outcome (fun x y => fst x = fst y /\ map seen (snd x) = map seen (snd y))
    (one_event nan reg daughters par parent rnd k ps) (one_event nan reg daughters par parent rnd k qs).
Proof.
  intro T. unfold one_event. apply same_eq. intro kin. eapply same_bind; [apply generate_alike; exact T|]. intros a b F. cbn. split; [reflexivity|]. apply Forall2_map_seen. exact F.
Qed.
Hypothesis blind : forall ps qs, map seen ps = map seen qs -> element c ps = element c' qs.
Lemma rejection_alike fuel : forall k ps qs, map p_type ps = map p_type qs ->
  match rejection nan reg daughters par element parent c rnd fuel k ps, rejection nan reg daughters par element parent c' rnd fuel k qs with
  | Some x, Some y => same_outcome (fun as' bs' => map seen as' = map seen bs') x y
  | None, None => True
  | _, _ => False
  end.
Proof.
  induction fuel as [|fuel IH]; intros k ps qs T; [exact I|]. cbn [rejection]. pose proof (one_event_alike k ps qs T) as S.
  destruct (one_event nan reg daughters par parent rnd k ps) as [(kin & a)| |], (one_event nan reg daughters par parent rnd k qs) as [(kin' & b)| |]; try contradiction; try exact S.
  cbn in S. destruct S as (<- & S). cbv zeta. rewrite (blind a b S). destruct (_ <? _); [apply IH; apply seen_types; exact S|exact S].
Qed.
Lemma decay_alike uniform fuel k :
  (exists ps qs, map seen ps = map seen qs /\
     many_body_decay nan reg daughters par element parent c rnd uniform fuel k = Some (to_lab nan reg parent c ps) /\
     many_body_decay nan reg daughters par element parent c' rnd uniform fuel k = Some (to_lab nan reg parent c' qs)) \/
  (many_body_decay nan reg daughters par element parent c rnd uniform fuel k = many_body_decay nan reg daughters par element parent c' rnd uniform fuel k /\
   forall out, many_body_decay nan reg daughters par element parent c rnd uniform fuel k <> Some (Ok out)).
Proof.
  unfold many_body_decay. set (ps := map (fun d => product d c (direction c) (energy c)) daughters). set (qs := map (fun d => product d c' (direction c') (energy c')) daughters).
  assert (T : map p_type ps = map p_type qs) by (unfold ps, qs; rewrite !map_map; apply map_ext; reflexivity).
  destruct uniform.
  - pose proof (rejection_alike fuel k ps qs T) as S.
    destruct (rejection nan reg daughters par element parent c rnd fuel k ps) as [[a| |]|], (rejection nan reg daughters par element parent c' rnd fuel k qs) as [[b| |]|]; cbn in S; try contradiction; cbn [obind].
    + left. exists a, b. auto.
    + right. rewrite S. split; [reflexivity|discriminate].
    + right. rewrite S. split; [reflexivity|discriminate].
    + right. split; [reflexivity|discriminate].
  - pose proof (one_event_alike k ps qs T) as S.
    destruct (one_event nan reg daughters par parent rnd k ps) as [(kin & a)| |], (one_event nan reg daughters par parent rnd k qs) as [(kin' & b)| |]; cbn in S; try contradiction; cbn [obind snd].
    + left. exists a, b. split; [apply S|split; reflexivity].
    + right. rewrite S. split; [reflexivity|discriminate].
    + right. rewrite S. split; [reflexivity|discriminate].
Qed.
End Decays.
End Motion.
Lemma c86_motion nan reg daughters par element parent rnd uniform fuel k c c' :
  (forall s s' ps qs, map seen ps = map seen qs -> element s ps = element s' qs) ->
  (exists ps qs, map seen ps = map seen qs /\
     many_body_decay nan reg daughters par element parent c rnd uniform fuel k = Some (to_lab nan reg parent c ps) /\
     many_body_decay nan reg daughters par element parent c' rnd uniform fuel k = Some (to_lab nan reg parent c' qs)) \/
  (many_body_decay nan reg daughters par element parent c rnd uniform fuel k = many_body_decay nan reg daughters par element parent c' rnd uniform fuel k /\
   forall out, many_body_decay nan reg daughters par element parent c rnd uniform fuel k <> Some (Ok out)).
Proof. intro B. apply decay_alike. intros ps qs. apply B. Qed.

(** The product of the four-momenta is the square of the mass in every decay. *)
Lemma invariant_constant daughters M c out : 0 <= M <= energy c -> unit (direction c) -> decay_products daughters M c out ->
  invariant M (map pd_mass daughters) c out = M * M.
Proof.
  intros L U (_ & _ & _ & E & P). unfold invariant. rewrite E, P. unfold momentum_vec. unfold unit in U.
  assert (S : sqrt (energy c * energy c - M * M) * sqrt (energy c * energy c - M * M) = energy c * energy c - M * M) by (apply sqrt_sqrt; nra).
  replace (dot (scale (sqrt (energy c * energy c - M * M)) (direction c)) (scale (sqrt (energy c * energy c - M * M)) (direction c)))
    with (sqrt (energy c * energy c - M * M) * sqrt (energy c * energy c - M * M) * dot (direction c) (direction c)) by (unfold dot, scale; cbn; ring).
  rewrite S, U. ring.
Qed.

(** ** Energies in the rest frame *)
Section RestFrame.
Variables (nan : forall A, outcome A) (reg : registry).
Hypothesis N : not_a_value nan.
Lemma boost_all_rest M c ms ps out : 0 < M <= energy c -> unit (direction c) -> shells reg ms ps ->
  boost_all nan reg ps (vneg (direction c)) (energy c / M) (sqrt (energy c * energy c - M * M) / M) = Ok out ->
  rest_energies M ms c out = map (fun p => energy (p_state p)) ps.
Proof.
  intros HM U S. destruct (gamma_facts (energy c) M HM) as (Ep & G & G1). cbv zeta in *. rewrite Ep in *.
  revert out. induction S as [|m p ms ps [(d & L & Em) OS] S IH]; intros out H; cbn [boost_all] in H.
  - injection H as <-. reflexivity.
  - apply obind_Ok in H. destruct H as (q & Hq & H). apply obind_Ok in H. destruct H as (qs' & Hqs & H). injection H as <-.
    cbn [rest_energies map]. f_equal; [|exact (IH _ Hqs)]. subst m.
    destruct (boost_inv nan reg p d _ _ _ q N L OS (unit_vneg _ U) G G1 Hq) as (_ & _ & EB). unfold boosted in EB.
    pose proof (f_equal fst EB) as Ee. pose proof (f_equal snd EB) as Ev. cbn [fst snd] in Ee, Ev. clear EB.
    unfold rest_energy. rewrite Ev, Ee. set (v := momentum_vec (pd_mass d) (p_state p)). clearbody v. set (e := energy (p_state p)). clearbody e.
    unfold momentum_vec. set (P := sqrt (energy c * energy c - M * M)) in *. clearbody P. set (E := energy c) in *. clearbody E.
    unfold unit, dot in U. unfold dot, vadd, scale, vneg in *. cbn in *. set (u := direction c) in *. clearbody u. destruct u as [x y z], v as [a b cc]. cbn in *.
    assert (Z : E * E - P * P = M * M).
    { assert (E / M * (E / M) - P / M * (P / M) = (E * E - P * P) / (M * M)) by (field; lra). rewrite H in G. apply (Rmult_eq_reg_r (/ (M * M))); [|apply Rinv_neq_0_compat; nra].
      unfold Rdiv in G. rewrite G. field. lra. }
    set (w := a * - x + b * - y + cc * - z).
    transitivity ((E * E - P * P * (x * x + y * y + z * z)) / (M * M) * e + (P * E / M * (1 / M) * ((x * x + y * y + z * z) - 1)) * w + P / M * ((x * x + y * y + z * z) - 1) * - w).
    { unfold w. field. lra. }
    rewrite U. replace (E * E - P * P * 1) with (M * M) by lra. field. lra.
Qed.
Lemma to_lab_rest parent c ms ps out : 0 < pd_mass parent <= energy c -> unit (direction c) -> shells reg ms ps ->
  to_lab nan reg parent c ps = Ok out -> rest_energies (pd_mass parent) ms c out = map (fun p => energy (p_state p)) ps.
Proof.
  intros HM U S H. unfold to_lab, quot in H. destruct (gamma_facts (energy c) (pd_mass parent) HM) as (Ep & _). cbv zeta in Ep.
  destruct (Reqb_spec (pd_mass parent) 0); [lra|]. cbn [obind] in H. rewrite Ep in H. apply (boost_all_rest _ _ _ _ _ HM U S H).
Qed.
Lemma c86_rest_energies daughters par element parent rnd uniform fuel k c c' out out' : (2 <= length daughters)%nat -> Forall (registered reg) daughters ->
  Forall (fun d => 0 <= pd_mass d) daughters -> mass_sum (map pd_mass daughters) <= pd_mass parent -> (forall i, 0 <= rnd i <= 1) ->
  (forall s s' ps qs, map seen ps = map seen qs -> element s ps = element s' qs) ->
  0 < pd_mass parent <= energy c -> unit (direction c) -> 0 < pd_mass parent <= energy c' -> unit (direction c') ->
  many_body_decay nan reg daughters par element parent c rnd uniform fuel k = Some (Ok out) ->
  many_body_decay nan reg daughters par element parent c' rnd uniform fuel k = Some (Ok out') ->
  rest_energies (pd_mass parent) (map pd_mass daughters) c out = rest_energies (pd_mass parent) (map pd_mass daughters) c' out'.
Proof.
  intros Many Reg Ma Th Rn B Hc U Hc' U' H H'. unfold many_body_decay in H, H'.
  assert (Md : forall s, Forall2 (made s) daughters (map (fun d => product d s (direction s) (energy s)) daughters)).
  { clear. intro s. induction daughters; constructor; auto. repeat split. }
  assert (T : map p_type (map (fun d => product d c (direction c) (energy c)) daughters) = map p_type (map (fun d => product d c' (direction c') (energy c')) daughters))
    by (rewrite !map_map; apply map_ext; reflexivity).
  assert (E : exists ps qs, map seen ps = map seen qs /\ shells reg (map pd_mass daughters) ps /\ shells reg (map pd_mass daughters) qs /\
    to_lab nan reg parent c ps = Ok out /\ to_lab nan reg parent c' qs = Ok out').
  { destruct uniform.
    - pose proof (rejection_alike nan reg daughters par element parent c c' rnd (B c c') fuel k _ _ T) as S.
      destruct (rejection nan reg daughters par element parent c rnd fuel k _) as [[a| |]|] eqn:Ea; cbn [obind] in H; try discriminate.
      destruct (rejection nan reg daughters par element parent c' rnd fuel k _) as [[b| |]|] eqn:Eb; cbn [obind] in H'; try discriminate.
      exists a, b. split; [exact S|]. split; [|split; [|split; congruence]].
      + eapply (rejection_inv nan reg N daughters par element parent c rnd Many Reg Ma Th Rn); [apply Md|exact Ea].
      + eapply (rejection_inv nan reg N daughters par element parent c' rnd Many Reg Ma Th Rn); [apply Md|exact Eb].
    - pose proof (one_event_alike nan reg daughters par parent rnd k _ _ T) as S.
      destruct (one_event nan reg daughters par parent rnd k (map (fun d => product d c _ _) _)) as [(kin & a)| |] eqn:Ea; cbn [obind snd] in H; try discriminate.
      destruct (one_event nan reg daughters par parent rnd k (map (fun d => product d c' _ _) _)) as [(kin' & b)| |] eqn:Eb; cbn [obind snd] in H'; try discriminate.
      exists a, b. split; [apply S|]. split; [|split; [|split; congruence]].
      + eapply (one_event_inv nan reg N daughters par parent c rnd Many Reg Ma Th Rn); [apply Md|exact Ea].
      + eapply (one_event_inv nan reg N daughters par parent c' rnd Many Reg Ma Th Rn); [apply Md|exact Eb]. }
  destruct E as (ps & qs & S & Sp & Sq & L & L').
  rewrite (to_lab_rest parent c _ ps out Hc U Sp L), (to_lab_rest parent c' _ qs out' Hc' U' Sq L').
  clear - S. revert qs S. induction ps as [|p ps IH]; intros [|q qs] S; try discriminate; [reflexivity|]. cbn [map] in *. injection S as _ E _ S. rewrite E. f_equal. apply IH. exact S.
Qed.
End RestFrame.
