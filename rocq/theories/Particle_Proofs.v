(** Proofs about particle definitions, the registry, momenta and decay tables:
    C31, C35, C36. *)
From Coq Require Import String Sorted Permutation.
From Verif Require Import Prelude PreludeFacts Vec_Model Propagator_Model Particle_Model Particle_Spec Shapes_Spec.

(** ** Equality of definitions *)
Lemma Reqb_refl x : (x =? x) = true.
Proof. apply Reqb_true. reflexivity. Qed.
Lemma list_eqb_refl {A} (eqb : A -> A -> bool) l : (forall x, eqb x x = true) -> list_eqb eqb l l = true.
Proof. intros H. induction l; cbn; auto. rewrite H, IHl. reflexivity. Qed.
Lemma list_eqb_eq {A} (eqb : A -> A -> bool) l l' :
  (forall x y, eqb x y = true -> x = y) -> list_eqb eqb l l' = true -> l = l'.
Proof.
  intros H. revert l'. induction l as [|x l IH]; destruct l' as [|y l']; cbn; try discriminate; auto.
  intros E. apply andb_prop in E. destruct E. f_equal; auto.
Qed.
Lemma lifetime_eqb_eq a b : lifetime_eqb a b = true <-> a = b.
Proof.
  destruct a, b; cbn; split; try discriminate; try congruence; auto.
  - intros H. apply Reqb_true in H. congruence.
  - intros [= ->]. apply Reqb_refl.
Qed.

(** Induction over a definition and its channels. *)
Section PdefInd.
Variables (P : pdef -> Prop) (Q : channel -> Prop).
Hypothesis HP : forall n m l t c h d p w, Forall (fun x => Q (snd x)) d -> P (PDef n m l t c h d p w).
Hypothesis HS : Q StableChannel.
Hypothesis HT : forall a b, P a -> P b -> Q (TwoBody a b).
Hypothesis HM : forall ds u s e, Forall P ds -> Q (ManyBody ds u s e).
Hypothesis HA : forall a b c, P a -> P b -> P c -> Q (LeptonicApprox a b c).
Hypothesis HL : forall a b c, P a -> P b -> P c -> Q (Leptonic a b c).
Fixpoint pdef_rec' (x : pdef) : P x :=
  match x with
  | PDef n m l t c h d p w =>
    HP n m l t c h d p w
      ((fix go (d : list (R * channel)) : Forall (fun x => Q (snd x)) d :=
          match d with
          | [] => Forall_nil _
          | (k, e) :: d => Forall_cons (P := fun x => Q (snd x)) (k, e) (channel_rec' e) (go d)
          end) d)
  end
with channel_rec' (x : channel) : Q x :=
  match x with
  | StableChannel => HS
  | TwoBody a b => HT a b (pdef_rec' a) (pdef_rec' b)
  | ManyBody ds u s e =>
    HM ds u s e ((fix go (ds : list pdef) : Forall P ds :=
                    match ds with [] => Forall_nil _ | d :: ds => Forall_cons d (pdef_rec' d) (go ds) end) ds)
  | LeptonicApprox a b c => HA a b c (pdef_rec' a) (pdef_rec' b) (pdef_rec' c)
  | Leptonic a b c => HL a b c (pdef_rec' a) (pdef_rec' b) (pdef_rec' c)
  end.
End PdefInd.

Lemma pdef_eqb_refl d : pdef_eqb d d = true.
Proof.
  apply (pdef_rec' (fun d => pdef_eqb d d = true) (fun c => channel_eqb c c = true)); cbn; auto.
  - intros n m l t c h ds p w Hd.
    rewrite String.eqb_refl, !Reqb_refl, !Z.eqb_refl. cbn [andb].
    rewrite (proj2 (lifetime_eqb_eq t t) eq_refl).
    rewrite list_eqb_refl by (intros; apply list_eqb_refl; apply Reqb_refl). cbn [andb].
    rewrite andb_true_r. rewrite andb_true_r.
    induction ds as [|[k e] ds IH]; auto. inversion Hd; subst. cbn [snd] in *.
    rewrite Reqb_refl. cbn [andb]. rewrite H1. cbn [andb]. auto.
  - intros a b -> ->. auto.
  - intros ds u s e _. rewrite list_eqb_refl by apply Reqb_refl. rewrite !eqb_reflx, Z.eqb_refl. auto.
  - intros a b c -> -> ->. auto.
  - intros a b c -> -> ->. auto.
Qed.

Lemma pdef_eqb_plain a b : pdef_eqb a b = true -> plain_data a = plain_data b.
Proof.
  destruct a as [n1 m1 l1 t1 c1 h1 d1 p1 w1], b as [n2 m2 l2 t2 c2 h2 d2 p2 w2]. cbn. intros H.
  repeat (apply andb_prop in H; let H' := fresh "H" in destruct H as [H H']).
  apply String.eqb_eq in H.
  match goal with H : _ d1 d2 = true |- _ => rename H into Hd end.
  repeat match goal with
  | H : Reqb _ _ = true |- _ => apply Reqb_true in H
  | H : Z.eqb _ _ = true |- _ => apply Z.eqb_eq in H
  | H : lifetime_eqb _ _ = true |- _ => apply lifetime_eqb_eq in H
  | H : list_eqb _ h1 h2 = true |- _ => apply list_eqb_eq in H; [|intros ? ? E; apply list_eqb_eq in E; auto; intros ? ? E'; apply Reqb_true in E'; auto]
  end.
  assert (E : map fst d1 = map fst d2).
  { clear - Hd. revert d2 Hd. induction d1 as [|[k1 e1] d1 IH]; destruct d2 as [|[k2 e2] d2]; try discriminate; auto.
    intros H. apply andb_prop in H. destruct H as [H H2]. apply andb_prop in H. destruct H as [H _].
    apply Reqb_true in H. cbn. subst. f_equal. auto. }
  subst. rewrite E. reflexivity.
Qed.

(** ** C35: the registry *)
Lemma lookup_app r1 r2 t : lookup (r1 ++ r2) t = match lookup r1 t with Some d => Some d | None => lookup r2 t end.
Proof. induction r1 as [|[k d] r1 IH]; cbn; auto. destruct (k =? t)%Z; auto. Qed.
Lemma lookup_map l t : lookup (map (fun d => (pd_type d, d)) l) t = find (fun d => (pd_type d =? t)%Z) l.
Proof. induction l as [|d l IH]; cbn; auto. destruct (pd_type d =? t)%Z; auto. Qed.
Lemma find_app {A} (f : A -> bool) l1 l2 : find f (l1 ++ l2) = match find f l1 with Some d => Some d | None => find f l2 end.
Proof. induction l1; cbn; auto. destruct (f a); auto. Qed.
Lemma lookup_type r t d : (forall k x, In (k, x) r -> pd_type x = k) -> lookup r t = Some d -> pd_type d = t.
Proof.
  intros H. induction r as [|[k x] r IH]; cbn; [discriminate|].
  destruct (Z.eqb_spec k t) as [<-|_]; [intros [= ->]; apply H; left; auto|].
  apply IH. intros k' x' Hin. apply H. right. auto.
Qed.

(** What the map holds after a program. *)
Definition represents (r : option registry) (ops : list registry_op) : Prop :=
  forall t, lookup (opened r) t = first_definition ops t.
Lemma represents_start : represents None [].
Proof. intros t. unfold first_definition. cbn [opened constructed]. rewrite app_nil_r. apply lookup_map. Qed.
Lemma constructed_app a b : constructed (a ++ b) = constructed a ++ constructed b.
Proof. induction a as [|[d|t] a IH]; cbn; auto. rewrite IH. auto. Qed.
Lemma first_definition_snoc ops op t : first_definition (ops ++ [op]) t =
  match first_definition ops t with
  | Some d => Some d
  | None => match op with Construct d => if (pd_type d =? t)%Z then Some d else None | Lookup _ => None end
  end.
Proof.
  unfold first_definition. rewrite constructed_app, app_assoc, find_app.
  destruct (find _ (standard_particles ++ constructed ops)); auto.
  destruct op; cbn; auto.
Qed.
Lemma represents_step r ops op : represents r ops ->
  represents (fst (match op with Construct d => construct r d | Lookup t => get_particle_def r t end)) (ops ++ [op]).
Proof.
  intros H t. rewrite first_definition_snoc, <- H. destruct op as [d|t']; cbn [fst].
  - unfold construct. destruct (lookup (opened r) (pd_type d)) as [d'|] eqn:E.
    + assert (lookup (opened (fst (if negb (pdef_eqb d d') then (Some (opened r), Throw invalid_argument) else (Some (opened r), Ok d)))) t = lookup (opened r) t) as ->.
      { destruct (negb (pdef_eqb d d')); reflexivity. }
      destruct (lookup (opened r) t) eqn:E2; auto.
      destruct (Z.eqb_spec (pd_type d) t) as [<-|]; auto. congruence.
    + cbn [fst opened lookup]. destruct (Z.eqb_spec (pd_type d) t) as [<-|N]; [rewrite E; reflexivity|].
      destruct (lookup (opened r) t); auto.
  - cbn. destruct (lookup (opened r) t); auto.
Qed.

(** What an operation answers after a program. *)
Definition answer (ops : list registry_op) (op : registry_op) : outcome pdef :=
  match op with
  | Lookup t => match first_definition ops t with Some d => Ok d | None => Throw invalid_argument end
  | Construct d => match first_definition ops (pd_type d) with
                   | Some d' => if pdef_eqb d d' then Ok d else Throw invalid_argument
                   | None => Ok d
                   end
  end.
Lemma registry_run_app r a b : registry_run r (a ++ b) =
  let '(r1, x) := registry_run r a in let '(r2, y) := registry_run r1 b in (r2, x ++ y).
Proof.
  revert r. induction a as [|op a IH]; intros r; cbn.
  { destruct (registry_run r b); auto. }
  destruct (match op with Construct d => construct r d | Lookup t => get_particle_def r t end) as [r0 x0].
  rewrite IH. destruct (registry_run r0 a) as [r1 x]. destruct (registry_run r1 b) as [r2 y]. reflexivity.
Qed.
Lemma answer_ok r ops op : represents r ops ->
  snd (match op with Construct d => construct r d | Lookup t => get_particle_def r t end) = answer ops op.
Proof.
  intros H. destruct op as [d|t]; cbn [answer].
  - unfold construct. rewrite H. destruct (first_definition ops (pd_type d)) as [d'|]; auto.
    destruct (pdef_eqb d d'); auto.
  - unfold get_particle_def. cbn [snd]. rewrite H. reflexivity.
Qed.
Lemma run_represents ops : represents (fst (registry_run None ops)) ops.
Proof.
  induction ops as [|op ops IH] using rev_ind; [apply represents_start|].
  rewrite registry_run_app. destruct (registry_run None ops) as [r x]. cbn [fst] in IH.
  pose proof (represents_step r ops op IH) as S. cbn [registry_run].
  destruct (match op with Construct d => construct r d | Lookup t => get_particle_def r t end). exact S.
Qed.
Lemma run_snoc ops op :
  snd (registry_run None (ops ++ [op])) = snd (registry_run None ops) ++ [answer ops op].
Proof.
  rewrite registry_run_app. pose proof (run_represents ops) as H.
  destruct (registry_run None ops) as [r x]. cbn [fst] in H. pose proof (answer_ok r ops op H) as A. cbn [registry_run].
  destruct (match op with Construct d => construct r d | Lookup t => get_particle_def r t end). cbn [snd] in *. congruence.
Qed.
Lemma c35_lookup ops t : snd (registry_run None (ops ++ [Lookup t])) = snd (registry_run None ops) ++
  [match first_definition ops t with Some d => Ok d | None => Throw invalid_argument end].
Proof. apply run_snoc. Qed.
Lemma c35_first ops d : first_definition ops (pd_type d) = None ->
  snd (registry_run None (ops ++ [Construct d])) = snd (registry_run None ops) ++ [Ok d].
Proof. intros H. rewrite run_snoc. cbn [answer]. rewrite H. reflexivity. Qed.
Lemma c35_same ops d : first_definition ops (pd_type d) = Some d ->
  snd (registry_run None (ops ++ [Construct d])) = snd (registry_run None ops) ++ [Ok d].
Proof. intros H. rewrite run_snoc. cbn [answer]. rewrite H, pdef_eqb_refl. reflexivity. Qed.
Lemma c35_other ops d d' : first_definition ops (pd_type d) = Some d' -> plain_data d <> plain_data d' ->
  snd (registry_run None (ops ++ [Construct d])) = snd (registry_run None ops) ++ [Throw invalid_argument].
Proof.
  intros H N. rewrite run_snoc. cbn [answer]. rewrite H. destruct (pdef_eqb d d') eqn:E; auto.
  apply pdef_eqb_plain in E. contradiction.
Qed.
Lemma c35_kept ops more t d : first_definition ops t = Some d -> first_definition (ops ++ more) t = Some d.
Proof. unfold first_definition. intros H. rewrite constructed_app, app_assoc, find_app, H. reflexivity. Qed.

(** Every definition that was constructed is registered with its mass. *)
Lemma constructed_registered ops d : In (Ok d) (snd (registry_run None ops)) ->
  registered (opened (fst (registry_run None ops))) d.
Proof.
  induction ops as [|op ops IH] using rev_ind; [cbn; tauto|].
  rewrite run_snoc. intros H. apply in_app_or in H.
  pose proof (run_represents (ops ++ [op])) as HR. unfold registered. rewrite HR. rewrite first_definition_snoc.
  destruct H as [H|[H|[]]].
  - destruct (IH H) as (d' & E & Em). pose proof (run_represents ops) as HR'. rewrite HR' in E. rewrite E. eauto.
  - destruct op as [x|t]; cbn [answer] in H.
    + destruct (first_definition ops (pd_type x)) as [d'|] eqn:E.
      * destruct (pdef_eqb x d') eqn:Ex; inversion H; subst. rewrite E. exists d'. split; auto.
        apply pdef_eqb_plain in Ex. destruct d, d'. cbn in *. congruence.
      * inversion H; subst. rewrite E, Z.eqb_refl. eauto.
    + destruct (first_definition ops t) as [d'|] eqn:E; inversion H; subst.
      assert (pd_type d = t) as ->. { unfold first_definition in E. apply find_some in E. apply Z.eqb_eq. tauto. }
      rewrite E. eauto.
Qed.

(** Two definitions which differ in the particles of a many-body channel only. *)
Definition strange (daughter : pdef) : pdef :=
  PDef "Strange" 500 500 (Some 1) 0 EmptyTable (decay_table [(1, many [GammaDef; daughter])]) 5000 T_None.
Lemma strange_new : first_definition [] 5000 = None.
Proof. reflexivity. Qed.
Lemma c35_daughters_refuted : exists a b, pd_decays a <> pd_decays b /\ a <> b /\
  snd (registry_run None [Construct a; Construct b; Lookup (pd_type b)]) = [Ok a; Ok b; Ok a].
Proof.
  exists (strange NuEDef), (strange NuMuDef).
  assert (N : pd_decays (strange NuEDef) <> pd_decays (strange NuMuDef)). { intros [=]. }
  split; [exact N|]. split; [intros E; apply N; rewrite E; reflexivity|].
  change [Construct (strange NuEDef); Construct (strange NuMuDef); Lookup (pd_type (strange NuMuDef))] with
    (([Construct (strange NuEDef)] ++ [Construct (strange NuMuDef)]) ++ [Lookup 5000]).
  rewrite !run_snoc. change (snd (registry_run None [Construct (strange NuEDef)])) with
    (snd (registry_run None ([] ++ [Construct (strange NuEDef)]))). rewrite run_snoc.
  assert (F1 : first_definition [] (pd_type (strange NuEDef)) = None) by reflexivity.
  assert (F2 : first_definition [Construct (strange NuEDef)] (pd_type (strange NuMuDef)) = Some (strange NuEDef)) by reflexivity.
  assert (F3 : first_definition ([Construct (strange NuEDef)] ++ [Construct (strange NuMuDef)]) 5000 = Some (strange NuEDef)) by reflexivity.
  unfold answer. rewrite F1, F2, F3.
  assert (E : pdef_eqb (strange NuMuDef) (strange NuEDef) = true).
  { assert (pdef_eqb (strange NuMuDef) (strange NuEDef) = pdef_eqb (strange NuEDef) (strange NuEDef)) as -> by reflexivity. apply pdef_eqb_refl. }
  rewrite E. reflexivity.
Qed.
(** A muon with the full decay spectrum counts as the predefined muon with the
    approximated one, but the predefined one stays registered. *)
Definition exact_muon : pdef :=
  PDef "MuMinus" MMU MMU (Some LMU) (-1) MuonTable (decay_table [(1, Leptonic EMinusDef NuMuDef NuEBarDef)]) 13 14.
Lemma c35_leptonic_refuted : exact_muon <> MuMinusDef /\
  snd (registry_run None [Construct exact_muon; Lookup 13]) = [Ok exact_muon; Ok MuMinusDef].
Proof.
  assert (F : first_definition [] 13 = Some MuMinusDef) by reflexivity.
  split. { intros [=]. }
  change [Construct exact_muon; Lookup 13] with (([] ++ [Construct exact_muon]) ++ [Lookup 13]). rewrite !run_snoc.
  cbn [answer]. rewrite first_definition_snoc, F. change (first_definition [] (pd_type exact_muon)) with (first_definition [] 13).
  rewrite F. assert (pdef_eqb exact_muon MuMinusDef = pdef_eqb MuMinusDef MuMinusDef) as -> by reflexivity.
  rewrite pdef_eqb_refl. reflexivity.
Qed.

(** ** C36: momentum *)
Lemma c36_set_get nan reg p d q : lookup reg (p_type p) = Some d -> 0 <= q ->
  exists p', set_momentum reg p q = Ok p' /\ p_type p' = p_type p /\
  position (p_state p') = position (p_state p) /\ direction (p_state p') = direction (p_state p) /\
  time (p_state p') = time (p_state p) /\ propagated_distance (p_state p') = propagated_distance (p_state p) /\
  energy (p_state p') * energy (p_state p') = q * q + pd_mass d * pd_mass d /\ 0 <= energy (p_state p') /\
  get_momentum nan reg p' = Ok q.
Proof.
  intros L Hq. unfold set_momentum, mass_of. rewrite L. cbn [obind]. eexists. split; [reflexivity|].
  assert (0 <= q * q + pd_mass d ^ 2) by nra.
  unfold get_momentum, mass_of. cbn [with_energy p_type p_state energy position direction time propagated_distance]. rewrite L. cbn [obind].
  pose proof (sqrt_sqrt _ H) as E. pose proof (sqrt_pos (q * q + pd_mass d ^ 2)) as P.
  set (s := sqrt (q * q + pd_mass d ^ 2)) in *.
  assert (X : (s + pd_mass d) * (s - pd_mass d) = q * q) by nra. rewrite X.
  destruct (Rltb_spec (q * q) 0); [nra|].
  repeat (split; auto); [nra|]. rewrite sqrt_square by auto. reflexivity.
Qed.
Lemma c36_get nan reg p d : lookup reg (p_type p) = Some d -> 0 <= pd_mass d <= energy (p_state p) ->
  exists q, get_momentum nan reg p = Ok q /\ 0 <= q /\
  energy (p_state p) * energy (p_state p) = q * q + pd_mass d * pd_mass d.
Proof.
  intros L Hm. unfold get_momentum, mass_of. rewrite L. cbn [obind].
  destruct (Rltb_spec ((energy (p_state p) + pd_mass d) * (energy (p_state p) - pd_mass d)) 0); [nra|].
  eexists. split; [reflexivity|]. split; [apply sqrt_pos|]. rewrite sqrt_sqrt; nra.
Qed.
Lemma c36_below_mass nan reg p d : lookup reg (p_type p) = Some d -> 0 <= energy (p_state p) < pd_mass d ->
  get_momentum nan reg p = nan.
Proof.
  intros L Hm. unfold get_momentum, mass_of. rewrite L. cbn [obind].
  destruct (Rltb_spec ((energy (p_state p) + pd_mass d) * (energy (p_state p) - pd_mass d)) 0); [auto|nra].
Qed.
Lemma c36_unknown nan reg p q : lookup reg (p_type p) = None ->
  set_momentum reg p q = Throw invalid_argument /\ get_momentum nan reg p = Throw invalid_argument.
Proof. intros L. unfold set_momentum, get_momentum, mass_of. rewrite L. auto. Qed.

(** ** C31: selection of a decay channel *)
Lemma sum_keys_total t acc : sum_keys t acc = acc + total_branching t.
Proof. revert acc. induction t as [|[k c] t IH]; intros acc; unfold total_branching in *; cbn; [lra|]. rewrite IH. lra. Qed.
Lemma total_app {A} (a b : list (R * A)) : total_branching (a ++ b) = total_branching a + total_branching b.
Proof. unfold total_branching. induction a as [|[k c] a IH]; cbn; [lra|]. lra. Qed.
Lemma total_nonneg {A} (l : list (R * A)) : Forall (fun x => 0 < fst x) l -> 0 <= total_branching l.
Proof. unfold total_branching. induction 1 as [|[k c] l]; cbn; [lra|]. cbn in *. lra. Qed.
Lemma total_perm {A} (a b : list (R * A)) : Permutation a b -> total_branching a = total_branching b.
Proof. induction 1; unfold total_branching in *; cbn in *; try lra. Qed.
Lemma select_from_slot rnd partial t1 k c t2 : Forall (fun x => 0 < fst x) t1 ->
  partial + total_branching t1 <= rnd < partial + total_branching t1 + k ->
  select_from rnd partial (t1 ++ (k, c) :: t2) = Some c.
Proof.
  revert partial. induction t1 as [|[k1 c1] t1 IH]; intros partial H Hr; cbn [app select_from].
  - cbn in Hr. unfold total_branching in Hr. cbn in Hr. destruct (Rltb_spec rnd (partial + k)); auto. lra.
  - inversion H; subst. pose proof (total_nonneg _ H3) as N.
    unfold total_branching in *. cbn [fold_right fst] in *.
    destruct (Rltb_spec rnd (partial + k1)); [lra|]. apply IH; auto. lra.
Qed.
Lemma slot_exists (t : list (R * channel)) x : Forall (fun x => 0 < fst x) t -> 0 <= x < total_branching t ->
  exists t1 k c t2, t = t1 ++ (k, c) :: t2 /\ total_branching t1 <= x < total_branching t1 + k.
Proof.
  revert x. induction t as [|[k c] t IH]; intros x H Hx.
  - unfold total_branching in Hx. cbn in Hx. lra.
  - inversion H; subst. unfold total_branching in Hx. cbn [fold_right fst] in *. fold (total_branching t) in Hx.
    destruct (Rlt_dec x k).
    + exists [], k, c, t. split; auto. unfold total_branching. cbn. lra.
    + destruct (IH (x - k)) as (t1 & k' & c' & t2 & -> & Hs); auto; [lra|].
      exists ((k, c) :: t1), k', c', t2. split; auto. unfold total_branching in *. cbn. lra.
Qed.
Lemma add_channel_in br c t : ~ In br (map fst t) -> Permutation ((br, c) :: t) (add_channel br c t).
Proof.
  induction t as [|[k d] t IH]; intros N; cbn [add_channel]; auto.
  destruct (Rltb_spec br k); auto. destruct (Rltb_spec k br).
  - etransitivity; [apply perm_swap|]. constructor. apply IH. cbn in N. tauto.
  - exfalso. apply N. left. cbn. lra.
Qed.
Lemma add_channel_sorted br c t : StronglySorted Rlt (map fst t) -> StronglySorted Rlt (map fst (add_channel br c t)).
Proof.
  induction t as [|[k d] t IH]; intros S; cbn [add_channel map fst].
  - repeat constructor.
  - cbn in S. inversion S; subst. destruct (Rltb_spec br k).
    + cbn. constructor; auto. constructor; auto. eapply Forall_impl; [|exact H2]. cbn. intros; lra.
    + destruct (Rltb_spec k br).
      * cbn. constructor; auto. clear - H2 r. induction t as [|[k' d'] t IH]; cbn; [repeat constructor; auto|].
        cbn in H2. inversion H2; subst. destruct (Rltb_spec br k'); cbn; auto. destruct (Rltb_spec k' br); cbn; auto.
      * cbn. constructor; auto.
Qed.
Lemma decay_table_sorted l : StronglySorted Rlt (map fst (decay_table l)).
Proof.
  unfold decay_table. assert (G : forall t, StronglySorted Rlt (map fst t) ->
    StronglySorted Rlt (map fst (fold_left (fun t x => add_channel (fst x) (snd x) t) l t))).
  { induction l as [|x l IH]; intros t S; cbn; auto. apply IH. apply add_channel_sorted. auto. }
  apply G. constructor.
Qed.
Lemma decay_table_perm l : NoDup (map fst l) -> Permutation l (decay_table l).
Proof.
  unfold decay_table. assert (G : forall t, NoDup (map fst l ++ map fst t) ->
    Permutation (l ++ t) (fold_left (fun t x => add_channel (fst x) (snd x) t) l t)).
  { induction l as [|[k c] l IH]; intros t N; cbn; auto. cbn in N. inversion N; subst.
    assert (N' : ~ In k (map fst t)). { intros I. apply H1. apply in_or_app. auto. }
    etransitivity; [|apply IH].
    - etransitivity; [|apply Permutation_app_head; apply add_channel_in; auto]. apply Permutation_middle.
    - apply (Permutation_NoDup (l := k :: map fst l ++ map fst t)); [|constructor; auto].
      etransitivity; [apply Permutation_middle|]. apply Permutation_app_head.
      change (k :: map fst t) with (map fst ((k, c) :: t)). apply Permutation_map. apply add_channel_in. auto. }
  intros N. specialize (G []). cbn in G. rewrite !app_nil_r in G. auto.
Qed.
Lemma positive_perm {A} (l t : list (R * A)) : Permutation l t -> Forall (fun x => 0 < fst x) l -> Forall (fun x => 0 < fst x) t.
Proof. intros P H. rewrite Forall_forall in *. intros x I. apply H. eapply Permutation_in; [symmetry; exact P|auto]. Qed.
Lemma select_slot t1 k c t2 r : Forall (fun x => 0 < fst x) t1 ->
  total_branching t1 <= r * total_branching (t1 ++ (k, c) :: t2) < total_branching t1 + k ->
  select_channel (t1 ++ (k, c) :: t2) r = Ok c.
Proof.
  intros H Hr. unfold select_channel. rewrite sum_keys_total. rewrite select_from_slot; auto. lra.
Qed.
Lemma c31_slot l r : l <> [] -> NoDup (map fst l) -> Forall (fun x => 0 < fst x) l -> 0 <= r < 1 ->
  exists t, Permutation l t /\ StronglySorted Rlt (map fst t) /\
  exists t1 br c t2, t = t1 ++ (br, c) :: t2 /\
    total_branching t1 <= r * total_branching l < total_branching t1 + br /\
    select_channel (decay_table l) r = Ok c.
Proof.
  intros Nl N H Hr. pose proof (decay_table_perm l N) as P. exists (decay_table l).
  split; auto. split; [apply decay_table_sorted|]. pose proof (positive_perm _ _ P H) as H'.
  assert (0 < total_branching l).
  { destruct l as [|[k c] l]; [congruence|]. inversion H; subst. pose proof (total_nonneg _ H3).
    unfold total_branching in *. cbn in *. lra. }
  destruct (slot_exists (decay_table l) (r * total_branching l)) as (t1 & k & c & t2 & E & Hs); auto.
  { rewrite <- (total_perm _ _ P). nra. }
  exists t1, k, c, t2. split; auto. split; auto. rewrite E. apply select_slot.
  - rewrite E in H'. apply Forall_app in H'. tauto.
  - rewrite <- E, <- (total_perm _ _ P). auto.
Qed.
Lemma c31_share l br c : NoDup (map fst l) -> Forall (fun x => 0 < fst x) l -> In (br, c) l ->
  selected_with_share (select_channel (decay_table l)) c (br / total_branching l).
Proof.
  intros N H I. pose proof (decay_table_perm l N) as P. pose proof (positive_perm _ _ P H) as H'.
  apply (Permutation_in _ P) in I. apply in_split in I. destruct I as (t1 & t2 & E).
  rewrite (total_perm _ _ P), E. rewrite E in H'. apply Forall_app in H'. destruct H' as [H1 H2].
  inversion H2; subst. cbn [fst] in *. pose proof (total_nonneg _ H1). pose proof (total_nonneg _ H5).
  assert (S : total_branching (t1 ++ (br, c) :: t2) = total_branching t1 + br + total_branching t2).
  { rewrite total_app. unfold total_branching. cbn. lra. }
  set (s := total_branching (t1 ++ (br, c) :: t2)) in *. assert (0 < s) by lra.
  exists (total_branching t1 / s). split.
  { apply Rmult_le_pos; auto. left. apply Rinv_0_lt_compat. auto. }
  split.
  { apply (Rmult_le_reg_r s); auto. rewrite Rmult_plus_distr_r. unfold Rdiv. rewrite !Rmult_assoc, Rinv_l; lra. }
  intros r Hr. apply select_slot; auto. fold s.
  assert (A : total_branching t1 / s * s = total_branching t1) by (field; lra).
  assert (B : (total_branching t1 / s + br / s) * s = total_branching t1 + br) by (field; lra).
  split.
  - rewrite <- A at 1. apply Rmult_le_compat_r; lra.
  - rewrite <- B. apply Rmult_lt_compat_r; lra.
Qed.
(** Everything from the sum of the branching ratios on selects the channel with
    the smallest one. *)
Lemma select_from_none rnd partial t : Forall (fun x => 0 < fst x) t -> partial + total_branching t <= rnd ->
  select_from rnd partial t = None.
Proof.
  revert partial. induction t as [|[k c] t IH]; intros partial H Hr; cbn [select_from]; auto.
  inversion H; subst. pose proof (total_nonneg _ H3). unfold total_branching in *. cbn [fold_right fst] in *.
  destruct (Rltb_spec rnd (partial + k)); [lra|]. apply IH; auto. lra.
Qed.
Lemma c31_end l r : NoDup (map fst l) -> l <> [] -> Forall (fun x => 0 < fst x) l -> 1 <= r ->
  exists br c, In (br, c) l /\ (forall x, In x l -> br <= fst x) /\ select_channel (decay_table l) r = Ok c.
Proof.
  intros N Nl H Hr. pose proof (decay_table_perm l N) as P. pose proof (positive_perm _ _ P H) as H'.
  pose proof (decay_table_sorted l) as S.
  unfold select_channel. rewrite sum_keys_total, select_from_none; auto.
  - destruct (decay_table l) as [|[k c] t] eqn:E.
    { apply Permutation_sym, Permutation_nil in P. congruence. }
    exists k, c. split; [eapply Permutation_in; [symmetry; exact P|left; auto]|]. split; auto.
    intros x I. apply (Permutation_in _ P) in I. destruct I as [<-|I]; [cbn; lra|].
    cbn in S. inversion S; subst. rewrite Forall_forall in H3. left. apply H3. apply in_map. auto.
  - pose proof (total_nonneg _ H'). nra.
Qed.
Lemma c31_empty r : select_channel (decay_table []) r = UB deref_end.
Proof. reflexivity. Qed.
Lemma c31_equal_refuted : exists l c, In (1 / 2, c) l /\ Forall (fun x => 0 < fst x) l /\
  forall r, select_channel (decay_table l) r <> Ok c.
Proof.
  exists [(1 / 2, TwoBody NuEDef GammaDef); (1 / 2, TwoBody NuMuDef GammaDef)], (TwoBody NuEDef GammaDef).
  split; [left; auto|]. split; [repeat constructor; cbn; lra|].
  intros r. unfold decay_table. cbn [fold_left add_channel fst snd].
  destruct (Rltb_spec (1 / 2) (1 / 2)); [lra|].
  unfold select_channel. cbn [select_from]. destruct (_ <? _); intros [=].
Qed.
Lemma c31_stable r : select_channel set_stable r = Ok StableChannel.
Proof. unfold select_channel, set_stable. cbn [select_from]. destruct (_ <? _); auto. Qed.

(** ** The builder *)
Lemma c35_builder d : let b := build d in pd_mass b = pd_mass d /\ pd_low b = Rmax (pd_low d) (pd_mass d) /\
  (pd_mass d <= pd_low d -> b = d) /\ pd_type b = pd_type d /\ pd_charge b = pd_charge d /\ pd_lifetime b = pd_lifetime d /\ pd_decays b = pd_decays d.
Proof.
  destruct d as [n m l t c h ds p w]. cbn [build pd_mass pd_low pd_type pd_charge pd_lifetime pd_decays].
  destruct (Rltb_spec l m) as [L|L].
  - rewrite Rmax_right by lra. repeat split; auto. intro; lra.
  - rewrite Rmax_left by lra. repeat split; auto.
Qed.
Lemma c35_standard_low : Forall (fun d => pd_mass d <= pd_low d) standard_particles.
Proof. unfold standard_particles. repeat (apply Forall_cons; [first [right; reflexivity|cbn [pd_mass pd_low GammaDef]; unfold ME; lra]|]). apply Forall_nil. Qed.
