From Verif Require Import Prelude PreludeFacts Vec_Model Geometry_Model Propagator_Model Propagator_Spec
  Propagate_Proofs Secondaries_Model Secondaries_Spec.
From Coq Require Import Permutation String.
Import List ListNotations.

Definition mk_s (x : pstate * row) : sloss :=
  let '(a, (b, ty, h)) := x in
  mksloss ty (energy a - energy b) (position b) (direction b) (time b) (propagated_distance b) (energy a) h.
Definition mk_c (x : pstate * row) : closs :=
  let '(a, (b, ty, h)) := x in
  mkcloss (energy a - energy b) (energy a) (position a) (position b) (direction a) (direction b) (time a) (time b).

Lemma for_each_ok {B} (body : nat -> outcome (list B)) (f : nat -> list B) is :
  (forall i, In i is -> body i = Ok (f i)) -> for_each body is = Ok (flat_map f is).
Proof.
  induction is as [|i is IH]; intros H; cbn; auto.
  rewrite H by (left; auto). cbn. rewrite IH by (intros; apply H; right; auto). reflexivity.
Qed.

(** history indexed *)
Lemma with_previous_nth prev l i x :
  nth_error (with_previous prev l) i = Some x <->
  nth_error (prev :: map (fun r => fst (fst r)) l) i = Some (fst x) /\ nth_error l i = Some (snd x).
Proof.
  revert prev i; induction l as [|r l IH]; intros prev i.
  - split; [destruct i; cbn; discriminate|]. destruct i; cbn; intros [_ ?]; discriminate.
  - destruct i; cbn.
    + destruct x; cbn; split; [intros [= <- <-]|intros [[= <-] [= <-]]]; auto.
    + rewrite IH. cbn. tauto.
Qed.
Lemma with_previous_length prev l : List.length (with_previous prev l) = List.length l.
Proof. revert prev; induction l; intros; cbn; auto. Qed.

Lemma rows_nth t i : parallel t -> forall s ty h,
  nth_error (track_rows t) i = Some (s, ty, h) <->
  nth_error (tr_states t) i = Some s /\ nth_error (tr_types t) i = Some ty /\ nth_error (tr_hashes t) i = Some h.
Proof.
  destruct t as [a b c]; unfold parallel, track_rows; cbn. revert b c i.
  induction a as [|x a IH]; intros [|y b] [|z c] i [H1 H2] s ty h; cbn in *; try discriminate.
  - destruct i; cbn; split; try discriminate; intros [? _]; discriminate.
  - destruct i; cbn.
    + split; [intros [= -> -> ->]; auto|intros ([= ->] & [= ->] & [= ->]); auto].
    + apply IH. split; lia.
Qed.
Lemma rows_map t : parallel t -> map (fun r => fst (fst r)) (track_rows t) = tr_states t.
Proof. apply rows_states. Qed.
Lemma rows_length t : parallel t -> List.length (track_rows t) = List.length (tr_states t).
Proof. intros H. rewrite <- (rows_map t H), map_length. reflexivity. Qed.

Lemma history_length t : parallel t -> List.length (history t) = (List.length (tr_states t) - 1)%nat.
Proof.
  intros H. pose proof (rows_length t H) as E. unfold history. destruct (track_rows t); cbn in *; [lia|].
  rewrite with_previous_length. lia.
Qed.
Lemma history_nth t i a b ty h : parallel t ->
  nth_error (history t) i = Some (a, (b, ty, h)) <->
  nth_error (tr_states t) i = Some a /\ nth_error (tr_states t) (S i) = Some b /\
  nth_error (tr_types t) (S i) = Some ty /\ nth_error (tr_hashes t) (S i) = Some h.
Proof.
  intros H. pose proof (rows_nth t (S i) H b ty h) as E. pose proof (rows_map t H) as M.
  unfold history. destruct (track_rows t) as [|r l] eqn:R.
  - cbn in E. split; [destruct i; discriminate|]. intros (_ & K). apply E in K. discriminate.
  - rewrite with_previous_nth. cbn [fst snd]. cbn [nth_error] in E. cbn [map] in M.
    rewrite M, E. tauto.
Qed.

(** Row by row: a loop over the indices is a flat_map over the history. *)
Lemma for_each_history {B} t (body : nat -> outcome (list B)) (f : pstate * row -> list B) :
  parallel t ->
  (forall i a b ty h, nth_error (tr_states t) i = Some a -> nth_error (tr_states t) (S i) = Some b ->
     nth_error (tr_types t) (S i) = Some ty -> nth_error (tr_hashes t) (S i) = Some h ->
     body (S i) = Ok (f (a, (b, ty, h)))) ->
  for_each body (track_indices t) = Ok (flat_map f (history t)).
Proof.
  intros Hp H. unfold track_indices. rewrite <- history_length by auto.
  assert (G : forall k l, (forall i x, nth_error l i = Some x -> nth_error (history t) (k + i) = Some x) ->
     for_each body (seq (S k) (List.length l)) = Ok (flat_map f l)).
  { intros k l; revert k. induction l as [|[a [[b ty] h]] l IH]; intros k HL; cbn; auto.
    specialize (HL O) as H0. cbn in H0. rewrite Nat.add_0_r in H0. specialize (H0 _ eq_refl).
    apply history_nth in H0; auto. destruct H0 as (H1 & H2 & H3 & H4).
    rewrite (H k a b ty h) by auto. cbn [obind].
    rewrite IH; [reflexivity|]. intros i x Hx. specialize (HL (S i) x Hx).
    rewrite Nat.add_succ_r in HL. exact HL. }
  apply (G O). auto.
Qed.

Lemma flat_map_filter {A B} (p : A -> bool) (m : A -> B) l :
  flat_map (fun x => if p x then [m x] else []) l = map m (filter p l).
Proof. induction l as [|x l IH]; cbn; auto. destruct (p x); cbn; rewrite IH; auto. Qed.

Ltac at_idx := unfold at_index; repeat match goal with H : nth_error ?l ?i = Some _ |- context [nth_error ?l ?i] => rewrite H end.

Lemma stochastic_eq t : parallel t ->
  get_stochastic_losses t = Ok (map mk_s (filter is_stochastic (history t))).
Proof.
  intros Hp. rewrite <- flat_map_filter. apply for_each_history; auto.
  intros i a b ty h H1 H2 H3 H4. at_idx. cbn [obind].
  unfold is_stochastic, is_continuous, is_decay, row_type; cbn [fst snd].
  destruct (_ && _); auto. unfold make_sloss. replace (S i - 1)%nat with i by lia. at_idx. reflexivity.
Qed.
Lemma stochastic_in_eq t g : parallel t ->
  get_stochastic_losses_in t g =
  Ok (map mk_s (filter (fun x => is_inside g (position (fst (fst (snd x)))) (direction (fst (fst (snd x)))) && is_stochastic x) (history t))).
Proof.
  intros Hp. rewrite <- flat_map_filter. apply for_each_history; auto.
  intros i a b ty h H1 H2 H3 H4. at_idx. cbn [obind fst snd].
  destruct (is_inside _ _ _); [|reflexivity]. cbn [andb].
  unfold is_stochastic, is_continuous, is_decay, row_type; cbn [fst snd].
  destruct (_ && _); auto. unfold make_sloss. replace (S i - 1)%nat with i by lia. at_idx. reflexivity.
Qed.
Lemma stochastic_of_eq t ty : parallel t ->
  get_stochastic_losses_of t ty = Ok (map mk_s (filter (fun x => itype_eqb (row_type x) ty) (history t))).
Proof.
  intros Hp. rewrite <- flat_map_filter. apply for_each_history; auto.
  intros i a b ty' h H1 H2 H3 H4. at_idx. cbn [obind]. unfold row_type; cbn [fst snd].
  destruct (itype_eqb _ _); auto. unfold make_sloss. replace (S i - 1)%nat with i by lia. at_idx. reflexivity.
Qed.
Lemma continuous_eq t : parallel t ->
  get_continuous_losses t = Ok (map mk_c (filter is_continuous (history t))).
Proof.
  intros Hp. rewrite <- flat_map_filter. apply for_each_history; auto.
  intros i a b ty h H1 H2 H3 H4. at_idx. cbn [obind]. unfold is_continuous, row_type; cbn [fst snd].
  destruct (itype_eqb _ _); auto. unfold make_closs. replace (S i - 1)%nat with i by lia. at_idx. reflexivity.
Qed.
Lemma continuous_in_eq t g : parallel t ->
  get_continuous_losses_in t g =
  Ok (map mk_c (filter (fun x => is_inside g (position (fst (fst (snd x)))) (direction (fst (fst (snd x)))) && is_continuous x) (history t))).
Proof.
  intros Hp. rewrite <- flat_map_filter. apply for_each_history; auto.
  intros i a b ty h H1 H2 H3 H4. at_idx. cbn [obind fst snd].
  destruct (is_inside _ _ _); [|reflexivity]. cbn [andb].
  unfold is_continuous, row_type; cbn [fst snd].
  destruct (itype_eqb _ _); auto. unfold make_closs. replace (S i - 1)%nat with i by lia. at_idx. reflexivity.
Qed.

Lemma Forall2_map_r {A B} (P : A -> B -> Prop) (f : A -> B) l :
  (forall a, In a l -> P a (f a)) -> Forall2 P l (map f l).
Proof. induction l; cbn; constructor; auto. Qed.

Lemma describes_s x : describes_stochastic x (mk_s x).
Proof. destruct x as [a [[b ty] h]]; cbn. repeat split. Qed.
Lemma describes_c x : describes_continuous x (mk_c x).
Proof. destruct x as [a [[b ty] h]]; cbn. repeat split. Qed.

Lemma filter_filter {A} (p q : A -> bool) l : filter p (filter q l) = filter (fun x => p x && q x) l.
Proof.
  induction l as [|x l IH]; cbn; auto. destruct (q x); cbn.
  - destruct (p x); cbn; rewrite IH; auto.
  - rewrite andb_false_r. auto.
Qed.
Lemma filter_map {A B} (p : B -> bool) (f : A -> B) l : filter p (map f l) = map f (filter (fun x => p (f x)) l).
Proof. induction l as [|x l IH]; cbn; auto. destruct (p (f x)); cbn; rewrite IH; auto. Qed.

Lemma c09_rows t : parallel t ->
  exists ls lc, get_stochastic_losses t = Ok ls /\ get_continuous_losses t = Ok lc /\
    Forall2 describes_stochastic (filter is_stochastic (history t)) ls /\
    Forall2 describes_continuous (filter is_continuous (history t)) lc.
Proof.
  intros Hp. do 2 eexists. rewrite stochastic_eq, continuous_eq by auto.
  split; [reflexivity|]. split; [reflexivity|].
  split; apply Forall2_map_r; intros; [apply describes_s|apply describes_c].
Qed.

Lemma c09_partition t : parallel t ->
  Permutation (history t)
    (filter is_continuous (history t) ++ filter is_stochastic (history t) ++ filter is_decay (history t)).
Proof.
  intros _. induction (history t) as [|x l IH]; cbn; auto.
  unfold is_stochastic at 1. 
  destruct (is_continuous x) eqn:E1; cbn [negb andb].
  - assert (is_decay x = false) as ->.
    { unfold is_continuous, is_decay in *. destruct (itype_eqb_spec (row_type x) ContinuousEnergyLoss); try discriminate.
      rewrite e. reflexivity. }
    cbn. constructor. auto.
  - destruct (is_decay x) eqn:E2; cbn [negb].
    + rewrite app_assoc. apply Permutation_cons_app. rewrite <- app_assoc. auto.
    + cbn. apply Permutation_cons_app. auto.
Qed.

Lemma c09_filters t l : parallel t -> get_stochastic_losses t = Ok l ->
  (forall ty, ty <> ContinuousEnergyLoss -> ty <> DecayType ->
     get_stochastic_losses_of t ty = Ok (filter (fun x => itype_eqb (sl_type x) ty) l)) /\
  (forall g, get_stochastic_losses_in t g =
     Ok (filter (fun x => is_inside g (sl_position x) (sl_direction x)) l)).
Proof.
  intros Hp Hl. rewrite stochastic_eq in Hl by auto. injection Hl as <-. split.
  - intros ty N1 N2. rewrite stochastic_of_eq by auto. rewrite filter_map, filter_filter. do 2 f_equal.
    apply filter_ext. intros [a [[b ty'] h]]. unfold is_stochastic, is_continuous, is_decay, row_type; cbn [fst snd mk_s sl_type].
    destruct (itype_eqb_spec ty' ty) as [->|]; auto. cbn [andb].
    destruct (itype_eqb_spec ty ContinuousEnergyLoss), (itype_eqb_spec ty DecayType); try contradiction; reflexivity.
  - intros g. rewrite stochastic_in_eq by auto. rewrite filter_map, filter_filter. do 2 f_equal.
    apply filter_ext. intros [a [[b ty'] h]]. reflexivity.
Qed.

Lemma c09_continuous_filter t l g : parallel t -> get_continuous_losses t = Ok l ->
  get_continuous_losses_in t g = Ok (filter (fun x => is_inside g (cl_end x) (cl_dir_f x)) l).
Proof.
  intros Hp Hl. rewrite continuous_eq in Hl by auto. injection Hl as <-.
  rewrite continuous_in_eq by auto. rewrite filter_map, filter_filter. do 2 f_equal.
  apply filter_ext. intros [a [[b ty'] h]]. reflexivity.
Qed.

Lemma c09_named t name :
  (forall ty, In (ty, name) type_names -> get_stochastic_losses_named t name = get_stochastic_losses_of t ty) /\
  (~ In name (map snd type_names) -> get_stochastic_losses_named t name = UB deref_end).
Proof.
  unfold get_stochastic_losses_named. split.
  - intros ty H. cbn in H.
    repeat (destruct H as [H|H]; [injection H as <- <-; reflexivity|]). destruct H.
  - intros H. destruct (find _ type_names) as [[ty n]|] eqn:E; auto.
    exfalso. apply find_some in E. destruct E as [E1 E2]. cbn in E2. apply String.eqb_eq in E2. subst n.
    apply H. apply in_map_iff. exists (ty, name). auto.
Qed.

(** * C08 *)
Lemma last_default {A} (x : A) l d d' : last (x :: l) d = last (x :: l) d'.
Proof. revert x; induction l as [|y l IH]; intros x; auto. change (last (y :: l) d = last (y :: l) d'). apply IH. Qed.
Lemma last_cons {A} (x : A) l d : last (x :: l) d = last l x.
Proof. destruct l as [|y l]; auto. change (last (y :: l) d = last (y :: l) x). apply last_default. Qed.

Lemma telescoping prev l :
  (forall a b h, In (a, (b, DecayType, h)) (with_previous prev l) -> energy b = energy a) ->
  sum (map (fun x => energy (fst x) - energy (fst (fst (snd x))))
         (filter is_continuous (with_previous prev l))) +
  sum (map (fun x => energy (fst x) - energy (fst (fst (snd x))))
         (filter is_stochastic (with_previous prev l)))
  = energy prev - energy (last (map (fun r => fst (fst r)) l) prev).
Proof.
  revert prev. induction l as [|[[s ty] h] l IH]; intros prev H; cbn [with_previous map filter fst snd].
  - cbn. lra.
  - assert (IH' := IH s ltac:(intros; eapply H; right; eauto)).
    rewrite last_cons.
    change (is_stochastic (prev, (s, ty, h))) with (negb (itype_eqb ty ContinuousEnergyLoss) && negb (itype_eqb ty DecayType)).
    change (is_continuous (prev, (s, ty, h))) with (itype_eqb ty ContinuousEnergyLoss).
    destruct (itype_eqb_spec ty ContinuousEnergyLoss) as [->|N1]; cbn [negb andb].
    + cbn [map sum fold_right fst snd]. unfold sum in *. lra.
    + destruct (itype_eqb_spec ty DecayType) as [->|N]; cbn [negb].
      * assert (E := H prev s h ltac:(left; auto)). lra.
      * cbn [map sum fold_right fst snd]. unfold sum in *. lra.
Qed.

Lemma concat_decay prev steps : Forall step_rows steps ->
  forall a b h, In (a, (b, DecayType, h)) (with_previous prev (concat steps)) -> energy b = energy a.
Proof.
  intros HF. revert prev. induction HF as [|st l Hst HF IH]; intros prev a b h Hin; [destruct Hin|].
  destruct Hst as [s|s s' t h' _ _ _ _ _ Hd]; cbn in Hin.
  - destruct Hin as [Hin|Hin]; [discriminate|eauto].
  - destruct Hin as [Hin|[Hin|Hin]]; [discriminate| |eauto].
    injection Hin as <- <- -> <-. rewrite Hd by auto. reflexivity.
Qed.

Lemma well_shaped_sum init t ls lc s l :
  well_shaped init t -> get_stochastic_losses t = Ok ls -> get_continuous_losses t = Ok lc ->
  tr_states t = l ++ [s] ->
  sum (map cl_energy lc) + sum (map sl_energy ls) = energy init - energy s.
Proof.
  intros (H1 & H2 & (steps & _ & HF & HR) & _) Hs Hc Hl.
  assert (Hp : parallel t) by (split; auto).
  rewrite stochastic_eq in Hs by auto. rewrite continuous_eq in Hc by auto.
  injection Hs as <-. injection Hc as <-. rewrite !map_map.
  pose proof (rows_map t Hp) as HM.
  unfold history. unfold track_rows in *. rewrite HR in *. cbn [map fst snd] in *.
  assert (E := telescoping init (concat steps) (concat_decay init steps HF)).
  assert (EL : last (map (fun r => fst (fst r)) (concat steps)) init = s).
  { rewrite <- (last_cons _ _ s), HM, Hl. apply last_last. }
  rewrite EL in E. rewrite <- E. f_equal; f_equal; apply map_ext; intros [a [[b ty] h]]; reflexivity.
Qed.

Lemma c08_sum rs sectors :
  (forall s, In s sectors -> proper_losses s) ->
  forall fuel max_steps st md me cond t,
  propagate rs sectors fuel max_steps st md me cond = Some (Ok t) ->
  exists ls lc last, get_stochastic_losses t = Ok ls /\ get_continuous_losses t = Ok lc /\
    (exists l, tr_states t = l ++ [last]) /\
    sum (map cl_energy lc) + sum (map sl_energy ls) = energy st - energy last.
Proof.
  intros Hp fuel ms st md me cond t H. pose proof (c06_shape rs sectors Hp fuel ms st md me cond t H) as HW.
  assert (Hpar : parallel t) by (destruct HW as (? & ? & _); split; auto).
  destruct (exists_last (l := tr_states t)) as (l & s & E).
  { destruct HW as (H1 & H2 & (steps & _ & _ & HR) & _). intros E. rewrite E in HR. discriminate. }
  do 3 eexists. rewrite stochastic_eq, continuous_eq by auto. split; [reflexivity|]. split; [reflexivity|].
  split; [eauto|].
  eapply well_shaped_sum; eauto; [apply stochastic_eq|apply continuous_eq]; auto.
Qed.

(** * State queries *)
Lemma find_index_spec p l i : forall j,
  find_index p l i = Some j <->
  exists k s, j = (i + k)%nat /\ nth_error l k = Some s /\ p s = true /\
    forall k' s', (k' < k)%nat -> nth_error l k' = Some s' -> p s' = false.
Proof.
  revert i; induction l as [|x l IH]; intros i j; cbn.
  - split; [discriminate|]. intros ([|k] & s & _ & K & _); discriminate.
  - destruct (p x) eqn:E.
    + split.
      * intros [= <-]. exists O, x. split; [lia|]. split; [reflexivity|]. split; auto. intros; lia.
      * intros ([|k] & s & -> & K & Ks & Kb); [f_equal; lia|]. rewrite (Kb O x) in E by (auto; lia). discriminate.
    + rewrite IH. split.
      * intros (k & s & -> & K & Ks & Kb). exists (S k), s. split; [lia|]. split; auto. split; auto.
        intros [|k'] s' Hk; cbn; [intros [= <-]; auto|]. intros Hn. eapply Kb; eauto. lia.
      * intros ([|k] & s & -> & K & Ks & Kb); [cbn in K; injection K as <-; congruence|].
        exists k, s. split; [lia|]. split; auto. split; auto. intros k' s' Hk Hn. apply (Kb (S k') s'); auto; lia.
Qed.
Lemma find_index_none p l i : find_index p l i = None <-> forall s, In s l -> p s = false.
Proof.
  revert i; induction l as [|x l IH]; intros i; cbn; [split; auto; intros _ s []|].
  destruct (p x) eqn:E; [split; [discriminate|intros H; rewrite H in E by auto; discriminate]|].
  rewrite IH. split; intros H s; [intros [<-|Hs]|]; auto.
Qed.
Lemma nth_error_tl {A} (l : list A) k : nth_error (tl l) k = nth_error l (S k).
Proof. destruct l; auto. destruct k; auto. Qed.
Lemma in_tl {A} (l : list A) x : In x (tl l) -> In x l.
Proof. destruct l; auto. right; auto. Qed.
