(** Proofs about decays into many particles: C33. *)
From Coq Require Import Sorted Permutation.
From Verif Require Import Prelude PreludeFacts Vec_Model Vec_Proofs Propagator_Model Math_Model Particle_Model
  Particle_Spec Particle_Proofs Shapes_Spec Decay_Model Decay_Spec Decay_Proofs.

(** ** Sorting *)
Lemma insert_sorted_perm x l : Permutation (x :: l) (insert_sorted x l).
Proof.
  induction l as [|y l IH]; cbn; auto. destruct (x <=? y); auto.
  etransitivity; [apply perm_swap|]. constructor. exact IH.
Qed.
Lemma sort_perm l : Permutation l (sort l).
Proof. induction l as [|x l IH]; cbn; auto. etransitivity; [|apply insert_sorted_perm]. constructor. exact IH. Qed.
Lemma insert_sorted_sorted x l : StronglySorted Rle l -> StronglySorted Rle (insert_sorted x l).
Proof.
  induction l as [|y l IH]; intros S; cbn; [repeat constructor|]. inversion S; subst.
  destruct (Rleb_spec x y).
  - constructor; auto. constructor; auto. eapply Forall_impl; [|exact H2]. cbn. intros; lra.
  - constructor; auto. rewrite Forall_forall. intros z I. apply (Permutation_in _ (Permutation_sym (insert_sorted_perm x l))) in I.
    destruct I as [<-|I]; [lra|]. rewrite Forall_forall in H2. auto.
Qed.
Lemma sort_sorted l : StronglySorted Rle (sort l).
Proof. induction l; cbn; [constructor|]. apply insert_sorted_sorted. auto. Qed.
Lemma sort_length l : length (sort l) = length l.
Proof. symmetry. apply Permutation_length, sort_perm. Qed.
Lemma sort_least x l : Forall (fun y => x <= y) l -> sort (x :: l) = x :: sort l.
Proof.
  intros H. change (sort (x :: l)) with (insert_sorted x (sort l)). destruct (sort l) as [|y t] eqn:E; auto.
  cbn [insert_sorted]. destruct (Rleb_spec x y) as [|n]; auto. exfalso. apply n. rewrite Forall_forall in H. apply H.
  apply (Permutation_in _ (Permutation_sym (sort_perm l))). rewrite E. left. auto.
Qed.
Lemma sorted_last l x d : StronglySorted Rle l -> In x l -> x <= last l d.
Proof.
  induction 1 as [|y l S IH F]; intros I; [destruct I|]. destruct l as [|z l].
  - destruct I as [->|[]]. cbn. lra.
  - change (last (y :: z :: l) d) with (last (z :: l) d). destruct I as [->|I]; [|auto].
    rewrite Forall_forall in F. apply F. clear. generalize z. induction l as [|w l IH]; intros z0; [left; auto|right; apply IH].
Qed.
Lemma last_in {A} (l : list A) d : l <> [] -> In (last l d) l.
Proof. induction l as [|x l IH]; [congruence|]. intros _. destruct l; [left; auto|]. right. apply IH. discriminate. Qed.
Lemma randoms_shape rs : Forall (fun r => 0 <= r <= 1) rs ->
  exists l, sort (0 :: rs ++ [1]) = 0 :: l /\ StronglySorted Rle (0 :: l) /\ length l = S (length rs) /\ last l 0 = 1 /\
    Forall (fun r => 0 <= r <= 1) l.
Proof.
  intros H. assert (H' : Forall (fun r => 0 <= r <= 1) (rs ++ [1])). { apply Forall_app. split; auto. repeat constructor; lra. }
  exists (sort (rs ++ [1])). assert (E : sort (0 :: rs ++ [1]) = 0 :: sort (rs ++ [1])).
  { apply sort_least. eapply Forall_impl; [|exact H']. cbn. intros; lra. }
  split; auto. split; [rewrite <- E; apply sort_sorted|].
  split. { rewrite sort_length, app_length. cbn. lia. }
  assert (B : Forall (fun r => 0 <= r <= 1) (sort (rs ++ [1]))).
  { rewrite Forall_forall in *. intros x I. apply H'. apply (Permutation_in _ (Permutation_sym (sort_perm _))). auto. }
  split; auto. apply Rle_antisym.
  - rewrite Forall_forall in B. apply B. apply last_in. intros E'. apply (f_equal (@length R)) in E'.
    rewrite sort_length, app_length in E'. cbn in E'. lia.
  - apply sorted_last; [apply sort_sorted|]. apply (Permutation_in _ (sort_perm _)). apply in_or_app. right. left. auto.
Qed.

(** ** The chain of two-body decays *)
(** [v] decays from the virtual mass [v'] by emission of [m] with momentum [p]. *)
Inductive chain : R -> list R -> list R -> list R -> Prop :=
| chain_nil v : chain v [] [] []
| chain_cons v v' vs m ms p ps : 0 <= v -> 0 <= m -> 0 <= p -> sqrt (p * p + v * v) + sqrt (p * p + m * m) = v' ->
    chain v' vs ms ps -> chain v (v' :: vs) (m :: ms) (p :: ps).

Lemma momentum_chain nan v' v m : 0 <= v -> 0 <= m -> v + m <= v' ->
  exists p, decay_momentum nan v' v m = Ok p /\ 0 <= p /\ sqrt (p * p + v * v) + sqrt (p * p + m * m) = v'.
Proof.
  intros Hv Hm H. destruct (Rlt_dec 0 v') as [P|NP].
  - destruct (decay_momentum_ok nan v' v m) as (p & E & P0 & _ & S1 & S2); auto; try lra.
    exists p. split; auto. split; auto. apply energies_sum; auto.
  - assert (v' = 0 /\ v = 0 /\ m = 0) as (-> & -> & ->) by lra. exists 0. unfold decay_momentum.
    destruct (Rltb_spec 0 ((0 - 0 - 0) * (0 + 0 + 0) * (0 - 0 + 0) * (0 + 0 - 0))); [lra|].
    split; auto. split; [lra|]. replace (0 * 0 + 0 * 0) with 0 by ring. rewrite sqrt_0. ring.
Qed.
Lemma last_shift (l : list R) a b : last (a :: l) b = last l a.
Proof. revert a b. induction l as [|x l IH]; intros a b; auto. change (last (x :: l) b = last (x :: l) a). rewrite !IH. auto. Qed.
Fixpoint product_of (l : list R) : R := match l with [] => 1 | x :: l => x * product_of l end.
Lemma virtual_chain nan q ms : 0 <= q -> Forall (fun m => 0 <= m) ms ->
  forall acc r0 rs w, 0 <= acc -> 0 <= r0 -> StronglySorted Rle (r0 :: rs) -> length ms = length rs ->
  exists ps, chain_momenta nan (acc + r0 * q) (virtual_masses acc q ms rs) ms w = Ok (ps, w * product_of ps) /\
    chain (acc + r0 * q) (virtual_masses acc q ms rs) ms ps /\
    last (virtual_masses acc q ms rs) (acc + r0 * q) = acc + mass_sum ms + last rs r0 * q.
Proof.
  intros Hq Hms. induction Hms as [|m ms Hm Hms IH]; intros acc r0 rs w Ha Hr S L.
  - destruct rs; [|discriminate]. exists []. cbn. split; [do 2 f_equal; ring|]. split; [constructor|]. ring.
  - destruct rs as [|r rs]; [discriminate|]. cbn [virtual_masses chain_momenta].
    inversion S as [|? ? S' F]; subst. inversion F; subst.
    assert (0 <= r0 * q) by nra.
    destruct (momentum_chain nan (acc + m + r * q) (acc + r0 * q) m) as (p & Ep & P0 & PE); try nra.
    rewrite Ep. cbn [obind]. destruct (IH (acc + m) r rs (w * p)) as (ps & E1 & E2 & E3); try lra; auto.
    rewrite E1. cbn [obind fst snd]. exists (p :: ps). split; [cbn [product_of]; do 2 f_equal; ring|].
    split; [constructor; auto; lra|].
    cbn [mass_sum fold_right]. fold (mass_sum ms).
    rewrite !last_shift, E3. ring.
Qed.
Lemma sum_masses_mass_sum ms acc : fold_left Rplus ms acc = acc + mass_sum ms.
Proof. revert acc. induction ms as [|m ms IH]; intros acc; cbn; [lra|]. rewrite IH. unfold mass_sum. lra. Qed.

Lemma kinematics_ok nan m0 m1 ms norm M rs : Forall (fun m => 0 <= m) (m0 :: m1 :: ms) ->
  mass_sum (m0 :: m1 :: ms) <= M -> Forall (fun r => 0 <= r <= 1) rs -> length rs = length ms ->
  exists vs ps, calculate_kinematics nan (m0 :: m1 :: ms) norm M rs = Ok (mkkin (m0 :: vs) ps (norm * product_of ps)) /\
    chain m0 vs (m1 :: ms) ps /\ last vs m0 = M.
Proof.
  intros Hm HS Hr L. unfold calculate_kinematics.
  destruct (randoms_shape rs Hr) as (l & -> & S & Ll & La & B).
  assert (ES : sum_masses (m0 :: m1 :: ms) = mass_sum (m0 :: m1 :: ms)).
  { unfold sum_masses. rewrite sum_masses_mass_sum. lra. }
  rewrite ES. set (q := M - mass_sum (m0 :: m1 :: ms)).
  assert (0 <= q) by (unfold q; lra). inversion Hm as [|? ? P0 P1]; subst.
  destruct (virtual_chain nan q (m1 :: ms)) with (acc := m0) (r0 := 0) (rs := l) (w := 1) as (ps & E1 & E2 & E3); auto; try lra.
  { cbn. lia. }
  change (virtual_masses 0 q (m0 :: m1 :: ms) (0 :: l)) with ((0 + m0 + 0 * q) :: virtual_masses (0 + m0) q (m1 :: ms) l).
  replace (0 + m0 + 0 * q) with m0 by ring. rewrite Rplus_0_l. replace (m0 + 0 * q) with m0 in * by ring.
  cbv iota. rewrite E1. cbn [obind fst snd].
  exists (virtual_masses m0 q (m1 :: ms) l), ps. split; [do 2 f_equal; ring|]. split; auto.
  rewrite E3, La. unfold q. cbn. ring.
Qed.

Lemma total_energy_app a b : total_energy (a ++ b) = total_energy a + total_energy b.
Proof. unfold total_energy in *. induction a as [|p a IH]; cbn; [lra|]. rewrite IH. lra. Qed.
Lemma total_momentum_app ms ps ms' ps' : length ms = length ps ->
  total_momentum (ms ++ ms') (ps ++ ps') = vadd (total_momentum ms ps) (total_momentum ms' ps').
Proof.
  revert ps. induction ms as [|m ms IH]; destruct ps as [|p ps]; cbn; try discriminate; intros L.
  - destruct (total_momentum ms' ps'). unfold vadd. cbn. f_equal; ring.
  - rewrite IH by lia. generalize (momentum_vec m (p_state p)), (total_momentum ms ps), (total_momentum ms' ps').
    intros u v w. destruct u, v, w. unfold vadd. cbn. f_equal; ring.
Qed.

Section Many.
Variables (nan : forall A, outcome A) (reg : registry).
Hypothesis N : not_a_value nan.

Lemma set_place p dir e : same_place p (with_energy (with_direction p dir) e).
Proof. repeat split. Qed.

Lemma chain_gamma p v : 0 < v -> sqrt (p * p + v * v) / v * (sqrt (p * p + v * v) / v) - p / v * (p / v) = 1 /\
  1 <= sqrt (p * p + v * v) / v.
Proof.
  intros Hv. assert (H : 0 <= p * p + v * v) by nra. pose proof (sqrt_sqrt _ H) as S.
  pose proof (sqrt_pos (p * p + v * v)) as P. set (s := sqrt (p * p + v * v)) in *. split.
  - replace (s / v * (s / v) - p / v * (p / v)) with ((s * s - p * p) / (v * v)) by (field; lra). rewrite S. field. lra.
  - apply (Rmult_le_reg_r v); auto. unfold Rdiv. rewrite Rmult_assoc, Rinv_l by lra. nra.
Qed.

Lemma chain_boosts_inv todo : forall mdone done mtodo v vs momenta dirs out,
  chain v vs mtodo momenta -> Forall2 (known reg) mtodo todo -> Forall unit dirs ->
  shells reg mdone done -> total_energy done = v -> total_momentum mdone done = mkvec 0 0 0 ->
  chain_boosts nan reg done todo momenta (v :: vs) dirs = Ok out ->
  Forall2 same_place (done ++ todo) out /\ shells reg (mdone ++ mtodo) out /\
  total_energy out = last vs v /\ total_momentum (mdone ++ mtodo) out = mkvec 0 0 0.
Proof.
  induction todo as [|p todo IH]; intros mdone done mtodo v vs momenta dirs out C K UD S TE TP H.
  - inversion K; subst. inversion C; subst. cbn in H. injection H as <-. rewrite !app_nil_r.
    split. { clear. induction done; constructor; auto. apply same_place_refl. }
    split; auto.
  - inversion K as [|m ? mtodo' ? (d & L & Em) K']; subst m mtodo.
    inversion C as [|? v' vs' ? ? q momenta' Hv Hm Hq HE C']; subst. cbn [chain_boosts] in H.
    destruct dirs as [|dir dirs]; [discriminate|]. inversion UD; subst.
    rewrite (set_momentum_ok reg _ d) in H by auto. cbn [obind] in H.
    set (m := pd_mass d) in *.
    destruct (set_on_shell p m q dir Hm Hq H2) as [O V].
    set (p' := with_energy (with_direction p dir) (sqrt (q * q + m * m))) in *.
    unfold quot in H. set (v := total_energy done) in *. destruct (Reqb_spec v 0) as [|Nv].
    { exfalso. apply obind_Ok in H. destruct H as (x & Hx & _). destruct (N _ _ Hx). }
    cbn [obind] in H. apply obind_Ok in H. destruct H as (done' & Hd & H).
    assert (Pv : 0 < v) by lra. destruct (chain_gamma q v Pv) as [G G1].
    assert (UP : unit (direction (p_state p'))) by exact H2.
    destruct (boost_all_inv nan reg mdone done _ _ _ done' N S UP G G1 Hd) as (SP & S' & EB).
    pose proof (f_equal fst EB) as E1. pose proof (f_equal snd EB) as E2. cbn [fst snd boosted] in E1, E2.
    fold v in E1, E2. rewrite TP in E1, E2.
    assert (E1' : total_energy done' = sqrt (q * q + v * v)). { rewrite E1. unfold dot. cbn. field. lra. }
    assert (E2' : total_momentum mdone done' = scale (- q) dir).
    { rewrite E2. change (direction (p_state p')) with dir. destruct dir. unfold vadd, scale, dot. cbn. f_equal; field; lra. }
    destruct (IH (mdone ++ [m]) (done' ++ [p']) mtodo' _ vs' momenta' dirs out C' K' H3) as (A1 & A2 & A3 & A4); auto.
    + apply Forall2_app; auto. constructor; [|constructor]. split; auto. exists d. auto.
    + rewrite total_energy_app, E1'. unfold total_energy. cbn [fold_right]. rewrite Rplus_0_r. reflexivity.
    + assert (LL : length mdone = length done') by (clear - S'; induction S'; cbn; congruence).
      rewrite total_momentum_app by auto. rewrite E2'. cbn [total_momentum]. rewrite V. clear. destruct dir. unfold vadd, scale. cbn. f_equal; ring.
    + split.
      { clear - SP A1. revert SP A1. rewrite <- app_assoc. cbn. intros SP A1.
        assert (X : Forall2 same_place (done ++ p :: todo) (done' ++ p' :: todo)).
        { apply Forall2_app; auto. constructor; [apply set_place|]. clear. induction todo; constructor; auto. apply same_place_refl. }
        clear - X A1. revert out A1. induction X; intros out A1; inversion A1; subst; constructor; auto. eapply same_place_trans; eauto. }
      rewrite <- app_assoc in A2, A4. cbn [app] in A2, A4.
      split; auto. split; auto. rewrite A3.
      symmetry. apply last_shift.
Qed.

Lemma generate_event_inv d0 d1 ds c ps k vs dirs out :
  let ms := map pd_mass (d0 :: d1 :: ds) in
  Forall (registered reg) (d0 :: d1 :: ds) -> Forall2 (made c) (d0 :: d1 :: ds) ps ->
  k_masses k = pd_mass d0 :: vs -> chain (pd_mass d0) vs (tl ms) (k_momenta k) -> Forall unit dirs ->
  generate_event nan reg ps k dirs = Ok out ->
  Forall2 (made c) (d0 :: d1 :: ds) out /\ shells reg ms out /\ total_energy out = last vs (pd_mass d0) /\
  total_momentum ms out = mkvec 0 0 0.
Proof.
  cbv zeta. cbn [map tl]. intros Reg Md Ek C UD H.
  inversion Md as [|? p0 ? ps' M0 Md']; subst. inversion Md' as [|? p1 ? todo M1 Md'']; subst.
  inversion Reg as [|? ? R0 Reg']; subst. inversion Reg' as [|? ? R1 Reg'']; subst.
  unfold generate_event in H. rewrite Ek in H.
  remember (pd_mass d0) as v0. remember (pd_mass d1 :: map pd_mass ds) as ml. 
  destruct C as [|v v' vs m ms q momenta Hv Hm Hq HE C]; [discriminate|]. injection Heqml as -> ->.
  destruct dirs as [|dir dirs]; [discriminate|]. inversion UD as [|? ? U1 UD']; subst.
  destruct R0 as (e0 & L0 & E0). destruct R1 as (e1 & L1 & E1).
  rewrite (set_momentum_ok reg _ e1) in H by (destruct M1 as (T & _); cbn; rewrite T; auto). cbn [obind] in H.
  rewrite (set_momentum_ok reg _ e0) in H by (destruct M0 as (T & _); cbn; rewrite T; auto). cbn [obind] in H.
  rewrite E0, E1 in H.
  destruct (set_on_shell p1 (pd_mass d1) q dir Hm Hq U1) as [O1 V1].
  destruct (set_on_shell p0 (pd_mass d0) q (vneg dir) Hv Hq (unit_vneg _ U1)) as [O0 V0].
  set (q1 := with_energy (with_direction p1 dir) _) in *. set (q0 := with_energy (with_direction p0 (vneg dir)) _) in *.
  destruct (chain_boosts_inv todo [pd_mass d0; pd_mass d1] [q0; q1] (map pd_mass ds) _ vs momenta dirs out C) as (A1 & A2 & A3 & A4); auto.
  - clear - Md'' Reg''. induction Md''; inversion Reg''; subst; constructor; auto. eapply made_known; eauto.
  - constructor; [split; auto; exists e0; destruct M0 as (T & _); cbn; rewrite T; auto|].
    constructor; [split; auto; exists e1; destruct M1 as (T & _); cbn; rewrite T; auto|]. constructor.
  - cbn. rewrite Rplus_0_r. reflexivity.
  - cbn [total_momentum]. rewrite V0, V1. clear. destruct dir. unfold vadd, scale, vneg. cbn. f_equal; ring.
  - split; [|split; [exact A2|split; [|exact A4]]].
    + eapply made_places; [|exact A1]. constructor; [eapply made_place; [exact M0|apply set_place]|].
      constructor; [eapply made_place; [exact M1|apply set_place]|]. auto.
    + rewrite A3. symmetry. apply last_shift.
Qed.

Lemma draws_bounded rnd k n : (forall i, 0 <= rnd i <= 1) -> Forall (fun r => 0 <= r <= 1) (draws rnd k n).
Proof. intros H. unfold draws. rewrite Forall_map. apply Forall_forall. auto. Qed.
Lemma direction_draws_unit rnd k n : (forall i, 0 <= rnd i <= 1) -> Forall unit (direction_draws rnd k n).
Proof. intros H. unfold direction_draws. rewrite Forall_map. apply Forall_forall. intros i _. apply random_direction_unit. auto. Qed.

Section Event.
Variables (daughters : list pdef) (par : params) (element : pstate -> list particle -> R)
          (parent : pdef) (c : pstate) (rnd : nat -> R).
Hypothesis Many : (2 <= length daughters)%nat.
Hypothesis Reg : Forall (registered reg) daughters.
Hypothesis Masses : Forall (fun d => 0 <= pd_mass d) daughters.
Hypothesis Threshold : mass_sum (map pd_mass daughters) <= pd_mass parent.
Hypothesis Random : forall i, 0 <= rnd i <= 1.

Definition at_rest (ps : list particle) : Prop :=
  Forall2 (made c) daughters ps /\ shells reg (map pd_mass daughters) ps /\ total_energy ps = pd_mass parent /\
  total_momentum (map pd_mass daughters) ps = mkvec 0 0 0.

Lemma one_event_inv k ps kin out : Forall2 (made c) daughters ps ->
  one_event nan reg daughters par parent rnd k ps = Ok (kin, out) -> at_rest out.
Proof.
  intros Md H. unfold one_event in H. unfold at_rest.
  destruct daughters as [|d0 [|d1 ds]]; cbn in Many; try lia.
  destruct (kinematics_ok nan (pd_mass d0) (pd_mass d1) (map pd_mass ds) (normalization par) (pd_mass parent)
    (draws rnd k (length (d0 :: d1 :: ds) - 2))) as (vs & qs & EK & C & La); auto.
  { exact (proj2 (Forall_map pd_mass (fun m => 0 <= m) _) Masses). }
  { apply draws_bounded; auto. }
  { unfold draws. rewrite !map_length, seq_length. cbn. lia. }
  cbn [map] in H. rewrite EK in H. cbn [obind] in H. apply obind_Ok in H. destruct H as (out' & H & E).
  injection E as _ E. subst out'.
  rewrite <- La. eapply generate_event_inv in H; [exact H|..]; cbn [k_masses k_momenta map tl]; eauto.
  apply direction_draws_unit; auto.
Qed.
Lemma rejection_inv fuel : forall k ps out, Forall2 (made c) daughters ps ->
  rejection nan reg daughters par element parent c rnd fuel k ps = Some (Ok out) -> at_rest out.
Proof.
  induction fuel as [|fuel IH]; intros k ps out Md H; [discriminate|]. cbn [rejection] in H.
  destruct (one_event nan reg daughters par parent rnd k ps) as [[kin ps']| |] eqn:E; try discriminate.
  pose proof (one_event_inv _ _ _ _ Md E) as A.
  match type of H with context [if ?b then _ else _] => destruct b end.
  - eapply IH; [|exact H]. apply A.
  - injection H as <-. exact A.
Qed.
Lemma c33_conserved uniform fuel k out : 0 < pd_mass parent <= energy c -> unit (direction c) ->
  many_body_decay nan reg daughters par element parent c rnd uniform fuel k = Some (Ok out) ->
  decay_products daughters (pd_mass parent) c out.
Proof.
  intros HM U H. unfold many_body_decay in H.
  assert (Md : Forall2 (made c) daughters (map (fun d => product d c (direction c) (energy c)) daughters)).
  { clear. induction daughters; constructor; auto. repeat split. }
  assert (A : exists ps, at_rest ps /\ to_lab nan reg parent c ps = Ok out).
  { destruct uniform.
    - destruct (rejection _ _ _ _ _ _ _ _ _ _ _) as [[ps| |]|] eqn:E; try discriminate. injection H as H. exists ps. split; auto.
      eapply rejection_inv; eauto.
    - injection H as H. destruct (one_event _ _ _ _ _ _ _ _) as [[kin ps]| |] eqn:E; try discriminate. cbn [obind snd] in H.
      exists ps. split; auto. eapply one_event_inv; eauto. }
  destruct A as (ps & (A1 & A2 & A3 & A4) & HL).
  destruct (to_lab_inv nan reg N parent c _ ps out HM U A2 A3 A4 HL) as (B1 & B2 & B3 & B4).
  apply (products_spec reg); auto. eapply made_places; eauto.
Qed.
End Event.
End Many.

(** ** Rejection sampling: no event weighs more than the maximum *)
Lemma chain_momentum_le v m p v' E e P : 0 <= p -> 0 <= P -> 0 <= e <= v ->
  sqrt (p * p + v * v) + sqrt (p * p + m * m) = v' -> v' <= E ->
  sqrt (P * P + e * e) + sqrt (P * P + m * m) = E -> p <= P.
Proof.
  intros Hp HP Hv H1 HE H2. destruct (Rle_dec p P) as [|NL]; auto. exfalso.
  assert (sqrt (P * P + e * e) < sqrt (p * p + v * v)). { apply sqrt_lt_1; nra. }
  assert (sqrt (P * P + m * m) < sqrt (p * p + m * m)). { apply sqrt_lt_1; nra. }
  lra.
Qed.
Lemma product_nonneg l : Forall (fun p => 0 <= p) l -> 0 <= product_of l.
Proof. induction 1; cbn; [lra|]. nra. Qed.
Lemma chain_nonneg v vs ms ps : chain v vs ms ps -> Forall (fun p => 0 <= p) ps.
Proof. induction 1; constructor; auto. Qed.

(** [E] is the largest and [e + prev] the smallest possible virtual mass. *)
Lemma max_weight_bound nan q ms : 0 <= q -> Forall (fun m => 0 <= m) ms ->
  forall acc r0 rs ps e prev w, 0 <= acc -> 0 <= r0 -> StronglySorted Rle (r0 :: rs) -> length ms = length rs ->
  Forall (fun r => r <= 1) rs -> e + prev = acc -> 0 <= w ->
  chain (acc + r0 * q) (virtual_masses acc q ms rs) ms ps ->
  exists W, max_weight nan (acc + q) e prev ms w = Ok W /\ w * product_of ps <= W.
Proof.
  intros Hq Hms. induction Hms as [|m ms Hm Hms IH]; intros acc r0 rs ps e prev w Ha Hr S L B Ee Hw C.
  - inversion C; subst. cbn. exists w. split; auto. lra.
  - destruct rs as [|r rs]; [discriminate|]. cbn [virtual_masses] in C.
    inversion S as [|? ? S' F]; subst. inversion F; subst. inversion B; subst.
    inversion C as [|? ? ? ? ? p ps' Hv _ Hp HE C' X1 X2 X3 X4]; subst.
    cbn [max_weight].
    assert (0 <= r0 * q) by nra. assert (r * q <= q) by nra.
    destruct (momentum_chain nan (e + prev + q + m) (e + prev) m) as (P & EP & P0 & PE); try nra.
    rewrite EP. cbn [obind]. replace (e + prev + q + m) with (e + prev + m + q) in * by ring.
    assert (p <= P). { apply (chain_momentum_le (e + prev + r0 * q) m p (e + prev + m + r * q) (e + prev + m + q) (e + prev) P); auto; lra. }
    destruct (IH (e + prev + m) r rs ps' (e + prev) m (w * P)) as (W & EW & HW); auto; try lra; try nra.
    exists W. split; auto. cbn [product_of]. pose proof (product_nonneg _ (chain_nonneg _ _ _ _ C')).
    assert (w * p <= w * P) by nra. assert (w * p * product_of ps' <= w * P * product_of ps') by nra. nra.
Qed.

Lemma kinematics_weight nan m0 m1 ms norm M rs k : Forall (fun m => 0 <= m) (m0 :: m1 :: ms) ->
  mass_sum (m0 :: m1 :: ms) <= M -> Forall (fun r => 0 <= r <= 1) rs -> length rs = length ms -> 0 <= norm ->
  calculate_kinematics nan (m0 :: m1 :: ms) norm M rs = Ok k ->
  exists W, estimate_max_weight nan (m0 :: m1 :: ms) norm M = Ok (mkparams norm W 0) /\ 0 <= k_weight k <= W.
Proof.
  intros Hm HS Hr L Hn H. unfold calculate_kinematics in H.
  destruct (randoms_shape rs Hr) as (l & E & S & Ll & La & B). rewrite E in H.
  assert (ES : sum_masses (m0 :: m1 :: ms) = mass_sum (m0 :: m1 :: ms)).
  { unfold sum_masses. rewrite sum_masses_mass_sum. lra. }
  unfold estimate_max_weight. rewrite ES in *. set (q := M - mass_sum (m0 :: m1 :: ms)) in *.
  assert (0 <= q) by (unfold q; lra). inversion Hm as [|? ? P0 P1]; subst.
  destruct (virtual_chain nan q (m1 :: ms)) with (acc := m0) (r0 := 0) (rs := l) (w := 1) as (ps & E1 & E2 & E3); auto; try lra.
  { cbn. lia. }
  change (virtual_masses 0 q (m0 :: m1 :: ms) (0 :: l)) with ((0 + m0 + 0 * q) :: virtual_masses (0 + m0) q (m1 :: ms) l) in H.
  replace (0 + m0 + 0 * q) with m0 in H by ring. rewrite Rplus_0_l in H. 
  destruct (max_weight_bound nan q (m1 :: ms)) with (acc := m0) (r0 := 0) (rs := l) (ps := ps) (e := 0) (prev := m0) (w := 1)
    as (W & EW & HW); auto; try lra.
  { cbn. lia. }
  { eapply Forall_impl; [|exact B]. cbn. intros; lra. }
  replace (m0 + 0 * q) with m0 in * by ring.
  cbv iota in H. rewrite E1 in H. cbn [obind fst snd] in H. apply (f_equal (fun x => match x with Ok y => k_weight y | _ => 0 end)) in H.
  cbn [k_weight] in H. rewrite (Rplus_comm q m0), EW. cbn [obind]. exists (norm * W). split; auto. rewrite <- H.
  pose proof (product_nonneg _ (chain_nonneg _ _ _ _ E2)). split; [nra|]. apply Rmult_le_compat_l; lra.
Qed.
Lemma normalization_ok nan ms M : mass_sum ms <= M -> 0 < M ->
  exists c, calculate_normalization nan ms M = Ok c /\ 0 <= c.
Proof.
  intros HS HM. unfold calculate_normalization, quot.
  assert (ES : sum_masses ms = mass_sum ms). { unfold sum_masses. rewrite sum_masses_mass_sum. lra. }
  rewrite ES. destruct (Reqb_spec (2 * M) 0); [lra|]. eexists. split; [reflexivity|].
  apply Rmult_le_pos; [|left; apply Rinv_0_lt_compat; lra].
  apply Rmult_le_pos; [apply Rmult_le_pos|].
  - apply pow_le. lra.
  - left. apply Rinv_0_lt_compat, lt_0_INR, lt_O_fact.
  - apply pow_le. pose proof PI_RGT_0. lra.
Qed.

(** ** The decays fail only by NaN *)
Lemma fine_bind {A B} (x : outcome A) (f : A -> outcome B) : fine x -> (forall a, x = Ok a -> fine (f a)) -> fine (obind x f).
Proof. intros [(a & ->)| ->] H; cbn; auto. right. auto. Qed.
Lemma marked_not_value : not_a_value marked.
Proof. intros A a H. discriminate. Qed.

Section Fine.
Variable reg : registry.
Lemma fine_quot a b : fine (quot marked a b).
Proof. unfold quot. destruct (b =? 0); [right|left]; eauto. Qed.
Lemma fine_boost p d n g bg : lookup reg (p_type p) = Some d -> on_shell (pd_mass d) (p_state p) ->
  unit n -> g * g - bg * bg = 1 -> 1 <= g -> fine (boost marked reg p n g bg).
Proof.
  intros L OS U G G1. pose proof (boost_ok marked reg p d n g bg L OS U G G1) as B. cbv zeta in B.
  unfold boosted in B. destruct (normalize _); [left; eauto|]. destruct B as (f & ->). right. reflexivity.
Qed.
Lemma fine_boost_all ms ps n g bg : shells reg ms ps -> unit n -> g * g - bg * bg = 1 -> 1 <= g ->
  fine (boost_all marked reg ps n g bg).
Proof.
  intros S U G G1. induction S as [|m p ms ps [(d & L & <-) OS] S IH]; cbn; [left; eauto|].
  apply fine_bind; [eapply fine_boost; eauto|]. intros q _. apply fine_bind; auto. intros; left; eauto.
Qed.
Lemma fine_to_lab parent c ms ps : 0 < pd_mass parent <= energy c -> unit (direction c) -> shells reg ms ps ->
  fine (to_lab marked reg parent c ps).
Proof.
  intros HM U S. unfold to_lab, quot. destruct (gamma_facts (energy c) (pd_mass parent) HM) as (Ep & G & G1). cbv zeta in *.
  destruct (Reqb_spec (pd_mass parent) 0); [lra|]. cbn [obind]. eapply fine_boost_all; eauto. apply unit_vneg; auto.
Qed.

Lemma chain_boosts_fine todo : forall mdone done mtodo v vs momenta dirs,
  chain v vs mtodo momenta -> Forall2 (known reg) mtodo todo -> Forall unit dirs -> (length todo <= length dirs)%nat ->
  shells reg mdone done -> total_energy done = v -> total_momentum mdone done = mkvec 0 0 0 ->
  fine (chain_boosts marked reg done todo momenta (v :: vs) dirs).
Proof.
  induction todo as [|p todo IH]; intros mdone done mtodo v vs momenta dirs C K UD LD S TE TP.
  - left. cbn. eauto.
  - inversion K as [|m ? mtodo' ? (d & L & Em) K']; subst m mtodo.
    inversion C as [|? v' vs' ? ? q momenta' Hv Hm Hq HE C']; subst. cbn [chain_boosts].
    destruct dirs as [|dir dirs]; [cbn in LD; lia|]. inversion UD; subst.
    rewrite (set_momentum_ok reg _ d) by auto. cbn [obind].
    set (m := pd_mass d) in *. set (v := total_energy done) in *.
    destruct (set_on_shell p m q dir Hm Hq H1) as [O V].
    set (p' := with_energy (with_direction p dir) (sqrt (q * q + m * m))) in *.
    unfold quot. destruct (Reqb_spec v 0) as [|Nv]; [right; reflexivity|]. cbn [obind].
    assert (Pv : 0 < v) by lra. destruct (chain_gamma q v Pv) as [G G1].
    apply fine_bind; [eapply fine_boost_all; eauto|]. intros done' Hd.
    destruct (boost_all_inv marked reg mdone done _ _ _ done' marked_not_value S H1 G G1 Hd) as (SP & S' & EB).
    pose proof (f_equal fst EB) as E1. pose proof (f_equal snd EB) as E2. cbn [fst snd boosted] in E1, E2.
    fold v in E1, E2. rewrite TP in E1, E2.
    assert (E1' : total_energy done' = sqrt (q * q + v * v)). { rewrite E1. unfold dot. cbn. field. lra. }
    assert (E2' : total_momentum mdone done' = scale (- q) dir).
    { rewrite E2. change (direction (p_state p')) with dir. destruct dir. unfold vadd, scale, dot. cbn. f_equal; field; lra. }
    apply (IH (mdone ++ [m]) (done' ++ [p']) mtodo'); auto.
    + cbn in LD. lia.
    + apply Forall2_app; auto. constructor; [|constructor]. split; auto. exists d. auto.
    + rewrite total_energy_app, E1'. unfold total_energy. cbn [fold_right]. rewrite Rplus_0_r. reflexivity.
    + assert (LL : length mdone = length done') by (clear - S'; induction S'; cbn; congruence).
      rewrite total_momentum_app by auto. rewrite E2'. cbn [total_momentum]. rewrite V. clear. destruct dir. unfold vadd, scale. cbn. f_equal; ring.
Qed.
Lemma generate_event_fine d0 d1 ds c ps k vs dirs :
  let ms := map pd_mass (d0 :: d1 :: ds) in
  Forall (registered reg) (d0 :: d1 :: ds) -> Forall2 (made c) (d0 :: d1 :: ds) ps ->
  k_masses k = pd_mass d0 :: vs -> chain (pd_mass d0) vs (tl ms) (k_momenta k) -> Forall unit dirs ->
  length dirs = S (length ds) -> fine (generate_event marked reg ps k dirs).
Proof.
  cbv zeta. cbn [map tl]. intros Reg Md Ek C UD LD.
  inversion Md as [|? p0 ? ps' M0 Md']; subst. inversion Md' as [|? p1 ? todo M1 Md'']; subst.
  inversion Reg as [|? ? R0 Reg']; subst. inversion Reg' as [|? ? R1 Reg'']; subst.
  unfold generate_event. rewrite Ek.
  remember (pd_mass d0) as v0. remember (pd_mass d1 :: map pd_mass ds) as ml.
  destruct C as [|v v' vs m ms q momenta Hv Hm Hq HE C]; [discriminate|]. injection Heqml as -> ->.
  destruct dirs as [|dir dirs]; [discriminate|]. inversion UD as [|? ? U1 UD']; subst.
  destruct R0 as (e0 & L0 & E0). destruct R1 as (e1 & L1 & E1).
  rewrite (set_momentum_ok reg _ e1) by (destruct M1 as (T & _); cbn; rewrite T; auto). cbn [obind].
  rewrite (set_momentum_ok reg _ e0) by (destruct M0 as (T & _); cbn; rewrite T; auto). cbn [obind].
  rewrite E0, E1.
  destruct (set_on_shell p1 (pd_mass d1) q dir Hm Hq U1) as [O1 V1].
  destruct (set_on_shell p0 (pd_mass d0) q (vneg dir) Hv Hq (unit_vneg _ U1)) as [O0 V0].
  set (q1 := with_energy (with_direction p1 dir) _) in *. set (q0 := with_energy (with_direction p0 (vneg dir)) _) in *.
  eapply (chain_boosts_fine todo [pd_mass d0; pd_mass d1] [q0; q1] (map pd_mass ds)); eauto.
  - clear - Md'' Reg''. induction Md''; inversion Reg''; subst; constructor; auto. eapply made_known; eauto.
  - cbn in LD. assert (length todo = length ds) by (clear - Md''; induction Md''; cbn; congruence). lia.
  - constructor; [split; auto; exists e0; destruct M0 as (T & _); cbn; rewrite T; auto|].
    constructor; [split; auto; exists e1; destruct M1 as (T & _); cbn; rewrite T; auto|]. constructor.
  - cbn. rewrite Rplus_0_r. reflexivity.
  - cbn [total_momentum]. rewrite V0, V1. clear. destruct dir. unfold vadd, scale, vneg. cbn. f_equal; ring.
Qed.

Section Event.
Variables (daughters : list pdef) (par : params) (element : pstate -> list particle -> R)
          (parent : pdef) (c : pstate) (rnd : nat -> R).
Hypothesis Many : (2 <= length daughters)%nat.
Hypothesis Reg : Forall (registered reg) daughters.
Hypothesis Masses : Forall (fun d => 0 <= pd_mass d) daughters.
Hypothesis Threshold : mass_sum (map pd_mass daughters) <= pd_mass parent.
Hypothesis Random : forall i, 0 <= rnd i <= 1.

Lemma one_event_fine k ps : Forall2 (made c) daughters ps ->
  fine (one_event marked reg daughters par parent rnd k ps).
Proof.
  intros Md. unfold one_event.
  destruct daughters as [|d0 [|d1 ds]]; cbn in Many; try lia.
  destruct (kinematics_ok marked (pd_mass d0) (pd_mass d1) (map pd_mass ds) (normalization par) (pd_mass parent)
    (draws rnd k (length (d0 :: d1 :: ds) - 2))) as (vs & qs & EK & C & La); auto.
  { exact (proj2 (Forall_map pd_mass (fun m => 0 <= m) _) Masses). }
  { apply draws_bounded; auto. }
  { unfold draws. rewrite !map_length, seq_length. cbn. lia. }
  cbn [map]. rewrite EK. cbn [obind]. apply fine_bind; [|intros; left; eauto].
  eapply generate_event_fine; cbn [k_masses k_momenta map tl]; eauto.
  - apply direction_draws_unit; auto.
  - unfold direction_draws. rewrite map_length, seq_length. cbn. lia.
Qed.
Lemma rejection_fine fuel : forall k ps x, Forall2 (made c) daughters ps ->
  rejection marked reg daughters par element parent c rnd fuel k ps = Some x -> fine x.
Proof.
  induction fuel as [|fuel IH]; intros k ps out Md H; [discriminate|]. cbn [rejection] in H.
  pose proof (one_event_fine k ps Md) as F.
  destruct (one_event marked reg daughters par parent rnd k ps) as [[kin ps']| |] eqn:E.
  - pose proof (one_event_inv marked reg marked_not_value daughters par parent c rnd Many Reg Masses Threshold Random _ _ _ _ Md E) as A.
    match type of H with context [if ?b then _ else _] => destruct b end.
    + eapply IH; [|exact H]. apply A.
    + injection H as <-. left. eauto.
  - injection H as <-. destruct F as [[a F]|F]; [discriminate|]. injection F as ->. right. auto.
  - destruct F as [[a F]|F]; discriminate.
Qed.
Lemma c33_only_nan uniform fuel k x : 0 < pd_mass parent <= energy c -> unit (direction c) ->
  many_body_decay marked reg daughters par element parent c rnd uniform fuel k = Some x -> fine x.
Proof.
  intros HM U H. unfold many_body_decay in H.
  assert (Md : Forall2 (made c) daughters (map (fun d => product d c (direction c) (energy c)) daughters)).
  { clear. induction daughters; constructor; auto. repeat split. }
  destruct uniform.
  - destruct (rejection _ _ _ _ _ _ _ _ _ _ _) as [y|] eqn:E; [|discriminate]. injection H as <-.
    apply fine_bind; [eapply rejection_fine; eauto|]. intros ps ->.
    pose proof (rejection_inv marked reg marked_not_value daughters par element parent c rnd Many Reg Masses Threshold Random _ _ _ _ Md E) as A.
    eapply fine_to_lab; eauto. apply A.
  - injection H as <-. apply fine_bind; [apply fine_bind; [apply one_event_fine; auto|intros; left; eauto]|].
    intros ps HE. destruct (one_event _ _ _ _ _ _ _ _) as [[kin ps']| |] eqn:E; try discriminate. cbn [obind snd] in HE. injection HE as <-.
    pose proof (one_event_inv marked reg marked_not_value daughters par parent c rnd Many Reg Masses Threshold Random _ _ _ _ Md E) as A.
    eapply fine_to_lab; eauto. apply A.
Qed.
End Event.
End Fine.

Lemma c33_few_refuted nan reg d par element parent c rnd k :
  many_body_decay nan reg [d] par element parent c rnd false 1 k = Some (Throw bad_alloc).
Proof. reflexivity. Qed.
