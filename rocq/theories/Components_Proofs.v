(** Sums over the components of a medium (C14), multipliers (C16). *)
From Verif Require Import Prelude PreludeFacts Propagator_Model Limits_Model Math_Model Cross_Model Cross_Spec
  Cross_Proofs Transform_Proofs.
From Coq Require Import Permutation.

Section Nan.
Variable nan : forall A, outcome A.
Notation as_cross := (as_cross nan).

Lemma rsum_cons x l : rsum (x :: l) = x + rsum l.
Proof. reflexivity. Qed.
Lemma sum_nucleons_rsum m : sum_nucleons m = rsum (map component_mass (m_components m)).
Proof. unfold sum_nucleons. rewrite (fold_rsum component_mass). lra. Qed.

Lemma mass_pos m : sound_medium m -> 0 < rsum (map component_mass (m_components m)).
Proof.
  intros (H1 & H2). destruct (m_components m) as [|c cs]; [easy|]. cbn [map].
  assert (P : forall x, In x (c :: cs) -> 0 < component_mass x).
  { intros x Hx. destruct (H2 x Hx). now apply Rmult_lt_0_compat. }
  assert (0 <= rsum (map component_mass cs)).
  { apply rsum_nonneg. apply Forall_forall. intros r Hr. apply in_map_iff in Hr. destruct Hr as (x & <- & Hx).
    left. apply P. now right. }
  pose proof (P c (or_introl eq_refl)). unfold rsum in *; cbn; lra.
Qed.
Theorem shares_sum m : sound_medium m -> rsum (map (mass_share m) (m_components m)) = 1.
Proof.
  intros S. pose proof (mass_pos m S) as P. unfold mass_share.
  set (t := rsum (map component_mass (m_components m))) in *.
  replace (map _ (m_components m)) with (map (Rmult (/ t)) (map component_mass (m_components m))).
  - rewrite rsum_scale. fold t. field. lra.
  - rewrite map_map. apply map_ext. intros. unfold Rdiv. lra.
Qed.

Lemma weight_ok m c : sound_medium m -> In c (m_components m) ->
  exists w, weight_component nan m c = Ok w /\ w <> 0 /\ forall r, quo nan r w = Ok (r * mass_share m c).
Proof.
  intros S H. pose proof (mass_pos m S) as P. destruct (proj2 S c H) as (A & B).
  unfold weight_component. rewrite quo_ok by nra. eexists; split; [reflexivity|].
  rewrite sum_nucleons_rsum. pose proof (Rmult_lt_0_compat _ _ A B) as Q. unfold mass_share, component_mass.
  fold component_mass. set (t := rsum _) in *.
  assert (W : 0 < t / (c_atoms c * c_atomic c)) by now apply Rdiv_lt_0_compat.
  split; [lra|]. intros r. rewrite quo_ok by lra. f_equal. field. repeat split; lra.
Qed.

(** ** Lookup *)
Lemma find_key {A} (l : list (N * A)) h x : NoDup (map fst l) -> In (h, x) l ->
  find (fun e => N.eqb (fst e) h) l = Some (h, x).
Proof.
  induction l as [|(k, y) l IH]; intros D H; [easy|]. cbn [find fst map] in *. inversion D; subst.
  destruct H as [[= -> ->]|H]; [now rewrite N.eqb_refl|].
  destruct (N.eqb_spec k h) as [->|]; auto. exfalso. apply H2. apply (in_map fst) in H. exact H.
Qed.
Lemma find_no_key {A} (l : list (N * A)) h : ~ In h (map fst l) -> find (fun e => N.eqb (fst e) h) l = None.
Proof.
  induction l as [|(k, y) l IH]; intros H; [reflexivity|]. cbn [find fst map] in *.
  destruct (N.eqb_spec k h) as [->|]; [exfalso; apply H; now left|]. apply IH. intros K; apply H; now right.
Qed.

(** ** Rates per target and total rate *)
Lemma dNdx_sum_targets x E keys acc l : targets nan x E keys = Ok l ->
  dNdx_sum nan x E keys acc = Ok (acc + rsum (map snd l)).
Proof.
  revert acc l; induction keys as [|h ks IH]; intros acc l H; cbn [targets dNdx_sum] in *.
  - inv_ok. cbn. f_equal; lra.
  - destruct (cs_dNdx_target nan x E h) as [r| |]; cbn [obind] in *; try discriminate.
    inv_ok. rewrite (IH _ _ Ha). cbn [map snd]. rewrite rsum_cons. apply f_equal. lra.
Qed.
Theorem as_cross_additive x E : additive (as_cross x) E.
Proof.
  intros l H. cbn [as_cross x_per_target x_dNdx] in *. unfold cs_per_target, cs_dNdx in *.
  destruct (cs_dndx x) as [d|]; [|now inv_ok].
  rewrite (dNdx_sum_targets _ _ _ 0 _ H). f_equal; lra.
Qed.
Theorem multiplied_additive x k E : additive x E -> additive (multiplied nan x k) E.
Proof.
  intros A l H. cbn [multiplied x_per_target x_dNdx] in *. inv_ok.
  rewrite (A _ Ha). cbn [obind]. rewrite map_map. cbn [snd]. f_equal.
  rewrite <- rsum_scale, map_map. f_equal. apply map_ext. intros. lra.
Qed.
Theorem direct_additive rate_of registry cutoff checked m lower t cut E :
  additive (direct nan rate_of registry cutoff checked m lower t cut) E.
Proof.
  intros l H. cbn [direct x_per_target x_dNdx] in *. unfold direct_dNdx. rewrite H. cbn [obind].
  rewrite (fold_rsum snd). f_equal; lra.
Qed.

(** ** What the constructor builds *)
Lemma build_dndx_spec make m cs acc l : NoDup (map fst acc ++ map c_hash cs) ->
  build_dndx_loop nan make m cs acc = Ok l ->
  exists l', l = acc ++ l' /\ Forall2 (fun c e => fst e = c_hash c /\ weight_component nan m c = Ok (fst (snd e)) /\
                                                 make c = Ok (snd (snd e))) cs l'.
Proof.
  revert acc l; induction cs as [|c cs IH]; intros acc l D H; cbn [build_dndx_loop] in H.
  - inv_ok. exists []. now rewrite app_nil_r.
  - inv_ok. cbn [map] in D.
    assert (Em : emplace (c_hash c) (a, a0) acc = acc ++ [(c_hash c, (a, a0))]).
    { unfold emplace. destruct (existsb _ acc) eqn:X; auto. exfalso.
      apply existsb_exists in X. destruct X as (e & He & Q). apply N.eqb_eq in Q.
      apply NoDup_remove_2 in D. apply D. apply in_or_app. left. rewrite <- Q. now apply in_map. }
    rewrite Em in H.
    assert (D' : NoDup (map fst (acc ++ [(c_hash c, (a, a0))]) ++ map c_hash cs)).
    { rewrite map_app; cbn [map fst]; rewrite <- app_assoc; exact D. }
    destruct (IH _ _ D' H) as (l' & -> & F).
    exists ((c_hash c, (a, a0)) :: l'). split; [now rewrite <- app_assoc|]. constructor; auto.
Qed.

Lemma build_dedx_sum make m cs l E (g : component -> R) a : sound_medium m ->
  (forall c, In c cs -> In c (m_components m)) ->
  (forall c, In c cs -> (exists f, make c = Ok (Some f) /\ f E = Ok (g c)) \/ make c = Ok None /\ g c = 0) ->
  build_dedx_loop nan make m cs = Ok l ->
  weighted_sum nan l E a = Ok (a + rsum (map (fun c => g c * mass_share m c) cs)).
Proof.
  intros S. revert l a; induction cs as [|c cs IH]; intros l a I G H; cbn [build_dedx_loop] in H.
  - inv_ok. cbn. f_equal; lra.
  - inv_ok. destruct (weight_ok m c S (I c (or_introl eq_refl))) as (w & Hw & _ & Q).
    assert (a0 = w) by congruence; subst.
    specialize (IH a2).
    assert (IH' : forall a, weighted_sum nan a2 E a = Ok (a + rsum (map (fun c => g c * mass_share m c) cs))).
    { intros. apply IH; auto. - intros; apply I; now right. - intros; apply G; now right. }
    destruct (G c (or_introl eq_refl)) as [(f & Hf & Ef)|(Hf & Z)].
    + assert (a1 = Some f) by congruence; subst. cbn [weighted_sum]. rewrite Ef. cbn [obind]. rewrite Q. cbn [obind].
      rewrite IH'. cbn [map]. rewrite rsum_cons. apply f_equal. lra.
    + assert (a1 = None) by congruence; subst. rewrite IH'. cbn [map]. rewrite rsum_cons, Z. apply f_equal. lra.
Qed.

Section Built.
Variables (order : list (N * (R * dndx_calc)) -> list (N * (R * dndx_calc)))
  (make_n : component -> outcome dndx_calc) (make_e : component -> outcome (option (R -> outcome R)))
  (make_e2 : component -> outcome (R -> outcome R)) (m : medium) (cut : option energy_cut)
  (only : bool) (lower : R) (t : itype) (x : cross_section).
Hypotheses (O : forall l, Permutation (order l) l) (S : sound_medium m)
  (B : new_cross_section nan order make_n make_e make_e2 m cut only lower t = Ok x).

Theorem c14_continuous_only E : only_continuous cut = true ->
  x_dNdx (as_cross x) E = Ok 0 /\ x_per_target (as_cross x) E = Ok [] /\ forall h y, x_loss (as_cross x) h E y = Throw logic_error.
Proof using B.
  intros C. pose proof B as Bx. unfold new_cross_section, build_dndx_components in Bx. rewrite C in Bx. cbn [obind] in Bx. inv_ok.
  split; [|split]; reflexivity.
Qed.

Lemma built_dndx : only_continuous cut = false -> distinct_components m ->
  exists l, cs_dndx x = Some l /\ NoDup (map fst l) /\ exists l', Permutation l l' /\
    Forall2 (fun c e => fst e = c_hash c /\ weight_component nan m c = Ok (fst (snd e)) /\ make_n c = Ok (snd (snd e)))
      (m_components m) l'.
Proof using B O.
  intros C D. pose proof B as Bx. unfold new_cross_section, build_dndx_components in Bx. rewrite C in Bx. inv_ok.
  destruct (build_dndx_spec make_n m (m_components m) [] a2) as (l' & -> & F); auto.
  cbn [option_map cs_dndx app]. exists (order l'). split; auto.
  assert (K : map fst l' = map c_hash (m_components m)).
  { clear -F. induction F; cbn; auto. destruct H as (-> & _). now rewrite IHF. }
  split.
  - eapply Permutation_NoDup; [apply Permutation_sym, Permutation_map, O|]. rewrite K. exact D.
  - exists l'. split; auto.
Qed.

Lemma Forall2_in_l {A C} (P : A -> C -> Prop) l1 l2 a : Forall2 P l1 l2 -> In a l1 -> exists b, In b l2 /\ P a b.
Proof.
  induction 1 as [|u v l1 l2 Puv F IH]; intros Ha; [easy|]. destruct Ha as [->|Ha].
  - exists v. split; [now left|auto].
  - destruct IH as (b & Hb & Pb); auto. exists b; split; auto; now right.
Qed.

Theorem c14_target E c f : only_continuous cut = false -> distinct_components m -> In c (m_components m) ->
  (exists calc, make_n c = Ok calc /\ dn_rate calc E = Ok f) ->
  x_dNdx_target (as_cross x) E (c_hash c) = Ok (f * mass_share m c).
Proof using B O S.
  intros C D I (calc & Hm & Hr). destruct (built_dndx C D) as (l & Hl & N & l' & P & F).
  destruct (Forall2_in_l _ _ _ c F I) as ((h, (w, k)) & Ie & E1 & E2 & E3). cbn [fst snd] in *. subst h.
  assert (k = calc) by congruence; subst k.
  cbn [as_cross x_dNdx_target]. unfold cs_dNdx_target. rewrite Hl. unfold dndx_at.
  rewrite (find_key l (c_hash c) (w, calc) N) by (eapply Permutation_in; [apply Permutation_sym; eauto|auto]).
  cbn [snd obind]. rewrite Hr. cbn [obind].
  destruct (weight_ok m c S I) as (w' & Hw & _ & Q). assert (w' = w) by congruence; subst. apply Q.
Qed.
Theorem c14_unknown E h : only_continuous cut = false -> distinct_components m -> ~ In h (map c_hash (m_components m)) ->
  x_dNdx_target (as_cross x) E h = UB null_deref.
Proof using B O.
  intros C D H. destruct (built_dndx C D) as (l & Hl & N & l' & P & F).
  cbn [as_cross x_dNdx_target]. unfold cs_dNdx_target. rewrite Hl. unfold dndx_at. rewrite find_no_key; [reflexivity|].
  intros K. apply H. eapply Permutation_in in K; [|apply Permutation_map; exact P].
  assert (map fst l' = map c_hash (m_components m)) as <-; auto.
  clear -F. induction F; cbn; auto. destruct H as (-> & _). now rewrite IHF.
Qed.

Theorem c14_rates E f : only_continuous cut = false -> distinct_components m ->
  (forall c, In c (m_components m) -> exists calc, make_n c = Ok calc /\ dn_rate calc E = Ok (f c)) ->
  x_dNdx (as_cross x) E = Ok (rsum (map (fun c => f c * mass_share m c) (m_components m))) /\
  exists l, x_per_target (as_cross x) E = Ok l /\
    Permutation l (map (fun c => (c_hash c, f c * mass_share m c)) (m_components m)).
Proof using B O S.
  intros C D G. destruct (built_dndx C D) as (l & Hl & N & l' & P & F).
  assert (K : map fst l' = map c_hash (m_components m)).
  { clear -F. induction F; cbn; auto. destruct H as (-> & _). now rewrite IHF. }
  assert (PK : Permutation (map fst l) (map c_hash (m_components m))) by (rewrite <- K; now apply Permutation_map).
  assert (T : forall keys, (forall h, In h keys -> In h (map c_hash (m_components m))) ->
    exists r, targets nan x E keys = Ok r /\ map fst r = keys /\
      (forall e, In e r -> In e (map (fun c => (c_hash c, f c * mass_share m c)) (m_components m)))).
  { induction keys as [|h ks IH]; intros Hk; [exists []; repeat split; auto; easy|].
    destruct IH as (r & Ht & Hr & Hin); [intros; apply Hk; now right|].
    cbn [targets]. destruct (proj1 (in_map_iff _ _ _) (Hk h (or_introl eq_refl))) as (c & <- & Ic).
    pose proof (c14_target E c (f c) C D Ic (G c Ic)) as Q. cbn [as_cross x_dNdx_target] in Q. rewrite Q. cbn [obind]. rewrite Ht. cbn [obind].
    eexists; split; [reflexivity|]. split; [cbn; now rewrite Hr|].
    intros e [<-|He]; auto. apply in_map_iff. eauto. }
  destruct (T (map fst l)) as (r & Hr & Hf & Hin).
  { intros h Hh. eapply Permutation_in; eauto. }
  assert (PR : x_per_target (as_cross x) E = Ok r).
  { cbn [as_cross x_per_target]. unfold cs_per_target. now rewrite Hl. }
  set (full := map (fun c => (c_hash c, f c * mass_share m c)) (m_components m)) in *.
  assert (FF : map fst full = map c_hash (m_components m)) by (unfold full; rewrite map_map; reflexivity).
  assert (PP : Permutation r full).
  { apply NoDup_Permutation_bis.
    - apply (NoDup_map_inv fst). rewrite Hf. exact N.
    - pose proof (Permutation_length PK) as L. rewrite <- FF, <- Hf, !map_length in L. lia.
    - exact Hin. }
  split; [|eauto].
  rewrite (as_cross_additive x E r PR). f_equal.
  transitivity (rsum (map snd full)); [apply rsum_perm, Permutation_map, PP|].
  unfold full. rewrite map_map. reflexivity.
Qed.

Theorem c14_continuous E g : cut <> None ->
  (forall c, In c (m_components m) -> (exists f, make_e c = Ok (Some f) /\ f E = Ok (g c)) \/ make_e c = Ok None /\ g c = 0) ->
  x_dEdx (as_cross x) E = Ok (rsum (map (fun c => g c * mass_share m c) (m_components m))).
Proof using B S.
  intros C G. pose proof B as Bx. unfold new_cross_section, build_dedx_components in Bx. destruct cut as [k|]; [|easy]. inv_ok.
  cbn [as_cross x_dEdx cs_sum cs_dedx]. rewrite (build_dedx_sum make_e m (m_components m) a2 E g); auto.
  f_equal; lra.
Qed.
Theorem c14_variance E g k : cut = Some k -> cut_cont_rand k = true ->
  (forall c, In c (m_components m) -> exists f, make_e2 c = Ok f /\ f E = Ok (g c)) ->
  x_dE2dx (as_cross x) E = Ok (rsum (map (fun c => g c * mass_share m c) (m_components m))).
Proof using B S.
  intros C R G. pose proof B as Bx. unfold new_cross_section, build_de2dx_components in Bx. rewrite C, R in Bx. inv_ok.
  cbn [as_cross x_dE2dx cs_sum cs_de2dx].
  rewrite (build_dedx_sum (fun x => olet f := make_e2 x in Ok (Some f)) m (m_components m) a2 E g); auto.
  - f_equal; lra.
  - intros c Hc. destruct (G c Hc) as (f & Hf & Ef). left. exists f. rewrite Hf. auto.
Qed.

(** ** The sampled loss *)
Theorem c10_inverts E c calc a b top : only_continuous cut = false -> distinct_components m -> only = false ->
  In c (m_components m) -> make_n c = Ok calc -> inverts (dn_upper calc E) (dn_cumulative calc E) a b top ->
  inverts (x_loss (as_cross x) (c_hash c) E) (x_cumulative (as_cross x) E (c_hash c)) a b (top * mass_share m c).
Proof using B O S.
  intros C D Os I Hm (I1 & I2 & I3).
  destruct (built_dndx C D) as (l & Hl & N & l' & P & F).
  destruct (Forall2_in_l _ _ _ c F I) as ((h, (w, k)) & Ie & E1 & E2 & E3). cbn [fst snd] in *. subst h.
  assert (k = calc) by congruence; subst k.
  destruct (weight_ok m c S I) as (w' & Hw & W0 & Q). assert (w' = w) by congruence; subst w'.
  assert (Hat : dndx_at l (c_hash c) = Ok (w, calc)).
  { unfold dndx_at. rewrite (find_key l (c_hash c) (w, calc) N); auto.
    eapply Permutation_in; [apply Permutation_sym; eauto|auto]. }
  assert (Ho : cs_only_stochastic x = false).
  { pose proof B as Bx. unfold new_cross_section in Bx. inv_ok. auto. }
  cbn [as_cross x_loss x_cumulative]. unfold cs_loss, cs_cumulative. rewrite Hl, Ho.
  assert (W : 0 < mass_share m c /\ w * mass_share m c = 1).
  { pose proof (mass_pos m S) as MP. destruct (proj2 S c I) as (A1 & A2).
    split; [unfold mass_share, component_mass; apply Rdiv_lt_0_compat; [nra|auto]|].
    specialize (Q w). rewrite quo_ok in Q by auto. injection Q as Q. rewrite <- Q. field; auto. }
  destruct W as (W1 & W2).
  split; [|split].
  - intros y Hy. rewrite Hat. cbn [obind]. destruct (I1 (y * w)) as (v & Hv & Rv & Cv).
    { split; [apply Rmult_lt_0_compat; nra|]. apply (Rmult_le_reg_r (mass_share m c)); auto.
      rewrite Rmult_assoc, W2. lra. }
    exists v. rewrite Hv. split; [reflexivity|]. split; auto. rewrite Cv. cbn [obind]. rewrite Q. f_equal. rewrite Rmult_assoc, W2. lra.
  - intros v Hv. destruct (I2 v Hv) as (y & Hy). rewrite Hat. cbn [obind]. rewrite Hy. cbn [obind]. rewrite Q. eauto.
  - intros v u y z H1 H2 H3. rewrite Hat. cbn [obind]. intros Y Z. inv_ok. rewrite Q in *. inv_ok.
    apply Rmult_lt_compat_r; auto. eapply I3; eauto.
Qed.
End Built.

(** ** Calculators for the medium as a whole *)
Theorem c14_medium make_n make_e make_e2 m cut lower t x calc E r :
  new_cross_section_medium make_n make_e make_e2 m cut false lower t = Ok x -> only_continuous cut = false ->
  make_n = Ok calc -> dn_rate calc E = Ok r ->
  x_dNdx (as_cross x) E = Ok r /\ x_per_target (as_cross x) E = Ok [(m_hash m, r)] /\
  x_dNdx_target (as_cross x) E (m_hash m) = Ok r /\
  (forall y, x_loss (as_cross x) (m_hash m) E y = dn_upper calc E y) /\
  (forall f s, cut <> None -> make_e = Ok (Some f) -> f E = Ok s -> x_dEdx (as_cross x) E = Ok s).
Proof.
  intros B C N D. unfold new_cross_section_medium, build_dndx_medium in B. rewrite C, N in B. cbn [obind] in B. inv_ok.
  assert (T : cs_dNdx_target nan (mkcs (Some [(m_hash m, (1, calc))]) a a0 false lower t cut) E (m_hash m) = Ok r).
  { unfold cs_dNdx_target, dndx_at. cbn [cs_dndx find fst]. rewrite N.eqb_refl. cbn [snd obind]. rewrite D. cbn [obind].
    rewrite quo_ok by lra. apply f_equal. field. }
  cbn [as_cross x_dNdx x_per_target x_dNdx_target x_loss x_dEdx]. unfold cs_dNdx, cs_per_target, cs_loss.
  cbn [cs_dndx map fst dNdx_sum targets cs_only_stochastic cs_dedx]. rewrite T. cbn [obind].
  split; [apply f_equal; lra|]. split; [reflexivity|]. split; [reflexivity|]. split.
  - intros y. unfold dndx_at. cbn [find fst]. rewrite N.eqb_refl. cbn [snd obind]. now rewrite Rmult_1_r.
  - intros f s Cn -> F. unfold build_dedx_medium in Ha. destruct cut; [|easy]. cbn [obind] in Ha. inv_ok.
    cbn [cs_sum weighted_sum]. rewrite F. cbn [obind]. rewrite quo_ok by lra. cbn [obind]. apply f_equal. field.
Qed.

(** * C16: multipliers *)
Theorem c16_scaled x k : k <> 0 -> scaled k x (multiplied nan x k).
Proof.
  intros K. unfold scaled, multiplied. cbn.
  repeat split; auto; try (intros *; intros ->; reflexivity).
  - intros E l ->. cbn [obind]. eexists; split; [reflexivity|]. rewrite !map_map. split.
    + reflexivity.
    + apply map_ext. intros. cbn. lra.
  - intros h E r. rewrite quo_ok by auto. cbn [obind]. f_equal. field; auto.
Qed.

Lemma rates_multiplied cross k E : rates (map (fun x => multiplied nan x k) cross) E =
  olet l := rates cross E in Ok (map (fun r => mkrate (multiplied nan (r_cross r) k) (r_hash r) (r_rate r * k)) l).
Proof.
  induction cross as [|x l IH]; cbn [map rates]; [reflexivity|].
  rewrite IH. cbn [multiplied x_per_target]. destruct (x_per_target x E) as [t| |]; cbn [obind]; auto.
  destruct (rates l E) as [r| |]; cbn [obind]; auto. f_equal. rewrite map_app, !map_map. reflexivity.
Qed.
Lemma sample_loop_multiplied E l k y : 0 < k ->
  sample_loop E (map (fun r => mkrate (multiplied nan (r_cross r) k) (r_hash r) (r_rate r * k)) l) (y * k) = sample_loop E l y.
Proof.
  intros K. revert y; induction l as [|r l IH]; intros y; cbn [map sample_loop r_rate r_cross r_hash]; [reflexivity|].
  replace (y * k - r_rate r * k) with ((y - r_rate r) * k) by lra.
  destruct (Rltb_spec (y - r_rate r) 0) as [L|L].
  - rewrite (proj2 (Rltb_true _ _)) by nra. cbn [multiplied x_loss x_type]. rewrite quo_ok by lra. cbn [obind].
    replace (- ((y - r_rate r) * k) / k) with (- (y - r_rate r)) by (field; lra). reflexivity.
  - rewrite (proj2 (Rltb_false _ _)) by nra. apply IH.
Qed.
Theorem c16_same_loss cross k E rnd : 0 < k ->
  energy_stochastic_loss (map (fun x => multiplied nan x k) cross) E rnd = energy_stochastic_loss cross E rnd.
Proof.
  intros K. unfold energy_stochastic_loss. rewrite rates_multiplied.
  destruct (rates cross E) as [l| |]; cbn [obind]; auto.
  unfold sample_loss. rewrite !overall_sum, map_map. cbn [r_rate].
  replace (rsum (map (fun r => r_rate r * k) l)) with (rsum (map r_rate l) * k).
  2: { rewrite Rmult_comm, <- rsum_scale, map_map. f_equal. apply map_ext. intros; lra. }
  rewrite <- Rmult_assoc, sample_loop_multiplied by auto.
  destruct (sample_loop E l _); auto.
  destruct (Reqb_spec (rsum (map r_rate l)) 0) as [Z|Z].
  - rewrite (proj2 (Reqb_true _ _)); auto. rewrite Z; lra.
  - rewrite (proj2 (Reqb_false _ _)); auto. nra.
Qed.
Theorem c16_mean_free_path cross k E : 0 < k ->
  mean_free_path (map (fun x => multiplied nan x k) cross) None E =
  olet d := mean_free_path cross None E in Ok (match d with Fin d => Fin (d / k) | PInf => PInf end).
Proof.
  intros K. unfold mean_free_path.
  assert (T : total_rate (map (fun x => multiplied nan x k) cross) E = olet r := total_rate cross E in Ok (k * r)).
  { unfold total_rate. induction cross as [|x l IH]; cbn [map total_rate_loop]; [cbn; f_equal; lra|].
    cbn [multiplied x_dNdx]. destruct (x_dNdx x E) as [r| |]; cbn [obind]; auto.
    rewrite (total_rate_loop_acc _ _ (0 + k * r)), IH, (total_rate_loop_acc l E (0 + r)).
    destruct (total_rate_loop l E 0); cbn [obind]; auto. f_equal. lra. }
  rewrite T. destruct (total_rate cross E) as [r| |]; cbn [obind]; auto.
  destruct (Reqb_spec r 0) as [->|Z].
  - rewrite (proj2 (Reqb_true _ _)) by lra. reflexivity.
  - rewrite (proj2 (Reqb_false _ _)) by nra. cbn [obind]. f_equal. f_equal. field. split; lra.
Qed.

(** A multiplier of zero switches the cross section off. *)
Lemma sample_loop_zero E l1 l2 y : Forall (fun r => r_rate r = 0) l1 -> 0 <= y -> sample_loop E (l1 ++ l2) y = sample_loop E l2 y.
Proof.
  intros F H. induction F as [|r l Z F IH]; [reflexivity|]. cbn [app sample_loop]. rewrite Z, Rminus_0_r.
  now rewrite (proj2 (Rltb_false _ _)).
Qed.
Theorem c16_zero x cross E rnd t l : x_per_target x E = Ok t -> rates cross E = Ok l -> Forall (Rle 0) (map r_rate l) -> 0 <= rnd ->
  energy_stochastic_loss (multiplied nan x 0 :: cross) E rnd = energy_stochastic_loss cross E rnd.
Proof.
  intros T Hl F R. unfold energy_stochastic_loss. cbn [rates multiplied x_per_target]. rewrite T, Hl. cbn [obind].
  set (l0 := map _ (map _ t)).
  assert (Z : Forall (fun r => r_rate r = 0) l0).
  { unfold l0. rewrite map_map. apply Forall_forall. intros r Hr. apply in_map_iff in Hr. destruct Hr as (e & <- & _). cbn. lra. }
  unfold sample_loss. rewrite !overall_sum, map_app, rsum_app.
  assert (Z' : rsum (map r_rate l0) = 0).
  { clear -Z. induction Z; cbn; auto. unfold rsum in *. rewrite IHZ, H. lra. }
  rewrite Z', Rplus_0_l, sample_loop_zero; auto. apply Rmult_le_pos; auto. now apply rsum_nonneg.
Qed.
End Nan.
