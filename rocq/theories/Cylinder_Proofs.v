From Verif Require Import Prelude PreludeFacts Vec_Model Geometry_Model Shapes_Model Shapes_Spec Shapes_Proofs Box_Proofs.
From Coq Require Import Sorted Arith Permutation.

Section Cyl.
Variables (c : vec) (p d : vec).

Definition cC := vx d * vx d + vy d * vy d.
Definition cB := (vx p - vx c) * vx d + (vy p - vy c) * vy d.
Definition cA (r : R) := rho2 c p - r * r.

Lemma rho2_at t : rho2 c (at_ p d t) = cC * (t * t) + 2 * cB * t + rho2 c p.
Proof. unfold rho2, cC, cB, at_, vadd, scale; cbn. ring. Qed.
Lemma radial_at t : radial c (at_ p d t) d = cB + cC * t.
Proof. unfold radial, cC, cB, at_, vadd, scale; cbn. ring. Qed.
Lemma z_at t : vz (at_ p d t) = vz p + t * vz d.
Proof. unfold at_, vadd, scale; cbn; ring. Qed.
Lemma cC_pos : 0 <= cC.
Proof. unfold cC; nra. Qed.
Lemma cC_zero : cC = 0 <-> vx d = 0 /\ vy d = 0.
Proof.
  unfold cC; split.
  - intros H. split; nra.
  - intros [-> ->]; ring.
Qed.
Lemma rho2_pos q : 0 <= rho2 c q.
Proof. unfold rho2. pose proof (pow2_ge_0 (vx q - vx c)); pose proof (pow2_ge_0 (vy q - vy c)); lra. Qed.

(** Raw (unsnapped) roots. *)
Definition raw_roots (r : R) : option (R * R) :=
  if (vx d =? 0) && (vy d =? 0) then None
  else
    let det := (cB / cC) * (cB / cC) - cA r / cC in
    if 0 <? det then Some (- (cB / cC) + sqrt det, - (cB / cC) - sqrt det) else None.

Lemma barrel_roots_raw r :
  barrel_roots c r p d = match raw_roots r with None => None | Some (a, b) => Some (snap a, snap b) end.
Proof.
  unfold barrel_roots, raw_roots.
  destruct (Reqb_spec (vx d) 0), (Reqb_spec (vy d) 0); cbn [andb]; try reflexivity.
  all: assert (HC : cC <> 0) by (rewrite cC_zero; tauto).
  all: cbv zeta; fold cC; fold cB; fold (rho2 c p); fold (cA r).
  all: replace (1 / 4 * (2 * cB / cC) * (2 * cB / cC) - cA r / cC)
         with (cB / cC * (cB / cC) - cA r / cC) by (field; auto).
  all: replace (-1 * (2 * cB / cC) / 2) with (- (cB / cC)) by (field; auto).
  all: destruct (0 <? _); reflexivity.
Qed.

(** The raw roots are exactly the transversal crossings of the infinite barrel. *)
Lemma raw_roots_spec r t :
  (rho2 c (at_ p d t) = r * r /\ radial c (at_ p d t) d <> 0) <->
  exists a b, raw_roots r = Some (a, b) /\ (t = a \/ t = b).
Proof.
  rewrite rho2_at, radial_at. pose proof cC_pos as HP.
  unfold raw_roots.
  destruct (Reqb_spec (vx d) 0) as [E1|E1], (Reqb_spec (vy d) 0) as [E2|E2]; cbn [andb].
  { assert (HC : cC = 0) by (rewrite cC_zero; auto). 
    assert (HB : cB = 0) by (unfold cB; rewrite E1, E2; ring).
    split; [intros [_ H]; rewrite HC, HB in H; exfalso; apply H; ring|intros (a & b & H & _); discriminate]. }
  all: assert (HC : cC <> 0) by (rewrite cC_zero; tauto).
  all: pose proof (roots_spec (cA r / cC) (cB / cC) t) as HR.
  all: set (det := cB / cC * (cB / cC) - cA r / cC) in *.
  all: assert (H1 : (cC * (t * t) + 2 * cB * t + rho2 c p = r * r /\ cB + cC * t <> 0) <->
                    (t * t + 2 * (cB / cC) * t + cA r / cC = 0 /\ cB / cC + t <> 0)).
  1,3,5: assert (Q1 : t * t + 2 * (cB / cC) * t + cA r / cC = (cC * (t * t) + 2 * cB * t + rho2 c p - r * r) / cC)
           by (unfold cA; field; auto);
         assert (Q2 : cB / cC + t = (cB + cC * t) / cC) by (field; auto);
         rewrite Q1, Q2; split; intros [K1 K2]; split;
         [ rewrite K1; unfold Rdiv; ring
         | intros K; apply K2; apply Rmult_eq_reg_r with (/ cC); [unfold Rdiv in K; rewrite K; ring|apply Rinv_neq_0_compat; auto]
         | assert (cC * (t * t) + 2 * cB * t + rho2 c p - r * r = 0); [|lra];
           apply Rmult_eq_reg_r with (/ cC); [unfold Rdiv in K1; rewrite K1; ring|apply Rinv_neq_0_compat; auto]
         | intros K; apply K2; rewrite K; unfold Rdiv; ring ].
  all: rewrite H1, HR; destruct (Rltb_spec 0 det) as [Hd|Hd]; split;
    [ intros (_ & [-> | ->]); eexists; eexists; (split; [reflexivity|]); [left|right]; ring
    | intros (a & b & H & Ht); injection H as <- <-; split; [auto|]; destruct Ht as [-> | ->]; [left|right]; ring
    | intros (K & _); lra
    | intros (a & b & H & _); discriminate ].
Qed.

Lemma raw_roots_order r a b : raw_roots r = Some (a, b) -> b < a.
Proof.
  unfold raw_roots. destruct (_ && _); [discriminate|]. cbv zeta.
  destruct (Rltb_spec 0 (cB / cC * (cB / cC) - cA r / cC)) as [H|]; [|discriminate].
  intros E; injection E as <- <-. pose proof (sqrt_lt_R0 _ H). lra.
Qed.

(** At a point between the roots one is inside of the infinite barrel. *)
Lemma raw_roots_product r a b : raw_roots r = Some (a, b) ->
  0 < cC /\ forall t, rho2 c (at_ p d t) - r * r = cC * ((t - a) * (t - b)).
Proof.
  unfold raw_roots. 
  destruct (Reqb_spec (vx d) 0) as [E1|E1], (Reqb_spec (vy d) 0) as [E2|E2]; cbn [andb]; [discriminate| | |].
  all: assert (HC : cC <> 0) by (rewrite cC_zero; tauto); pose proof cC_pos.
  all: cbv zeta; set (det := cB / cC * (cB / cC) - cA r / cC).
  all: destruct (Rltb_spec 0 det) as [H0|]; [|discriminate].
  all: intros E; injection E as <- <-; split; [lra|]; intros t; rewrite rho2_at.
  all: replace ((t - (- (cB / cC) + sqrt det)) * (t - (- (cB / cC) - sqrt det)))
         with ((t + cB / cC) * (t + cB / cC) - sqrt det * sqrt det) by ring.
  all: rewrite sqrt_sqrt by lra; unfold det, cA; field; auto.
Qed.

Variables (r z : R).
Hypotheses (Hr : 0 < r) (Hz : 0 < z).

Definition in_z t := strictly_within (vz c - 1/2 * z) (vz c + 1/2 * z) (vz p + t * vz d).
Lemma in_z_spec t : in_z t = true <-> between_caps c z (at_ p d t).
Proof.
  unfold in_z, strictly_within, between_caps. rewrite andb_true_iff, !Rltb_true, z_at. split; intros; lra.
Qed.

Lemma snap_pos_spec t s : 0 < t /\ t = snap s <-> GEOMETRY_PRECISION <= t /\ t = s.
Proof.
  pose proof eps_pos. unfold snap.
  destruct (Rltb_spec 0 s); cbn [andb]; [destruct (Rltb_spec s GEOMETRY_PRECISION)|]; split; intros [H1 H2]; lra.
Qed.

Definition bhits r' := barrel_hits in_z (barrel_roots c r' p d).

Lemma bhits_spec r' t :
  In t (bhits r') <-> GEOMETRY_PRECISION <= t /\ on_barrel c r' z (at_ p d t) /\ radial c (at_ p d t) d <> 0.
Proof.
  unfold bhits. rewrite barrel_roots_raw. unfold on_barrel.
  assert (HS := raw_roots_spec r' t).
  destruct (raw_roots r') as [[a b]|] eqn:E.
  - cbn [barrel_hits]. rewrite in_app_iff.
    assert (K : forall s, In t (if (0 <? snap s) && in_z (snap s) then [snap s] else []) <->
              (GEOMETRY_PRECISION <= t /\ t = s) /\ in_z t = true).
    { intros s. rewrite <- snap_pos_spec. destruct (Rltb_spec 0 (snap s)); cbn [andb].
      - destruct (in_z (snap s)) eqn:Ez; cbn; split; intuition (subst; auto; try congruence).
      - split; [intros []|]. intros [[H1 H2] _]. lra. }
    rewrite !K, in_z_spec.
    assert (HS' : (rho2 c (at_ p d t) = r' * r' /\ radial c (at_ p d t) d <> 0) <-> t = a \/ t = b).
    { rewrite HS. split; [intros (a' & b' & H & Ht); injection H as <- <-; auto|intros; eauto]. }
    tauto.
  - cbn. split; [intros []|]. intros (H1 & (H2 & H3) & H4).
    destruct (proj1 HS (conj H2 H4)) as (a & b & H & _). discriminate.
Qed.

Lemma bhits_NoDup r' : NoDup (bhits r').
Proof.
  unfold bhits. rewrite barrel_roots_raw. destruct (raw_roots r') as [[a b]|] eqn:E; [|constructor].
  apply raw_roots_order in E. cbn [barrel_hits].
  destruct ((0 <? snap a) && in_z (snap a)) eqn:E1; destruct ((0 <? snap b) && in_z (snap b)) eqn:E2; cbn;
    repeat constructor; cbn; auto.
  intros [H|[]]. apply andb_true_iff in E1, E2. rewrite !Rltb_true in *.
  pose proof (proj1 (snap_pos_spec (snap a) a) (conj (proj1 E1) eq_refl)).
  pose proof (proj1 (snap_pos_spec (snap b) b) (conj (proj1 E2) eq_refl)). lra.
Qed.

Lemma axis_distance_spec q : axis_distance c (vx q) (vy q) = rho c q.
Proof. reflexivity. Qed.
Lemma rho_le q s : 0 <= s -> rho c q <= s <-> rho2 c q <= s * s.
Proof.
  intros Hs. pose proof (rho2_pos q). unfold rho. split; intros H1.
  - rewrite <- (sqrt_sqrt (rho2 c q)) by auto. pose proof (sqrt_pos (rho2 c q)). nra.
  - rewrite <- (sqrt_square s) by auto. apply sqrt_le_1_alt; auto.
Qed.
Lemma rho_ge q s : 0 <= s -> s <= rho c q <-> s * s <= rho2 c q.
Proof.
  intros Hs. pose proof (rho2_pos q). unfold rho. split; intros H1.
  - rewrite <- (sqrt_sqrt (rho2 c q)) by auto. pose proof (sqrt_pos (rho2 c q)). nra.
  - rewrite <- (sqrt_square s) by auto. apply sqrt_le_1_alt; auto.
Qed.

Variable ri : R.
Hypothesis Hri : 0 <= ri < r.

Lemma cap_hits_spec pl t :
  In t (cap_hits c r ri pl p d) <->
  GEOMETRY_PRECISION <= t /\ vz d <> 0 /\ vz (at_ p d t) = pl /\ ri * ri <= rho2 c (at_ p d t) <= r * r.
Proof using Hri Hr.
  unfold cap_hits. destruct (Reqb_spec (vz d) 0) as [E|E]; cbn [negb].
  - split; [intros []|tauto].
  - assert (Hq : forall s, vz (at_ p d s) = pl <-> s = (pl - vz p) / vz d).
    { intros s. rewrite z_at. split; intros H; [rewrite <- H; field; auto|rewrite H; field; auto]. }
    assert (K : forall s, axis_distance c (vx p + s * vx d) (vy p + s * vy d) = rho c (at_ p d s)).
    { intros s. rewrite <- axis_distance_spec. f_equal; cbn; ring. }
    set (t0 := (pl - vz p) / vz d) in *.
    assert (HH : In t (if 0 <? snap t0
      then let rho := axis_distance c (vx p + snap t0 * vx d) (vy p + snap t0 * vy d) in
           if (rho <=? r) && (ri <=? rho) then [snap t0] else [] else []) <->
      (0 < t /\ t = snap t0) /\ ri * ri <= rho2 c (at_ p d t) <= r * r).
    { destruct (Rltb_spec 0 (snap t0)).
      - cbv zeta. rewrite K.
        destruct (Rleb_spec (rho c (at_ p d (snap t0))) r) as [L1|L1];
        destruct (Rleb_spec ri (rho c (at_ p d (snap t0)))) as [L2|L2]; cbn [andb In].
        + rewrite rho_le in L1 by lra. rewrite rho_ge in L2 by lra.
          split; [intros [<-|[]]; auto|intros [[_ ->] _]; auto].
        + split; [intros []|]. intros [[_ ->] [H1 H2]]. apply rho_ge in H1; [lra|lra].
        + split; [intros []|]. intros [[_ ->] [H1 H2]]. apply rho_le in H2; [lra|lra].
        + split; [intros []|]. intros [[_ ->] [H1 H2]]. apply rho_le in H2; [lra|lra].
      - split; [intros []|]. intros [[H1 ->] _]. lra. }
    cbv zeta in HH. rewrite HH, snap_pos_spec, Hq. tauto.
Qed.
Lemma cap_hits_NoDup pl : NoDup (cap_hits c r ri pl p d).
Proof.
  unfold cap_hits. destruct (negb _); [|constructor]. cbv zeta. destruct (0 <? _); [|constructor].
  destruct (_ && _); repeat constructor; auto.
Qed.

(** All candidate hits before the code's shortcut. *)
Definition all_hits := bhits r ++ cap_hits c r ri (vz c + 1/2 * z) p d ++ cap_hits c r ri (vz c - 1/2 * z) p d.

(** The outer surface: barrel of radius r plus (annular) caps. *)
Definition outer_crosses (t : R) : Prop :=
  (on_barrel c r z (at_ p d t) /\ radial c (at_ p d t) d <> 0) \/ (on_cap c r ri z (at_ p d t) /\ vz d <> 0).

Lemma all_hits_spec t : In t all_hits <-> GEOMETRY_PRECISION <= t /\ outer_crosses t.
Proof using Hri Hr.
  unfold all_hits, outer_crosses, on_cap. rewrite !in_app_iff, bhits_spec, !cap_hits_spec.
  replace (1 / 2 * z) with (z / 2) by field. tauto.
Qed.

Lemma NoDup_app_disj {A} (l1 l2 : list A) :
  NoDup l1 -> NoDup l2 -> (forall x, In x l1 -> ~ In x l2) -> NoDup (l1 ++ l2).
Proof.
  intros H1 H2 H. induction H1 as [|a l Ha Hl IH]; cbn; auto.
  constructor.
  - rewrite in_app_iff. intros [?|?]; [auto|]. eapply H; [left; reflexivity|auto].
  - apply IH. intros x Hx. apply H; right; auto.
Qed.

Lemma all_hits_NoDup : NoDup all_hits.
Proof using Hri Hr Hz.
  apply NoDup_app_disj; [apply bhits_NoDup| |].
  - apply NoDup_app_disj; [apply cap_hits_NoDup|apply cap_hits_NoDup|].
    intros t. rewrite !cap_hits_spec. lra.
  - intros t. rewrite in_app_iff, bhits_spec, !cap_hits_spec. unfold on_barrel, between_caps. lra.
Qed.

Definition in_closed_cyl (q : vec) : Prop := rho2 c q <= r * r /\ vz c - z / 2 <= vz q <= vz c + z / 2.
Lemma outer_crosses_closed t : outer_crosses t -> in_closed_cyl (at_ p d t).
Proof using Hz.
  intros [[[H1 H2] _]|[[H1 H2] _]]; unfold in_closed_cyl, between_caps in *; lra.
Qed.

Lemma three_cyl a b e :
  outer_crosses b -> in_closed_cyl (at_ p d a) -> in_closed_cyl (at_ p d e) -> a < b -> b < e -> False.
Proof.
  intros Hb [A1 A2] [E1 E2] Hab Hbe.
  destruct Hb as [[[B1 B2] Bn]|[[B1 B2] Bn]].
  - apply Bn. rewrite radial_at. rewrite rho2_at in *.
    pose proof cC_pos.
    (* convex quadratic, zero at b, non-positive at a and e *)
    assert (K : cC * ((b - a) * (e - b)) <= 0).
    { assert (cC * ((b - a) * (e - b)) * (e - a) =
         (cC * (a * a) + 2 * cB * a + rho2 c p - r * r) * (e - b) +
         (cC * (e * e) + 2 * cB * e + rho2 c p - r * r) * (b - a) -
         (cC * (b * b) + 2 * cB * b + rho2 c p - r * r) * (e - a)) by ring.
      assert (0 < e - a) by lra.
      assert (cC * ((b - a) * (e - b)) * (e - a) <= 0) by (rewrite H0; nra). nra. }
    assert (0 < (b - a) * (e - b)) by nra.
    assert (cC = 0) by nra. rewrite H1 in *.
    assert (cB = 0) by (unfold cB; apply cC_zero in H1; destruct H1 as [-> ->]; ring). rewrite H2; ring.
  - rewrite z_at in *. destruct (Rdichotomy _ _ Bn); destruct B1; nra.
Qed.

Lemma hits_from_list L :
  crossing_list outer_crosses L -> resolvable L ->
  Permutation (cylinder_hits c r ri z p d) L /\ (length L <= 2)%nat.
Proof using Hri Hr Hz.
  intros [HS HL] HR. pose proof eps_pos.
  assert (HP : Permutation all_hits L).
  { apply NoDup_Permutation; [apply all_hits_NoDup| |].
    - clear HL HR. induction HS as [|a l HS IH Ha]; constructor; auto.
      rewrite Forall_forall in Ha. intros Hin. specialize (Ha _ Hin). lra.
    - intros t. rewrite all_hits_spec. split.
      + intros [H1 H2]. apply HL. split; [lra|auto].
      + intros Ht. split; [apply HR; auto|apply HL; auto]. }
  assert (Hlen : (length L <= 2)%nat).
  { destruct L as [|a [|b [|e L]]]; cbn; try lia. exfalso.
    inversion HS as [|? ? HS' HF]; subst. inversion HS' as [|? ? HS'' HF']; subst.
    inversion HF; inversion HF'; subst.
    assert (I : forall t, In t (a :: b :: e :: L) -> outer_crosses t) by (intros t Ht; apply HL; auto).
    apply three_cyl with (a := a) (b := b) (e := e); auto.
    - apply I; cbn; auto.
    - apply outer_crosses_closed, I; cbn; auto.
    - apply outer_crosses_closed, I; cbn; auto. }
  split; auto.
  unfold cylinder_hits. fold in_z. fold (bhits r).
  destruct (Nat.ltb_spec (length (bhits r)) 2) as [Hb|Hb]; [exact HP|].
  assert (E : cap_hits c r ri (vz c + 1 / 2 * z) p d ++ cap_hits c r ri (vz c - 1 / 2 * z) p d = []).
  { apply Permutation_length in HP. unfold all_hits in HP. rewrite app_length in HP.
    destruct (cap_hits c r ri (vz c + 1 / 2 * z) p d ++ cap_hits c r ri (vz c - 1 / 2 * z) p d); auto.
    cbn in HP. lia. }
  unfold all_hits in HP. rewrite E, app_nil_r in HP. exact HP.
Qed.

Lemma select_sorted L l :
  StronglySorted Rlt L -> Permutation l L -> (length L <= 2)%nat ->
  cylinder_select l = match L with [] => (-1, -1) | [a] => (a, -1) | a :: b :: _ => (a, b) end.
Proof.
  intros HS HP HL. destruct L as [|a [|b [|e L]]]; cbn in HL; try lia.
  - apply Permutation_sym, Permutation_nil in HP. rewrite HP. reflexivity.
  - apply Permutation_sym, Permutation_length_1_inv in HP. rewrite HP. reflexivity.
  - inversion HS as [|? ? HS' HF]; subst. inversion HF; subst.
    apply Permutation_sym, Permutation_length_2_inv in HP.
    destruct HP as [-> | ->]; cbn; rcases; try lra; auto.
Qed.
End Cyl.

(** * Solid cylinder *)
Lemma c19_solid c r z p d L :
  0 < r -> 0 < z ->
  crossing_list (cylinder_crosses c r 0 z p d) L -> resolvable L ->
  cylinder_distance c r 0 z p d = encode L.
Proof.
  intros Hr Hz HL HR. pose proof eps_pos.
  assert (HL' : crossing_list (outer_crosses c p d r z 0) L).
  { destruct HL as [HS HL]. split; auto. intros t. rewrite HL.
    unfold cylinder_crosses, outer_crosses. split; intros [Ht K]; (split; [auto|]).
    - destruct K as [[[K|[K _]] K2]|K]; [left; auto|lra|right; auto].
    - destruct K as [K|K]; [left; tauto|right; auto]. }
  destruct (hits_from_list c p d r z Hr Hz 0 ltac:(lra) L HL' HR) as [HP Hlen].
  unfold cylinder_distance. rewrite (select_sorted L _ (proj1 HL) HP Hlen).
  destruct (Rltb_spec 0 0); [lra|].
  destruct L as [|a [|b [|e L]]]; cbn in Hlen; try lia.
  - cbn. apply precision_control_neg; lra.
  - cbn. apply precision_control_pos2; [apply HR; left; auto|lra].
  - cbn. apply precision_control_pos1; apply HR; cbn; auto.
Qed.

(** * Exit from the interior of the outer (solid) cylinder *)
Definition strictly_in_cyl (c : vec) (r z : R) (q : vec) : Prop :=
  rho2 c q < r * r /\ between_caps c z q.

Lemma at_0 p d : at_ p d 0 = p.
Proof. destruct p; unfold at_, vadd, scale; cbn. f_equal; ring. Qed.

Section CylExit.
Variables (c : vec) (r z : R) (p d : vec).
Hypotheses (Hr : 0 < r) (Hz : 0 < z).
Let outer := outer_crosses c p d r z 0.

Lemma barrel_exit : rho2 c p < r * r -> cC d <> 0 ->
  exists a, 0 < a /\ rho2 c (at_ p d a) = r * r /\ radial c (at_ p d a) d <> 0 /\
    forall t, 0 <= t <= a -> rho2 c (at_ p d t) <= r * r.
Proof.
  intros Hp HC.
  assert (HCp : 0 < cC d) by (pose proof (cC_pos d); lra).
  assert (Hs : exists a b, raw_roots c p d r = Some (a, b)).
  { unfold raw_roots.
    destruct (Reqb_spec (vx d) 0) as [E1|E1], (Reqb_spec (vy d) 0) as [E2|E2]; cbn [andb].
    { exfalso. apply HC, cC_zero; auto. }
    all: cbv zeta; destruct (Rltb_spec 0 (cB c p d / cC d * (cB c p d / cC d) - cA c p r / cC d)) as [K|K]; [eauto|].
    all: exfalso; assert (cA c p r / cC d < 0) by
           (unfold cA, Rdiv; pose proof (Rinv_0_lt_compat _ HCp); nra);
         pose proof (Rle_0_sqr (cB c p d / cC d)); unfold Rsqr in *; lra. }
  destruct Hs as (a & b & E).
  destruct (raw_roots_product c p d r a b E) as [_ HP].
  pose proof (raw_roots_order c p d r a b E) as Hab.
  assert (Hsign : b < 0 < a).
  { specialize (HP 0). rewrite at_0 in HP.
    assert (Hneg : (0 - a) * (0 - b) < 0) by nra.
    split; nra. }
  exists a. split; [lra|].
  destruct (proj2 (raw_roots_spec c p d r a) (ex_intro _ a (ex_intro _ b (conj E (or_introl eq_refl))))) as [H1 H2].
  split; auto. split; auto.
  intros t Ht. specialize (HP t).
  assert ((t - a) * (t - b) <= 0) by nra. nra.
Qed.

Lemma cyl_exit : strictly_in_cyl c r z p -> d <> mkvec 0 0 0 ->
  exists tau, 0 < tau /\ outer tau /\ (forall t, 0 <= t <= tau -> in_closed_cyl c r z (at_ p d t)).
Proof.
  intros [Hp1 Hp2] Hd. unfold between_caps in Hp2.
  assert (Hcl : forall t, rho2 c (at_ p d t) <= r * r -> vz c - z/2 <= vz p + t * vz d <= vz c + z/2 ->
     in_closed_cyl c r z (at_ p d t)).
  { intros t H1 H2. unfold in_closed_cyl. rewrite z_at. auto. }
  destruct (Req_dec (vz d) 0) as [Ez|Ez], (Req_dec (cC d) 0) as [EC|EC].
  - exfalso. apply cC_zero in EC. apply Hd. destruct d; cbn in *. destruct EC; subst; auto.
  - destruct (barrel_exit Hp1 EC) as (a & A0 & A1 & A2 & A3).
    exists a. split; auto. split.
    + left. split; auto. split; auto. unfold between_caps. rewrite z_at, Ez. lra.
    + intros t Ht. apply Hcl; auto. rewrite Ez; lra.
  - destruct (axis_exit (vz c - z/2) (vz c + z/2) (vz p) (vz d) Hp2 Ez) as (tau & T0 & T1 & T2 & _).
    assert (Hrho : forall t, rho2 c (at_ p d t) = rho2 c p).
    { intros t. rewrite rho2_at. assert (E := EC). apply cC_zero in E. unfold cB. destruct E as [-> ->]. rewrite EC; ring. }
    exists tau. split; auto. split.
    + right. split; auto. split; [rewrite z_at; tauto|]. rewrite Hrho. pose proof (rho2_pos c p). lra.
    + intros t Ht. apply Hcl; [rewrite Hrho; lra|auto].
  - destruct (barrel_exit Hp1 EC) as (a & A0 & A1 & A2 & A3).
    destruct (axis_exit (vz c - z/2) (vz c + z/2) (vz p) (vz d) Hp2 Ez) as (tau & T0 & T1 & T2 & _).
    destruct (Rlt_le_dec a tau).
    + exists a. split; auto. split.
      * left. split; auto. split; auto. unfold between_caps. rewrite z_at.
        destruct (Rdichotomy _ _ Ez); destruct T2; nra.
      * intros t Ht. apply Hcl; auto. apply T1; lra.
    + exists tau. split; auto. split.
      * right. split; auto. split; [rewrite z_at; tauto|].
        pose proof (rho2_pos c (at_ p d tau)). specialize (A3 tau). lra.
      * intros t Ht. apply Hcl; auto. apply A3; lra.
Qed.

Lemma cyl_exit_unique tau t : in_closed_cyl c r z p -> outer tau -> outer t -> 0 < tau -> 0 < t -> t = tau.
Proof using Hz.
  intros Hp H1 H2 T1 T2. rewrite <- (at_0 p d) in Hp.
  destruct (Rtotal_order t tau) as [H|[H|H]]; auto; exfalso.
  - eapply (three_cyl c p d r z 0 0 t tau); eauto. eapply outer_crosses_closed; eauto.
  - eapply (three_cyl c p d r z 0 0 tau t); eauto. eapply outer_crosses_closed; eauto.
Qed.
End CylExit.

(** Moving by t changes rho by at most t. *)
Lemma rho_lipschitz c p d t : unit d -> 0 <= t ->
  rho c p - t <= rho c (at_ p d t) <= rho c p + t.
Proof.
  intros Hd Ht.
  set (s := rho c p). set (s' := rho c (at_ p d t)).
  assert (Hs : 0 <= s) by apply sqrt_pos. assert (Hs' : 0 <= s') by apply sqrt_pos.
  assert (Es : s * s = rho2 c p) by (apply sqrt_sqrt, rho2_pos).
  assert (Es' : s' * s' = rho2 c (at_ p d t)) by (apply sqrt_sqrt, rho2_pos).
  rewrite rho2_at in Es'.
  assert (HC : 0 <= cC d <= 1).
  { split; [apply cC_pos|]. unfold unit, dot in Hd. unfold cC. nra. }
  assert (HB : cB c p d * cB c p d <= s * s).
  { rewrite Es. unfold cB, rho2.
    set (X := vx p - vx c). set (Y := vy p - vy c).
    assert ((X * vx d + Y * vy d) * (X * vx d + Y * vy d) <= (X^2 + Y^2) * cC d).
    { unfold cC. pose proof (pow2_ge_0 (X * vy d - Y * vx d)). nra. }
    assert (0 <= X ^ 2 + Y ^ 2) by (pose proof (pow2_ge_0 X); pose proof (pow2_ge_0 Y); lra).
    nra. }
  assert (HB' : - s <= cB c p d <= s) by nra.
  assert (H2 : (s - t) * (s - t) <= s' * s' \/ True) by auto.
  split.
  - destruct (Rle_lt_dec (s - t) 0); [lra|].
    (* rho2(t) >= (s-t)^2 : with C<=1 and |B| <= s sqrt C *)
    assert (HBC : cB c p d * cB c p d <= s * s * cC d).
    { rewrite Es. unfold cB, rho2, cC. 
      set (X := vx p - vx c). set (Y := vy p - vy c). pose proof (pow2_ge_0 (X * vy d - Y * vx d)). nra. }
    set (k := sqrt (cC d)).
    assert (Hk : 0 <= k) by apply sqrt_pos. assert (Ek : k * k = cC d) by (apply sqrt_sqrt; lra).
    assert (k <= 1) by nra.
    assert (- (s * k) <= cB c p d).
    { assert (Hsq : cB c p d * cB c p d <= (s * k) * (s * k)) by (rewrite <- Ek in HBC; nra).
      assert (0 <= s * k) by nra. nra. }
    assert ((s - k * t) * (s - k * t) <= s' * s').
    { rewrite Es', <- Ek, <- Es. nra. }
    assert (s - t <= s - k * t) by nra. nra.
  - assert (s' * s' <= (s + t) * (s + t)).
    { rewrite Es'. rewrite <- Es. nra. }
    nra.
Qed.

Lemma unit_nonzero d : unit d -> d <> mkvec 0 0 0.
Proof. intros H ->. unfold unit, dot in H; cbn in H. lra. Qed.

(** * Inside a hollow or solid cylinder *)
Section Inside.
Variables (c : vec) (r ri z : R) (p d : vec).
Hypotheses (Hr : 0 < r) (Hz : 0 < z) (Hri : 0 <= ri < r) (Hd : unit d).
Hypotheses (Hin1 : ri + GEOMETRY_PRECISION <= rho c p \/ ri = 0)
           (Hin2 : in_open_cylinder c r z GEOMETRY_PRECISION p).

Let E := GEOMETRY_PRECISION.
Lemma E_pos : 0 < E. Proof. apply eps_pos. Qed.

Lemma inside_strict : strictly_in_cyl c r z p.
Proof using Hin2 Hr Hz.
  pose proof E_pos. destruct Hin2 as [H1 H2]. apply Rabs_le_inv in H2. unfold E in *. split.
  - assert (rho c p < r) by lra.
    pose proof (sqrt_pos (rho2 c p)). fold (rho c p) in *.
    assert (rho c p * rho c p = rho2 c p) by (apply sqrt_sqrt, rho2_pos). nra.
  - unfold between_caps; lra.
Qed.

Lemma inside_no_early t s : 0 <= t -> rho2 c (at_ p d t) = s * s -> 0 <= s -> E <= Rabs (rho c p - s) -> E <= t.
Proof using Hd.
  intros Ht Hs Hs0 HE. pose proof (rho_lipschitz c p d t Hd Ht) as HL.
  assert (rho c (at_ p d t) = s) by (unfold rho; rewrite Hs; apply sqrt_square; auto).
  revert HE. unfold Rabs. destruct (Rcase_abs _); lra.
Qed.
Lemma inside_outer_late t : 0 < t -> outer_crosses c p d r z 0 t -> E <= t.
Proof using Hin2 Hd Hr Hz.
  intros Ht [[[H1 H2] _]|[[H1 H2] Hv]].
  - eapply inside_no_early with (s := r); eauto; try lra.
    destruct Hin2 as [K1 K2]. pose proof eps_pos. unfold E. rewrite Rabs_left1; lra.
  - destruct Hin2 as [K1 K2]. apply Rabs_le_inv in K2. rewrite z_at in H1.
    assert (-1 <= vz d <= 1) by (unfold unit, dot in Hd; nra).
    unfold E in *. destruct H1; nra.
Qed.

Lemma c19_inside_first :
  exists a, cylinder_distance c r ri z p d = (a, -1) /\ 0 < a /\ cylinder_crosses c r ri z p d a /\
    forall t, 0 < t -> cylinder_crosses c r ri z p d t -> a <= t.
Proof using Hin1 Hin2 Hd Hr Hz Hri.
  pose proof E_pos as HE. pose proof eps_pos as HE0. pose proof inside_strict as HS.
  destruct (cyl_exit c r z p d HS (unit_nonzero d Hd)) as (tau & T0 & T1 & T2).
  assert (Hclosed : in_closed_cyl c r z p).
  { destruct HS as [S1 S2]. unfold in_closed_cyl, between_caps in *. lra. }
  assert (TE : E <= tau) by (apply inside_outer_late; auto).
  assert (Huniq : forall t, 0 < t -> outer_crosses c p d r z ri t -> t = tau).
  { intros t Ht Ho. apply (cyl_exit_unique c r z p d Hz tau t Hclosed T1); auto.
    destruct Ho as [Ho|[[Ho1 Ho2] Ho3]]; [left; auto|right]. split; auto. split; auto.
    pose proof (rho2_pos c (at_ p d t)). lra. }
  (* the list of outer crossings *)
  assert (HLo : exists Lo, crossing_list (outer_crosses c p d r z ri) Lo /\ resolvable Lo /\
     ((Lo = [tau] /\ outer_crosses c p d r z ri tau) \/
      (Lo = [] /\ on_cap c r 0 z (at_ p d tau) /\ rho2 c (at_ p d tau) < ri * ri))).
  { assert (Hdec : outer_crosses c p d r z ri tau \/ (on_cap c r 0 z (at_ p d tau) /\ rho2 c (at_ p d tau) < ri * ri)).
    { destruct T1 as [T1|[T1 T1']]; [left; left; auto|].
      destruct (Rle_lt_dec (ri * ri) (rho2 c (at_ p d tau))); [left; right|right; auto].
      split; auto. destruct T1 as [T1 T1'']. split; auto. lra. }
    destruct Hdec as [Hdec|[Hd1 Hd2]].
    - exists [tau]. split; [|split; [|left; auto]].
      + split; [repeat constructor|]. intros t. split; [intros [<-|[]]; auto|].
        intros [Ht Ho]. left. symmetry; auto.
      + intros t [<-|[]]; auto.
    - exists []. split; [|split; [|right; auto]].
      + split; [constructor|]. intros t. split; [intros []|]. intros [Ht Ho].
        assert (t = tau) by auto. subst t.
        destruct Ho as [[[Ho _] _]|[[_ Ho] _]]; nra.
      + intros t []. }
  destruct HLo as (Lo & HL & HR & HLo).
  destruct (hits_from_list c p d r z Hr Hz ri Hri Lo HL HR) as [HP Hlen].
  unfold cylinder_distance. rewrite (select_sorted Lo _ (proj1 HL) HP Hlen).
  fold (in_z c p d z).
  (* solid *)
  destruct (Rltb_spec 0 ri) as [Hi|Hi].
  2:{ assert (Eri : ri = 0) by lra.
      destruct HLo as [[-> Ho]|(-> & _ & Hn)].
      2:{ exfalso. pose proof (rho2_pos c (at_ p d tau)). rewrite Eri in Hn. lra. }
      exists tau. split; [apply precision_control_pos2; [auto|lra]|]. split; auto. split.
      - destruct Ho as [Ho|Ho]; [left; tauto|right; auto].
      - intros t Ht [[[K|[K _]] K2]|K]; [|lra|];
        (assert (t = tau) by (apply Huniq; auto; first [left; tauto | right; auto]); lra). }
  assert (Hrp : ri + E <= rho c p) by (destruct Hin1; [auto|lra]).
  assert (Hrp2 : ri * ri < rho2 c p).
  { pose proof (sqrt_pos (rho2 c p)). fold (rho c p) in *.
    assert (rho c p * rho c p = rho2 c p) by (apply sqrt_sqrt, rho2_pos). nra. }
  rewrite barrel_roots_raw.
  (* inner crossings *)
  assert (Hinner : forall t, on_barrel c ri z (at_ p d t) /\ radial c (at_ p d t) d <> 0 <->
     exists a b, raw_roots c p d ri = Some (a, b) /\ (t = a \/ t = b) /\ between_caps c z (at_ p d t)).
  { intros t. pose proof (raw_roots_spec c p d ri t) as HS'. unfold on_barrel. split.
    - intros [[K1 K2] K3]. destruct (proj1 HS' (conj K1 K3)) as (a & b & K & K'). eauto 6.
    - intros (a & b & K & K' & K''). destruct (proj2 HS' (ex_intro _ a (ex_intro _ b (conj K K')))). auto. }
  assert (Hcross : forall t, cylinder_crosses c r ri z p d t <->
     outer_crosses c p d r z ri t \/ (on_barrel c ri z (at_ p d t) /\ radial c (at_ p d t) d <> 0)).
  { intros t. unfold cylinder_crosses, outer_crosses. tauto. }
  (* If the ray stays outside of the hole for t >= 0 the exit is an outer crossing *)
  assert (Hno_hole : (forall t, 0 <= t -> ri * ri <= rho2 c (at_ p d t)) -> Lo = [tau] /\ outer_crosses c p d r z ri tau).
  { intros K. destruct HLo as [HLo|(_ & _ & Hn)]; auto. exfalso. specialize (K tau). lra. }
  destruct (raw_roots c p d ri) as [[a b]|] eqn:ER.
  2:{ (* no inner crossing *)
      destruct Hno_hole as [-> Ho].
      { intros t Ht. rewrite rho2_at.
        destruct (Req_dec (cC d) 0) as [EC|EC].
        - assert (EC' := EC). apply cC_zero in EC'. unfold cB. destruct EC' as [-> ->]. rewrite EC. lra.
        - unfold raw_roots in ER.
          destruct ((vx d =? 0) && (vy d =? 0)) eqn:Eb.
          { apply andb_true_iff in Eb. rewrite !Reqb_true in Eb. exfalso; apply EC, cC_zero; auto. }
          cbv zeta in ER. destruct (Rltb_spec 0 (cB c p d / cC d * (cB c p d / cC d) - cA c p ri / cC d)) as [K|K]; [discriminate|].
          pose proof (cC_pos d). assert (0 < cC d) by lra.
          assert (K2 : cB c p d * cB c p d <= cA c p ri * cC d).
          { assert (K3 : (cB c p d / cC d * (cB c p d / cC d) - cA c p ri / cC d) * (cC d * cC d) <= 0) by nra.
            replace ((cB c p d / cC d * (cB c p d / cC d) - cA c p ri / cC d) * (cC d * cC d))
              with (cB c p d * cB c p d - cA c p ri * cC d) in K3 by (field; auto). lra. }
          unfold cA in K2. pose proof (pow2_ge_0 (cC d * t + cB c p d)).
          assert (0 <= cC d * (cC d * (t * t) + 2 * cB c p d * t + rho2 c p - ri * ri)) by nra.
          nra. }
      exists tau. split; [apply precision_control_pos2; [auto|lra]|]. split; auto. split; [rewrite Hcross; auto|].
      intros t Ht. rewrite Hcross. intros [K|K].
      - rewrite (Huniq t); auto; lra.
      - apply Hinner in K. destruct K as (a & b & K & _). discriminate. }
  destruct (raw_roots_product c p d ri a b ER) as [HC HPr].
  pose proof (raw_roots_order c p d ri a b ER) as Hab.
  assert (Hsame : 0 < a * b).
  { specialize (HPr 0). rewrite at_0 in HPr. nra. }
  assert (Hroots : forall t, t = a \/ t = b -> rho2 c (at_ p d t) = ri * ri).
  { intros t [-> | ->]; [specialize (HPr a)|specialize (HPr b)]; nra. }
  assert (Hlate : forall t, 0 <= t -> t = a \/ t = b -> E <= t).
  { intros t Ht0 Ht. apply inside_no_early with (s := ri); auto; try lra. rewrite Rabs_pos_eq; lra. }
  destruct (Rlt_le_dec 0 b) as [Hb|Hb].
  - (* both roots ahead *)
    assert (Hbe : E <= b) by (apply Hlate; auto; lra). assert (Hae : E <= a) by lra.
    rewrite !snap_resolved by auto.
    destruct HLo as [[-> Ho]|(-> & Hc & Hn)].
    + (* the ray leaves through the outer surface at tau *)
      assert (Hbody : (vz c - 1/2*z <=? vz p) && (vz p <=? vz c + 1/2*z) &&
                (axis_distance c (vx p) (vy p) <=? r + GEOMETRY_PRECISION) &&
                (ri - GEOMETRY_PRECISION <=? axis_distance c (vx p) (vy p)) = true).
      { rewrite axis_distance_spec. destruct Hin2 as [K1 K2]. apply Rabs_le_inv in K2. unfold E in *.
        rewrite !andb_true_iff, !Rleb_true. lra. }
      rewrite Hbody. clear Hbody.
      set (f1 := if (a <? tau) && in_z c p d z a then a else tau).
      set (f2 := if (b <? f1) && in_z c p d z b then b else f1).
      assert (Hev : cylinder_inner (in_z c p d z) true a b (tau, -1) = (f2, -1)).
      { unfold cylinder_inner. cbn [fst snd]. deccmp. reflexivity. }
      rewrite Hev.
      assert (Hf1 : f1 = tau \/ (f1 = a /\ a < tau /\ in_z c p d z a = true)).
      { unfold f1. destruct (Rltb_spec a tau); cbn [andb]; auto. destruct (in_z c p d z a); auto. }
      assert (Hf2 : (f2 = f1) \/ (f2 = b /\ b < f1 /\ in_z c p d z b = true)).
      { unfold f2. destruct (Rltb_spec b f1); cbn [andb]; auto. destruct (in_z c p d z b); auto. }
      assert (Hge : E <= f2) by (destruct Hf2 as [->|[-> _]]; auto; destruct Hf1 as [->|[-> _]]; auto).
      exists f2. split; [apply precision_control_pos2; [auto|lra]|]. split; [lra|]. split.
      * rewrite Hcross. destruct Hf2 as [->|[-> [_ Hzb]]].
        -- destruct Hf1 as [->|[-> [_ Hza]]]; auto. right. apply Hinner. exists a, b. rewrite in_z_spec in Hza. auto.
        -- right. apply Hinner. exists a, b. rewrite in_z_spec in Hzb. auto.
      * assert (Hle1 : f1 <= tau) by (destruct Hf1 as [->|[-> [? _]]]; lra).
        assert (Hle2 : f2 <= f1) by (destruct Hf2 as [->|[-> [? _]]]; lra).
        intros t Ht. rewrite Hcross. intros [K|K].
        -- rewrite (Huniq t); auto; lra.
        -- apply Hinner in K. destruct K as (a' & b' & K & Ht' & Hzt). injection K as <- <-.
           rewrite <- in_z_spec in Hzt. destruct Ht' as [-> | ->].
           ++ assert (f1 <= a); [|lra]. unfold f1. rewrite Hzt, andb_true_r. destruct (Rltb_spec a tau); lra.
           ++ unfold f2. rewrite Hzt, andb_true_r. destruct (Rltb_spec b f1); lra.
    + (* the ray leaves through the hole *)
      assert (Hbt : b < tau < a).
      { specialize (HPr tau). assert (Hneg : (tau - a) * (tau - b) < 0) by nra. clear - Hneg Hab. split; nra. }
      assert (Hzb : in_z c p d z b = true).
      { rewrite in_z_spec. unfold between_caps. destruct Hc as [Hc _]. destruct HS as [_ HS2]. unfold between_caps in HS2.
        rewrite z_at in *. destruct Hc; nra. }
      assert (Hza : in_z c p d z a = false).
      { destruct (in_z c p d z a) eqn:Eza; auto. exfalso. rewrite in_z_spec in Eza. unfold between_caps in Eza.
        destruct Hc as [Hc _]. destruct HS as [_ HS2]. unfold between_caps in HS2. rewrite z_at in *. destruct Hc; nra. }
      match goal with |- context [cylinder_inner ?f ?b _ _ _] => set (inb := b) end.
      assert (Hev : cylinder_inner (in_z c p d z) inb a b (-1, -1) = (b, -1)).
      { unfold cylinder_inner. cbn [fst snd]. deccmp. rewrite Hza, Hzb. reflexivity. }
      rewrite Hev. exists b. split; [apply precision_control_pos2; [auto|lra]|]. split; [lra|]. split.
      * rewrite Hcross. right. apply Hinner. exists a, b. rewrite in_z_spec in Hzb. auto.
      * intros t Ht. rewrite Hcross. intros [K|K].
        -- rewrite (Huniq t); auto; lra.
        -- apply Hinner in K. destruct K as (a' & b' & K & Ht' & Hzt). injection K as <- <-.
           destruct Ht' as [-> | ->]; lra.
  - (* both roots behind *)
    assert (Ha : a < 0) by nra. assert (Hb' : b < 0) by nra.
    destruct Hno_hole as [-> Ho].
    { intros t Ht. specialize (HPr t). assert (0 <= (t - a) * (t - b)) by nra. nra. }
    rewrite !snap_nonpos by lra.
    match goal with |- context [cylinder_inner ?f ?b _ _ _] => set (inb := b) end.
    assert (Hev : cylinder_inner (in_z c p d z) inb a b (tau, -1) = (tau, -1)).
    { unfold cylinder_inner. cbn [fst snd]. deccmp. reflexivity. }
    rewrite Hev. exists tau. split; [apply precision_control_pos2; [auto|lra]|]. split; auto.
    split; [rewrite Hcross; auto|].
    intros t Ht. rewrite Hcross. intros [K|K].
    + rewrite (Huniq t); auto; lra.
    + apply Hinner in K. destruct K as (a' & b' & K & Ht' & Hzt). injection K as <- <-. destruct Ht'; lra.
Qed.
End Inside.

Lemma c19_inside h c r ri z p d :
  0 < r -> 0 < z -> 0 <= ri < r -> unit d ->
  (ri + GEOMETRY_PRECISION <= rho c p \/ ri = 0) -> in_open_cylinder c r z GEOMETRY_PRECISION p ->
  is_inside (cylinder h c r ri z) p d = true.
Proof.
  intros Hr Hz Hri Hd H1 H2.
  destruct (c19_inside_first c r ri z p d Hr Hz Hri Hd H1 H2) as (a & E & Ha & _).
  unfold is_inside, cylinder. destruct (Rltb_spec r ri); [lra|]. cbn [g_distance_to_border].
  rewrite E. cbn [fst snd]. deccmp. reflexivity.
Qed.

(** * Outside a solid cylinder *)
Lemma small3 x y w : 0 < x -> 0 < y -> 0 < w -> exists u, 0 < u /\ u < x /\ u < y /\ u < w.
Proof.
  intros. exists (Rmin x (Rmin y w) / 2).
  assert (0 < Rmin x (Rmin y w)) by (repeat apply Rmin_glb_lt; auto).
  pose proof (Rmin_l x (Rmin y w)). pose proof (Rmin_r x (Rmin y w)).
  pose proof (Rmin_l y w). pose proof (Rmin_r y w). lra.
Qed.

Lemma at_shift' p d t s w : at_ (at_ p d t) (scale s d) w = at_ p d (t + s * w).
Proof. unfold at_, vadd, scale; cbn; f_equal; ring. Qed.

Section OutsideCyl.
Variables (c : vec) (r z : R) (p d : vec).
Hypotheses (Hr : 0 < r) (Hz : 0 < z) (Hd : unit d) (Hrim : no_rim c r z p d).

Lemma cyl_interior_side a : 0 < a -> outer_crosses c p d r z 0 a ->
  exists s u, (s = 1 \/ s = -1) /\ 0 < u < a /\ strictly_in_cyl c r z (at_ p d (a + s * u)).
Proof using Hd Hr Hrim Hz.
  intros Ha Hc.
  assert (HC : 0 <= cC d <= 1) by (split; [apply cC_pos|unfold unit, dot in Hd; unfold cC; nra]).
  assert (Hz1 : -1 <= vz d <= 1) by (unfold unit, dot in Hd; nra).
  set (k := cB c p d + cC d * a).
  assert (Hrho : forall v, rho2 c (at_ p d (a + v)) = rho2 c (at_ p d a) + 2 * k * v + cC d * (v * v)).
  { intros v. rewrite !rho2_at. unfold k. ring. }
  destruct Hc as [[[H1 H2] H3]|[[H1 H2] H3]].
  - rewrite radial_at in H3. fold k in H3.
    unfold between_caps in H2. rewrite z_at in H2.
    destruct (small3 (Rabs k) a (Rmin (vz p + a * vz d - (vz c - z/2)) (vz c + z/2 - (vz p + a * vz d)))) as (u & U0 & U1 & U2 & U3).
    { apply Rabs_pos_lt; auto. } { auto. } { apply Rmin_glb_lt; lra. }
    pose proof (Rmin_l (vz p + a * vz d - (vz c - z/2)) (vz c + z/2 - (vz p + a * vz d))).
    pose proof (Rmin_r (vz p + a * vz d - (vz c - z/2)) (vz c + z/2 - (vz p + a * vz d))).
    assert (Hzu : -u <= u * vz d <= u) by nra.
    destruct (Rdichotomy _ _ H3) as [Hk|Hk].
    + rewrite Rabs_left in U1 by auto. exists 1, u. split; auto. split; auto. split.
      * rewrite Hrho, H1. nra.
      * unfold between_caps. rewrite z_at. lra.
    + rewrite Rabs_pos_eq in U1 by lra. exists (-1), u. split; auto. split; auto. split.
      * rewrite Hrho, H1. nra.
      * unfold between_caps. rewrite z_at. lra.
  - assert (Hlt : rho2 c (at_ p d a) < r * r).
    { destruct (Rle_lt_or_eq_dec _ _ (proj2 H2)) as [?|E]; auto. exfalso.
      destruct (Hrim a Ha E). tauto. }
    set (M := 2 * Rabs k + 1). pose proof (Rabs_pos k) as Hk0.
    assert (HM : 0 < M) by (unfold M; lra).
    assert (Hdd : 0 < (r * r - rho2 c (at_ p d a)) / M) by (apply Rdiv_lt_0_compat; lra).
    destruct (small3 (Rmin 1 ((r * r - rho2 c (at_ p d a)) / M)) a z) as (u & U0 & U1 & U2 & U3); auto.
    { apply Rmin_glb_lt; lra. }
    pose proof (Rmin_l 1 ((r * r - rho2 c (at_ p d a)) / M)). pose proof (Rmin_r 1 ((r * r - rho2 c (at_ p d a)) / M)).
    assert (HuM : u * M < r * r - rho2 c (at_ p d a)).
    { replace (r * r - rho2 c (at_ p d a)) with ((r * r - rho2 c (at_ p d a)) / M * M) by (field; lra).
      apply Rmult_lt_compat_r; lra. }
    assert (Hq : forall s, s = 1 \/ s = -1 -> rho2 c (at_ p d (a + s * u)) < r * r).
    { intros s Hs. rewrite Hrho. unfold M in HuM.
      assert (- Rabs k <= k <= Rabs k) by (unfold Rabs; destruct (Rcase_abs k); lra).
      assert (0 <= u * u <= u) by nra.
      assert (cC d * (u * u) <= u) by nra.
      assert (Hsu : 2 * k * (s * u) <= 2 * Rabs k * u) by (destruct Hs as [-> | ->]; nra).
      replace (s * u * (s * u)) with (u * u) by (destruct Hs as [-> | ->]; ring). lra. }
    assert (Hzu : -u <= u * vz d <= u) by nra.
    rewrite z_at in H1.
    destruct (Rdichotomy _ _ H3) as [Hv|Hv], H1 as [H1|H1].
    1,4: exists 1. 3,4: exists (-1).
    all: exists u; (split; [auto|]); (split; [auto|]); (split; [apply Hq; auto|]);
         unfold between_caps; rewrite z_at; rewrite Rmult_plus_distr_r; nra.
Qed.

Hypothesis Hout : r + GEOMETRY_PRECISION <= rho c p \/ z / 2 + GEOMETRY_PRECISION <= Rabs (vz p - vz c).

Lemma cyl_reach_time t : 0 <= t -> in_closed_cyl c r z (at_ p d t) -> GEOMETRY_PRECISION <= t.
Proof using Hd Hout Hr.
  intros Ht [H1 H2]. pose proof eps_pos as HE.
  destruct Hout as [Ho|Ho].
  - pose proof (rho_lipschitz c p d t Hd Ht). apply rho_le in H1; lra.
  - rewrite z_at in H2. assert (-1 <= vz d <= 1) by (unfold unit, dot in Hd; nra).
    revert Ho; unfold Rabs; destruct (Rcase_abs _); intros; nra.
Qed.

Lemma cyl_second_crossing a : 0 < a -> outer_crosses c p d r z 0 a ->
  exists a', a' <> a /\ GEOMETRY_PRECISION <= a' /\ outer_crosses c p d r z 0 a'.
Proof using Hd Hout Hr Hrim Hz.
  intros Ha Hc. pose proof eps_pos as HE.
  destruct (cyl_interior_side a Ha Hc) as (s & u & Hs & Hu & Hin).
  set (q0 := at_ p d (a + s * u)) in *.
  assert (Hsd : scale s d <> mkvec 0 0 0).
  { intros E. injection E; intros E3 E2 E1. unfold unit, dot in Hd.
    destruct Hs as [-> | ->]; nra. }
  destruct (cyl_exit c r z q0 (scale s d) Hin Hsd) as (tau & T0 & T1 & T2).
  assert (Hat : forall w, at_ q0 (scale s d) w = at_ p d (a + s * u + s * w)) by (intros; apply at_shift').
  assert (Hpos : 0 <= a + s * u + s * tau).
  { destruct Hs as [Es | Es]; rewrite Es in *; [lra|].
    destruct (Rle_lt_dec 0 (a + -1 * u + -1 * tau)); auto. exfalso.
    assert (K : in_closed_cyl c r z (at_ p d 0)).
    { replace 0 with (a + -1 * u + -1 * (a - u)) by ring. rewrite <- Hat. apply T2. lra. }
    pose proof (cyl_reach_time 0 ltac:(lra) K). lra. }
  exists (a + s * u + s * tau). split; [destruct Hs as [Es | Es]; rewrite Es; lra|].
  assert (Hcr : outer_crosses c p d r z 0 (a + s * u + s * tau)).
  { unfold outer_crosses in T1 |- *. rewrite Hat in T1.
    assert (Hrad : forall q, radial c q (scale s d) = s * radial c q d) by (intros; unfold radial, scale; cbn; ring).
    rewrite Hrad in T1. cbn [scale vz] in T1.
    destruct T1 as [[T1 T1']|[T1 T1']]; [left|right]; split; auto; intros E; apply T1'; rewrite E; ring. }
  split; auto. apply cyl_reach_time; auto. eapply outer_crosses_closed; eauto.
Qed.
End OutsideCyl.

Lemma c19_outside h c r z p d :
  0 < r -> 0 < z -> unit d -> no_rim c r z p d ->
  r + GEOMETRY_PRECISION <= rho c p \/ z / 2 + GEOMETRY_PRECISION <= Rabs (vz p - vz c) ->
  is_inside (cylinder h c r 0 z) p d = false.
Proof.
  intros Hr Hz Hd Hrim Hout. pose proof eps_pos as HE.
  unfold is_inside, cylinder. destruct (Rltb_spec r 0); [lra|]. cbn [g_distance_to_border].
  unfold cylinder_distance. destruct (Rltb_spec 0 0); [lra|].
  unfold cylinder_hits. fold (in_z c p d z). fold (bhits c p d z r).
  pose proof (all_hits_spec c p d r z Hr 0 ltac:(lra)) as HA.
  assert (Hone : forall a, (if Nat.ltb (length (bhits c p d z r)) 2 then all_hits c p d r z 0 else bhits c p d z r) <> [a]).
  { intros a Hh. destruct (Nat.ltb_spec (length (bhits c p d z r)) 2) as [Hb|Hb].
    - assert (Hin : In a (all_hits c p d r z 0)) by (rewrite Hh; left; auto).
      apply HA in Hin. destruct Hin as [H1 H2].
      destruct (cyl_second_crossing c r z p d Hr Hz Hd Hrim Hout a ltac:(lra) H2) as (a' & N & G & K).
      assert (Hin : In a' (all_hits c p d r z 0)) by (apply HA; auto).
      rewrite Hh in Hin. destruct Hin as [E|[]]. auto.
    - rewrite Hh in Hb. cbn in Hb. lia. }
  assert (Hge : forall t, In t (if Nat.ltb (length (bhits c p d z r)) 2 then all_hits c p d r z 0 else bhits c p d z r) -> GEOMETRY_PRECISION <= t).
  { intros t Ht. apply HA. destruct (Nat.ltb _ 2); auto. unfold all_hits. apply in_or_app; auto. }
  change (barrel_hits (in_z c p d z) (barrel_roots c r p d)) with (bhits c p d z r).
  fold (all_hits c p d r z 0).
  destruct (if Nat.ltb (length (bhits c p d z r)) 2 then all_hits c p d r z 0 else bhits c p d z r) as [|a [|b [|e l]]]; cbn [cylinder_select].
  - rewrite precision_control_neg by lra. cbn. deccmp. reflexivity.
  - exfalso. eapply Hone; reflexivity.
  - assert (GEOMETRY_PRECISION <= a) by (apply Hge; left; auto).
    assert (GEOMETRY_PRECISION <= b) by (apply Hge; right; left; auto).
    destruct (Rltb_spec b a); rewrite precision_control_pos1 by auto; cbn [fst snd]; deccmp; reflexivity.
  - rewrite precision_control_neg by lra. cbn. deccmp. reflexivity.
Qed.
