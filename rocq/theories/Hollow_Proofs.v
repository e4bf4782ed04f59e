(** Hollow cylinders seen from outside and from the hole (property C19). *)
From Verif Require Import Prelude PreludeFacts Vec_Model Geometry_Model Shapes_Model Shapes_Spec Shapes_Proofs Box_Proofs Cylinder_Proofs.
From Coq Require Import Sorted Arith Permutation.

Lemma sorted2 a b : a < b -> StronglySorted Rlt [a; b].
Proof. intros. constructor; [constructor; [constructor|constructor]|]. constructor; auto. Qed.
Lemma sorted1 a : StronglySorted Rlt [a].
Proof. constructor; constructor. Qed.
Lemma sorted_head (x : R) L : StronglySorted Rlt (x :: L) -> forall t, In t (x :: L) -> x <= t.
Proof.
  intros H t [->|K]; [lra|]. inversion H as [|? ? _ F]; subst. rewrite Forall_forall in F. specialize (F _ K). lra.
Qed.
(** Sorted lists with the same members are equal. *)
Lemma sorted_unique L : forall L', StronglySorted Rlt L -> StronglySorted Rlt L' -> (forall t : R, In t L <-> In t L') -> L = L'.
Proof.
  induction L as [|a L IH]; intros [|b L'] S S' H; auto.
  - destruct (proj2 (H b) (or_introl eq_refl)).
  - destruct (proj1 (H a) (or_introl eq_refl)).
  - assert (E : a = b).
    { pose proof (sorted_head _ _ S b (proj2 (H b) (or_introl eq_refl))). pose proof (sorted_head _ _ S' a (proj1 (H a) (or_introl eq_refl))). lra. }
    subst b. f_equal. inversion S as [|? ? S1 F1]; inversion S' as [|? ? S2 F2]; subst. rewrite Forall_forall in F1, F2.
    apply IH; auto. intros t. specialize (H t). cbn in H. split; intros K.
    + destruct (proj1 H (or_intror K)) as [->|]; auto. specialize (F1 _ K). lra.
    + destruct (proj2 H (or_intror K)) as [->|]; auto. specialize (F2 _ K). lra.
Qed.

Section Hollow.
Variables (c : vec) (r ri z : R) (p d : vec).
Hypotheses (Hr : 0 < ri < r) (Hz : 0 < z) (Hd : unit d).
Hypotheses (Hrim : no_rim c r z p d) (Hrim_i : no_rim c ri z p d).

Let solid := outer_crosses c p d r z 0.
Let outer := outer_crosses c p d r z ri.
(** A transversal crossing of the inner barrel. *)
Definition inner (t : R) : Prop := on_barrel c ri z (at_ p d t) /\ radial c (at_ p d t) d <> 0.

Lemma crosses_split t : cylinder_crosses c r ri z p d t <-> outer t \/ inner t.
Proof using Hr. unfold cylinder_crosses, outer, outer_crosses, inner. cbv zeta. split; tauto. Qed.
Lemma outer_solid t : outer t <-> solid t /\ ri * ri <= rho2 c (at_ p d t).
Proof using Hr.
  unfold outer, solid, outer_crosses, on_cap. split.
  - intros [[[H1 H2] H3]|[[H1 H2] H3]]; (split; [|nra]); [left; split; auto; split; auto|right; split; auto; split; auto; nra].
  - intros [[[[H1 H2] H3]|[[H1 H2] H3]] H4]; [left; split; auto; split; auto|right; split; auto; split; auto; lra].
Qed.
(** Crossings of the outside do not sit on the inner barrel. *)
Lemma solid_off t : 0 < t -> solid t -> rho2 c (at_ p d t) <> ri * ri.
Proof using Hr Hrim_i.
  intros T [[[H1 H2] _]|[[H1 _] _]] E; [rewrite H1 in E; nra|]. destruct (Hrim_i t T E) as [N1 N2]. tauto.
Qed.
Lemma inner_strict t : inner t -> strictly_in_cyl c r z (at_ p d t).
Proof using Hr. intros [[H1 H2] _]. split; auto. rewrite H1. nra. Qed.
Lemma inner_closed t : inner t -> in_closed_cyl c r z (at_ p d t).
Proof using Hr. intros H. destruct (inner_strict t H) as [H1 H2]. unfold in_closed_cyl, between_caps in *. lra. Qed.
Lemma solid_closed t : solid t -> in_closed_cyl c r z (at_ p d t).
Proof using Hz. apply outer_crosses_closed; auto. Qed.
(** Strictly between two crossings of the outside the ray is between the caps. *)
Lemma between_solid a b t : solid a -> solid b -> a < t < b -> between_caps c z (at_ p d t).
Proof using Hz.
  intros A B T. destruct (solid_closed a A) as [_ CA]. destruct (solid_closed b B) as [_ CB]. unfold between_caps. rewrite z_at in *.
  destruct (Req_dec (vz d) 0) as [Z|Z].
  - rewrite Z in *. destruct A as [[[_ H2] _]|[_ H3]]; [|congruence]. unfold between_caps in H2. rewrite z_at, Z in H2. lra.
  - destruct (Rdichotomy _ _ Z); nra.
Qed.
(** Inner crossings lie strictly between two crossings of the outside. *)
Lemma inner_between a b t : solid a -> solid b -> a < b -> inner t -> a < t < b.
Proof using Hr Hz.
  intros A B AB T. pose proof (inner_closed t T) as CT. pose proof (inner_strict t T) as ST.
  assert (N : forall u, solid u -> u <> t).
  { intros u U ->. destruct ST as [S1 S2]. unfold between_caps in S2. destruct U as [[[H1 _] _]|[[H1 _] _]]; lra. }
  pose proof (N a A). pose proof (N b B).
  destruct (Rlt_le_dec a t); [|exfalso; apply (three_cyl c p d r z 0 t a b); auto using solid_closed; lra].
  destruct (Rlt_le_dec t b); [auto|exfalso; apply (three_cyl c p d r z 0 a b t); auto using solid_closed; lra].
Qed.
Lemma only_two a b t : solid a -> solid b -> a < b -> solid t -> t = a \/ t = b.
Proof using Hz.
  intros A B AB T. destruct (Req_dec t a); auto. destruct (Req_dec t b); auto. exfalso.
  destruct (Rlt_le_dec t a); [apply (three_cyl c p d r z 0 t a b); auto using solid_closed; lra|].
  destruct (Rlt_le_dec t b); [apply (three_cyl c p d r z 0 a t b); auto using solid_closed; lra|].
  apply (three_cyl c p d r z 0 a b t); auto using solid_closed; lra.
Qed.
(** The inner roots, if there are any. *)
Lemma inner_root t : inner t <-> between_caps c z (at_ p d t) /\ exists t1 t2, raw_roots c p d ri = Some (t1, t2) /\ (t = t1 \/ t = t2).
Proof. unfold inner, on_barrel. rewrite <- (raw_roots_spec c p d ri t). tauto. Qed.
Lemma no_roots t u : raw_roots c p d ri = None -> ri * ri <= rho2 c (at_ p d t) -> ri * ri <= rho2 c (at_ p d u).
Proof.
  unfold raw_roots. intros H HT. rewrite rho2_at in *. pose proof (cC_pos d) as HC.
  destruct (Reqb_spec (vx d) 0) as [E1|E1], (Reqb_spec (vy d) 0) as [E2|E2]; cbn [andb] in H.
  { assert (Z : cC d = 0) by (apply cC_zero; auto). assert (cB c p d = 0) by (unfold cB; rewrite E1, E2; ring). rewrite Z, H0 in *. lra. }
  all: assert (NZ : cC d <> 0) by (rewrite cC_zero; tauto).
  all: cbv zeta in H; set (det := cB c p d / cC d * (cB c p d / cC d) - cA c p ri / cC d) in *; destruct (Rltb_spec 0 det) as [|D]; [discriminate|].
  all: assert (X : cC d * (u * u) + 2 * cB c p d * u + rho2 c p - ri * ri = cC d * ((u + cB c p d / cC d) * (u + cB c p d / cC d) - det))
         by (unfold det, cA; field; auto).
  all: pose proof (Rle_0_sqr (u + cB c p d / cC d)) as SQ; unfold Rsqr in SQ; nra.
Qed.

(** *** What the code does with the inner roots *)
Let zz := in_z c p d z.
Lemma zz_false t : ~ between_caps c z (at_ p d t) -> zz t = false.
Proof. intros H. destruct (zz t) eqn:E; auto. apply in_z_spec in E. tauto. Qed.
Lemma zz_true t : between_caps c z (at_ p d t) -> zz t = true.
Proof. intros H. apply in_z_spec. auto. Qed.
Lemma snap_big t : GEOMETRY_PRECISION <= t -> snap t = t.
Proof. intros H. unfold snap. destruct (Rltb_spec 0 t); cbn [andb]; auto. destruct (Rltb_spec t GEOMETRY_PRECISION); auto. lra. Qed.
Lemma snap_pos t : 0 < snap t -> snap t = t /\ GEOMETRY_PRECISION <= t.
Proof. intros H. destruct (proj1 (snap_pos_spec (snap t) t) (conj H eq_refl)). lra. Qed.

(** *** Seen from outside *)
Section Outside.
Hypothesis Hout : r + GEOMETRY_PRECISION < rho c p \/ z / 2 + GEOMETRY_PRECISION <= Rabs (vz p - vz c).
Lemma Hout' : r + GEOMETRY_PRECISION <= rho c p \/ z / 2 + GEOMETRY_PRECISION <= Rabs (vz p - vz c).
Proof using Hout. destruct Hout; [left; lra|right; auto]. Qed.
Lemma late t : 0 < t -> cylinder_crosses c r ri z p d t -> GEOMETRY_PRECISION <= t.
Proof using Hr Hz Hd Hout.
  intros T H. apply (cyl_reach_time c r z p d ltac:(lra) Hd Hout'); [lra|].
  apply crosses_split in H. destruct H as [H|H]; [|apply inner_closed; auto]. apply outer_solid in H. apply solid_closed; tauto.
Qed.
Lemma not_in_body : (vz c - 1 / 2 * z <=? vz p) && (vz p <=? vz c + 1 / 2 * z) &&
  (axis_distance c (vx p) (vy p) <=? r + GEOMETRY_PRECISION) && (ri - GEOMETRY_PRECISION <=? axis_distance c (vx p) (vy p)) = false.
Proof using Hr Hz Hd Hout.
  pose proof eps_pos. rewrite axis_distance_spec. destruct Hout as [H1|H1].
  - destruct (Rleb_spec (rho c p) (r + GEOMETRY_PRECISION)); [lra|]. rewrite andb_false_r. reflexivity.
  - revert H1. unfold Rabs. destruct (Rcase_abs _); intros.
    + destruct (Rleb_spec (vz c - 1 / 2 * z) (vz p)); [lra|reflexivity].
    + destruct (Rleb_spec (vz p) (vz c + 1 / 2 * z)); [lra|]. rewrite andb_false_r. reflexivity.
Qed.
Lemma distance_form Lo : crossing_list outer Lo -> cylinder_distance c r ri z p d =
  precision_control (match raw_roots c p d ri with
    | None => match Lo with [] => (-1, -1) | [a] => (a, -1) | a :: b :: _ => (a, b) end
    | Some (t1, t2) => cylinder_inner zz false (snap t1) (snap t2) (match Lo with [] => (-1, -1) | [a] => (a, -1) | a :: b :: _ => (a, b) end)
    end).
Proof using Hr Hz Hd Hout.
  intros HL. assert (HR : resolvable Lo). { intros t T. apply HL in T. apply late; [tauto|]. apply crosses_split. tauto. }
  destruct (hits_from_list c p d r z ltac:(lra) Hz ri ltac:(lra) Lo HL HR) as [HP HN].
  unfold cylinder_distance. rewrite not_in_body. rewrite (select_sorted Lo _ (proj1 HL) HP HN). destruct (Rltb_spec 0 ri); [|lra].
  rewrite barrel_roots_raw. destruct (raw_roots c p d ri) as [[t1 t2]|]; reflexivity.
Qed.

Lemma c19_hollow_outside L : crossing_list (cylinder_crosses c r ri z p d) L ->
  (match L with [] => True | t :: _ => ~ on_barrel c ri z (at_ p d t) end) ->
  cylinder_distance c r ri z p d = encode L.
Proof using Hr Hz Hd Hout Hrim Hrim_i.
  intros [HS HL] HF. pose proof eps_pos as HE.
  destruct L as [|a L'].
  - (* nothing ahead *)
    assert (N : forall t, 0 < t -> ~ (outer t \/ inner t)). { intros t T K. apply crosses_split in K. exact (proj2 (HL t) (conj T K)). }
    rewrite (distance_form []).
    2: { split; [constructor|]. intros t. split; [intros []|]. intros [T K]. destruct (N t T). auto. }
    destruct (raw_roots c p d ri) as [[t1 t2]|] eqn:ER; [|apply precision_control_neg; lra].
    assert (Z : forall t, t = t1 \/ t = t2 -> (0 <? snap t) && zz (snap t) = false).
    { intros t T. destruct (Rltb_spec 0 (snap t)) as [P|]; auto. destruct (snap_pos t P) as [-> P2]. cbn [andb]. apply zz_false. intros B.
      apply (N t ltac:(lra)). right. apply inner_root. eauto 6. }
    unfold cylinder_inner. cbn [fst snd]. deccmp. rewrite !Z by auto. apply precision_control_neg; lra.
  - destruct (proj1 (HL a) (or_introl eq_refl)) as [A0 AC]. assert (AE := late a A0 AC).
    assert (AO : outer a). { apply crosses_split in AC. destruct AC as [|[K _]]; auto. tauto. }
    destruct (proj1 (outer_solid a) AO) as [AS AR].
    assert (AR' : ri * ri < rho2 c (at_ p d a)). { pose proof (solid_off a A0 AS). lra. }
    assert (First : forall t, 0 < t -> outer t \/ inner t -> a <= t).
    { intros t T K. apply (sorted_head a L' HS). apply HL. split; auto. apply crosses_split. auto. }
    destruct (cyl_second_crossing c r z p d ltac:(lra) Hz Hd Hrim Hout' a A0 AS) as (b & BN & BE & BS). fold solid in BS.
    assert (BO : 0 < b) by lra. pose proof (solid_off b BO BS) as BR.
    assert (AB : a < b).
    { destruct (Rlt_le_dec a b) as [|C]; auto. exfalso. assert (C' : b < a) by lra. clear C.
      destruct (Rlt_le_dec (rho2 c (at_ p d b)) (ri * ri)) as [O|O].
      - destruct (raw_roots c p d ri) as [[t1 t2]|] eqn:ER.
        + destruct (raw_roots_product c p d ri t1 t2 ER) as [C0 P]. pose proof (raw_roots_order c p d ri t1 t2 ER) as Ord.
          assert (PB := P b). assert (PA := P a).
          assert (B12 : t2 < b < t1). { assert ((b - t1) * (b - t2) < 0) by nra. nra. }
          assert (A12 : t1 < a). { assert (0 < (a - t1) * (a - t2)) by nra. nra. }
          assert (inner t1). { apply inner_root. split; [apply (between_solid b a); auto; lra|eauto]. }
          pose proof (First t1 ltac:(lra) (or_intror H)). lra.
        + pose proof (no_roots a b ER AR). lra.
      - pose proof (First b BO (or_introl (proj2 (outer_solid b) (conj BS O)))). lra. }
    assert (Ot : forall t, outer t -> t = a \/ (t = b /\ outer b)).
    { intros t T. destruct (proj1 (outer_solid t) T) as [TS _]. destruct (only_two a b t AS BS AB TS) as [->| ->]; auto. }
    assert (It : forall t, inner t -> a < t < b) by (intros t T; apply (inner_between a b t); auto).
    (* the answer from the complete list of crossings *)
    assert (Fin : forall l, StronglySorted Rlt (a :: l) -> (forall t, In t (a :: l) <-> 0 < t /\ (outer t \/ inner t)) -> a :: L' = a :: l).
    { intros l Sl Hl. apply sorted_unique; auto. intros t. rewrite HL, Hl, crosses_split. tauto. }
    destruct (raw_roots c p d ri) as [[t1 t2]|] eqn:ER.
    + destruct (raw_roots_product c p d ri t1 t2 ER) as [C0 P]. pose proof (raw_roots_order c p d ri t1 t2 ER) as Ord.
      assert (Id : forall t, inner t <-> between_caps c z (at_ p d t) /\ (t = t1 \/ t = t2)).
      { intros t. rewrite inner_root, ER. split; [intros (B & x & y & X & Y); injection X as <- <-; auto|intros (B & Y); eauto 6]. }
      assert (Zin : forall t, t = t1 \/ t = t2 -> a < t < b -> zz (snap t) = true /\ snap t = t).
      { intros t T K. rewrite snap_big by lra. split; auto. apply zz_true, (between_solid a b); auto. }
      assert (Zout : forall t, t = t1 \/ t = t2 -> ~ a < t < b -> 0 < snap t -> zz (snap t) = false).
      { intros t T K Q. destruct (snap_pos t Q) as [-> _]. apply zz_false. intros B. apply K, It, Id. auto. }
      assert (PA := P a). assert (PB := P b).
      assert (A12 : a < t2 \/ t1 < a). { assert (0 < (a - t1) * (a - t2)) by nra. destruct (Rlt_le_dec a t2); auto. right. nra. }
      destruct (Rlt_le_dec (rho2 c (at_ p d b)) (ri * ri)) as [O|O].
      * (* out through the opening *)
        assert (B12 : t2 < b < t1). { assert ((b - t1) * (b - t2) < 0) by nra. nra. }
        assert (A2 : a < t2) by lra.
        assert (NB : ~ outer b). { intros K. apply outer_solid in K. lra. }
        destruct (Zin t2 (or_intror eq_refl) ltac:(lra)) as [Z2 S2].
        assert (I2 : inner t2). { apply Id. split; auto. apply (between_solid a b); auto; lra. }
        rewrite (Fin [t2]).
        2: apply sorted2; auto.
        2: { intros t. split.
             - intros [<-|[<-|[]]]; split; auto; lra.
             - intros [T [K|K]]; [destruct (Ot t K) as [->|[-> K2]]; [left; auto|tauto]|].
               pose proof (It t K). apply Id in K. destruct K as [_ [->| ->]]; [lra|right; left; auto]. }
        rewrite (distance_form [a]).
        2: { split; [apply sorted1|]. intros t. split; [intros [<-|[]]; split; auto|]. intros [T K]. destruct (Ot t K) as [->|[-> K2]]; [left; auto|tauto]. }
        rewrite ER. rewrite S2 in *.
        assert (S1 : snap t1 = t1) by (apply snap_big; lra). pose proof (Zout t1 (or_introl eq_refl) ltac:(lra) ltac:(lra)) as Z1. rewrite S1 in *.
        unfold cylinder_inner. cbn [fst snd]. deccmp. cbn [andb orb]. rewrite Z1, Z2. cbn [andb]. deccmp. cbn [andb fst snd].
        cbn [encode length Nat.odd Nat.even negb]. apply precision_control_pos1; lra.
      * assert (BOut : outer b) by (apply outer_solid; auto).
        assert (HLo : crossing_list outer [a; b]).
        { split; [apply sorted2; auto|]. intros t. split; [intros [<-|[<-|[]]]; auto|]. intros [T K].
          destruct (Ot t K) as [->|[-> K2]]; cbn; auto. }
        rewrite (distance_form _ HLo), ER.
        assert (B12 : b < t2 \/ t1 < b). { assert (0 < (b - t1) * (b - t2)) by nra. destruct (Rlt_le_dec b t2); auto. right. nra. }
        destruct (Rlt_le_dec a t2) as [A2|A2]; [destruct (Rlt_le_dec t1 b) as [B1|B1]|].
        -- (* through both walls *)
           destruct (Zin t1 (or_introl eq_refl) ltac:(lra)) as [Z1 S1]. destruct (Zin t2 (or_intror eq_refl) ltac:(lra)) as [Z2 S2].
           rewrite (Fin [t2; t1; b]).
           2: { constructor; [constructor; [apply sorted2; lra|]|]; repeat constructor; lra. }
           2: { intros t. split.
                - intros [<-|[<-|[<-|[<-|[]]]]]; split; auto; try lra; right; apply Id; (split; [apply (between_solid a b); auto; lra|auto]).
                - intros [T [K|K]]; [destruct (Ot t K) as [->|[-> _]]; cbn; auto|]. apply Id in K. destruct K as [_ [->| ->]]; cbn; auto. }
           rewrite S1, S2 in *. unfold cylinder_inner. cbn [fst snd]. deccmp. cbn [andb]. rewrite Z1, Z2. cbn [andb]. deccmp.
           cbn [encode length Nat.odd Nat.even negb]. apply precision_control_pos1; lra.
        -- assert (B2 : b < t2) by lra.
           rewrite (Fin [b]).
           2: apply sorted2; auto.
           2: { intros t. split.
                - intros [<-|[<-|[]]]; split; auto.
                - intros [T [K|K]]; [destruct (Ot t K) as [->|[-> _]]; cbn; auto|]. pose proof (It t K). apply Id in K. destruct K as [_ [->| ->]]; lra. }
           assert (S1 : snap t1 = t1) by (apply snap_big; lra). assert (S2 : snap t2 = t2) by (apply snap_big; lra).
           pose proof (Zout t1 (or_introl eq_refl) ltac:(lra) ltac:(lra)) as Z1. pose proof (Zout t2 (or_intror eq_refl) ltac:(lra) ltac:(lra)) as Z2.
           rewrite S1, S2 in *. unfold cylinder_inner. cbn [fst snd]. deccmp. cbn [andb]. rewrite Z1, Z2. cbn [andb].
           cbn [encode length Nat.odd Nat.even negb]. apply precision_control_pos1; lra.
        -- assert (A1 : t1 < a) by lra.
           rewrite (Fin [b]).
           2: apply sorted2; auto.
           2: { intros t. split.
                - intros [<-|[<-|[]]]; split; auto.
                - intros [T [K|K]]; [destruct (Ot t K) as [->|[-> _]]; cbn; auto|]. pose proof (It t K). apply Id in K. destruct K as [_ [->| ->]]; lra. }
           assert (Q : forall t x, t = t1 \/ t = t2 -> (0 <? snap t) && zz (snap t) && x = false).
           { intros t x T. destruct (Rltb_spec 0 (snap t)) as [P0|]; auto. rewrite (Zout t T) by (auto; destruct T; lra). reflexivity. }
           unfold cylinder_inner. cbn [fst snd]. deccmp. cbn [andb]. rewrite !Q by auto.
           cbn [encode length Nat.odd Nat.even negb]. apply precision_control_pos1; lra.
    + assert (BOut : outer b) by (apply outer_solid; split; auto; apply (no_roots a b); auto).
      assert (NI : forall t, ~ inner t). { intros t K. apply inner_root in K. rewrite ER in K. destruct K as (_ & x & y & X & _). discriminate. }
      assert (HLo : crossing_list outer [a; b]).
      { split; [apply sorted2; auto|]. intros t. split; [intros [<-|[<-|[]]]; auto|]. intros [T K].
        destruct (Ot t K) as [->|[-> K2]]; cbn; auto. }
      rewrite (distance_form _ HLo), ER. rewrite (Fin [b]).
      2: apply sorted2; auto.
      2: { intros t. split.
           - intros [<-|[<-|[]]]; split; auto.
           - intros [T [K|K]]; [destruct (Ot t K) as [->|[-> _]]; cbn; auto|]. destruct (NI t K). }
      cbn [encode length Nat.odd Nat.even negb]. apply precision_control_pos1; lra.
Qed.
End Outside.

(** *** Seen from the hole *)
Section Hole.
Hypothesis Hin : in_open_cylinder c ri z GEOMETRY_PRECISION p.
Lemma hole_rho : rho2 c p < ri * ri.
Proof using Hin Hr.
  pose proof eps_pos. destruct Hin as [H1 _]. assert (rho c p < ri) by lra. pose proof (sqrt_pos (rho2 c p)). fold (rho c p) in *.
  assert (rho c p * rho c p = rho2 c p) by (apply sqrt_sqrt, rho2_pos). nra.
Qed.
Lemma hole_strict : strictly_in_cyl c r z p.
Proof using Hin Hr Hz.
  pose proof eps_pos. pose proof hole_rho. destruct Hin as [_ H2]. apply Rabs_le_inv in H2. split; [nra|]. unfold between_caps. lra.
Qed.
Lemma hole_late t : 0 < t -> cylinder_crosses c r ri z p d t -> GEOMETRY_PRECISION <= t.
Proof using Hin Hr Hz Hd.
  intros T H. pose proof eps_pos. apply crosses_split in H. destruct Hin as [K1 K2].
  assert (Hrho : forall s, ri <= s -> rho2 c (at_ p d t) = s * s -> GEOMETRY_PRECISION <= t).
  { intros s S Q. apply (inside_no_early c p d Hd t s); auto; try lra. rewrite Rabs_left1; lra. }
  destruct H as [[[[H1 _] _]|[[H1 _] _]]|[[H1 _] _]]; [apply (Hrho r); auto; lra| |apply (Hrho ri); auto; lra].
  apply Rabs_le_inv in K2. rewrite z_at in H1. assert (-1 <= vz d <= 1) by (unfold unit, dot in Hd; nra). destruct H1; nra.
Qed.
Lemma c19_hollow_hole L : crossing_list (cylinder_crosses c r ri z p d) L -> cylinder_distance c r ri z p d = encode L.
Proof using Hin Hr Hz Hd Hrim_i.
  intros [HS HL]. pose proof eps_pos as HE. pose proof hole_strict as Str. pose proof hole_rho as HR0.
  destruct (cyl_exit c r z p d Str (unit_nonzero d Hd)) as (b & B0 & BS & _). fold solid in BS.
  assert (Cl : in_closed_cyl c r z p). { destruct Str. unfold in_closed_cyl, between_caps in *. lra. }
  assert (Uq : forall t, 0 < t -> solid t -> t = b) by (intros; apply (cyl_exit_unique c r z p d Hz b t); auto).
  pose proof (solid_off b B0 BS) as BR.
  assert (Bt : forall t, 0 < t < b -> between_caps c z (at_ p d t)).
  { intros t T. destruct Str as [_ [Z1 Z2]]. destruct (solid_closed b BS) as [_ CB]. unfold between_caps. rewrite z_at in *.
    destruct (Req_dec (vz d) 0) as [Z|Z]; [rewrite Z; lra|]. destruct (Rdichotomy _ _ Z); nra. }
  assert (It : forall t, 0 < t -> inner t -> t < b).
  { intros t T K. pose proof (inner_strict t K) as [S1 S2].
    destruct (Rlt_le_dec t b) as [|C]; auto. exfalso.
    destruct (Req_dec t b) as [->|]; [destruct BS as [[[H1 _] _]|[[H1 _] _]]; unfold between_caps in S2; lra|].
    apply (three_cyl c p d r z 0 0 b t); auto using inner_closed; try lra. rewrite at_0. auto. }
  assert (form : forall Lo, crossing_list outer Lo -> exists ib, cylinder_distance c r ri z p d =
    precision_control (match raw_roots c p d ri with
    | None => match Lo with [] => (-1, -1) | [a] => (a, -1) | a :: b :: _ => (a, b) end
    | Some (t1, t2) => cylinder_inner zz ib (snap t1) (snap t2) (match Lo with [] => (-1, -1) | [a] => (a, -1) | a :: b :: _ => (a, b) end)
    end)).
  { intros Lo HLo. assert (HRs : resolvable Lo). { intros t T. apply HLo in T. apply hole_late; [tauto|]. apply crosses_split. tauto. }
    destruct (hits_from_list c p d r z ltac:(lra) Hz ri ltac:(lra) Lo HLo HRs) as [HP HN].
    eexists. unfold cylinder_distance. rewrite (select_sorted Lo _ (proj1 HLo) HP HN). destruct (Rltb_spec 0 ri); [|exfalso; lra].
    rewrite barrel_roots_raw. destruct (raw_roots c p d ri) as [[t1 t2]|]; reflexivity. }
  destruct (raw_roots c p d ri) as [[t1 t2]|] eqn:ER.
  - destruct (raw_roots_product c p d ri t1 t2 ER) as [C0 P]. pose proof (raw_roots_order c p d ri t1 t2 ER) as Ord.
    assert (P0 := P 0). rewrite at_0 in P0. assert (PB := P b).
    assert (T12 : t2 < 0 < t1). { assert ((0 - t1) * (0 - t2) < 0) by nra. nra. }
    assert (Id : forall t, inner t <-> between_caps c z (at_ p d t) /\ (t = t1 \/ t = t2)).
    { intros t. rewrite inner_root, ER. split; [intros (B & x & y & X & Y); injection X as <- <-; auto|intros (B & Y); eauto 6]. }
    assert (S2 : snap t2 = t2) by (unfold snap; destruct (Rltb_spec 0 t2); [lra|reflexivity]).
    destruct (Rlt_le_dec (rho2 c (at_ p d b)) (ri * ri)) as [O|O].
    + (* out through the opening *)
      assert (B12 : b < t1). { assert ((b - t1) * (b - t2) < 0) by nra. nra. }
      assert (NI : forall t, 0 < t -> ~ inner t). { intros t T K. pose proof (It t T K). apply Id in K. destruct K as [_ [->| ->]]; lra. }
      assert (NO : forall t, 0 < t -> ~ outer t). { intros t T K. apply outer_solid in K. rewrite (Uq t T (proj1 K)) in K. lra. }
      replace L with (@nil R).
      2: { apply sorted_unique; auto; [constructor|]. intros t. split; [intros []|]. rewrite HL, crosses_split. intros [T [K|K]]; [apply (NO t T K)|apply (NI t T K)]. }
      destruct (form []) as [ib F]. { split; [constructor|]. intros t. split; [intros []|]. intros [T K]. exact (NO t T K). }
      rewrite F, S2. unfold cylinder_inner. cbn [fst snd]. deccmp. cbn [andb].
      assert (Q : (0 <? snap t1) && zz (snap t1) = false).
      { destruct (Rltb_spec 0 (snap t1)) as [Q|]; auto. destruct (snap_pos t1 Q) as [-> _]. cbn [andb]. apply zz_false. intros K.
        apply (NI t1 ltac:(lra)), Id. auto. }
      rewrite Q. apply precision_control_neg; lra.
    + assert (BO : outer b) by (apply outer_solid; auto).
      assert (B12 : t1 < b). { assert (0 < (b - t1) * (b - t2)) by nra. nra. }
      assert (I1 : inner t1) by (apply Id; split; auto; apply Bt; lra).
      assert (L1 : GEOMETRY_PRECISION <= t1) by (apply hole_late; [lra|apply crosses_split; auto]).
      assert (Lb : GEOMETRY_PRECISION <= b) by (apply hole_late; [lra|apply crosses_split; auto]).
      replace L with [t1; b].
      2: { apply sorted_unique; auto; [apply sorted2; auto|]. intros t. rewrite HL, crosses_split. split.
           - intros [<-|[<-|[]]]; split; auto; lra.
           - intros [T [K|K]]; [right; left; symmetry; apply Uq; auto; apply outer_solid; auto|].
             apply Id in K. destruct K as [_ [->| ->]]; [left; auto|lra]. }
      destruct (form [b]) as [ib F].
      { split; [apply sorted1|]. intros t. split; [intros [<-|[]]; auto|]. intros [T K]. left. symmetry. apply Uq; auto. apply outer_solid; auto. }
      rewrite F, S2, (snap_big t1 L1). assert (Z1 : zz t1 = true) by (apply zz_true, Bt; lra).
      unfold cylinder_inner. cbn [fst snd]. deccmp. cbn [andb orb]. rewrite Z1. cbn [fst snd]. cbn [encode length Nat.odd Nat.even negb].
      apply precision_control_pos1; auto.
  - (* parallel to the axis *)
    assert (O : rho2 c (at_ p d b) < ri * ri).
    { destruct (Rlt_le_dec (rho2 c (at_ p d b)) (ri * ri)) as [|C]; auto. pose proof (no_roots b 0 ER C) as K. rewrite at_0 in K. lra. }
    assert (NI : forall t, ~ inner t). { intros t K. apply inner_root in K. rewrite ER in K. destruct K as (_ & x & y & X & _). discriminate. }
    assert (NO : forall t, 0 < t -> ~ outer t). { intros t T K. apply outer_solid in K. rewrite (Uq t T (proj1 K)) in K. lra. }
    replace L with (@nil R).
    2: { apply sorted_unique; auto; [constructor|]. intros t. split; [intros []|]. rewrite HL, crosses_split. intros [T [K|K]]; [apply (NO t T K)|apply (NI t K)]. }
    destruct (form []) as [ib F]. { split; [constructor|]. intros t. split; [intros []|]. intros [T K]. exact (NO t T K). }
    rewrite F. apply precision_control_neg; lra.
Qed.
End Hole.
End Hollow.

(** ** Example: through a pipe *)
Lemma pipe_crosses p : vy p = 0 -> vz p = 0 -> forall t, cylinder_crosses (mkvec 0 0 0) 10 5 10 p (mkvec 1 0 0) t <->
  (vx p + t = 10 \/ vx p + t = -10 \/ vx p + t = 5 \/ vx p + t = -5).
Proof.
  intros Y Z t. unfold cylinder_crosses, on_barrel, on_cap, between_caps, rho2, radial, at_, vadd, scale. cbn [vx vy vz]. rewrite Y, Z.
  set (x := vx p + t). replace (vx p + 1 * t) with x by (unfold x; ring). replace (vx p + t * 1) with x by (unfold x; ring).
  assert (Q : forall s, (x - 0) ^ 2 + (0 + 0 * t - 0) ^ 2 = s * s <-> x = s \/ x = - s).
  { intros s. replace ((x - 0) ^ 2 + (0 + 0 * t - 0) ^ 2) with (x * x) by ring. split; [|intros [->| ->]; ring].
    intros H. assert (K : (x - s) * (x + s) = 0) by (ring_simplify; lra). apply Rmult_integral in K. lra. }
  assert (Q' : forall s, (x - 0) ^ 2 + (0 + t * 0 - 0) ^ 2 = s * s <-> x = s \/ x = - s).
  { intros s. replace (0 + t * 0) with (0 + 0 * t) by ring. apply Q. }
  rewrite ?Q, ?Q'. split.
  - intros [[[[H _]|[_ [H _]]] _]|[_ H]]; lra.
  - intros H. left. split; [|lra]. destruct H as [H|[H|[H|H]]]; [left|left|right|right]; repeat split; try lra.
Qed.
Lemma pipe_example_outside : let p := mkvec (-20) 0 0 in let d := mkvec 1 0 0 in
  unit d /\ no_rim (mkvec 0 0 0) 10 10 p d /\ no_rim (mkvec 0 0 0) 5 10 p d /\ 10 + GEOMETRY_PRECISION < rho (mkvec 0 0 0) p /\
  crossing_list (cylinder_crosses (mkvec 0 0 0) 10 5 10 p d) [10; 15; 25; 30] /\ ~ on_barrel (mkvec 0 0 0) 5 10 (at_ p d 10).
Proof.
  cbv zeta. split; [unfold unit, dot; cbn; ring|]. split; [|split; [|split; [|split]]].
  1,2: intros t _ _; unfold at_, vadd, scale; cbn; lra.
  - unfold rho, rho2. cbn [vx vy vz]. replace ((-20 - 0) ^ 2 + (0 - 0) ^ 2) with (20 * 20) by ring. rewrite sqrt_square by lra. unfold GEOMETRY_PRECISION. lra.
  - split; [repeat constructor; lra|]. intros t. rewrite pipe_crosses by reflexivity. cbn [vx In]. split; [|lra].
    intros [<-|[<-|[<-|[<-|[]]]]]; lra.
  - unfold on_barrel, rho2, at_, vadd, scale. cbn. lra.
Qed.
Lemma pipe_example_hole : let p := mkvec 1 0 0 in let d := mkvec 1 0 0 in
  unit d /\ no_rim (mkvec 0 0 0) 5 10 p d /\ in_open_cylinder (mkvec 0 0 0) 5 10 GEOMETRY_PRECISION p /\
  crossing_list (cylinder_crosses (mkvec 0 0 0) 10 5 10 p d) [4; 9].
Proof.
  cbv zeta. split; [unfold unit, dot; cbn; ring|]. split; [|split].
  - intros t _ _; unfold at_, vadd, scale; cbn; lra.
  - unfold in_open_cylinder, rho, rho2. cbn [vx vy vz]. replace ((1 - 0) ^ 2 + (0 - 0) ^ 2) with 1 by ring. rewrite sqrt_1, Rminus_0_r, Rabs_R0. unfold GEOMETRY_PRECISION. lra.
  - split; [repeat constructor; lra|]. intros t. rewrite pipe_crosses by reflexivity. cbn [vx In]. split; [|lra].
    intros [<-|[<-|[]]]; lra.
Qed.
