(** HitGeometry for boxes and cylinders. *)
From Verif Require Import Prelude PreludeFacts Vec_Model Geometry_Model Propagator_Model Propagator_Spec
  Propagator_Proofs Propagate_Proofs Shapes_Model Shapes_Spec Shapes_Proofs Box_Proofs Cylinder_Proofs Secondaries_Model Secondaries_Spec
  Secondaries_Proofs Queries_Proofs Hit_Proofs.
From Coq Require Import Sorted Permutation Lra Lia.

(** * Convex bodies *)
Section Convex.
Variables (g : geometry) (body inner outer : vec -> Prop) (ray : vec -> vec -> Prop).
Hypotheses
  (in_body : forall p, inner p -> body p)
  (out_body : forall p, outer p -> ~ body p)
  (ray_tail : forall p d s, 0 <= s -> ray p d -> ray (at_ p d s) d)
  (convex : forall p d s t u, body (at_ p d s) -> body (at_ p d u) -> s <= t <= u -> body (at_ p d t))
  (seen_inside : forall p d, unit d -> ray p d -> inner p -> is_inside g p d = true)
  (seen_outside : forall p d, unit d -> ray p d -> outer p -> is_inside g p d = false /\
     ((is_infront g p d = true /\ is_behind g p d = false /\ exists t, 0 < t /\ body (at_ p d t)) \/
      (is_infront g p d = false /\ is_behind g p d = true /\ forall t, 0 < t -> ~ body (at_ p d t)))).

Lemma hit_convex l : (forall s, In s l -> inner (position s) \/ outer (position s)) -> l <> [] ->
  (forall l1 a b l2 d, l = l1 ++ a :: b :: l2 -> heading a b d -> 0 < apart a b -> ray (position a) d) ->
  (forall l1 s, l = l1 ++ [s] -> unit (direction s) /\ ray (position s) (direction s)) ->
  (hit_loop g l = true <-> exists q, on_track l q /\ body q).
Proof using All.
  induction l as [|a [|b l] IH]; intros HC HN HR HU; [contradiction| |].
  - cbn [hit_loop]. destruct (HU [] a eq_refl) as [U Ry]. split.
    + intros H. exists (position a). split; [constructor; left; auto|].
      destruct (HC a (or_introl eq_refl)) as [K|K]; [auto|]. destruct (seen_outside _ _ U Ry K) as [E _]. congruence.
    + intros (q & Hq & Hd). inversion Hq as [s l' Hs|l1 a' b' l2 x q' _ El]; subst.
      2:{ destruct l1 as [|? [|? ?]]; discriminate. }
      destruct Hs as [<-|[]]. destruct (HC a (or_introl eq_refl)) as [K|K]; [auto|]. exfalso; eapply out_body; eauto.
  - assert (HC' : forall s, In s (b :: l) -> inner (position s) \/ outer (position s)) by (intros s Hs; apply HC; right; auto).
    assert (HU' : forall l1 s, b :: l = l1 ++ [s] -> unit (direction s) /\ ray (position s) (direction s)).
    { intros l' s E. apply (HU (a :: l') s). cbn; congruence. }
    assert (HR' : forall l1 a' b' l2 d, b :: l = l1 ++ a' :: b' :: l2 -> heading a' b' d -> 0 < apart a' b' -> ray (position a') d).
    { intros l1 a' b' l2 d E. apply (HR (a :: l1) a' b' l2 d). cbn; congruence. }
    specialize (IH HC' ltac:(discriminate) HR' HU').
    change (hit_loop g (a :: b :: l)) with
      (match normalize (vsub (position b) (position a)) with
       | Some d => is_inside g (position a) d ||
                   (is_infront g (position a) d && is_behind g (position b) d) || hit_loop g (b :: l)
       | None => hit_loop g (b :: l) end).
    destruct (normalize _) as [d|] eqn:En.
    + apply heading_of in En. destruct En as [Hh P]. pose proof (proj1 Hh) as U.
      assert (Ra : ray (position a) d) by (apply (HR [] a b l d eq_refl Hh P)).
      assert (Eb : position b = at_ (position a) d (apart a b)) by apply Hh.
      assert (Rb : ray (position b) d) by (rewrite Eb; apply ray_tail; auto; unfold apart; apply Rlt_le; auto).
      destruct (HC a (or_introl eq_refl)) as [Ia|Oa].
      { rewrite seen_inside by auto. cbn [orb]. split; auto. intros _. exists (position a). split; [constructor; left; auto|auto]. }
      destruct (seen_outside _ _ U Ra Oa) as [-> Ca]. cbn [orb].
      destruct (HC b (or_intror (or_introl eq_refl))) as [Ib|Ob].
      { assert (hit_loop g (b :: l) = true) as -> by (apply IH; exists (position b); split; [constructor; left; auto|auto]).
        rewrite orb_true_r. split; auto. intros _. exists (position b). split; [constructor; right; left; auto|auto]. }
      destruct (seen_outside _ _ U Rb Ob) as [_ Cb].
      assert (Hat : forall t, at_ (position b) d t = at_ (position a) d (apart a b + t)) by (intros t; rewrite Eb; apply at_at).
      assert (Step : (forall x, 0 < x < apart a b -> ~ body (at_ (position a) d x)) ->
                (hit_loop g (b :: l) = true <-> exists q, on_track (a :: b :: l) q /\ body q)).
      { intros Hno. rewrite IH. split.
        - intros (q & Q1 & Q2). exists q. split; auto. apply on_track_cons; auto.
        - intros (q & Q1 & Q2). apply on_track_inv in Q1. destruct Q1 as [->|[(x & W)|Q1]]; [exfalso; exact (out_body _ Oa Q2)| |eauto].
          exfalso. rewrite (way_at _ _ _ _ _ Hh W) in Q2. destruct W as (Wx & _).
          destruct (Req_dec x 0) as [->|X0]; [rewrite at_0 in Q2; exact (out_body _ Oa Q2)|].
          destruct (Req_dec x (apart a b)) as [->|X1]; [rewrite <- Eb in Q2; exact (out_body _ Ob Q2)|].
          apply (Hno x); auto. lra. }
      destruct Ca as [(-> & _ & t & T0 & T1)|(-> & _ & Na)]; cbn [andb orb]; [|apply Step; intros x X; apply Na; lra].
      destruct Cb as [(_ & -> & t' & T0' & T1')|(_ & -> & Nb)]; cbn [andb orb].
      * apply Step. intros x X Bx. rewrite Hat in T1'. apply (out_body _ Ob). rewrite Eb. apply convex with (s := x) (u := apart a b + t'); auto; lra.
      * split; auto. intros _. exists (at_ (position a) d t). split; auto.
        assert (t < apart a b).
        { destruct (Rtotal_order t (apart a b)) as [?|[->|?]]; auto; exfalso.
          - rewrite <- Eb in T1. exact (out_body _ Ob T1).
          - apply (Nb (t - apart a b)); [lra|]. rewrite Hat. replace (apart a b + (t - apart a b)) with t by ring. auto. }
        apply (ot_way [] a b l t). apply heading_way; auto. lra.
    + apply normalize_none in En. rewrite IH. split.
      * intros (q & Q1 & Q2). exists q. split; auto. apply on_track_cons; auto.
      * intros (q & Q1 & Q2). apply on_track_inv in Q1. destruct Q1 as [->|[(x & W)|Q1]]; [| |eauto].
        { exists (position b). split; [constructor; left; auto|].
          assert (position a = position b) as <-; auto.
          unfold magnitude in En. apply sqrt_eq_0 in En; [|nra].
          unfold vsub in En; cbn in En. destruct (position a) as [x1 y1 z1], (position b) as [x2 y2 z2]; cbn in En. clear - En.
          pose proof (Rle_0_sqr (x2 - x1)). pose proof (Rle_0_sqr (y2 - y1)). pose proof (Rle_0_sqr (z2 - z1)).
          unfold Rsqr in *. f_equal; apply eq_sym, Rminus_diag_uniq, Rsqr_0_uniq; unfold Rsqr; lra. }
        destruct W as (_ & W & _). unfold apart in W. lra.
Qed.
End Convex.

(** * Two crossings in front of a particle outside *)
Lemma two_elements (l : list R) a b : NoDup l -> (forall t, In t l <-> t = a \/ t = b) -> a <> b -> l = [a; b] \/ l = [b; a].
Proof.
  intros N H D. assert (P : Permutation l [a; b]).
  { apply NoDup_Permutation; auto; [repeat constructor; cbn; intuition|]. intros t. rewrite H. cbn. intuition. }
  destruct l as [|u [|v [|w l]]]; apply Permutation_length in P as L; cbn in L; try lia.
  assert (u = a \/ u = b) as [->| ->] by (apply H; left; auto); assert (v = a \/ v = b) as [->| ->] by (apply H; right; left; auto); auto.
  - inversion N; subst. cbn in *. tauto.
  - inversion N; subst. cbn in *. tauto.
Qed.

(** * Box *)
Section Box_outside.
Variables (h : N) (c : vec) (x y z : R) (p d : vec).
Hypotheses (Hx : 0 < x) (Hy : 0 < y) (Hz : 0 < z) (Hd : unit d) (edges : no_edges c x y z p d).
Hypothesis Hout : x / 2 + GEOMETRY_PRECISION <= Rabs (vx p - vx c) \/ y / 2 + GEOMETRY_PRECISION <= Rabs (vy p - vy c) \/ z / 2 + GEOMETRY_PRECISION <= Rabs (vz p - vz c).

(** A point where the ray passes through a face is not between two points of the box. *)
Lemma box_between a f b e : coord f d <> 0 -> on_face c x y z (at_ p d a) f ->
  in_closed_box c x y z (at_ p d b) -> in_closed_box c x y z (at_ p d e) -> b < a -> a < e -> False.
Proof.
  intros Hf [_ Hp] (B1 & B2 & B3) (E1 & E2 & E3) L1 L2. rewrite on_plane_coord, at_coord in Hp. unfold in_closed in *. cbn in B1, B2, B3, E1, E2, E3.
  destruct f; cbn [coord plane] in *; destruct (Rdichotomy _ _ Hf); nra.
Qed.
Lemma strict_closed q : strictly_in c x y z q -> in_closed_box c x y z q.
Proof. unfold strictly_in, in_closed_box, in_closed. intuition lra. Qed.
Lemma strict_crossings t : 0 < t -> strictly_in c x y z (at_ p d t) ->
  exists a b, a < t < b /\ In a (box_hits c x y z p d) /\ In b (box_hits c x y z p d).
Proof using Hd Hout Hx Hy Hz.
  intros Ht Hin. pose proof eps_pos as HE.
  assert (Hs : forall s, s = 1 \/ s = -1 -> exists tau, 0 < tau /\ In (t + s * tau) (box_hits c x y z p d)).
  { intros s Hs. set (q0 := at_ p d t) in *.
    assert (Hsd : scale s d <> mkvec 0 0 0).
    { intros E. injection E; intros E3 E2 E1. unfold unit, dot in Hd. destruct Hs as [-> | ->]; nra. }
    destruct (exit_exists c x y z q0 (scale s d) Hin Hsd) as (tau & (T0 & Tc & (f & Tf)) & _).
    assert (Hat : forall w, at_ q0 (scale s d) w = at_ p d (t + s * w)) by (intros w; unfold q0; now rewrite <- at_shift).
    rewrite Hat in Tf.
    assert (Hpos : 0 <= t + s * tau).
    { destruct Hs as [Es | Es]; rewrite Es in *; [lra|]. destruct (Rle_lt_dec 0 (t + -1 * tau)); auto. exfalso.
      assert (Hc0 : in_closed_box c x y z (at_ p d 0)) by (replace 0 with (t + -1 * t) by ring; rewrite <- Hat; apply Tc; lra).
      pose proof (reach_time c x y z p d Hd Hout 0 ltac:(lra) Hc0). lra. }
    exists tau. split; auto. rewrite hits_spec by lra. split; [apply (reach_time c x y z p d Hd Hout); auto; apply Tf|].
    exists f. split; auto. intros E0. destruct Tf as [_ Tp]. rewrite on_plane_coord, at_coord, E0 in Tp.
    destruct Hin as (S1 & S2 & S3). pose proof (at_coord p d f t) as Hq. fold q0 in Hq. rewrite E0 in Hq. destruct f; cbn [coord plane] in *; lra. }
  destruct (Hs 1 (or_introl eq_refl)) as (t1 & T1 & I1). destruct (Hs (-1) (or_intror eq_refl)) as (t2 & T2 & I2).
  exists (t + -1 * t2), (t + 1 * t1). repeat split; auto; lra.
Qed.
Lemma box_seen_outside : is_inside (box h c x y z) p d = false /\
  ((is_infront (box h c x y z) p d = true /\ is_behind (box h c x y z) p d = false /\ exists t, 0 < t /\ strictly_in c x y z (at_ p d t)) \/
   (is_infront (box h c x y z) p d = false /\ is_behind (box h c x y z) p d = true /\ forall t, 0 < t -> ~ strictly_in c x y z (at_ p d t))).
Proof using All.
  pose proof eps_pos as HE. split; [now apply c18_outside|].
  assert (Hge : forall t, In t (box_hits c x y z p d) -> GEOMETRY_PRECISION <= t) by (intros t Ht; rewrite hits_spec in Ht by lra; tauto).
  pose proof (hits_NoDup c x y z p d ltac:(lra) ltac:(lra) ltac:(lra) edges) as HN.
  unfold is_infront, is_behind, box; cbn [g_distance_to_border]. unfold box_distance.
  destruct (box_hits c x y z p d) as [|w l] eqn:EL.
  - right. cbn [box_select]. rewrite precision_control_neg by lra. cbn. split; [deccmp; reflexivity|]. split; [deccmp; reflexivity|].
    intros t Ht Hin. destruct (strict_crossings t Ht Hin) as (a & b & _ & Ha & _). rewrite EL in Ha. destruct Ha.
  - left. rewrite <- EL in *. assert (Hw : In w (box_hits c x y z p d)) by (rewrite EL; left; auto).
    pose proof (Hge w Hw) as Hw0. rewrite hits_spec in Hw by lra. destruct Hw as (_ & f & Hf & Hon).
    destruct (interior_side c x y z p d Hx Hy Hz edges w f ltac:(lra) Hf Hon) as (e & s & He & Hs & Hint).
    assert (exists t, 0 < t /\ strictly_in c x y z (at_ p d t)) as (t & T0 & T1).
    { exists (w + s * Rmin e (w / 2)). pose proof (Rmin_l e (w/2)); pose proof (Rmin_r e (w/2)).
      assert (0 < Rmin e (w / 2)) by (apply Rmin_glb_lt; lra). split; [destruct Hs as [-> | ->]; lra|]. apply Hint. lra. }
    destruct (strict_crossings t T0 T1) as (a & b & Hab & Ha & Hb).
    assert (Hon' : forall u, In u (box_hits c x y z p d) -> (exists k, coord k d <> 0 /\ on_face c x y z (at_ p d u) k) /\ in_closed_box c x y z (at_ p d u)).
    { intros u Hu. rewrite hits_spec in Hu by lra. destruct Hu as (_ & k & K1 & K2). split; [eauto|apply K2]. }
    assert (Hall : forall u, In u (box_hits c x y z p d) <-> u = a \/ u = b).
    { intros u. split; [|intros [->| ->]; auto]. intros Hu.
      destruct (Hon' _ Ha) as [(ka & A1 & A2) A3]. destruct (Hon' _ Hb) as [(kb & B1 & B2) B3]. destruct (Hon' _ Hu) as [(ku & U1 & U2) U3].
      pose proof (strict_closed _ T1) as T2.
      destruct (Rtotal_order u a) as [L|[->|L]]; [exfalso; eapply (box_between a ka u t); eauto; lra|now left|].
      destruct (Rtotal_order u b) as [L'|[->|L']]; [exfalso; eapply (box_between u ku a b); eauto|now right|].
      exfalso; eapply (box_between b kb t u); eauto; lra. }
    pose proof (Hge a Ha). pose proof (Hge b Hb).
    assert (box_select (box_hits c x y z p d) = (a, b)) as ->.
    { destruct (two_elements _ a b HN Hall ltac:(lra)) as [-> | ->]; cbn [box_select]; deccmp; reflexivity. }
    rewrite precision_control_pos1 by auto. cbn [fst snd]. split; [deccmp; reflexivity|]. split; [deccmp; reflexivity|]. eauto.
Qed.
End Box_outside.

(** * Cylinder *)
Section Cylinder_outside.
Variables (h : N) (c : vec) (r z : R) (p d : vec).
Hypotheses (Hr : 0 < r) (Hz : 0 < z) (Hd : unit d) (Hrim : no_rim c r z p d).
Hypothesis Hout : r + GEOMETRY_PRECISION <= rho c p \/ z / 2 + GEOMETRY_PRECISION <= Rabs (vz p - vz c).

Lemma outer_is t : outer_crosses c p d r z 0 t <-> cylinder_crosses c r 0 z p d t.
Proof. unfold cylinder_crosses, outer_crosses. split; [intros [K|K]; [left|right]; tauto|]. intros [[[K|[K _]] K2]|K]; [left; auto|lra|right; auto]. Qed.
Lemma cyl_crossings t : 0 < t -> strictly_in_cyl c r z (at_ p d t) ->
  exists a b, a < t < b /\ GEOMETRY_PRECISION <= a /\ outer_crosses c p d r z 0 a /\ outer_crosses c p d r z 0 b.
Proof using Hd Hout Hr Hz.
  intros Ht Hin. pose proof eps_pos as HE.
  assert (Hs : forall s, s = 1 \/ s = -1 -> exists tau, 0 < tau /\ GEOMETRY_PRECISION <= t + s * tau /\ outer_crosses c p d r z 0 (t + s * tau)).
  { intros s Hs. set (q0 := at_ p d t) in *.
    assert (Hsd : scale s d <> mkvec 0 0 0).
    { intros E. injection E; intros E3 E2 E1. unfold unit, dot in Hd. destruct Hs as [-> | ->]; nra. }
    destruct (cyl_exit c r z q0 (scale s d) Hin Hsd) as (tau & T0 & T1 & T2).
    assert (Hat : forall w, at_ q0 (scale s d) w = at_ p d (t + s * w)) by (intros; apply at_shift').
    assert (Hpos : 0 <= t + s * tau).
    { destruct Hs as [Es | Es]; rewrite Es in *; [lra|]. destruct (Rle_lt_dec 0 (t + -1 * tau)); auto. exfalso.
      assert (K : in_closed_cyl c r z (at_ p d 0)) by (replace 0 with (t + -1 * t) by ring; rewrite <- Hat; apply T2; lra).
      pose proof (cyl_reach_time c r z p d Hr Hd Hout 0 ltac:(lra) K). lra. }
    assert (Hcr : outer_crosses c p d r z 0 (t + s * tau)).
    { unfold outer_crosses in T1 |- *. rewrite Hat in T1.
      assert (Hrad : forall q, radial c q (scale s d) = s * radial c q d) by (intros; unfold radial, scale; cbn; ring).
      rewrite Hrad in T1. cbn [scale vz] in T1.
      destruct T1 as [[T1 T1']|[T1 T1']]; [left|right]; split; auto; intros E; apply T1'; rewrite E; ring. }
    exists tau. repeat split; auto. apply (cyl_reach_time c r z p d Hr Hd Hout); auto. apply (outer_crosses_closed c p d r z Hz 0); auto. }
  destruct (Hs 1 (or_introl eq_refl)) as (t1 & T1 & I1 & J1). destruct (Hs (-1) (or_intror eq_refl)) as (t2 & T2 & I2 & J2).
  exists (t + -1 * t2), (t + 1 * t1). repeat split; auto; lra.
Qed.
Lemma cyl_seen_outside : is_inside (cylinder h c r 0 z) p d = false /\
  ((is_infront (cylinder h c r 0 z) p d = true /\ is_behind (cylinder h c r 0 z) p d = false /\ exists t, 0 < t /\ strictly_in_cyl c r z (at_ p d t)) \/
   (is_infront (cylinder h c r 0 z) p d = false /\ is_behind (cylinder h c r 0 z) p d = true /\ forall t, 0 < t -> ~ strictly_in_cyl c r z (at_ p d t))).
Proof using All.
  pose proof eps_pos as HE. split; [now apply c19_outside|].
  unfold is_infront, is_behind, cylinder. destruct (Rltb_spec r 0); [lra|]. cbn [g_distance_to_border].
  assert (Late : forall t, 0 < t -> outer_crosses c p d r z 0 t -> GEOMETRY_PRECISION <= t).
  { intros t Ht Hc. apply (cyl_reach_time c r z p d Hr Hd Hout); [lra|]. apply (outer_crosses_closed c p d r z Hz 0); auto. }
  pose proof (all_hits_spec c p d r z Hr 0 ltac:(lra)) as HA.
  destruct (all_hits c p d r z 0) as [|w l] eqn:EL.
  - right.
    assert (Hnone : forall t, 0 < t -> ~ outer_crosses c p d r z 0 t) by (intros t Ht Hc; apply (proj2 (HA t)); split; auto).
    rewrite (c19_solid c r z p d []); auto.
    + cbn. split; [deccmp; reflexivity|]. split; [deccmp; reflexivity|]. intros t Ht Hin.
      destruct (cyl_crossings t Ht Hin) as (a & b & Hab & Ha & K & _). apply (Hnone a); auto. lra.
    + split; [constructor|]. intros t. split; [intros []|]. intros [Ht K]. apply outer_is in K. now apply (Hnone t).
    + intros t [].
  - left. destruct (proj1 (HA w) (or_introl eq_refl)) as [W0 W1].
    destruct (cyl_interior_side c r z p d Hr Hz Hd Hrim w ltac:(lra) W1) as (s & u & Hs & Hu & Hin).
    assert (0 < w + s * u) as T0 by (destruct Hs as [-> | ->]; lra). set (t := w + s * u) in *.
    destruct (cyl_crossings t T0 Hin) as (a & b & Hab & Ha & Ka & Kb).
    assert (Hcl : forall v, outer_crosses c p d r z 0 v -> in_closed_cyl c r z (at_ p d v)) by (intros; apply (outer_crosses_closed c p d r z Hz 0); auto).
    assert (Ht2 : in_closed_cyl c r z (at_ p d t)) by (destruct Hin as [I1 I2]; unfold between_caps, in_closed_cyl in *; lra).
    assert (Three : forall x y w', outer_crosses c p d r z 0 y -> in_closed_cyl c r z (at_ p d x) -> in_closed_cyl c r z (at_ p d w') -> x < y -> y < w' -> False) by (intros x y w'; apply (three_cyl c p d r z 0)).
    rewrite (c19_solid c r z p d [a; b]); auto.
    + cbn. split; [deccmp; reflexivity|]. split; [deccmp; reflexivity|]. eauto.
    + split; [repeat constructor; lra|]. intros v. rewrite <- outer_is. cbn. split.
      * intros [<-|[<-|[]]]; split; auto; lra.
      * intros [V0 V1]. destruct (Rtotal_order v a) as [L|[->|L]]; [exfalso; apply (Three v a t); auto; lra|now left|].
        destruct (Rtotal_order v b) as [L'|[->|L']]; [exfalso; apply (Three a v b); auto|now right; left|].
        exfalso; apply (Three t b v); auto; lra.
    + intros v [<-|[<-|[]]]; lra.
Qed.
End Cylinder_outside.

(** * The theorems *)
Lemma interior_strict c x y z q : box_interior c x y z q <-> strictly_in c x y z q.
Proof.
  unfold box_interior, strictly_in. split.
  - intros (A & B & C). apply Rabs_def2 in A, B, C. lra.
  - intros (A & B & C). repeat split; apply Rabs_def1; lra.
Qed.
Lemma edges_tail c x y z p d s : 0 <= s -> no_edges c x y z p d -> no_edges c x y z (at_ p d s) d.
Proof. intros S H t f k T A B. rewrite at_at in A, B. apply (H (s + t)); auto. lra. Qed.
Lemma rim_tail c r z p d s : 0 <= s -> no_rim c r z p d -> no_rim c r z (at_ p d s) d.
Proof. intros S H t T A. rewrite at_at in *. apply (H (s + t)); auto. lra. Qed.
Lemma box_convex c x y z p d s t u : box_interior c x y z (at_ p d s) -> box_interior c x y z (at_ p d u) -> s <= t <= u -> box_interior c x y z (at_ p d t).
Proof.
  rewrite !interior_strict. unfold strictly_in, at_, vadd, scale; cbn. intros (A1 & A2 & A3) (B1 & B2 & B3) T.
  assert (K : forall lo hi m k, lo < m + k * s < hi -> lo < m + k * u < hi -> lo < m + k * t < hi) by (intros; destruct (Rle_lt_dec 0 k); nra).
  split; [apply K; auto|split; apply K; auto].
Qed.
Lemma cylinder_convex c r z p d s t u : cylinder_interior c r z (at_ p d s) -> cylinder_interior c r z (at_ p d u) -> s <= t <= u -> cylinder_interior c r z (at_ p d t).
Proof.
  unfold cylinder_interior. intros [A1 A2] [B1 B2] T. split.
  - rewrite rho2_at in *. pose proof (cC_pos d). set (C := cC d) in *. set (B := cB c p d) in *. set (q := rho2 c p) in *. clearbody B C q.
    destruct (Rle_lt_dec u s) as [E|E]; [assert (t = s) as -> by lra; auto|].
    assert (C * (t * t) + 2 * B * t + q - r * r = ((C * (s * s) + 2 * B * s + q - r * r) * (u - t) + (C * (u * u) + 2 * B * u + q - r * r) * (t - s)) / (u - s) - C * ((t - s) * (u - t))) as X by (field; lra).
    assert (0 <= C * ((t - s) * (u - t))) by (apply Rmult_le_pos; [auto|apply Rmult_le_pos; lra]).
    assert (((C * (s * s) + 2 * B * s + q - r * r) * (u - t) + (C * (u * u) + 2 * B * u + q - r * r) * (t - s)) / (u - s) < 0); [|lra].
    set (a := C * (s * s) + 2 * B * s + q - r * r) in *. set (b := C * (u * u) + 2 * B * u + q - r * r) in *.
    assert (a < 0) by (unfold a; lra). assert (b < 0) by (unfold b; lra). clearbody a b.
    assert (a * (u - t) + b * (t - s) < 0) by (destruct (Rle_lt_dec t s); nra).
    unfold Rdiv. assert (0 < / (u - s)) by (apply Rinv_0_lt_compat; lra). nra.
  - unfold between_caps in *. rewrite z_at in *. destruct (Rle_lt_dec 0 (vz d)); nra.
Qed.
Lemma c46_box h c x y z : 0 < x -> 0 < y -> 0 < z -> forall t, clear_of_box c x y z (tr_states t) -> tr_states t <> [] -> all_rays (no_edges c x y z) (tr_states t) ->
  exists answer, hit_geometry t (box h c x y z) = Ok answer /\ (answer = true <-> exists q, on_track (tr_states t) q /\ box_interior c x y z q).
Proof.
  intros Hx Hy Hz t HC HN [HR HU]. pose proof eps_pos as HE. unfold hit_geometry. destruct (tr_states t) as [|s0 l0] eqn:E; [contradiction|]. rewrite <- E in *. eexists. split; [reflexivity|].
  apply hit_convex with (ray := no_edges c x y z) (inner := in_open_box c x y z GEOMETRY_PRECISION)
    (outer := fun p => x / 2 + GEOMETRY_PRECISION <= Rabs (vx p - vx c) \/ y / 2 + GEOMETRY_PRECISION <= Rabs (vy p - vy c) \/ z / 2 + GEOMETRY_PRECISION <= Rabs (vz p - vz c)); auto.
  - intros p (A & B & C). unfold box_interior. lra.
  - intros p A (B & C & D). lra.
  - intros p d s. apply edges_tail.
  - intros p d s u v. apply box_convex.
  - intros p d U R I. apply c18_inside; auto.
  - intros p d U R O. destruct (box_seen_outside h c x y z p d Hx Hy Hz U R O) as [A B]. split; auto.
    destruct B as [(B1 & B2 & v & B3 & B4)|(B1 & B2 & B3)]; [left|right]; (split; [auto|]); (split; [auto|]).
    + exists v. split; auto. now apply interior_strict.
    + intros v V K. apply (B3 v V). now apply interior_strict.
Qed.
Lemma c46_cylinder h c r z : 0 < r -> 0 < z -> forall t, clear_of_cylinder c r z (tr_states t) -> tr_states t <> [] -> all_rays (no_rim c r z) (tr_states t) ->
  exists answer, hit_geometry t (cylinder h c r 0 z) = Ok answer /\ (answer = true <-> exists q, on_track (tr_states t) q /\ cylinder_interior c r z q).
Proof.
  intros Hr Hz t HC HN [HR HU]. pose proof eps_pos as HE. unfold hit_geometry. destruct (tr_states t) as [|s0 l0] eqn:E; [contradiction|]. rewrite <- E in *. eexists. split; [reflexivity|].
  apply hit_convex with (ray := no_rim c r z) (inner := in_open_cylinder c r z GEOMETRY_PRECISION)
    (outer := fun p => r + GEOMETRY_PRECISION <= rho c p \/ z / 2 + GEOMETRY_PRECISION <= Rabs (vz p - vz c)); auto.
  - intros p I. destruct I as [A B]. split.
    + pose proof (sqrt_pos (rho2 c p)) as P. fold (rho c p) in P. assert (rho c p * rho c p = rho2 c p) as <- by (apply sqrt_sqrt, rho2_pos). nra.
    + apply Rabs_le_inv in B. unfold between_caps. lra.
  - intros p A [B C]. destruct A as [A|A].
    + assert (r * r <= rho2 c p); [|lra]. apply rho_ge; lra.
    + unfold between_caps in C. revert A; unfold Rabs; destruct (Rcase_abs _); lra.
  - intros p d s. apply rim_tail.
  - intros p d s u v. apply cylinder_convex.
  - intros p d U R I. apply c19_inside; auto; lra.
  - intros p d U R O. exact (cyl_seen_outside h c r z p d Hr Hz U R O).
Qed.
(** A hollow sphere and a track that ends in its hole *)
Lemma c46_hollow : exists t g q,
  g = sphere 0 (mkvec 0 0 0) 10 5 /\ length (tr_states t) = 2%nat /\
  (forall s, In s (tr_states t) -> unit (direction s)) /\
  on_track (tr_states t) q /\ dist q (mkvec 0 0 0) = 7 /\ hit_geometry t g = Ok false.
Proof.
  set (A := mkpstate (mkvec (-20) 0 0) (mkvec 1 0 0) 100 0 0). set (B := mkpstate (mkvec 0 0 0) (mkvec 1 0 0) 90 20 20).
  pose proof eps_pos as HE. pose proof eps_small as HS.
  assert (unit (mkvec 1 0 0)) as U by (unfold unit, dot; cbn; lra).
  assert (forall a b c' k, 0 <= k -> k * k = a * a + b * b + c' * c' -> dist (mkvec a b c') (mkvec 0 0 0) = k) as D.
  { intros a b c' k K E. unfold dist, sqdist, dot, vsub; cbn. rewrite !Rminus_0_r, <- E. now apply sqrt_square. }
  exists (mktrack [A; B] [ContinuousEnergyLoss; ContinuousEnergyLoss] [0; 0]%N), (sphere 0 (mkvec 0 0 0) 10 5), (mkvec (-7) 0 0).
  split; [reflexivity|]. split; [reflexivity|]. split; [intros s [<-|[<-|[]]]; exact U|].
  assert (apart A B = 20) as AB.
  { unfold apart, magnitude, vsub; cbn. replace ((0 - -20) * (0 - -20) + (0 - 0) * (0 - 0) + (0 - 0) * (0 - 0)) with (20 * 20) by ring. apply sqrt_square; lra. }
  split; [|split; [apply D; lra|]].
  - apply (ot_way [] A B [] 13). unfold on_way. rewrite AB. cbn. lra.
  - unfold hit_geometry. cbn [tr_states]. f_equal. cbn [hit_loop].
    destruct (normalize _) as [d|] eqn:En.
    2:{ apply normalize_none in En. change (apart A B = 0) in En. lra. }
    apply heading_of in En. destruct En as [Hh P].
    assert (d = mkvec 1 0 0) as ->.
    { destruct Hh as [_ H]. rewrite AB in H. unfold at_, vadd, scale in H; cbn in H. injection H; intros. destruct d as [d1 d2 d3]; cbn in *. f_equal; lra. }
    rewrite (c17_outside 0 (mkvec 0 0 0) 10 5 (position A) (mkvec 1 0 0)); [|auto|lra|lra|left; unfold A; cbn [position]; rewrite (D (-20) 0 0 20); lra].
    rewrite (c17_outside 0 (mkvec 0 0 0) 10 5 (position B) (direction B)); [|auto|lra|lra|right; unfold B; cbn [position]; rewrite (D 0 0 0 0); lra].
    cbn [orb]. rewrite orb_false_r.
    assert (is_behind (sphere 0 (mkvec 0 0 0) 10 5) (position B) (mkvec 1 0 0) = false) as ->; [|apply andb_false_r].
    unfold is_behind, sphere. destruct (Rltb_spec 10 5); [lra|]. cbn [g_distance_to_border].
    rewrite (c17_crossings (mkvec 0 0 0) 10 5 (position B) (mkvec 1 0 0) [5; 10]); auto; try lra.
    + cbn. deccmp. reflexivity.
    + split; [repeat constructor; lra|]. intros t. unfold sphere_crosses, sphere_surface, sqdist, dot, vsub, at_, vadd, scale; cbn. split.
      * intros [<-|[<-|[]]]; lra.
      * intros [T [[K|[_ K]] _]]; [right; left; nra|left; nra].
    + intros t [<-|[<-|[]]]; lra.
Qed.
