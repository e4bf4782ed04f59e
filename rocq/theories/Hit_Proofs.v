(** Proofs about HitGeometry and GetClosestApproachPoint. *)
From Verif Require Import Prelude PreludeFacts Vec_Model Geometry_Model Propagator_Model Propagator_Spec
  Propagator_Proofs Propagate_Proofs Shapes_Model Shapes_Spec Shapes_Proofs Box_Proofs Secondaries_Model Secondaries_Spec
  Secondaries_Proofs Queries_Proofs.
From Coq Require Import Sorted.

Section Hit.
Variables (h : N) (c : vec) (r : R).
Hypothesis Hr : 0 < r.
Notation g := (sphere h c r 0).
Notation EPS := GEOMETRY_PRECISION.

Lemma solid_distance p d : g_distance_to_border g p d = sphere_distance c r 0 p d.
Proof. unfold sphere. destruct (Rltb_spec r 0); [lra|reflexivity]. Qed.

Definition quad (B A t : R) : R := t * t + 2 * B * t + A.

Lemma solid_outside p d : unit d -> r + EPS <= dist p c ->
  let B := dot (vsub p c) d in let A := sqdist p c - r * r in
  (B < 0 -> 0 < B * B - A -> is_infront g p d = true /\ is_behind g p d = false) /\
  (0 <= B \/ B * B - A <= 0 -> is_infront g p d = false /\ is_behind g p d = true).
Proof using Hr.
  intros U Ho B A. pose proof eps_pos. pose proof (dist_sq p c) as Sq.
  assert (HA : 0 < A) by (unfold A; nra).
  assert (HBD : - dist p c <= B).
  { pose proof (cauchy_schwarz_unit (vsub p c) d U) as C. fold B in C.
    change (dot (vsub p c) (vsub p c)) with (sqdist p c) in C. pose proof (dist_pos p c). nra. }
  assert (HX : forall t, sphere_crosses c r 0 p d t <-> quad B A t = 0 /\ B + t <> 0).
  { intros t. unfold sphere_crosses, sphere_surface. rewrite at_sqdist, at_dot by auto. fold B. unfold quad, A.
    split.
    - intros [[E|[E _]] N]; [|lra]. split; auto. lra.
    - intros [E N]. split; auto. left. lra. }
  split.
  - intros HB HD. set (s := sqrt (B * B - A)).
    assert (Hs : s * s = B * B - A) by (apply sqrt_sqrt; lra).
    assert (0 < s) by (apply sqrt_lt_R0; lra).
    assert (s < - B) by nra.
    assert (Hlow : EPS <= - B - s).
    { (* the first root t2 satisfies dist at t2 = r, so t2 >= dist - r >= EPS *)
      apply Rnot_lt_le; intros K.
      assert (0 < - B - s < EPS) by lra.
      set (t := - B - s) in *.
      assert (Q : t * t + 2 * B * t + A = 0) by (unfold t; nra).
      unfold A in Q. rewrite <- Sq in Q.
      assert (dist p c - t <= r) by (pose proof (dist_pos p c); nra). lra. }
    assert (E : sphere_distance c r 0 p d = (- B - s, - B + s)).
    { rewrite (c17_crossings c r 0 p d [- B - s; - B + s]); [reflexivity|auto|auto|lra| |].
      - split; [repeat constructor; lra|]. intros t. rewrite HX. unfold quad.
        pose proof (roots_spec A B t) as RS. fold s in RS. split.
        + intros K. assert (HT : t = - B - s \/ t = - B + s) by (destruct K as [K|[K|[]]]; auto).
          split; [lra|]. apply RS. split; auto. lra.
        + intros [_ K]. apply RS in K. cbn. lra.
      - intros t [<-|[<-|[]]]; lra. }
    unfold is_infront, is_behind. rewrite solid_distance, E. cbn [fst snd].
    split; deccmp; reflexivity.
  - intros HN.
    assert (E : sphere_distance c r 0 p d = (-1, -1)).
    { rewrite (c17_crossings c r 0 p d []); [reflexivity|auto|auto|lra| |intros t []].
      split; [constructor|]. intros t. split; [intros []|]. rewrite HX. unfold quad. intros [Ht K].
      pose proof (roots_spec A B t) as RS. apply RS in K. destruct K as [K1 K2].
      destruct HN as [HN|HN]; [|lra]. nra. }
    unfold is_infront, is_behind. rewrite solid_distance, E. cbn [fst snd].
    split; deccmp; reflexivity.
Qed.

Lemma on_track_cons a l q : on_track l q -> on_track (a :: l) q.
Proof. intros [s l' H|l1 a' b l2 x q' H]; [constructor; right; auto|]. apply (ot_way (a :: l1) a' b l2 x); auto. Qed.
Lemma on_track_inv a b l q : on_track (a :: b :: l) q ->
  q = position a \/ (exists x, on_way a b x q) \/ on_track (b :: l) q.
Proof.
  remember (a :: b :: l) as L eqn:EL. intros HL; revert EL. destruct HL as [s l' H|l1 a' b' l2 x q' H]; intros EL; try subst l'.
  - destruct H as [<-|H]; auto. right; right. constructor; auto.
  - destruct l1 as [|z l1]; cbn in EL.
    + injection EL as -> -> ->. eauto.
    + injection EL as -> E. right; right. rewrite <- E. apply ot_way with (x := x); auto.
Qed.

Lemma sqdist_lt q : dist q c < r <-> sqdist q c < r * r.
Proof. rewrite <- dist_sq. pose proof (dist_pos q c). split; intros; nra. Qed.

Lemma way_at a b d x q : heading a b d -> on_way a b x q -> q = at_ (position a) d x.
Proof.
  intros [_ H] (_ & P & W1 & W2 & W3). rewrite H in W1, W2, W3. unfold at_, vadd, scale in *; cbn in *.
  destruct q; cbn in *. rewrite W1, W2, W3. f_equal; field; lra.
Qed.

Lemma hit_loop_spec l : clear_of_border c r l -> l <> [] ->
  (forall l' s, l = l' ++ [s] -> unit (direction s)) ->
  (hit_loop g l = true <-> exists q, on_track l q /\ dist q c < r).
Proof using Hr.
  pose proof eps_pos as HE.
  induction l as [|a [|b l] IH]; intros HC HN HU; [contradiction| |].
  - cbn [hit_loop]. pose proof (HU [] a eq_refl) as U. split.
    + intros H. exists (position a). split; [constructor; left; auto|].
      destruct (HC a (or_introl eq_refl)) as [K|K]; [lra|].
      rewrite c17_outside in H; [discriminate|auto|auto|lra|auto].
    + intros (q & Hq & Hd). inversion Hq as [s l' Hs|l1 a' b' l2 x q' _ El]; subst.
      2:{ destruct l1 as [|? [|? ?]]; discriminate. }
      destruct Hs as [<-|[]]. apply c17_inside; auto; [lra|].
      destruct (HC a (or_introl eq_refl)); lra.
  - assert (HC' : clear_of_border c r (b :: l)) by (intros s Hs; apply HC; right; auto).
    assert (HU' : forall l' s, b :: l = l' ++ [s] -> unit (direction s)).
    { intros l' s E. apply (HU (a :: l') s). cbn; congruence. }
    specialize (IH HC' ltac:(discriminate) HU').
    change (hit_loop g (a :: b :: l)) with
      (match normalize (vsub (position b) (position a)) with
       | Some d => is_inside g (position a) d ||
                   (is_infront g (position a) d && is_behind g (position b) d) || hit_loop g (b :: l)
       | None => hit_loop g (b :: l) end).
    pose proof (HC a (or_introl eq_refl)) as Ca. pose proof (HC b (or_intror (or_introl eq_refl))) as Cb.
    destruct (normalize _) as [d|] eqn:En.
    + apply heading_of in En. destruct En as [Hh P]. pose proof (proj1 Hh) as U.
      destruct (Rle_or_lt (dist (position a) c) (r - EPS)) as [Ia|Ia].
      { rewrite c17_inside by (auto; lra). cbn [orb]. split; auto. intros _. exists (position a).
        split; [constructor; left; auto|lra]. }
      assert (Oa : r + EPS <= dist (position a) c) by (destruct Ca; lra).
      rewrite c17_outside by (auto; lra). cbn [orb].
      destruct (solid_outside (position a) d U Oa) as [SA1 SA2]. cbv zeta in SA1, SA2.
      set (B := dot (vsub (position a) c) d) in *. set (A := sqdist (position a) c - r * r) in *.
      assert (HA : 0 < A) by (unfold A; rewrite <- dist_sq; nra).
      assert (HQ : forall x, sqdist (at_ (position a) d x) c - r * r = quad B A x).
      { intros x. rewrite at_sqdist by auto. fold B. unfold quad, A. ring. }
      assert (HBb : dot (vsub (position b) c) d = B + apart a b).
      { rewrite (proj2 Hh), at_dot by auto. reflexivity. }
      assert (HAb : sqdist (position b) c - r * r = quad B A (apart a b)).
      { rewrite (proj2 Hh) at 1. apply HQ. }
      destruct (Rle_or_lt (dist (position b) c) (r - EPS)) as [Ib|Ib].
      { (* b inside *)
        assert (hit_loop g (b :: l) = true) as ->.
        { apply IH. exists (position b). split; [constructor; left; auto|lra]. }
        rewrite orb_true_r. split; auto. intros _. exists (position b). split; [constructor; right; left; auto|lra]. }
      assert (Ob : r + EPS <= dist (position b) c) by (destruct Cb; lra).
      destruct (solid_outside (position b) d U Ob) as [SB1 SB2]. cbv zeta in SB1, SB2. rewrite HBb, HAb in SB1, SB2.
      assert (HD : (B + apart a b) * (B + apart a b) - quad B A (apart a b) = B * B - A) by (unfold quad; ring).
      rewrite HD in SB1, SB2.
      assert (HqB : 0 < quad B A (apart a b)) by (rewrite <- HAb, <- dist_sq; nra).
      destruct (is_infront g (position a) d) eqn:E1; destruct (is_behind g (position b) d) eqn:E2; cbn [andb orb].
      * split; auto. intros _.
        destruct (Rlt_le_dec B 0) as [B0|B0]; [|destruct (SA2 (or_introl B0)); discriminate].
        destruct (Rlt_le_dec 0 (B * B - A)) as [D0|D0]; [|destruct (SA2 (or_intror D0)); discriminate].
        destruct (Rlt_le_dec (B + apart a b) 0) as [L0|L0]; [destruct (SB1 L0 D0); discriminate|].
        exists (at_ (position a) d (- B)). split.
        { apply (ot_way [] a b l (- B)). apply heading_way; auto. lra. }
        apply sqdist_lt. specialize (HQ (- B)). unfold quad in HQ. nra.
      * rewrite IH. split.
        { intros (q & Q1 & Q2). exists q. split; auto. apply on_track_cons; auto. }
        intros (q & Q1 & Q2). apply on_track_inv in Q1. destruct Q1 as [->|[(x & W)|Q1]]; [lra| |eauto].
        exfalso. rewrite (way_at _ _ _ _ _ Hh W) in Q2. apply sqdist_lt in Q2. specialize (HQ x).
        destruct W as (Wx & _). unfold quad in *.
        destruct (Rlt_le_dec (B + apart a b) 0) as [L0|L0].
        { nra. }
        destruct (SB2 (or_introl L0)); discriminate.
      * rewrite IH. split.
        { intros (q & Q1 & Q2). exists q. split; auto. apply on_track_cons; auto. }
        intros (q & Q1 & Q2). apply on_track_inv in Q1. destruct Q1 as [->|[(x & W)|Q1]]; [lra| |eauto].
        exfalso. rewrite (way_at _ _ _ _ _ Hh W) in Q2. apply sqdist_lt in Q2. specialize (HQ x).
        destruct W as (Wx & _). unfold quad in *.
        assert (Hq : x * x + 2 * B * x + A < 0) by lra.
        assert (HB0 : B < 0) by (clear - Hq Wx HA; nra).
        assert (HD0 : 0 < B * B - A) by (clear - Hq; pose proof (pow2_ge_0 (x + B)); nra).
        destruct (SA1 HB0 HD0); discriminate.
      * rewrite IH. split.
        { intros (q & Q1 & Q2). exists q. split; auto. apply on_track_cons; auto. }
        intros (q & Q1 & Q2). apply on_track_inv in Q1. destruct Q1 as [->|[(x & W)|Q1]]; [lra| |eauto].
        exfalso. rewrite (way_at _ _ _ _ _ Hh W) in Q2. apply sqdist_lt in Q2. specialize (HQ x).
        destruct W as (Wx & _). unfold quad in *.
        assert (Hq : x * x + 2 * B * x + A < 0) by lra.
        assert (HB0 : B < 0) by (clear - Hq Wx HA; nra).
        assert (HD0 : 0 < B * B - A) by (clear - Hq; pose proof (pow2_ge_0 (x + B)); nra).
        destruct (SA1 HB0 HD0); discriminate.
    + apply normalize_none in En. rewrite IH. split.
      * intros (q & Q1 & Q2). exists q. split; auto. apply on_track_cons; auto.
      * intros (q & Q1 & Q2). apply on_track_inv in Q1. destruct Q1 as [->|[(x & W)|Q1]]; [| |eauto].
        { (* same place *) exists (position b). split; [constructor; left; auto|].
          assert (position a = position b) as <-; auto.
          unfold magnitude in En. apply sqrt_eq_0 in En; [|nra].
          unfold vsub in En; cbn in En. destruct (position a) as [x1 y1 z1], (position b) as [x2 y2 z2]; cbn in En. clear - En.
          pose proof (Rle_0_sqr (x2 - x1)). pose proof (Rle_0_sqr (y2 - y1)). pose proof (Rle_0_sqr (z2 - z1)).
          unfold Rsqr in *. f_equal; apply eq_sym, Rminus_diag_uniq, Rsqr_0_uniq; unfold Rsqr; lra. }
        destruct W as (_ & W & _). unfold apart in W. lra.
Qed.

Lemma c46_hit t : clear_of_border c r (tr_states t) -> tr_states t <> [] ->
  (forall l s, tr_states t = l ++ [s] -> unit (direction s)) ->
  exists answer, hit_geometry t g = Ok answer /\
    (answer = true <-> exists q, on_track (tr_states t) q /\ dist q c < r).
Proof using Hr.
  intros HC HN HU. unfold hit_geometry. destruct (tr_states t) eqn:E; [contradiction|]. rewrite <- E in *.
  eexists; split; [reflexivity|]. apply hit_loop_spec; auto.
Qed.
End Hit.

(** ** Closest approach *)
Section Closest.
Variable sectors : list sector.
Variable g : geometry.
Notation c := (g_position g).
Notation RES := PARTICLE_POSITION_RESOLUTION.

Lemma straight_tail u a l : straight u (a :: l) -> straight u l.
Proof. intros [U H]. split; auto. intros l1 a' b l2 E. apply (H (a :: l1) a' b l2). cbn; congruence. Qed.

Lemma at_at p u x y : at_ (at_ p u x) u y = at_ p u (x + y).
Proof. unfold at_, vadd, scale; cbn. f_equal; ring. Qed.

Lemma apart_at a b u x : unit u -> 0 <= x -> position b = at_ (position a) u x -> apart a b = x.
Proof.
  intros U Hx E. unfold apart. rewrite E. unfold magnitude, at_, vsub, vadd, scale; cbn. unfold unit, dot in U.
  replace (_ + _ + _) with (x * x * (vx u * vx u + vy u * vy u + vz u * vz u)) by ring.
  rewrite U, Rmult_1_r. apply sqrt_square; auto.
Qed.

Lemma straight_points u a l q : straight u (a :: l) -> on_track (a :: l) q ->
  exists y, 0 <= y /\ q = at_ (position a) u y.
Proof.
  assert (H0 : forall p, p = at_ p u 0).
  { intros [x y z]. unfold at_, vadd, scale; cbn. f_equal; ring. }
  revert a. induction l as [|b l IH]; intros a HS Hq.
  - remember [a] as L eqn:EL. destruct Hq as [s l' H|l1 a' b' l2 x q' H].
    + subst l'. destruct H as [<-|[]]. exists 0. split; [lra|auto].
    + destruct l1 as [|? [|? ?]]; discriminate.
  - destruct (proj2 HS [] a b l eq_refl) as (x & Hx & Eb).
    apply on_track_inv in Hq. destruct Hq as [->|[(y & W)|Hq]].
    + exists 0. split; [lra|auto].
    + assert (Hh : heading a b u).
      { split; [apply HS|]. rewrite (apart_at a b u x (proj1 HS) Hx Eb). auto. }
      exists y. split; [apply W|]. eapply way_at; eauto.
    + destruct (IH b (straight_tail _ _ _ HS) Hq) as (y & Hy & ->). exists (x + y). split; [lra|].
      rewrite Eb. apply at_at.
Qed.

Lemma sqdist_line p u y : unit u ->
  sqdist (at_ p u y) c = sqdist p c - dot (vsub c p) u * dot (vsub c p) u + (y - dot (vsub c p) u) * (y - dot (vsub c p) u).
Proof.
  intros U. rewrite at_sqdist by auto.
  replace (dot (vsub p c) u) with (- dot (vsub c p) u) by (unfold dot, vsub; cbn; ring). ring.
Qed.

Lemma c47_closest u l r : straight u l -> closest_loop sectors g l = Ok r ->
  forall q, on_track l q -> sqdist (position r) c <= sqdist q c + RES * RES.
Proof.
  assert (HR : 0 < RES) by (unfold PARTICLE_POSITION_RESOLUTION; apply Rinv_0_lt_compat, pow_lt; lra).
  induction l as [|a [|b l] IH]; intros HS H q Hq.
  - discriminate.
  - cbn in H. injection H as <-. destruct (straight_points u a [] q HS Hq) as (y & Hy & E).
    remember [a] as L eqn:EL. destruct Hq as [s l' H|l1 a' b' l2 x q' H].
    + subst l'. destruct H as [<-|[]]. nra.
    + destruct l1 as [|? [|? ?]]; discriminate.
  - change (closest_loop sectors g (a :: b :: l)) with
      (match normalize (vsub (position b) (position a)) with
       | Some d =>
         let x := distance_to_closest_approach g (position a) d in
         if Rabs (x - apart a b) <=? RES then Ok b
         else if x <? apart a b then
           if x <? RES then Ok a else re_propagate_distance sectors a d x
         else closest_loop sectors g (b :: l)
       | None => closest_loop sectors g (b :: l) end) in H.
    specialize (IH (straight_tail _ _ _ HS)). pose proof (proj1 HS) as U.
    destruct (straight_points u a (b :: l) q HS Hq) as (y & Hy & Eq).
    destruct (proj2 HS [] a b l eq_refl) as (L & HL & Eb).
    pose proof (apart_at a b u L U HL Eb) as EL. rewrite EL in H.
    destruct (normalize _) as [d|] eqn:En.
    + assert (Hh : heading a b u) by (split; [auto|rewrite EL; auto]).
      pose proof (heading_unique _ _ _ _ En Hh) as <-.
      apply heading_of in En. destruct En as [_ P]. rewrite EL in P.
      unfold distance_to_closest_approach in H. cbv zeta in H.
      pose proof (sqdist_line (position a) u) as SL. set (x := dot (vsub c (position a)) u) in *.
      assert (Sb : sqdist (position b) c = sqdist (position a) c - x * x + (L - x) * (L - x)) by (rewrite Eb; apply SL; auto).
      assert (Sq : sqdist q c = sqdist (position a) c - x * x + (y - x) * (y - x)) by (rewrite Eq; apply SL; auto).
      destruct (Rleb_spec (Rabs (x - L)) RES) as [K1|K1].
      { injection H as <-. rewrite Sb, Sq. apply Rabs_le_inv in K1.
        assert ((L - x) * (L - x) <= RES * RES) by nra. pose proof (Rle_0_sqr (y - x)); unfold Rsqr in *; lra. }
      destruct (Rltb_spec x L) as [K2|K2].
      * destruct (Rltb_spec x RES) as [K3|K3].
        { injection H as <-. rewrite Sq.
          assert (x * x <= (y - x) * (y - x) + RES * RES).
          { destruct (Rle_or_lt x 0); [|assert (x * x <= RES * RES) by nra; pose proof (Rle_0_sqr (y - x)); unfold Rsqr in *; lra].
            assert (x * x <= (y - x) * (y - x)) by nra. nra. }
          lra. }
        apply re_propagate_distance_spec with (b := b) in H; auto; [|lra|lra].
        assert (Er : position r = at_ (position a) u x) by (eapply way_at; [exact Hh|apply H]).
        rewrite Er, SL, Sq by auto. pose proof (Rle_0_sqr (y - x)); unfold Rsqr in *. nra.
      * apply on_track_inv in Hq. destruct Hq as [E|[(z & W)|Hq]].
        { specialize (IH H (position b) ltac:(constructor; left; auto)). subst q. rewrite Sb in IH.
          assert ((L - x) * (L - x) <= x * x) by nra. lra. }
        { specialize (IH H (position b) ltac:(constructor; left; auto)). rewrite Sb in IH.
          assert (z = y).
          { pose proof (way_at _ _ _ _ _ Hh W) as E2. rewrite E2 in Eq. unfold at_, vadd, scale in Eq. injection Eq as A1 A2 A3.
            unfold unit, dot in U.
            assert ((z - y) * (vx u * vx u + vy u * vy u + vz u * vz u) = 0).
            { replace ((z - y) * (vx u * vx u + vy u * vy u + vz u * vz u)) with
                ((vx u * z - vx u * y) * vx u + (vy u * z - vy u * y) * vy u + (vz u * z - vz u * y) * vz u) by ring.
              replace (vx u * z - vx u * y) with 0 by lra. replace (vy u * z - vy u * y) with 0 by lra.
              replace (vz u * z - vz u * y) with 0 by lra. ring. }
            rewrite U in H0. lra. }
          subst z. destruct W as (W & _). rewrite EL in W. rewrite Sq.
          assert ((L - x) * (L - x) <= (y - x) * (y - x)) by nra. lra. }
        { apply IH; auto. }
    + apply normalize_none in En. change (apart a b = 0) in En. rewrite En in EL. rewrite <- EL in *. clear EL.
      apply on_track_inv in Hq. destruct Hq as [E|[(z & W)|Hq]]; auto.
      { apply IH; auto. rewrite E. replace (position a) with (position b); [constructor; left; auto|].
        rewrite Eb. unfold at_, vadd, scale; destruct (position a); cbn; f_equal; ring. }
      { destruct W as (_ & W & _). lra. }
Qed.
End Closest.

Lemma c47_refuted :
  exists t g, forall sectors, exists r s,
    get_closest_approach_point sectors t g = Ok r /\ In s (tr_states t) /\
    sqdist (position s) (g_position g) + 9 <= sqdist (position r) (g_position g).
Proof.
  set (A := mkpstate (mkvec 0 0 0) (mkvec 1 0 0) 100 0 0).
  set (B := mkpstate (mkvec 1 0 0) (mkvec 0 1 0) 90 1 1).
  set (C := mkpstate (mkvec 1 5 0) (mkvec 0 1 0) 80 6 6).
  exists (mktrack [A; B; C] [ContinuousEnergyLoss; Brems; ContinuousEnergyLoss] [0; 0; 0]%N), (sphere 0 (mkvec (-1) 5 0) 1 0).
  intros sectors. exists A, C. split; [|split; [cbn; auto|]].
  - unfold get_closest_approach_point. cbn [tr_states closest_loop A B position].
    unfold normalize, magnitude, vsub; cbn [vx vy vz].
    replace ((1 - 0) * (1 - 0) + (0 - 0) * (0 - 0) + (0 - 0) * (0 - 0)) with 1 by ring. rewrite sqrt_1.
    replace (1 =? 0) with false by (symmetry; apply Reqb_false; lra).
    unfold distance_to_closest_approach, sphere, dot, vsub. cbn [vx vy vz].
    destruct (Rltb_spec 1 0); [lra|]. cbn [g_position vx vy vz].
    set (x := (-1 - 0) * ((1 - 0) / 1) + (5 - 0) * ((0 - 0) / 1) + (0 - 0) * ((0 - 0) / 1)).
    assert (Hx : x = -1) by (unfold x; field).
    rewrite Hx. assert (HR : 0 < PARTICLE_POSITION_RESOLUTION < 1).
    { unfold PARTICLE_POSITION_RESOLUTION. lra. }
    rewrite Rabs_left by lra. deccmp. reflexivity.
  - unfold sphere. destruct (Rltb_spec 1 0); [lra|]. unfold sqdist, dot, vsub; cbn. lra.
Qed.
