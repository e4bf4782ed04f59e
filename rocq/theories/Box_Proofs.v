From Verif Require Import Prelude PreludeFacts Vec_Model Geometry_Model Shapes_Model Shapes_Spec Shapes_Proofs.
From Coq Require Import Sorted Arith Permutation.

Lemma fresh_between (L : list R) a b : a < b -> exists x, a < x < b /\ ~ In x L.
Proof.
  revert a b; induction L as [|y L IH]; intros a b Hab.
  - exists ((a + b) / 2); split; [lra|auto].
  - destruct (Rle_lt_dec y ((a + b) / 2)).
    + destruct (IH ((a + b) / 2) b ltac:(lra)) as (x & Hx & Hn).
      exists x; split; [lra|]. intros [->|H]; [lra|auto].
    + destruct (IH a ((a + b) / 2) ltac:(lra)) as (x & Hx & Hn).
      exists x; split; [lra|]. intros [->|H]; [lra|auto].
Qed.

Section Box.
Variables (c : vec) (x y z : R) (p d : vec).
Hypotheses (Hx : 0 <= x) (Hy : 0 <= y) (Hz : 0 <= z).

Definition coord (f : face) (v : vec) : R :=
  match f with XP | XN => vx v | YP | YN => vy v | ZP | ZN => vz v end.
Definition plane (f : face) : R :=
  match f with
  | XP => vx c + 1/2 * x | XN => vx c - 1/2 * x
  | YP => vy c + 1/2 * y | YN => vy c - 1/2 * y
  | ZP => vz c + 1/2 * z | ZN => vz c - 1/2 * z
  end.
Definition in_x t := within (vx c - 1/2 * x) (vx c + 1/2 * x) (vx p + t * vx d).
Definition in_y t := within (vy c - 1/2 * y) (vy c + 1/2 * y) (vy p + t * vy d).
Definition in_z t := within (vz c - 1/2 * z) (vz c + 1/2 * z) (vz p + t * vz d).
Definition others (f : face) (t : R) : bool :=
  match f with
  | XP | XN => in_y t && in_z t
  | YP | YN => in_x t && in_z t
  | ZP | ZN => in_x t && in_y t
  end.
Definition hitlist (f : face) : list R := box_plane (plane f) (coord f p) (coord f d) (others f).
Definition faces := [XP; XN; YP; YN; ZP; ZN].

Lemma box_hits_flat : box_hits c x y z p d = flat_map hitlist faces.
Proof. cbn [flat_map faces]. rewrite app_nil_r. reflexivity. Qed.

Lemma within_spec lo hi a : within lo hi a = true <-> in_closed lo hi a.
Proof. unfold within, in_closed. rewrite andb_true_iff, !Rleb_true. tauto. Qed.

Lemma box_plane_spec pl p0 d0 ins t :
  In t (box_plane pl p0 d0 ins) <->
  GEOMETRY_PRECISION <= t /\ d0 <> 0 /\ p0 + t * d0 = pl /\ ins t = true.
Proof.
  pose proof eps_pos. unfold box_plane.
  destruct (Reqb_spec d0 0) as [E|E]; cbn [negb].
  - split; [intros []|tauto].
  - set (t0 := (pl - p0) / d0).
    assert (Ht0 : forall s, p0 + s * d0 = pl <-> s = t0).
    { intros s; split; intros Hs.
      - unfold t0; rewrite <- Hs; field; auto.
      - subst s; unfold t0; field; auto. }
    destruct (Rltb_spec 0 (snap t0)) as [Hp|Hp].
    + assert (Hs : snap t0 = t0 /\ GEOMETRY_PRECISION <= t0).
      { revert Hp; unfold snap. destruct (Rltb_spec 0 t0); cbn; [|lra].
        destruct (Rltb_spec t0 GEOMETRY_PRECISION); cbn; lra. }
      destruct Hs as [-> Hge].
      destruct (ins t0) eqn:Ei; cbn.
      * split.
        -- intros [<-|[]]. rewrite Ht0. auto.
        -- intros (_ & _ & H1 & _). rewrite Ht0 in H1. auto.
      * split; [intros []|]. intros (_ & _ & H1 & H2). rewrite Ht0 in H1. congruence.
    + split; [intros []|]. intros (H1 & _ & H2 & _). rewrite Ht0 in H2. subst t.
      rewrite snap_resolved in Hp; lra.
Qed.

Lemma box_plane_NoDup pl p0 d0 ins : NoDup (box_plane pl p0 d0 ins).
Proof.
  unfold box_plane. destruct (negb _); [|constructor]. destruct (0 <? _); [|constructor].
  destruct (ins _); repeat constructor; auto.
Qed.

Lemma at_coord f t : coord f (at_ p d t) = coord f p + t * coord f d.
Proof. destruct f; cbn; ring. Qed.

Lemma closed_box_in t :
  in_closed_box c x y z (at_ p d t) <-> in_x t = true /\ in_y t = true /\ in_z t = true.
Proof.
  unfold in_closed_box, in_x, in_y, in_z. rewrite !within_spec. cbn.
  replace (1 / 2 * x) with (x / 2) by field. replace (1 / 2 * y) with (y / 2) by field.
  replace (1 / 2 * z) with (z / 2) by field.
  rewrite (Rmult_comm (vx d) t), (Rmult_comm (vy d) t), (Rmult_comm (vz d) t). tauto.
Qed.

Lemma on_plane_coord q f : on_plane c x y z q f <-> coord f q = plane f.
Proof. destruct f; cbn; split; intros; lra. Qed.

Lemma hit_spec f t :
  In t (hitlist f) <-> GEOMETRY_PRECISION <= t /\ coord f d <> 0 /\ on_face c x y z (at_ p d t) f.
Proof.
  unfold hitlist. rewrite box_plane_spec. unfold on_face. rewrite on_plane_coord, at_coord, closed_box_in.
  split; intros (H1 & H2 & H3); repeat split; try tauto.
  all: try (destruct H3 as [H3 H4]; destruct f; cbn in H4; rewrite andb_true_iff in H4; try tauto;
            unfold in_x, in_y, in_z; rewrite within_spec; unfold in_closed; cbn in H3; lra).
  destruct H3 as ((A & B & C) & _); destruct f; cbn; rewrite andb_true_iff; auto.
Qed.

Lemma hits_spec t :
  In t (box_hits c x y z p d) <->
  GEOMETRY_PRECISION <= t /\ exists f, coord f d <> 0 /\ on_face c x y z (at_ p d t) f.
Proof.
  rewrite box_hits_flat, in_flat_map. split.
  - intros (f & _ & H). rewrite hit_spec in H. destruct H as (H1 & H2 & H3). split; eauto.
  - intros (H1 & f & H2 & H3). exists f; split; [destruct f; cbn; tauto|]. rewrite hit_spec; auto.
Qed.

Lemma NoDup_flat_map_disj {A B} (g : A -> list B) l :
  NoDup l -> (forall a, In a l -> NoDup (g a)) ->
  (forall a b t, In a l -> In b l -> In t (g a) -> In t (g b) -> a = b) -> NoDup (flat_map g l).
Proof.
  induction 1 as [|a l Ha Hl IH]; intros H1 H2; cbn; [constructor|].
  assert (NoDup (g a)) as Hg by (apply H1; left; auto).
  assert (NoDup (flat_map g l)) as Hf.
  { apply IH; intros; [apply H1; right; auto|eapply H2; eauto; right; auto]. }
  assert (Hd : forall t, In t (g a) -> ~ In t (flat_map g l)).
  { intros t Ht Hin. apply in_flat_map in Hin. destruct Hin as (b & Hb & Htb).
    apply Ha. rewrite (H2 a b t); auto; [left; auto|right; auto]. }
  induction Hg as [|t l' Ht Hg' IHg]; cbn; auto.
  constructor.
  - rewrite in_app_iff; intros [?|?]; [auto|]. eapply Hd; [left; reflexivity|auto].
  - apply IHg. intros; apply Hd; right; auto.
Qed.

Hypothesis edges : no_edges c x y z p d.

Lemma hits_NoDup : NoDup (box_hits c x y z p d).
Proof using edges Hx Hy Hz.
  rewrite box_hits_flat. apply NoDup_flat_map_disj.
  - unfold faces; repeat constructor; cbn; intuition discriminate.
  - intros; apply box_plane_NoDup.
  - intros f g t _ _ Hf Hg. rewrite hit_spec in Hf, Hg.
    destruct Hf as (H1 & _ & H2), Hg as (_ & _ & H3). pose proof eps_pos. apply (edges t); auto; lra.
Qed.

(** If a face is met while the direction is parallel to it, a whole interval
    lies on the surface. *)
Lemma not_parallel L f t :
  crossing_list (box_crosses c x y z p d) L -> 0 < t -> on_face c x y z (at_ p d t) f -> coord f d <> 0.
Proof using edges.
  intros [_ HL] Ht Hf Hd.
  assert (Hstrict : forall g, g <> f -> coord g (at_ p d t) <> plane g).
  { intros g Hg E. apply Hg. apply (edges t); auto. split; [apply Hf|]. rewrite on_plane_coord; auto. }
  assert (Hb := proj1 Hf). assert (Hpl := proj2 Hf). rewrite on_plane_coord in Hpl.
  assert (Hint : forall a b lo hi, lo < a < hi -> exists e, 0 < e /\ forall s, 0 <= s <= e -> lo <= a + s * b <= hi).
  { intros a b lo hi Ha. set (m := Rmin (a - lo) (hi - a)).
    assert (0 < m) by (unfold m; apply Rmin_glb_lt; lra).
    assert (m <= a - lo) by apply Rmin_l. assert (m <= hi - a) by apply Rmin_r.
    exists (m / (Rabs b + 1)). pose proof (Rabs_pos b).
    split; [apply Rdiv_lt_0_compat; lra|]. intros s Hs.
    assert (s * Rabs b <= m).
    { apply Rle_trans with (m / (Rabs b + 1) * (Rabs b + 1)).
      - apply Rmult_le_compat; try lra.
      - right; field; lra. }
    assert (Rabs (s * b) <= m) by (rewrite Rabs_mult, (Rabs_pos_eq s); lra).
    apply Rabs_le_inv in H4. lra. }
  (* an interval of parameters on the face *)
  assert (exists e, 0 < e /\ forall s, 0 <= s <= e -> on_face c x y z (at_ p d (t + s)) f) as (e & He & Hon).
  { assert (Ho : forall s g, coord g (at_ p d (t + s)) = coord g (at_ p d t) + s * coord g d)
      by (intros s g; rewrite !at_coord; ring).
    destruct Hb as (B1 & B2 & B3). unfold in_closed in *.
    assert (Hc : forall g h lo hi, 
        (lo = plane g /\ hi = plane h \/ lo = plane h /\ hi = plane g) ->
        coord g = coord h ->
        lo <= coord g (at_ p d t) <= hi -> g <> f -> h <> f ->
        exists e, 0 < e /\ forall s, 0 <= s <= e -> lo <= coord g (at_ p d (t + s)) <= hi).
    { intros g h lo hi Hlh Hgh Hin Hg Hh.
      destruct (Hint (coord g (at_ p d t)) (coord g d) lo hi) as (e & He & H).
      - pose proof (Hstrict g Hg). pose proof (Hstrict h Hh). rewrite <- Hgh in *. lra.
      - exists e; split; auto. intros s Hs. rewrite Ho. auto. }
    assert (Hown : forall s, coord f (at_ p d (t + s)) = coord f (at_ p d t)) by (intros; rewrite Ho, Hd; ring).
    destruct f.
    all: first
      [ destruct (Hc YP YN (vy c - y/2) (vy c + y/2)) as (e1 & He1 & K1); [cbn; lra|reflexivity|cbn in *; lra|discriminate|discriminate|];
        destruct (Hc ZP ZN (vz c - z/2) (vz c + z/2)) as (e2 & He2 & K2); [cbn; lra|reflexivity|cbn in *; lra|discriminate|discriminate|]
      | destruct (Hc XP XN (vx c - x/2) (vx c + x/2)) as (e1 & He1 & K1); [cbn; lra|reflexivity|cbn in *; lra|discriminate|discriminate|];
        destruct (Hc ZP ZN (vz c - z/2) (vz c + z/2)) as (e2 & He2 & K2); [cbn; lra|reflexivity|cbn in *; lra|discriminate|discriminate|]
      | destruct (Hc XP XN (vx c - x/2) (vx c + x/2)) as (e1 & He1 & K1); [cbn; lra|reflexivity|cbn in *; lra|discriminate|discriminate|];
        destruct (Hc YP YN (vy c - y/2) (vy c + y/2)) as (e2 & He2 & K2); [cbn; lra|reflexivity|cbn in *; lra|discriminate|discriminate|] ];
      exists (Rmin e1 e2); (split; [apply Rmin_glb_lt; auto|]);
      intros s Hs; pose proof (Rmin_l e1 e2); pose proof (Rmin_r e1 e2);
      specialize (K1 s ltac:(lra)); specialize (K2 s ltac:(lra)); specialize (Hown s);
      cbn [coord] in K1, K2, Hown, Hpl;
      (split; [unfold in_closed_box, in_closed; rewrite ?Hown; tauto|rewrite on_plane_coord; cbn [coord]; congruence]). }
  destruct (fresh_between L t (t + e) ltac:(lra)) as (u & Hu & Hn).
  apply Hn. apply HL. split; [lra|]. exists f. replace u with (t + (u - t)) by ring. apply Hon; lra.
Qed.

Lemma three_crossings L a b e :
  crossing_list (box_crosses c x y z p d) L -> In a L -> In b L -> In e L -> a < b -> b < e -> False.
Proof using edges.
  intros HL Ha Hb He Hab Hbe.
  assert (HL2 := proj2 HL).
  apply HL2 in Ha, Hb, He. destruct Ha as (A0 & fa & A1 & _), Hb as (B0 & f & Bf), He as (E0 & fe & E1 & _).
  pose proof (not_parallel L f b HL B0 Bf) as Hd.
  destruct Bf as [_ Bp]. rewrite on_plane_coord, at_coord in Bp.
  assert (Hrange : forall t, in_closed_box c x y z (at_ p d t) ->
     match f with
     | XP | YP | ZP => coord f p + t * coord f d <= plane f
     | _ => plane f <= coord f p + t * coord f d
     end).
  { intros t (H1 & H2 & H3). unfold in_closed in *. rewrite <- at_coord. destruct f; cbn [coord plane]; lra. }
  pose proof (Hrange _ A1). pose proof (Hrange _ E1).
  destruct f; destruct (Rdichotomy _ _ Hd); nra.
Qed.

Lemma c18_crossings L :
  crossing_list (box_crosses c x y z p d) L -> resolvable L ->
  box_distance c x y z p d = encode L.
Proof using edges Hx Hy Hz.
  intros HL HR. pose proof eps_pos as HE.
  assert (HP : Permutation (box_hits c x y z p d) L).
  { apply NoDup_Permutation; [apply hits_NoDup| |].
    - destruct HL as [HS _]. clear HR. induction HS as [|a l HS IH Ha]; constructor; auto.
      rewrite Forall_forall in Ha. intros Hin. specialize (Ha _ Hin). lra.
    - intros t. rewrite hits_spec. destruct HL as [HS HL2]. split.
      + intros (H1 & f & _ & H3). apply HL2. split; [lra|exists f; auto].
      + intros Ht. split; [apply HR; auto|]. pose proof Ht as Ht'. apply HL2 in Ht'. destruct Ht' as (H0 & f & Hf).
        exists f; split; auto. eapply not_parallel; eauto. split; eauto. }
  assert (HS := proj1 HL).
  unfold box_distance.
  destruct L as [|a [|b [|e L]]].
  - apply Permutation_sym, Permutation_nil in HP. rewrite HP. cbn. apply precision_control_neg; lra.
  - apply Permutation_sym, Permutation_length_1_inv in HP. rewrite HP. cbn.
    apply precision_control_pos2; [apply HR; left; auto|lra].
  - inversion HS as [|? ? HS' HF]; subst. inversion HF; subst.
    assert (GEOMETRY_PRECISION <= a) by (apply HR; left; auto).
    assert (GEOMETRY_PRECISION <= b) by (apply HR; right; left; auto).
    apply Permutation_sym, Permutation_length_2_inv in HP.
    destruct HP as [-> | ->]; cbn; rcases; try lra; apply precision_control_pos1; auto.
  - exfalso. inversion HS as [|? ? HS' HF]; subst. inversion HS' as [|? ? HS'' HF']; subst.
    inversion HF; inversion HF'; subst.
    eapply three_crossings with (a := a) (b := b) (e := e); eauto; cbn; auto.
Qed.
End Box.

(** * Exit from the interior *)
Definition strictly_in (c : vec) (x y z : R) (q : vec) : Prop :=
  vx c - x / 2 < vx q < vx c + x / 2 /\ vy c - y / 2 < vy q < vy c + y / 2 /\ vz c - z / 2 < vz q < vz c + z / 2.

Lemma axis_exit lo hi a b :
  lo < a < hi -> b <> 0 ->
  exists tau, 0 < tau /\ (forall t, 0 <= t <= tau -> lo <= a + t * b <= hi) /\
    (a + tau * b = hi \/ a + tau * b = lo) /\
    (forall e, Rabs b <= 1 -> lo + e <= a <= hi - e -> e <= tau).
Proof.
  intros Ha Hb. destruct (Rlt_le_dec 0 b) as [P|P].
  - exists ((hi - a) / b).
    assert (0 < (hi - a) / b) by (apply Rdiv_lt_0_compat; lra).
    assert (Hm : (hi - a) / b * b = hi - a) by (field; lra).
    split; auto. split; [|split].
    + intros t Ht. assert (0 <= t * b) by nra. assert (t * b <= (hi - a) / b * b) by nra. lra.
    + left; lra.
    + intros e Hb1 He. rewrite Rabs_pos_eq in Hb1 by lra.
      destruct (Rle_lt_dec e ((hi - a) / b)); auto. exfalso. nra.
  - assert (b < 0) by lra. exists ((lo - a) / b).
    assert (Hm : (lo - a) / b * b = lo - a) by (field; lra).
    assert (0 < (lo - a) / b) by nra.
    split; auto. split; [|split].
    + intros t Ht. assert (t * b <= 0) by nra. assert ((lo - a) / b * b <= t * b) by nra. lra.
    + right; lra.
    + intros e Hb1 He. rewrite Rabs_left in Hb1 by lra.
      destruct (Rle_lt_dec e ((lo - a) / b)); auto. exfalso. nra.
Qed.

Section Exit.
Variables (c : vec) (x y z : R) (p d : vec).

Definition exit_time (tau : R) : Prop :=
  0 < tau /\ (forall t, 0 <= t <= tau -> in_closed_box c x y z (at_ p d t)) /\
  (exists f, on_face c x y z (at_ p d tau) f).

Lemma exit_exists :
  strictly_in c x y z p -> d <> mkvec 0 0 0 -> exists tau, exit_time tau /\
   (forall e, Rabs (vx d) <= 1 -> Rabs (vy d) <= 1 -> Rabs (vz d) <= 1 -> 
     in_open_box c x y z e p -> e <= tau).
Proof.
  intros (Sx & Sy & Sz) Hd.
  assert (AX : forall lo hi a b, lo < a < hi ->
    (b = 0) \/ exists tau, 0 < tau /\ (forall t, 0 <= t <= tau -> lo <= a + t * b <= hi) /\
      (a + tau * b = hi \/ a + tau * b = lo) /\ (forall e, Rabs b <= 1 -> lo + e <= a <= hi - e -> e <= tau)).
  { intros lo hi a b Ha. destruct (Req_dec b 0); [left; auto|right; apply axis_exit; auto]. }
  assert (ABS : forall a m h e, Rabs (a - m) <= h - e -> m - h + e <= a <= m + h - e).
  { intros a m h e H. apply Rabs_le_inv in H. lra. }
  pose proof (AX _ _ _ (vx d) Sx) as HX. pose proof (AX _ _ _ (vy d) Sy) as HY. pose proof (AX _ _ _ (vz d) Sz) as HZ.
  clear AX.
  (* choose the smallest exit time *)
  assert (exists tau, 0 < tau /\
      (forall t, 0 <= t <= tau -> vx c - x/2 <= vx p + t * vx d <= vx c + x/2) /\
      (forall t, 0 <= t <= tau -> vy c - y/2 <= vy p + t * vy d <= vy c + y/2) /\
      (forall t, 0 <= t <= tau -> vz c - z/2 <= vz p + t * vz d <= vz c + z/2) /\
      ((vx p + tau * vx d = vx c + x/2 \/ vx p + tau * vx d = vx c - x/2) \/
       (vy p + tau * vy d = vy c + y/2 \/ vy p + tau * vy d = vy c - y/2) \/
       (vz p + tau * vz d = vz c + z/2 \/ vz p + tau * vz d = vz c - z/2)) /\
      (forall e, Rabs (vx d) <= 1 -> Rabs (vy d) <= 1 -> Rabs (vz d) <= 1 -> in_open_box c x y z e p -> e <= tau))
    as (tau & T0 & TX & TY & TZ & TB & TE).
  { assert (Zr : forall lo hi a b, lo < a < hi -> b = 0 -> forall t, lo <= a + t * b <= hi)
      by (intros; subst; lra).
    destruct HX as [HX|(tx & X1 & X2 & X3 & X4)], HY as [HY|(ty & Y1 & Y2 & Y3 & Y4)], HZ as [HZ|(tz & Z1 & Z2 & Z3 & Z4)].
    - exfalso; apply Hd. destruct d; cbn in *; subst; auto.
    - exists tz; (split; [assumption|]); (split; [intros; first [apply Zr; assumption|apply X2; lra]|]);
        (split; [intros; first [apply Zr; assumption|apply Y2; lra]|]); (split; [intros; first [apply Zr; assumption|apply Z2; lra]|]); (split; [tauto|]).
      intros e _ _ H1 (_ & _ & H2). apply Z4; [assumption|apply ABS in H2; lra].
    - exists ty; (split; [assumption|]); (split; [intros; first [apply Zr; assumption|apply X2; lra]|]);
        (split; [intros; first [apply Zr; assumption|apply Y2; lra]|]); (split; [intros; first [apply Zr; assumption|apply Z2; lra]|]); (split; [tauto|]).
      intros e _ H1 _ (_ & H2 & _). apply Y4; [assumption|apply ABS in H2; lra].
    - destruct (Rle_lt_dec ty tz).
      + exists ty; (split; [assumption|]); (split; [intros; first [apply Zr; assumption|apply X2; lra]|]);
        (split; [intros; first [apply Zr; assumption|apply Y2; lra]|]); (split; [intros; first [apply Zr; assumption|apply Z2; lra]|]); (split; [tauto|]).
        intros e _ H1 _ (_ & H2 & _). apply Y4; [assumption|apply ABS in H2; lra].
      + exists tz; (split; [assumption|]); (split; [intros; first [apply Zr; assumption|apply X2; lra]|]);
        (split; [intros; first [apply Zr; assumption|apply Y2; lra]|]); (split; [intros; first [apply Zr; assumption|apply Z2; lra]|]); (split; [tauto|]).
        intros e _ _ H1 (_ & _ & H2). apply Z4; [assumption|apply ABS in H2; lra].
    - exists tx; (split; [assumption|]); (split; [intros; first [apply Zr; assumption|apply X2; lra]|]);
        (split; [intros; first [apply Zr; assumption|apply Y2; lra]|]); (split; [intros; first [apply Zr; assumption|apply Z2; lra]|]); (split; [tauto|]).
      intros e H1 _ _ (H2 & _ & _). apply X4; [assumption|apply ABS in H2; lra].
    - destruct (Rle_lt_dec tx tz).
      + exists tx; (split; [assumption|]); (split; [intros; first [apply Zr; assumption|apply X2; lra]|]);
        (split; [intros; first [apply Zr; assumption|apply Y2; lra]|]); (split; [intros; first [apply Zr; assumption|apply Z2; lra]|]); (split; [tauto|]).
        intros e H1 _ _ (H2 & _ & _). apply X4; [assumption|apply ABS in H2; lra].
      + exists tz; (split; [assumption|]); (split; [intros; first [apply Zr; assumption|apply X2; lra]|]);
        (split; [intros; first [apply Zr; assumption|apply Y2; lra]|]); (split; [intros; first [apply Zr; assumption|apply Z2; lra]|]); (split; [tauto|]).
        intros e _ _ H1 (_ & _ & H2). apply Z4; [assumption|apply ABS in H2; lra].
    - destruct (Rle_lt_dec tx ty).
      + exists tx; (split; [assumption|]); (split; [intros; first [apply Zr; assumption|apply X2; lra]|]);
        (split; [intros; first [apply Zr; assumption|apply Y2; lra]|]); (split; [intros; first [apply Zr; assumption|apply Z2; lra]|]); (split; [tauto|]).
        intros e H1 _ _ (H2 & _ & _). apply X4; [assumption|apply ABS in H2; lra].
      + exists ty; (split; [assumption|]); (split; [intros; first [apply Zr; assumption|apply X2; lra]|]);
        (split; [intros; first [apply Zr; assumption|apply Y2; lra]|]); (split; [intros; first [apply Zr; assumption|apply Z2; lra]|]); (split; [tauto|]).
        intros e _ H1 _ (_ & H2 & _). apply Y4; [assumption|apply ABS in H2; lra].
    - destruct (Rle_lt_dec tx ty).
      + destruct (Rle_lt_dec tx tz).
        * exists tx; (split; [assumption|]); (split; [intros; first [apply Zr; assumption|apply X2; lra]|]);
        (split; [intros; first [apply Zr; assumption|apply Y2; lra]|]); (split; [intros; first [apply Zr; assumption|apply Z2; lra]|]); (split; [tauto|]).
          intros e H1 _ _ (H2 & _ & _). apply X4; [assumption|apply ABS in H2; lra].
        * exists tz; (split; [assumption|]); (split; [intros; first [apply Zr; assumption|apply X2; lra]|]);
        (split; [intros; first [apply Zr; assumption|apply Y2; lra]|]); (split; [intros; first [apply Zr; assumption|apply Z2; lra]|]); (split; [tauto|]).
          intros e _ _ H1 (_ & _ & H2). apply Z4; [assumption|apply ABS in H2; lra].
      + destruct (Rle_lt_dec ty tz).
        * exists ty; (split; [assumption|]); (split; [intros; first [apply Zr; assumption|apply X2; lra]|]);
        (split; [intros; first [apply Zr; assumption|apply Y2; lra]|]); (split; [intros; first [apply Zr; assumption|apply Z2; lra]|]); (split; [tauto|]).
          intros e _ H1 _ (_ & H2 & _). apply Y4; [assumption|apply ABS in H2; lra].
        * exists tz; (split; [assumption|]); (split; [intros; first [apply Zr; assumption|apply X2; lra]|]);
        (split; [intros; first [apply Zr; assumption|apply Y2; lra]|]); (split; [intros; first [apply Zr; assumption|apply Z2; lra]|]); (split; [tauto|]).
          intros e _ _ H1 (_ & _ & H2). apply Z4; [assumption|apply ABS in H2; lra]. }
  exists tau; split; auto. split; auto.
  assert (Hcl : forall t, 0 <= t <= tau -> in_closed_box c x y z (at_ p d t)).
  { intros t Ht. unfold in_closed_box, in_closed; cbn.
    rewrite (Rmult_comm (vx d) t), (Rmult_comm (vy d) t), (Rmult_comm (vz d) t). auto. }
  split; auto. unfold on_face.
  destruct TB as [[E|E]|[[E|E]|[E|E]]];
    [exists XP|exists XN|exists YP|exists YN|exists ZP|exists ZN];
    (split; [apply Hcl; lra|cbn; lra]).
Qed.

(** After leaving from the interior the ray never meets the box again. *)
Lemma exit_unique tau t :
  strictly_in c x y z p -> exit_time tau -> 0 < t -> (exists f, on_face c x y z (at_ p d t) f) -> t = tau.
Proof.
  intros (Sx & Sy & Sz) (T0 & Tc & (f & Tf)) Ht (g & Hg).
  assert (Hlin : forall f0 a b, 0 < a -> a < b -> on_face c x y z (at_ p d a) f0 -> in_closed_box c x y z (at_ p d b) -> False).
  { intros f0 a b Ha Hab [_ Hp] (K1 & K2 & K3). unfold in_closed in *. cbn in *.
    destruct f0; cbn in Hp; nra. }
  destruct (Rtotal_order t tau) as [H|[H|H]]; auto; exfalso.
  - eapply Hlin with (a := t) (b := tau); eauto. apply Tf.
  - eapply Hlin with (a := tau) (b := t); eauto. apply Hg.
Qed.
End Exit.

Lemma c18_inside h c x y z p d :
  unit d -> in_open_box c x y z GEOMETRY_PRECISION p -> no_edges c x y z p d ->
  is_inside (box h c x y z) p d = true.
Proof.
  intros Hd Hin Hed. pose proof eps_pos as HE.
  assert (Hs : strictly_in c x y z p).
  { destruct Hin as (H1 & H2 & H3). apply Rabs_le_inv in H1, H2, H3. unfold strictly_in. lra. }
  assert (Hne : d <> mkvec 0 0 0).
  { intros ->. unfold unit, dot in Hd; cbn in Hd. lra. }
  assert (Hb : forall a, a * a <= 1 -> Rabs a <= 1).
  { intros a Ha. apply Rabs_le. nra. }
  destruct (exit_exists c x y z p d Hs Hne) as (tau & Hex & HEt).
  assert (HEt' : GEOMETRY_PRECISION <= tau).
  { unfold unit, dot in Hd. apply HEt; auto; apply Hb; nra. }
  assert (HL : crossing_list (box_crosses c x y z p d) [tau]).
  { split; [repeat constructor|]. intros t; split.
    - intros [<-|[]]. destruct Hex as (T0 & _ & Hf). split; auto.
    - intros [Ht Hc]. left. symmetry. eapply exit_unique; eauto. }
  unfold is_inside, box; cbn [g_distance_to_border].
  destruct Hs as (S1 & S2 & S3).
  rewrite (c18_crossings c x y z p d) with (L := [tau]); auto; try lra.
  - cbn. destruct (Rltb_spec 0 tau); [|lra]. destruct (Rltb_spec (-1) 0); [|lra]. reflexivity.
  - intros t [<-|[]]; auto.
Qed.


Ltac deccmp :=
  repeat match goal with
  | |- context [Rltb ?a ?b] =>
      first [ replace (Rltb a b) with true by (symmetry; apply Rltb_true; lra)
            | replace (Rltb a b) with false by (symmetry; apply Rltb_false; lra) ]
  | |- context [Rleb ?a ?b] =>
      first [ replace (Rleb a b) with true by (symmetry; apply Rleb_true; lra)
            | replace (Rleb a b) with false by (symmetry; apply Rleb_false; lra) ]
  | |- context [Reqb ?a ?b] =>
      first [ replace (Reqb a b) with true by (symmetry; apply Reqb_true; lra)
            | replace (Reqb a b) with false by (symmetry; apply Reqb_false; lra) ]
  end; cbn [andb orb negb].


(** * Outside *)
Section Outside.
Variables (c : vec) (x y z : R) (p d : vec).
Hypotheses (Hx : 0 < x) (Hy : 0 < y) (Hz : 0 < z) (Hd : unit d) (edges : no_edges c x y z p d).

Lemma near a b lo hi : lo < a < hi -> exists e, 0 < e /\ forall s, Rabs s <= e -> lo < a + s * b < hi.
Proof.
  intros Ha. set (m := Rmin (a - lo) (hi - a)).
  assert (0 < m) by (unfold m; apply Rmin_glb_lt; lra).
  assert (m <= a - lo) by apply Rmin_l. assert (m <= hi - a) by apply Rmin_r.
  pose proof (Rabs_pos b).
  exists (m / 2 / (Rabs b + 1)).
  split; [apply Rdiv_lt_0_compat; lra|]. intros s Hs.
  assert (Rabs s * Rabs b <= m / 2).
  { pose proof (Rabs_pos s). apply Rle_trans with (m / 2 / (Rabs b + 1) * (Rabs b + 1)).
    - apply Rmult_le_compat; lra.
    - right; field; lra. }
  rewrite <- Rabs_mult in H3. apply Rabs_le_inv in H3. lra.
Qed.

Lemma at_shift t s k : at_ p d (t + k * s) = at_ (at_ p d t) (scale k d) s.
Proof. unfold at_, vadd, scale; cbn. f_equal; ring. Qed.

Lemma d_nonzero : d <> mkvec 0 0 0.
Proof using Hd. intros E. unfold unit, dot in Hd. rewrite E in Hd; cbn in Hd. lra. Qed.

(** From a proper crossing one side of the border is the interior. *)
Lemma interior_side a f :
  0 < a -> coord f d <> 0 -> on_face c x y z (at_ p d a) f ->
  exists e s, 0 < e /\ (s = 1 \/ s = -1) /\ forall u, 0 < u <= e -> strictly_in c x y z (at_ p d (a + s * u)).
Proof using edges Hx Hy Hz.
  intros Ha Hf Hon.
  assert (Hstrict : forall g, g <> f -> coord g (at_ p d a) <> plane c x y z g).
  { intros g Hg E. apply Hg. apply (edges a); auto. split; [apply Hon|]. rewrite on_plane_coord; auto. }
  destruct Hon as ((B1 & B2 & B3) & Hp). unfold in_closed in *.
  assert (Hco : forall g u, coord g (at_ p d (a + u)) = coord g (at_ p d a) + u * coord g d).
  { intros g u. rewrite !at_coord. ring. }
  rewrite on_plane_coord in Hp.
  assert (exists s, (s = 1 \/ s = -1) /\ s * coord f d * (match f with XP | YP | ZP => 1 | _ => -1 end) < 0) as (s & Hs & Hsd).
  { destruct (Rdichotomy _ _ Hf); destruct f; (exists 1; split; [auto|lra]) || (exists (-1); split; [auto|lra]). }
  assert (Ho : forall g h lo hi, coord g = coord h -> lo = plane c x y z h -> hi = plane c x y z g ->
     lo <= coord g (at_ p d a) <= hi -> g <> f -> h <> f ->
     exists e, 0 < e /\ forall u, Rabs u <= e -> lo < coord g (at_ p d (a + u)) < hi).
  { intros g h lo hi Hgh Hlo Hhi Hr Hg Hh.
    destruct (near (coord g (at_ p d a)) (coord g d) lo hi) as (e & He & H).
    - pose proof (Hstrict g Hg). pose proof (Hstrict h Hh). rewrite <- Hgh in *. lra.
    - exists e; split; auto. intros u Hu. rewrite Hco. auto. }
  assert (Hs1 : forall u, 0 < u -> Rabs (s * u) = u).
  { intros u Hu. rewrite Rabs_mult, (Rabs_pos_eq u) by lra. destruct Hs as [-> | ->]; [rewrite Rabs_R1|rewrite Rabs_left by lra]; ring. }
  (* own axis *)
  assert (Hown : forall lo hi, 0 < hi - lo ->
     coord f (at_ p d a) = (match f with XP | YP | ZP => hi | _ => lo end) ->
     exists e, 0 < e /\ forall u, 0 < u <= e -> lo < coord f (at_ p d (a + s * u)) < hi).
  { intros lo hi Hlh Hc. set (k := Rabs (coord f d)).
    assert (0 < k) by (apply Rabs_pos_lt; auto).
    exists ((hi - lo) / 2 / k). split; [apply Rdiv_lt_0_compat; lra|]. intros u Hu.
    assert (0 < u * k) by nra.
    assert (u * k <= (hi - lo) / 2).
    { apply Rle_trans with ((hi - lo) / 2 / k * k); [nra|right; field; lra]. }
    assert (Hsu : s * u * coord f d = - (u * k) * (match f with XP | YP | ZP => 1 | _ => -1 end)).
    { unfold k. destruct (Rdichotomy _ _ Hf) as [N|N]; [rewrite Rabs_left by auto|rewrite Rabs_pos_eq by lra];
      destruct Hs as [-> | ->]; destruct f; lra. }
    rewrite Hco, Hsu, Hc. destruct f; lra. }
  cbn [coord plane] in *.
  destruct f; cbn [coord plane] in *.
  all: first
    [ destruct (Ho YP YN (vy c - y/2) (vy c + y/2)) as (e1 & He1 & K1); [reflexivity|cbn; lra|cbn; lra|cbn in *; lra|discriminate|discriminate|];
      destruct (Ho ZP ZN (vz c - z/2) (vz c + z/2)) as (e2 & He2 & K2); [reflexivity|cbn; lra|cbn; lra|cbn in *; lra|discriminate|discriminate|]
    | destruct (Ho XP XN (vx c - x/2) (vx c + x/2)) as (e1 & He1 & K1); [reflexivity|cbn; lra|cbn; lra|cbn in *; lra|discriminate|discriminate|];
      destruct (Ho ZP ZN (vz c - z/2) (vz c + z/2)) as (e2 & He2 & K2); [reflexivity|cbn; lra|cbn; lra|cbn in *; lra|discriminate|discriminate|]
    | destruct (Ho XP XN (vx c - x/2) (vx c + x/2)) as (e1 & He1 & K1); [reflexivity|cbn; lra|cbn; lra|cbn in *; lra|discriminate|discriminate|];
      destruct (Ho YP YN (vy c - y/2) (vy c + y/2)) as (e2 & He2 & K2); [reflexivity|cbn; lra|cbn; lra|cbn in *; lra|discriminate|discriminate|] ].
  all: first
    [ destruct (Hown (vx c - x/2) (vx c + x/2)) as (e3 & He3 & K3); [lra|lra|]
    | destruct (Hown (vy c - y/2) (vy c + y/2)) as (e3 & He3 & K3); [lra|lra|]
    | destruct (Hown (vz c - z/2) (vz c + z/2)) as (e3 & He3 & K3); [lra|lra|] ].
  all: exists (Rmin (Rmin e1 e2) e3), s; (split; [repeat apply Rmin_glb_lt; auto|]); (split; [auto|]);
    intros u Hu; pose proof (Rmin_l e1 e2); pose proof (Rmin_r e1 e2);
    pose proof (Rmin_l (Rmin e1 e2) e3); pose proof (Rmin_r (Rmin e1 e2) e3);
    specialize (K1 (s * u)); specialize (K2 (s * u)); specialize (K3 u);
    rewrite Hs1 in K1, K2 by lra;
    specialize (K1 ltac:(lra)); specialize (K2 ltac:(lra)); specialize (K3 ltac:(lra));
    cbn [coord] in K1, K2, K3; unfold strictly_in; tauto.
Qed.

(** p is outside by at least the geometry precision along some axis. *)
Hypothesis Hout :
  x / 2 + GEOMETRY_PRECISION <= Rabs (vx p - vx c) \/
  y / 2 + GEOMETRY_PRECISION <= Rabs (vy p - vy c) \/
  z / 2 + GEOMETRY_PRECISION <= Rabs (vz p - vz c).

Lemma reach_time t : 0 <= t -> in_closed_box c x y z (at_ p d t) -> GEOMETRY_PRECISION <= t.
Proof using Hout Hd.
  pose proof eps_pos.
  intros Ht (B1 & B2 & B3). unfold in_closed in *. cbn in *.
  assert (Hb : forall a, a * a <= 1 -> -1 <= a <= 1) by (intros; nra).
  unfold unit, dot in Hd.
  assert (H1 := Hb (vx d) ltac:(nra)). assert (H2 := Hb (vy d) ltac:(nra)). assert (H3 := Hb (vz d) ltac:(nra)).
  destruct Hout as [Ho|[Ho|Ho]]; revert Ho; unfold Rabs; destruct (Rcase_abs _); intros; nra.
Qed.

Lemma c18_outside_hits a : box_hits c x y z p d <> [a].
Proof using Hout Hd edges Hx Hy Hz.
  pose proof eps_pos as HE. intros Hh.
  assert (Hin : In a (box_hits c x y z p d)) by (rewrite Hh; left; auto).
  rewrite hits_spec in Hin by lra. destruct Hin as (Ha & f & Hf & Hon).
  destruct (interior_side a f ltac:(lra) Hf Hon) as (e & s & He & Hs & Hint).
  assert (He' : exists u, 0 < u <= e /\ u < a).
  { exists (Rmin e (a / 2)). pose proof (Rmin_l e (a/2)); pose proof (Rmin_r e (a/2)).
    split; [split; auto; apply Rmin_glb_lt; lra|lra]. }
  destruct He' as (u & Hu & Hua). specialize (Hint u Hu).
  set (q0 := at_ p d (a + s * u)) in *.
  assert (Hsd : scale s d <> mkvec 0 0 0).
  { intros E. apply d_nonzero. unfold scale in E. injection E; intros. 
    assert (s <> 0) by (destruct Hs; lra). destruct d as [d1 d2 d3]; cbn in *. 
    f_equal; eapply Rmult_eq_reg_r; [rewrite Rmult_0_l; eassumption|auto| | | |]; [rewrite Rmult_0_l; eassumption|auto|rewrite Rmult_0_l; eassumption|auto]. }
  destruct (exit_exists c x y z q0 (scale s d) Hint Hsd) as (tau & (T0 & Tc & (g & Tg)) & _).
  assert (Hat : forall w, at_ q0 (scale s d) w = at_ p d (a + s * (u + w))).
  { intros w. unfold q0. rewrite <- at_shift. f_equal. ring. }
  rewrite Hat in Tg.
  assert (Hpos : 0 <= a + s * (u + tau)).
  { destruct Hs as [Es | Es]; rewrite Es in *; [lra|].
    destruct (Rle_lt_dec 0 (a + -1 * (u + tau))); auto. exfalso.
    assert (Hc0 : in_closed_box c x y z (at_ p d 0)).
    { replace 0 with (a + -1 * (u + (a - u))) by ring. rewrite <- Hat. apply Tc. lra. }
    pose proof (reach_time 0 ltac:(lra) Hc0). lra. }
  assert (Hge : GEOMETRY_PRECISION <= a + s * (u + tau)).
  { apply reach_time; auto. apply Tg. }
  assert (Hdg : coord g d <> 0).
  { intros E0. destruct Tg as [_ Tp]. rewrite on_plane_coord, at_coord, E0 in Tp.
    destruct Hint as (S1 & S2 & S3). unfold q0 in S1, S2, S3.
    pose proof (at_coord p d g (a + s * u)) as Hq. rewrite E0 in Hq.
    destruct g; cbn [coord plane] in *; lra. }
  assert (Hin2 : In (a + s * (u + tau)) (box_hits c x y z p d)).
  { rewrite hits_spec by lra. split; auto. exists g; auto. }
  rewrite Hh in Hin2. destruct Hin2 as [E|[]]. destruct Hs as [Es | Es]; rewrite Es in *; lra.
Qed.
End Outside.

Lemma c18_outside h c x y z p d :
  0 < x -> 0 < y -> 0 < z -> unit d -> no_edges c x y z p d ->
  x / 2 + GEOMETRY_PRECISION <= Rabs (vx p - vx c) \/
  y / 2 + GEOMETRY_PRECISION <= Rabs (vy p - vy c) \/
  z / 2 + GEOMETRY_PRECISION <= Rabs (vz p - vz c) ->
  is_inside (box h c x y z) p d = false.
Proof.
  intros Hx Hy Hz Hd Hed Hout. pose proof eps_pos as HE.
  unfold is_inside, box; cbn [g_distance_to_border]. unfold box_distance.
  assert (Hge : forall t, In t (box_hits c x y z p d) -> GEOMETRY_PRECISION <= t).
  { intros t Ht. rewrite hits_spec in Ht by lra. tauto. }
  pose proof (hits_NoDup c x y z p d ltac:(lra) ltac:(lra) ltac:(lra) Hed) as HN.
  pose proof (c18_outside_hits c x y z p d Hx Hy Hz Hd Hed Hout) as H1.
  destruct (box_hits c x y z p d) as [|a [|b [|e [|? ?]]]]; cbn [box_select].
  - rewrite precision_control_neg by lra. cbn. deccmp. reflexivity.
  - exfalso. eapply H1; reflexivity.
  - assert (GEOMETRY_PRECISION <= a) by (apply Hge; left; auto).
    assert (GEOMETRY_PRECISION <= b) by (apply Hge; right; left; auto).
    destruct (Rltb_spec b a); rewrite precision_control_pos1 by auto; cbn [fst snd]; deccmp; reflexivity.
  - destruct (Reqb_spec a b) as [E|E].
    + exfalso. subst b. inversion HN; subst. cbn in *; tauto.
    + cbn [andb]. rewrite precision_control_neg by lra. cbn. deccmp. reflexivity.
  - rewrite precision_control_neg by lra. cbn. deccmp. reflexivity.
Qed.

(** Two edge cases that the code gets wrong. *)
Lemma eps_small : GEOMETRY_PRECISION < 1.
Proof. unfold GEOMETRY_PRECISION. assert (1 < 10 ^ 9) by lra. rewrite <- Rinv_1. apply Rinv_lt_contravar; lra. Qed.

Lemma box_hits_edge_inside :
  box_hits (mkvec 0 0 0) 6 8 2 (mkvec 0 0 0) (mkvec (3/5) (4/5) 0) = [5; 5].
Proof.
  pose proof eps_small. pose proof eps_pos.
  unfold box_hits, box_plane, within; cbn [vx vy vz].
  replace ((0 + 1 / 2 * 6 - 0) / (3 / 5)) with 5 by field.
  replace ((0 - 1 / 2 * 6 - 0) / (3 / 5)) with (-5) by field.
  replace ((0 + 1 / 2 * 8 - 0) / (4 / 5)) with 5 by field.
  replace ((0 - 1 / 2 * 8 - 0) / (4 / 5)) with (-5) by field.
  rewrite (snap_resolved 5), (snap_nonpos (-5)) by lra.
  deccmp. reflexivity.
Qed.

Lemma box_hits_edge_outside :
  box_hits (mkvec 0 0 0) 6 8 2 (mkvec (-6) (-8) 0) (mkvec (3/5) (4/5) 0) = [15; 5; 15; 5].
Proof.
  pose proof eps_small. pose proof eps_pos.
  unfold box_hits, box_plane, within; cbn [vx vy vz].
  replace ((0 + 1 / 2 * 6 - -6) / (3 / 5)) with 15 by field.
  replace ((0 - 1 / 2 * 6 - -6) / (3 / 5)) with 5 by field.
  replace ((0 + 1 / 2 * 8 - -8) / (4 / 5)) with 15 by field.
  replace ((0 - 1 / 2 * 8 - -8) / (4 / 5)) with 5 by field.
  rewrite (snap_resolved 5), (snap_resolved 15) by lra.
  deccmp. reflexivity.
Qed.

Lemma c18_edge_inside_refuted :
  let b := box 0 (mkvec 0 0 0) 6 8 2 in
  exists p d, unit d /\ in_open_box (mkvec 0 0 0) 6 8 2 1 p /\
    g_distance_to_border b p d = (5, 5) /\ is_inside b p d = false /\ get_location b p d = InfrontGeometry.
Proof.
  intros b. exists (mkvec 0 0 0), (mkvec (3/5) (4/5) 0).
  pose proof eps_small.
  assert (E : g_distance_to_border b (mkvec 0 0 0) (mkvec (3/5) (4/5) 0) = (5, 5)).
  { subst b. cbn [g_distance_to_border box]. unfold box_distance. rewrite box_hits_edge_inside.
    cbn [box_select]. deccmp. apply precision_control_pos1; lra. }
  split; [unfold unit, dot; cbn; lra|].
  split; [unfold in_open_box; cbn; rewrite !Rminus_0_r, Rabs_R0; lra|].
  split; auto. unfold get_location, is_infront, is_inside. rewrite E. cbn [fst snd]. deccmp. auto.
Qed.

Lemma c18_edge_outside_refuted :
  let b := box 0 (mkvec 0 0 0) 6 8 2 in
  exists p d t, unit d /\ 0 < t /\ in_open_box (mkvec 0 0 0) 6 8 2 1 (at_ p d t) /\
    g_distance_to_border b p d = (-1, -1) /\ get_location b p d = BehindGeometry.
Proof.
  intros b. exists (mkvec (-6) (-8) 0), (mkvec (3/5) (4/5) 0), 10.
  pose proof eps_small. pose proof eps_pos.
  assert (E : g_distance_to_border b (mkvec (-6) (-8) 0) (mkvec (3/5) (4/5) 0) = (-1, -1)).
  { subst b. cbn [g_distance_to_border box]. unfold box_distance. rewrite box_hits_edge_outside.
    cbn [box_select]. apply precision_control_neg; lra. }
  split; [unfold unit, dot; cbn; lra|]. split; [lra|].
  split.
  { unfold in_open_box; cbn. 
    replace (-6 + 3 / 5 * 10 - 0) with 0 by field. replace (-8 + 4 / 5 * 10 - 0) with 0 by field.
    replace (0 + 0 * 10 - 0) with 0 by ring. rewrite Rabs_R0; lra. }
  split; auto. unfold get_location, is_infront, is_inside. rewrite E. cbn [fst snd]. deccmp. auto.
Qed.
