From Verif Require Import Prelude PreludeFacts Vec_Model Geometry_Model Shapes_Model Shapes_Spec.
From Coq Require Import Sorted Arith.

Lemma eps_pos : 0 < GEOMETRY_PRECISION.
Proof. unfold GEOMETRY_PRECISION; apply Rinv_0_lt_compat, pow_lt; lra. Qed.

(** * Generic facts *)
Lemma sorted_ext (L K : list R) :
  StronglySorted Rlt L -> StronglySorted Rlt K -> (forall t, In t L <-> In t K) -> L = K.
Proof.
  intros HL; revert K; induction HL as [|a L HL IH Ha]; intros K HK H.
  - destruct K as [|b K]; auto. exfalso. destruct (proj2 (H b)); left; auto.
  - destruct HK as [|b K HK Hb].
    + exfalso. destruct (proj1 (H a)); left; auto.
    + rewrite Forall_forall in Ha, Hb.
      assert (a = b).
      { destruct (proj1 (H a)) as [E|E]; [left; auto|auto|].
        destruct (proj2 (H b)) as [E'|E']; [left; auto|auto|].
        specialize (Ha _ E'); specialize (Hb _ E); lra. }
      subst b; f_equal; apply IH; auto.
      intros t; split; intros Ht.
      * destruct (proj1 (H t)) as [<-|]; [right; auto| |auto]. specialize (Ha _ Ht); lra.
      * destruct (proj2 (H t)) as [<-|]; [right; auto| |auto]. specialize (Hb _ Ht); lra.
Qed.

Lemma snap_resolved t : GEOMETRY_PRECISION <= t -> snap t = t.
Proof. intros H; unfold snap. rcases; auto; lra. Qed.
Lemma snap_nonpos t : t <= 0 -> snap t = t.
Proof. intros H; unfold snap. rcases; auto; lra. Qed.
Lemma snap_cases t : snap t = t \/ snap t = 0.
Proof. unfold snap; destruct (_ && _); auto. Qed.

Lemma precision_control_pos1 a b :
  GEOMETRY_PRECISION <= a -> GEOMETRY_PRECISION <= b -> precision_control (a, b) = (a, b).
Proof. pose proof eps_pos. intros; unfold precision_control; cbn; rcases; try lra; auto. Qed.
Lemma precision_control_pos2 a b :
  GEOMETRY_PRECISION <= a -> b < GEOMETRY_PRECISION -> precision_control (a, b) = (a, -1).
Proof. pose proof eps_pos. intros; unfold precision_control; cbn; rcases; try lra; auto. Qed.
Lemma precision_control_pos3 a b :
  a < GEOMETRY_PRECISION -> GEOMETRY_PRECISION <= b -> precision_control (a, b) = (b, -1).
Proof. pose proof eps_pos. intros; unfold precision_control; cbn; rcases; try lra; auto. Qed.
Lemma precision_control_neg a b :
  a < GEOMETRY_PRECISION -> b < GEOMETRY_PRECISION -> precision_control (a, b) = (-1, -1).
Proof. pose proof eps_pos. intros; unfold precision_control; cbn; rcases; try lra; auto. Qed.

(** Every answer is (-1,-1), (t,-1) or (t,t') with resolvable t, t'. *)
Definition well_formed (d : R * R) : Prop :=
  d = (-1, -1) \/
  (GEOMETRY_PRECISION <= fst d /\ snd d = -1) \/
  (GEOMETRY_PRECISION <= fst d /\ GEOMETRY_PRECISION <= snd d).
Lemma precision_control_wf d : well_formed (precision_control d).
Proof.
  destruct d as [a b]; unfold well_formed.
  destruct (Rle_lt_dec GEOMETRY_PRECISION a), (Rle_lt_dec GEOMETRY_PRECISION b).
  - rewrite precision_control_pos1 by auto; auto.
  - rewrite precision_control_pos2 by auto; auto.
  - rewrite precision_control_pos3 by auto; auto.
  - rewrite precision_control_neg by auto; auto.
Qed.

(** * Sphere *)
Lemma magnitude_sq a : magnitude a ^ 2 = dot a a.
Proof.
  unfold magnitude, dot. rewrite <- (pow2_sqrt (vx a * vx a + vy a * vy a + vz a * vz a)) at 2; auto. nra.
Qed.

(** Roots of t^2 + 2 B t + A. *)
Lemma roots_spec A B t :
  (t * t + 2 * B * t + A = 0 /\ B + t <> 0) <->
  (0 < B * B - A /\ (t = -1 * B + sqrt (B * B - A) \/ t = -1 * B - sqrt (B * B - A))).
Proof.
  split.
  - intros [H1 H2].
    assert (Hd : B * B - A = (B + t) * (B + t)) by nra.
    assert (0 < (B + t) * (B + t)) by nra.
    split; [lra|]. rewrite Hd. change ((B+t)*(B+t)) with (Rsqr (B+t)). rewrite sqrt_Rsqr_abs.
    unfold Rabs; destruct (Rcase_abs (B + t)); [right|left]; ring.
  - intros [Hd H]. pose proof (sqrt_lt_R0 _ Hd). pose proof (sqrt_sqrt (B * B - A) ltac:(lra)).
    set (s := sqrt _) in *. destruct H as [->| ->]; split; nra.
Qed.

Definition spos (t : R) : bool := 0 <? t.

Section SphereCore.
  Variables q B r ri : R.
  Hypothesis Hr : 0 < r.
  Hypothesis Hri : 0 <= ri < r.

  Definition core_crosses (t : R) : Prop :=
    (t * t + 2 * B * t + q = r * r \/ (0 < ri /\ t * t + 2 * B * t + q = ri * ri)) /\ B + t <> 0.

  Definition core_distance : R * R :=
    let dist := sphere_outer (q - r * r) B in
    if (fst dist <? 0) && (snd dist <? 0) then dist
    else precision_control
      (if 0 <? ri then sphere_inner (q - ri * ri) B dist else dist).

  Let det_o := B * B - (q - r * r).
  Let det_i := B * B - (q - ri * ri).
  Let o1 := -1 * B + sqrt det_o.
  Let o2 := -1 * B - sqrt det_o.
  Let i1 := -1 * B + sqrt det_i.
  Let i2 := -1 * B - sqrt det_i.

  Definition all_roots : list R :=
    if 0 <? det_o then
      if (0 <? ri) && (0 <? det_i) then [o2; i2; i1; o1] else [o2; o1]
    else [].

  Lemma det_lt : det_i < det_o.
  Proof. subst det_i det_o; nra. Qed.

  Lemma all_roots_spec t : In t all_roots <-> core_crosses t.
  Proof.
    assert (HO : (t * t + 2 * B * t + q = r * r /\ B + t <> 0) <-> 0 < det_o /\ (t = o1 \/ t = o2)).
    { subst det_o o1 o2. rewrite <- roots_spec. split; intros [H1 H2]; split; auto; lra. }
    assert (HI : (t * t + 2 * B * t + q = ri * ri /\ B + t <> 0) <-> 0 < det_i /\ (t = i1 \/ t = i2)).
    { subst det_i i1 i2. rewrite <- roots_spec. split; intros [H1 H2]; split; auto; lra. }
    pose proof det_lt as Hd.
    assert (HC : core_crosses t <-> (0 < det_o /\ (t = o1 \/ t = o2)) \/ (0 < ri /\ 0 < det_i /\ (t = i1 \/ t = i2))).
    { unfold core_crosses. rewrite <- HO. rewrite <- HI. tauto. }
    rewrite HC. unfold all_roots.
    destruct (Rltb_spec 0 det_o) as [Ho|Ho].
    - destruct (Rltb_spec 0 ri) as [Hi|Hi]; destruct (Rltb_spec 0 det_i) as [Hdi|Hdi]; cbn [andb In]; 
      intuition (try lra; auto).
    - cbn [In]. intuition lra.
  Qed.

  Lemma o_order : 0 < det_o -> o2 < o1.
  Proof. intros H; subst o1 o2; pose proof (sqrt_lt_R0 _ H); lra. Qed.
  Lemma i_order : 0 < det_i -> o2 < i2 /\ i2 < i1 /\ i1 < o1.
  Proof.
    intros H; subst o1 o2 i1 i2; pose proof (sqrt_lt_R0 _ H). pose proof det_lt.
    pose proof (sqrt_lt_1_alt det_i det_o ltac:(lra)). lra.
  Qed.

  Lemma all_roots_sorted : StronglySorted Rlt all_roots.
  Proof.
    unfold all_roots. destruct (Rltb_spec 0 det_o) as [Ho|Ho]; [|constructor].
    pose proof (o_order Ho).
    destruct (Rltb_spec 0 ri) as [Hi|Hi]; destruct (Rltb_spec 0 det_i) as [Hdi|Hdi]; cbn [andb];
      try pose proof (i_order Hdi);
      repeat (constructor; try lra).
  Qed.

  Lemma positive_crossings L :
    crossing_list core_crosses L -> L = filter spos all_roots.
  Proof.
    intros [H1 H2]. apply sorted_ext; auto.
    - pose proof all_roots_sorted as HS. induction HS as [|a l HS IH Ha]; cbn; [constructor|].
      destruct (spos a); auto. constructor; auto.
      rewrite Forall_forall in *. intros x Hx. apply Ha. apply filter_In in Hx; tauto.
    - intros t. rewrite H2, filter_In, all_roots_spec. unfold spos. rewrite Rltb_true. tauto.
  Qed.

  Let E := GEOMETRY_PRECISION.

  Lemma sphere_outer_eq : 0 < det_o -> 
    (0 < o2 -> E <= o2) -> (0 < o1 -> E <= o1) ->
    sphere_outer (q - r * r) B =
      if 0 <? o2 then (o2, o1) else if 0 <? o1 then (o1, -1) else (-1, -1).
  Proof.
    intros Hd H2 H1. pose proof (o_order Hd). pose proof eps_pos. unfold sphere_outer.
    fold det_o. fold o1 o2. destruct (Rltb_spec 0 det_o); [|lra].
    fold E in H0.
    destruct (Rltb_spec 0 o2) as [P2|P2]; [|destruct (Rltb_spec 0 o1) as [P1|P1]].
    - rewrite !snap_resolved by (fold E; lra). cbn zeta.
      destruct (Rleb_spec o1 0); [lra|]. destruct (Rleb_spec o2 0); [lra|].
      destruct (Rltb_spec o1 0); [lra|]. cbn [fst snd swap].
      destruct (Rltb_spec 0 o1); [|lra]. destruct (Rltb_spec 0 o2); [|lra]. cbn [andb].
      destruct (Rltb_spec o2 o1); [|lra]. reflexivity.
    - rewrite (snap_resolved o1) by (fold E; lra). rewrite (snap_nonpos o2) by lra. cbn zeta.
      destruct (Rleb_spec o1 0); [lra|]. destruct (Rleb_spec o2 0); [|lra].
      destruct (Rltb_spec o1 0); [lra|]. cbn [fst snd swap].
      destruct (Rltb_spec 0 o1); [|lra]. destruct (Rltb_spec 0 (-1)); [lra|]. reflexivity.
    - rewrite (snap_nonpos o1), (snap_nonpos o2) by lra. cbn zeta.
      destruct (Rleb_spec o1 0); [|lra]. destruct (Rleb_spec o2 0); [|lra].
      destruct (Rltb_spec (-1) 0); [|lra]. cbn [fst snd swap].
      destruct (Rltb_spec 0 (-1)); [lra|]. reflexivity.
  Qed.

  Lemma core_distance_spec L :
    crossing_list core_crosses L -> resolvable L -> core_distance = encode L.
  Proof.
    intros HL HR. pose proof (positive_crossings L HL) as ->.
    assert (Hres : forall t, In t all_roots -> 0 < t -> E <= t).
    { intros t Ht Hp. apply HR. apply filter_In; split; auto. unfold spos; apply Rltb_true; auto. }
    clear HL HR. pose proof eps_pos as HE. fold E in HE.
    unfold core_distance. unfold all_roots in *.
    destruct (Rltb_spec 0 det_o) as [Ho|Ho].
    2:{ assert (sphere_outer (q - r * r) B = (-1,-1)) as ->.
        { unfold sphere_outer. fold det_o. destruct (Rltb_spec 0 det_o); [lra|auto]. }
        cbn [fst snd]. destruct (Rltb_spec (-1) 0); [|lra]. reflexivity. }
    pose proof (o_order Ho) as Hoo.
    rewrite sphere_outer_eq; auto.
    2:{ intros Hp; apply Hres; auto. destruct (_ && _); cbn; auto. }
    2:{ intros Hp; apply Hres; auto. destruct (_ && _); cbn; auto. }
    destruct ((0 <? ri) && (0 <? det_i)) eqn:EI.
    - apply andb_true_iff in EI. destruct EI as [EI1 EI2]. rewrite EI1. rewrite Rltb_true in *.
      pose proof (i_order EI2) as (O1 & O2 & O3).
      pose proof (Hres o1 ltac:(cbn; auto)) as R1. pose proof (Hres o2 ltac:(cbn; auto)) as R2.
      pose proof (Hres i1 ltac:(cbn; auto)) as R3. pose proof (Hres i2 ltac:(cbn; auto)) as R4.
      clear Hres. unfold sphere_inner. fold det_i. fold i1 i2.
      destruct (Rltb_spec 0 det_i); [|lra].
      unfold filter, spos.
      destruct (Rltb_spec 0 o2) as [P|P].
      { (* outside, 4 crossings *)
        cbn [fst snd]. destruct (Rltb_spec o2 0); [lra|]. cbn [andb].
        destruct (Rltb_spec 0 o1); [|lra]. destruct (Rltb_spec 0 i1); [|lra]. destruct (Rltb_spec 0 i2); [|lra].
        rewrite !snap_resolved by (fold E; lra). cbn zeta. 
        destruct (Rltb_spec 0 o2); [|lra]. cbn [andb].
        destruct (Rltb_spec 0 i1); [|lra]. destruct (Rltb_spec 0 i2); [|lra].
        destruct (Rltb_spec i1 o1); [|lra]. cbn [andb]. destruct (Rltb_spec i2 i1); [|lra]. cbn [andb].
        rewrite precision_control_pos1 by (fold E; lra). reflexivity. }
      destruct (Rltb_spec 0 i2) as [P'|P'].
      { (* in the body, hole ahead: 3 crossings *)
        destruct (Rltb_spec 0 o1); [|lra]. destruct (Rltb_spec 0 i1); [|lra].
        cbn [fst snd]. destruct (Rltb_spec o1 0); [lra|]. cbn [andb].
        rewrite !snap_resolved by (fold E; lra). cbn zeta. 
        destruct (Rltb_spec 0 o1); [|lra]. destruct (Rltb_spec 0 (-1)); [lra|]. cbn [andb].
        destruct (Rltb_spec 0 i1); [|lra]. destruct (Rltb_spec 0 i2); [|lra]. cbn [andb].
        destruct (Rltb_spec i1 i2); [lra|]. destruct (Rltb_spec i2 0); [lra|]. destruct (Rltb_spec i1 0); [lra|].
        cbn [andb orb]. destruct (Reqb_spec i1 0); [lra|]. destruct (Reqb_spec i2 0); [lra|].
        rewrite precision_control_pos2 by (fold E; lra). reflexivity. }
      destruct (Rltb_spec 0 i1) as [P''|P''].
      { (* in the hole *)
        destruct (Rltb_spec 0 o1); [|lra].
        cbn [fst snd]. destruct (Rltb_spec o1 0); [lra|]. cbn [andb].
        rewrite (snap_resolved i1), (snap_nonpos i2) by (fold E; lra). cbn zeta. 
        destruct (Rltb_spec 0 o1); [|lra]. destruct (Rltb_spec 0 (-1)); [lra|]. cbn [andb].
        destruct (Rltb_spec 0 i1); [|lra]. destruct (Rltb_spec 0 i2); [lra|]. cbn [andb].
        destruct (Rltb_spec i1 0); [lra|]. cbn [andb orb].
        destruct (Reqb_spec i1 0); [lra|].
        destruct (Rltb_spec i2 0); cbn [andb orb fst snd].
        - destruct (Reqb_spec i2 0); [lra|].
          rewrite precision_control_pos1 by (fold E; lra). reflexivity.
        - destruct (Reqb_spec i2 0); [|lra].
          rewrite precision_control_pos1 by (fold E; lra). reflexivity. }
      destruct (Rltb_spec 0 o1) as [P3|P3].
      { (* in the body, hole behind *)
        cbn [fst snd]. destruct (Rltb_spec o1 0); [lra|]. cbn [andb].
        rewrite (snap_nonpos i1), (snap_nonpos i2) by (fold E; lra). cbn zeta. 
        destruct (Rltb_spec 0 o1); [|lra]. destruct (Rltb_spec 0 (-1)); [lra|]. cbn [andb].
        destruct (Rltb_spec 0 i1); [lra|]. destruct (Rltb_spec 0 i2); [lra|]. cbn [andb orb].
        destruct (Reqb_spec i2 0); [lra|]. 
        destruct (i1 =? 0); rewrite precision_control_pos2 by (fold E; lra); reflexivity. }
      (* behind *)
      cbn [fst snd]. destruct (Rltb_spec (-1) 0); [|lra]. reflexivity.
    - pose proof (Hres o1 ltac:(cbn; auto)) as R1. pose proof (Hres o2 ltac:(cbn; auto)) as R2. clear Hres.
      match goal with |- context [precision_control ?x] =>
        assert (Hx : x = (if 0 <? o2 then (o2, o1) else if 0 <? o1 then (o1, -1) else (-1, -1))) end.
      { destruct (Rltb_spec 0 ri) as [Hi|Hi]; auto. cbn [andb] in EI.
        unfold sphere_inner. fold det_i. rewrite EI. reflexivity. }
      rewrite Hx. clear Hx. unfold filter, spos.
      destruct (Rltb_spec 0 o2) as [P|P].
      { destruct (Rltb_spec 0 o1); [|lra]. cbn [fst snd]. destruct (Rltb_spec o2 0); [lra|]. cbn [andb].
        rewrite precision_control_pos1 by (fold E; lra). reflexivity. }
      destruct (Rltb_spec 0 o1) as [P3|P3].
      { cbn [fst snd]. destruct (Rltb_spec o1 0); [lra|]. cbn [andb].
        rewrite precision_control_pos2 by (fold E; lra). reflexivity. }
      cbn [fst snd]. destruct (Rltb_spec (-1) 0); [|lra]. reflexivity.
  Qed.

  (** Containment with a margin. *)
  Lemma core_inside :
    B * B <= q -> (ri + E) * (ri + E) <= q \/ ri = 0 -> q <= (r - E) * (r - E) -> E <= r ->
    exists t, E <= t /\ core_distance = (t, -1).
  Proof.
    intros HB Hin Hout HEr. pose proof eps_pos as HE. fold E in HE.
    assert (Ho : 0 < det_o) by (subst det_o; nra).
    pose proof (sqrt_lt_R0 _ Ho) as Hs. pose proof (sqrt_sqrt det_o ltac:(lra)) as Hss.
    set (s := sqrt det_o) in *.
    assert (H1 : E <= o1).
    { subst o1. (* o1 = -B + s; (s)^2 = B^2 - q + r^2 >= ... *)
      destruct (Rle_lt_dec E (-1 * B + s)) as [|Hlt]; auto. exfalso.
      assert (B > - E + s) by lra.
      (* s < B + E, with s^2 = B^2 + (r^2 - q); r^2 - q >= 2 r E - E^2;  |B| <= r - E *)
      assert (HBr : B <= r - E) by (apply Rnot_lt_le; intros Hc; nra).
      assert (s * s < (B + E) * (B + E)) by nra.
      subst det_o. nra. }
    assert (H2 : o2 < 0).
    { subst o2. destruct (Rlt_le_dec (-1 * B - s) 0); auto. exfalso. subst det_o. nra. }
    unfold core_distance. rewrite sphere_outer_eq; auto; [|lra].
    destruct (Rltb_spec 0 o2); [lra|]. destruct (Rltb_spec 0 o1); [|lra].
    cbn [fst snd]. destruct (Rltb_spec o1 0); [lra|]. cbn [andb].
    destruct (Rltb_spec 0 ri) as [Hi|Hi].
    2:{ exists o1; split; auto. rewrite precision_control_pos2; auto; fold E; lra. }
    destruct Hin as [Hin|Hin]; [|lra].
    unfold sphere_inner. fold det_i. destruct (Rltb_spec 0 det_i) as [Hdi|Hdi].
    2:{ exists o1; split; auto. rewrite precision_control_pos2; auto; fold E; lra. }
    fold i1 i2. pose proof (i_order Hdi) as (O1 & O2 & O3).
    pose proof (sqrt_lt_R0 _ Hdi) as Hsi. pose proof (sqrt_sqrt det_i ltac:(lra)) as Hssi.
    set (si := sqrt det_i) in *.
    (* i1 * i2 = q - ri^2 > 0: same sign *)
    assert (Hprod : i1 * i2 = q - ri * ri) by (subst i1 i2 det_i; nra).
    assert (Hpos : 0 < i1 * i2) by nra.
    cbn [fst snd]. destruct (Rltb_spec 0 (-1)); [lra|]. rewrite andb_false_r.
    destruct (Rlt_le_dec 0 i2) as [Hi2|Hi2].
    - (* hole ahead; i2 >= E *)
      assert (HBn : B < 0) by (subst i2; lra).
      assert (E <= i2).
      { subst i2. destruct (Rle_lt_dec E (-1 * B - si)); auto. exfalso.
        (* si > -B - E ; *)
        assert (Hb : ri + E <= - B \/ - B < ri + E) by lra.
        assert (si * si = B * B - q + ri * ri) by (subst det_i; lra).
        destruct Hb as [Hb|Hb].
        - assert ((- B - E) * (- B - E) < si * si) by nra. nra.
        - assert (B * B < (ri + E) * (ri + E)) by nra. nra. }
      rewrite !snap_resolved by (fold E; lra). cbn zeta.
      destruct (Rltb_spec 0 i1); [|lra]. destruct (Rltb_spec 0 i2); [|lra]. cbn [andb].
      destruct (Rltb_spec i1 i2); [lra|]. destruct (Rltb_spec i2 0); [lra|]. destruct (Rltb_spec i1 0); [lra|].
      cbn [andb orb]. destruct (Reqb_spec i1 0); [lra|]. destruct (Reqb_spec i2 0); [lra|].
      exists i2; split; auto. rewrite precision_control_pos2; auto; fold E; lra.
    - assert (i1 < 0) by nra.
      rewrite !snap_nonpos by lra. cbn zeta.
      destruct (Rltb_spec 0 i1); [lra|]. destruct (Rltb_spec 0 i2); [lra|]. cbn [andb orb].
      destruct (Reqb_spec i1 0); [lra|]. destruct (Reqb_spec i2 0); [lra|].
      exists o1; split; auto. rewrite precision_control_pos2; auto; fold E; lra.
  Qed.

  Definition core_is_inside : bool := (0 <? fst core_distance) && (snd core_distance <? 0).

  Lemma core_outside :
    B * B <= q -> (r + E) * (r + E) <= q \/ (E <= ri /\ q <= (ri - E) * (ri - E)) ->
    core_is_inside = false.
  Proof.
    intros HB Hcase. pose proof eps_pos as HE. fold E in HE.
    unfold core_is_inside, core_distance.
    destruct (Rlt_le_dec 0 det_o) as [Ho|Ho].
    2:{ assert (sphere_outer (q - r * r) B = (-1,-1)) as ->.
        { unfold sphere_outer. fold det_o. destruct (Rltb_spec 0 det_o); [lra|auto]. }
        cbn [fst snd]. destruct (Rltb_spec (-1) 0); [|lra]. cbn [andb fst snd].
        destruct (Rltb_spec 0 (-1)); [lra|]; reflexivity. }
    pose proof (o_order Ho) as Hoo.
    pose proof (sqrt_lt_R0 _ Ho) as Hs. pose proof (sqrt_sqrt det_o ltac:(lra)) as Hss.
    assert (Hprod : o1 * o2 = q - r * r) by (subst o1 o2 det_o; nra).
    destruct Hcase as [Hq|[HEi Hq]].
    - assert (0 < o1 * o2) by nra.
      destruct (Rlt_le_dec 0 o2) as [P|P].
      + assert (E <= o2).
        { subst o2. set (s := sqrt det_o) in *. destruct (Rle_lt_dec E (-1 * B - s)); auto. exfalso.
          assert (s * s = B * B - q + r * r) by (subst det_o; lra).
          destruct (Rle_lt_dec (r + E) (- B)).
          - assert ((- B - E) * (- B - E) < s * s) by nra. nra.
          - assert (B * B < (r + E) * (r + E)) by nra. nra. }
        rewrite sphere_outer_eq; auto; [|lra].
        destruct (Rltb_spec 0 o2); [|lra]. cbn [fst snd]. destruct (Rltb_spec o2 0); [lra|]. cbn [andb].
        assert (exists x, E <= x /\ (if 0 <? ri then sphere_inner (q - ri * ri) B (o2, o1) else (o2, o1)) = (o2, x)) as (x & Hx & ->).
        { destruct (Rltb_spec 0 ri) as [Hi|Hi]; [|exists o1; split; auto; lra].
          unfold sphere_inner. fold det_i. destruct (Rltb_spec 0 det_i) as [Hdi|Hdi]; [|exists o1; split; auto; lra].
          fold i1 i2. pose proof (i_order Hdi) as (O1 & O2 & O3).
          rewrite !snap_resolved by (fold E; lra). cbn [fst snd].
          destruct (Rltb_spec 0 o2); [|lra]. destruct (Rltb_spec 0 o1); [|lra]. cbn [andb].
          eexists; split; [|reflexivity].
          repeat match goal with |- context [if ?b then _ else _] => destruct b end; lra. }
        rewrite precision_control_pos1 by (fold E; lra). cbn [fst snd].
        destruct (Rltb_spec x 0); [lra|]. apply andb_false_r.
      + assert (o1 < 0) by nra.
        rewrite sphere_outer_eq by lra.
        destruct (Rltb_spec 0 o2); [lra|]. destruct (Rltb_spec 0 o1); [lra|].
        cbn [fst snd]. destruct (Rltb_spec (-1) 0); [|lra]. cbn [andb fst snd].
        destruct (Rltb_spec 0 (-1)); [lra|]; reflexivity.
    - assert (Hdi : 0 < det_i) by (subst det_i; nra).
      pose proof (i_order Hdi) as (O1 & O2 & O3).
      pose proof (sqrt_lt_R0 _ Hdi) as Hsi. pose proof (sqrt_sqrt det_i ltac:(lra)) as Hssi.
      assert (Hprodi : i1 * i2 = q - ri * ri) by (subst i1 i2 det_i; nra).
      assert (i1 * i2 < 0) by nra.
      assert (Hi2 : i2 < 0) by nra. assert (0 < i1) by nra.
      assert (E <= i1).
      { subst i1. set (si := sqrt det_i) in *. destruct (Rle_lt_dec E (-1 * B + si)); auto. exfalso.
        assert (si * si = B * B - q + ri * ri) by (subst det_i; lra).
        assert (si < B + E) by lra.
        assert (B <= ri - E) by (apply Rnot_lt_le; intros Hc; nra).
        assert (si * si < (B + E) * (B + E)) by nra. nra. }
      rewrite sphere_outer_eq by lra.
      destruct (Rltb_spec 0 o2); [lra|]. destruct (Rltb_spec 0 o1); [|lra].
      cbn [fst snd]. destruct (Rltb_spec o1 0); [lra|]. cbn [andb].
      destruct (Rltb_spec 0 ri); [|lra].
      unfold sphere_inner. fold det_i. destruct (Rltb_spec 0 det_i); [|lra]. fold i1 i2.
      rewrite (snap_resolved i1), (snap_nonpos i2) by (fold E; lra). cbn [fst snd]. cbn zeta.
      destruct (Rltb_spec 0 o1); [|lra]. destruct (Rltb_spec 0 (-1)); [lra|]. cbn [andb].
      destruct (Rltb_spec 0 i1); [|lra]. destruct (Rltb_spec 0 i2); [lra|]. cbn [andb].
      destruct (Rltb_spec i2 0); [|lra]. cbn [andb orb fst snd].
      destruct (Reqb_spec i1 0); [lra|]. destruct (Reqb_spec i2 0); [lra|].
      rewrite precision_control_pos1 by (fold E; lra). cbn [fst snd].
      destruct (Rltb_spec o1 0); [lra|]. apply andb_false_r.
  Qed.
End SphereCore.

(** Transfer to vectors. *)
Lemma sphere_distance_core c r ri p d :
  sphere_distance c r ri p d = core_distance (sqdist p c) (dot (vsub p c) d) r ri.
Proof. unfold sphere_distance, core_distance. rewrite magnitude_sq. reflexivity. Qed.

Lemma at_sqdist c p d t : unit d ->
  sqdist (at_ p d t) c = t * t + 2 * dot (vsub p c) d * t + sqdist p c.
Proof.
  unfold unit, sqdist, at_, dot, vsub, vadd, scale; destruct p as [px py pz], d as [dx dy dz], c as [cx cy cz]; cbn.
  intros H.
  replace (t * t) with (t * t * (dx * dx + dy * dy + dz * dz)) by (rewrite H; ring). ring.
Qed.
Lemma at_dot c p d t : unit d -> dot (vsub (at_ p d t) c) d = dot (vsub p c) d + t.
Proof.
  unfold unit, at_, dot, vsub, vadd, scale; destruct p as [px py pz], d as [dx dy dz], c as [cx cy cz]; cbn.
  intros H. replace t with (t * (dx * dx + dy * dy + dz * dz)) at 4 by (rewrite H; ring). ring.
Qed.
Lemma cauchy_schwarz_unit a d : unit d -> dot a d * dot a d <= dot a a.
Proof.
  unfold unit, dot; destruct a as [ax ay az], d as [dx dy dz]; cbn. intros H.
  assert (0 <= (ax * dy - ay * dx)^2 + (ay * dz - az * dy)^2 + (az * dx - ax * dz)^2)
    by (pose proof (pow2_ge_0 (ax * dy - ay * dx)); pose proof (pow2_ge_0 (ay * dz - az * dy)); pose proof (pow2_ge_0 (az * dx - ax * dz)); lra).
  replace (ax * ax + ay * ay + az * az) with ((ax * ax + ay * ay + az * az) * (dx * dx + dy * dy + dz * dz)) by (rewrite H; ring).
  nra.
Qed.

Lemma c17_crossings c r ri p d L :
  unit d -> 0 < r -> 0 <= ri < r ->
  crossing_list (sphere_crosses c r ri p d) L -> resolvable L ->
  sphere_distance c r ri p d = encode L.
Proof.
  intros Hd Hr Hri [HL1 HL2] HR. rewrite sphere_distance_core.
  apply core_distance_spec; auto. split; auto.
  intros t. rewrite HL2. unfold sphere_crosses, sphere_surface, core_crosses.
  rewrite at_sqdist, at_dot by auto. reflexivity.
Qed.

Lemma dist_sq a b : dist a b * dist a b = sqdist a b.
Proof. unfold dist. apply sqrt_sqrt. unfold sqdist, dot. nra. Qed.
Lemma dist_pos a b : 0 <= dist a b.
Proof. apply sqrt_pos. Qed.

Lemma c17_inside h c r ri p d :
  unit d -> 0 < r -> 0 <= ri < r ->
  (ri + GEOMETRY_PRECISION <= dist p c \/ ri = 0) -> dist p c <= r - GEOMETRY_PRECISION ->
  is_inside (sphere h c r ri) p d = true.
Proof.
  intros Hd Hr Hri Hin Hout. pose proof eps_pos.
  unfold is_inside, sphere. destruct (Rltb_spec r ri); [lra|]. cbn [g_distance_to_border].
  rewrite sphere_distance_core.
  pose proof (dist_sq p c). pose proof (dist_pos p c).
  destruct (core_inside (sqdist p c) (dot (vsub p c) d) r ri Hri) as (t & Ht & ->).
  - apply cauchy_schwarz_unit; auto.
  - destruct Hin; [left|right; auto]. nra.
  - nra.
  - lra.
  - cbn [fst snd]. destruct (Rltb_spec 0 t); [|lra]. destruct (Rltb_spec (-1) 0); [|lra]. reflexivity.
Qed.

Lemma c17_outside h c r ri p d :
  unit d -> 0 < r -> 0 <= ri < r ->
  r + GEOMETRY_PRECISION <= dist p c \/ dist p c <= ri - GEOMETRY_PRECISION ->
  is_inside (sphere h c r ri) p d = false.
Proof.
  intros Hd Hr Hri Hout. pose proof eps_pos.
  unfold is_inside, sphere. destruct (Rltb_spec r ri); [lra|]. cbn [g_distance_to_border].
  rewrite sphere_distance_core.
  pose proof (dist_sq p c). pose proof (dist_pos p c).
  apply (core_outside (sqdist p c) (dot (vsub p c) d) r ri Hri).
  - apply cauchy_schwarz_unit; auto.
  - destruct Hout; [left; nra|right; split; nra].
Qed.

Lemma sphere_wf c r ri p d : well_formed (sphere_distance c r ri p d).
Proof.
  unfold sphere_distance. cbn zeta.
  set (x := sphere_outer _ _).
  destruct (Rltb_spec (fst x) 0), (Rltb_spec (snd x) 0); cbn [andb]; try apply precision_control_wf.
  assert (Hx : x = (-1, -1)); [|rewrite Hx; left; auto].
  revert r0 r1. subst x. unfold sphere_outer. destruct (0 <? _); [|auto].
  cbn zeta. set (t1 := snap _). set (t2 := snap _). intros.
  destruct (Rleb_spec t1 0), (Rleb_spec t2 0);
    repeat (match goal with
            | H : context [?a <? ?b] |- _ => destruct (Rltb_spec a b)
            | |- context [?a <? ?b] => destruct (Rltb_spec a b)
            end; cbn [fst snd swap andb] in *); auto; try lra.
Qed.
