(** Every non-negative distance a shape returns leads to its surface. *)
From Verif Require Import Prelude PreludeFacts Vec_Model Geometry_Model Shapes_Model Shapes_Spec
  Shapes_Proofs Box_Proofs Cylinder_Proofs.

Section Pred.
Variable P : R -> Prop.
Definition good (x : R) : Prop := x < GEOMETRY_PRECISION \/ P x.
Definition good2 (d : R * R) : Prop := good (fst d) /\ good (snd d).

Lemma good_m1 : good (-1).
Proof. left. pose proof eps_pos. lra. Qed.

Lemma precision_control_good d : good2 d ->
  let d' := precision_control d in
  (fst d' = -1 \/ (GEOMETRY_PRECISION <= fst d' /\ P (fst d'))) /\
  (snd d' = -1 \/ (GEOMETRY_PRECISION <= snd d' /\ P (snd d'))).
Proof.
  intros [G1 G2]. cbn zeta. unfold precision_control.
  destruct (Rltb_spec (fst d) GEOMETRY_PRECISION) as [H1|H1], (Rltb_spec (snd d) GEOMETRY_PRECISION) as [H2|H2];
  cbn zeta; match goal with |- context [if ?b then _ else _] => destruct b end; cbn [fst snd];
  split; first [left; reflexivity | right; split; auto; destruct G1, G2; solve [auto | lra]].
Qed.

Lemma sphere_outer_good A B :
  (forall t, 0 < t -> (0 < B*B - A) -> t = snap (-1 * B + sqrt (B*B-A)) \/ t = snap (-1 * B - sqrt (B*B-A)) -> P t) ->
  good2 (sphere_outer A B).
Proof.
  intros H. unfold sphere_outer.
  destruct (Rltb_spec 0 (B*B-A)) as [Hd|Hd]; [|split; apply good_m1].
  cbn zeta. set (t1 := snap (-1*B + _)) in *. set (t2 := snap (-1*B - _)) in *.
  assert (G1 : good (if t1 <=? 0 then -1 else t1)).
  { destruct (Rleb_spec t1 0); [apply good_m1|right; apply H; auto; lra]. }
  assert (G2 : good (if t2 <=? 0 then -1 else t2)).
  { destruct (Rleb_spec t2 0); [apply good_m1|right; apply H; auto; lra]. }
  unfold swap, good2.
  repeat match goal with |- context [if ?b then _ else _] => destruct b; cbn [fst snd] end; auto.
Qed.

Lemma sphere_inner_good A B d : good2 d ->
  (forall t, 0 < t -> (0 < B*B - A) -> t = snap (-1 * B + sqrt (B*B-A)) \/ t = snap (-1 * B - sqrt (B*B-A)) -> P t) ->
  good2 (sphere_inner A B d).
Proof.
  intros [G1 G2] H. unfold sphere_inner.
  destruct (Rltb_spec 0 (B*B-A)) as [Hd|Hd]; [|split; auto].
  cbn zeta. set (t1 := snap (-1*B + _)) in *. set (t2 := snap (-1*B - _)) in *.
  assert (H1 : 0 < t1 -> good t1) by (intros; right; apply H; auto).
  assert (H2 : 0 < t2 -> good t2) by (intros; right; apply H; auto).
  clear H Hd. revert H1 H2. generalize t1 t2. clear t1 t2. intros t1 t2 H1 H2.
  unfold good2.
  destruct (Rltb_spec 0 t1) as [P1|P1], (Rltb_spec 0 t2) as [P2|P2]; cbn [andb orb];
  try specialize (H1 P1); try specialize (H2 P2);
  repeat match goal with |- context [if ?b then _ else _] => destruct b; cbn [fst snd] end; auto.
Qed.

Lemma cylinder_inner_good in_z in_body t1 t2 d : good2 d ->
  (0 < t1 -> in_z t1 = true -> P t1) -> (0 < t2 -> in_z t2 = true -> P t2) ->
  good2 (cylinder_inner in_z in_body t1 t2 d).
Proof.
  intros [G1 G2] H1 H2. unfold cylinder_inner, good2.
  assert (K1 : 0 < t1 -> in_z t1 = true -> good t1) by (right; auto).
  assert (K2 : 0 < t2 -> in_z t2 = true -> good t2) by (right; auto). clear H1 H2.
  destruct (Rltb_spec 0 t1) as [P1|P1], (Rltb_spec 0 t2) as [P2|P2]; cbn [andb orb];
  destruct (in_z t1) eqn:Z1, (in_z t2) eqn:Z2; cbn [andb orb]; rewrite ?andb_true_r, ?andb_false_r;
  try specialize (K1 P1 eq_refl); try specialize (K2 P2 eq_refl);
  repeat match goal with |- context [if ?b then _ else _] => destruct b; cbn [fst snd] end; auto.
Qed.

Lemma box_select_good l : (forall t, In t l -> P t) -> good2 (box_select l).
Proof.
  intros H. destruct l as [|a [|b [|e [|? ?]]]]; cbn [box_select].
  - split; apply good_m1.
  - split; [right; apply H; cbn; auto|apply good_m1].
  - destruct (b <? a); split; right; apply H; cbn; auto.
  - destruct (_ && _); split; try apply good_m1. right; apply H; cbn; auto.
  - split; apply good_m1.
Qed.
Lemma cylinder_select_good l : (forall t, In t l -> P t) -> good2 (cylinder_select l).
Proof.
  intros H. pose proof eps_pos. destruct l as [|a [|b [|e ?]]]; cbn [cylinder_select].
  - split; apply good_m1.
  - split; [right; apply H; cbn; auto|apply good_m1].
  - destruct (b <? a); split; right; apply H; cbn; auto.
  - split; left; cbn; lra.
Qed.
End Pred.

Lemma sphere_roots_good c r p d t : unit d -> 0 < t ->
  let A := sqdist p c - r * r in let B := dot (vsub p c) d in
  0 < B * B - A -> t = snap (-1 * B + sqrt (B*B-A)) \/ t = snap (-1 * B - sqrt (B*B-A)) ->
  sqdist (at_ p d t) c = r * r /\ dot (vsub (at_ p d t) c) d <> 0.
Proof.
  intros Hd Ht A B HD Hts.
  assert (Hr : B + t = sqrt (B*B-A) \/ B + t = - sqrt (B*B-A)).
  { destruct Hts as [E|E]; apply (conj Ht), snap_pos_spec in E; lra. }
  assert (Hs : sqrt (B*B-A) * sqrt (B*B-A) = B*B-A) by (apply sqrt_sqrt; lra).
  assert (Hp : 0 < sqrt (B*B-A)) by (apply sqrt_lt_R0; auto).
  rewrite at_sqdist, at_dot by auto. fold B. split; [|lra].
  assert ((B + t) * (B + t) = B*B - A) by (destruct Hr as [-> | ->]; lra).
  unfold A in *. lra.
Qed.

Lemma c17_on_surface c r ri p d : unit d ->
  let x := sphere_distance c r ri p d in
  (fst x = -1 \/ (GEOMETRY_PRECISION <= fst x /\ sphere_crosses c r ri p d (fst x))) /\
  (snd x = -1 \/ (GEOMETRY_PRECISION <= snd x /\ sphere_crosses c r ri p d (snd x))).
Proof.
  intros Hd. cbn zeta. unfold sphere_distance. cbn zeta. rewrite magnitude_sq. fold (sqdist p c).
  set (B := dot (vsub p c) d).
  assert (GO : good2 (sphere_crosses c r ri p d) (sphere_outer (sqdist p c - r * r) B)).
  { apply sphere_outer_good. intros t Ht HD Hts.
    destruct (sphere_roots_good c r p d t Hd Ht HD Hts) as [K1 K2]. split; auto. left; auto. }
  assert (Hneg : sphere_outer (sqdist p c - r * r) B = (-1,-1) \/
     (fst (sphere_outer (sqdist p c - r * r) B) <? 0) && (snd (sphere_outer (sqdist p c - r * r) B) <? 0) = false).
  { set (x := sphere_outer _ _).
    destruct (Rltb_spec (fst x) 0) as [r0|r0], (Rltb_spec (snd x) 0) as [r1|r1]; cbn [andb]; auto. left.
    revert r0 r1. subst x. unfold sphere_outer. destruct (0 <? _); [|auto].
    cbn zeta. set (t1 := snap _). set (t2 := snap _). intros.
    destruct (Rleb_spec t1 0), (Rleb_spec t2 0);
    repeat (match goal with
            | H : context [?a <? ?b] |- _ => destruct (Rltb_spec a b)
            | |- context [?a <? ?b] => destruct (Rltb_spec a b)
            end; cbn [fst snd swap andb] in *); auto; try lra. }
  destruct Hneg as [-> | ->]; [cbn [fst snd]; deccmp; cbn; auto|].
  apply precision_control_good.
  destruct (Rltb_spec 0 ri) as [Hi|Hi]; auto.
  apply sphere_inner_good; auto. intros t Ht HD Hts.
  destruct (sphere_roots_good c ri p d t Hd Ht HD Hts) as [K1 K2]. split; auto. right; auto.
Qed.

Lemma c18_on_surface c x y z p d : 0 <= x -> 0 <= y -> 0 <= z ->
  let v := box_distance c x y z p d in
  (fst v = -1 \/ (GEOMETRY_PRECISION <= fst v /\ box_crosses c x y z p d (fst v))) /\
  (snd v = -1 \/ (GEOMETRY_PRECISION <= snd v /\ box_crosses c x y z p d (snd v))).
Proof.
  intros Hx Hy Hz. apply precision_control_good, box_select_good.
  intros t Ht. rewrite hits_spec in Ht by lra. destruct Ht as (_ & f & _ & Hf). exists f; auto.
Qed.

Lemma c19_on_surface c r ri z p d : 0 < r -> 0 <= ri < r ->
  let v := cylinder_distance c r ri z p d in
  (fst v = -1 \/ (GEOMETRY_PRECISION <= fst v /\ cylinder_crosses c r ri z p d (fst v))) /\
  (snd v = -1 \/ (GEOMETRY_PRECISION <= snd v /\ cylinder_crosses c r ri z p d (snd v))).
Proof.
  intros Hr Hri. apply precision_control_good. pose proof eps_pos as HE.
  assert (GO : good2 (cylinder_crosses c r ri z p d) (cylinder_select (cylinder_hits c r ri z p d))).
  { apply cylinder_select_good. intros t Ht.
    assert (Hin : In t (all_hits c p d r z ri)).
    { unfold cylinder_hits in Ht. fold (in_z c p d z) in Ht. fold (bhits c p d z r) in Ht.
      destruct (Nat.ltb _ 2); auto. unfold all_hits. apply in_or_app; auto. }
    apply all_hits_spec in Hin; auto. destruct Hin as [_ [K|K]]; [left; tauto|right; auto]. }
  destruct (Rltb_spec 0 ri) as [Hi|Hi]; auto.
  rewrite barrel_roots_raw.
  destruct (raw_roots c p d ri) as [[a b]|] eqn:ER; auto.
  fold (in_z c p d z).
  assert (HP : forall t s, (s = a \/ s = b) -> t = snap s -> 0 < t -> in_z c p d z t = true -> cylinder_crosses c r ri z p d t).
  { intros t s Hs Ht Ht0 Hz. apply (conj Ht0), snap_pos_spec in Ht. destruct Ht as [_ ->].
    rewrite in_z_spec in Hz.
    destruct (proj2 (raw_roots_spec c p d ri s)) as [K1 K2]; [exists a, b; auto|].
    left. split; auto. right. split; auto. split; auto. }
  apply cylinder_inner_good; auto; intros; [apply (HP _ a)|apply (HP _ b)]; auto.
Qed.

(** * Wrong answers of the cylinder code *)
Lemma barrel_roots_eval c r p d (B s : R) :
  (vx d =? 0) && (vy d =? 0) = false -> 0 < s ->
  1/4 * ((2 * ((vx p - vx c) * vx d + (vy p - vy c) * vy d)) / (vx d * vx d + vy d * vy d)) *
       ((2 * ((vx p - vx c) * vx d + (vy p - vy c) * vy d)) / (vx d * vx d + vy d * vy d)) -
   ((vx p - vx c) ^ 2 + (vy p - vy c) ^ 2 - r * r) / (vx d * vx d + vy d * vy d) = s * s ->
  -1 * (2 * ((vx p - vx c) * vx d + (vy p - vy c) * vy d) / (vx d * vx d + vy d * vy d)) / 2 = B ->
  barrel_roots c r p d = Some (snap (B + s), snap (B - s)).
Proof.
  intros H0 Hs HD HB. unfold barrel_roots. rewrite H0. cbn zeta.
  rewrite HD, HB. destruct (Rltb_spec 0 (s * s)); [|nra].
  rewrite sqrt_square by lra. reflexivity.
Qed.

Definition origin : vec := mkvec 0 0 0.

(** A particle in front of a pipe (r = 10, inner radius 5, length 10) that
    enters through the opening: the wall is 15 away, the code says 21.25. *)
Definition pipe_p := mkvec (-7) 0 (-9).
Definition pipe_d := mkvec (4/5) 0 (3/5).

Lemma pipe_hits : cylinder_hits origin 10 5 10 pipe_p pipe_d = [85/4].
Proof.
  pose proof eps_pos. pose proof eps_small.
  unfold cylinder_hits. unfold barrel_hits.
  rewrite (barrel_roots_eval origin 10 pipe_p pipe_d (35/4) (25/2));
    [|cbn; deccmp; reflexivity|lra|cbn; field|cbn; field].
  replace (35/4 + 25/2) with (85/4) by field. replace (35/4 - 25/2) with (-15/4) by field.
  rewrite snap_resolved, snap_nonpos by lra.
  unfold cap_hits, strictly_within. cbn [vx vy vz pipe_p pipe_d origin].
  replace ((0 + 1/2 * 10 - -9) / (3/5)) with (70/3) by field.
  replace ((0 - 1/2 * 10 - -9) / (3/5)) with (20/3) by field.
  rewrite !snap_resolved by lra. unfold axis_distance. cbn [vx vy origin].
  replace ((-7 + 70/3 * (4/5) - 0) ^ 2 + (0 + 70/3 * 0 - 0) ^ 2) with ((35/3) * (35/3)) by field.
  replace ((-7 + 20/3 * (4/5) - 0) ^ 2 + (0 + 20/3 * 0 - 0) ^ 2) with ((5/3) * (5/3)) by field.
  rewrite !sqrt_square by lra. deccmp. cbn [andb app length Nat.ltb Nat.leb negb]. reflexivity.
Qed.

Lemma pipe_distance : cylinder_distance origin 10 5 10 pipe_p pipe_d = (85/4, 15).
Proof.
  pose proof eps_pos. pose proof eps_small.
  unfold cylinder_distance. rewrite pipe_hits. cbn [cylinder_select].
  rewrite (barrel_roots_eval origin 5 pipe_p pipe_d (35/4) (25/4));
    [|cbn; deccmp; reflexivity|lra|cbn; field|cbn; field].
  replace (35/4 + 25/4) with 15 by field. replace (35/4 - 25/4) with (5/2) by field.
  rewrite !snap_resolved by lra. cbn [vx vy vz pipe_p pipe_d origin].
  unfold cylinder_inner, strictly_within. cbn [fst snd]. deccmp. cbn [andb orb fst snd]. deccmp. cbn [andb].
  apply precision_control_pos1; lra.
Qed.

Lemma c19_hollow_refuted :
  exists p d, unit d /\ crossing_list (cylinder_crosses origin 10 5 10 p d) [15; 85/4] /\
    resolvable [15; 85/4] /\ cylinder_distance origin 10 5 10 p d = (85/4, 15).
Proof.
  exists pipe_p, pipe_d. pose proof eps_pos. pose proof eps_small.
  split; [unfold unit, dot; cbn; field|]. split; [|split; [|apply pipe_distance]].
  - split; [repeat constructor; lra|]. intros t.
    unfold cylinder_crosses, on_barrel, on_cap, between_caps, rho2, radial, at_, vadd, scale.
    cbn [vx vy vz pipe_p pipe_d origin In].
    split.
    + intros [<-|[<-|[]]]; (split; [lra|]); left; (split; [|lra]).
      * right. split; [lra|]. split; [field|lra].
      * left. split; [field|lra].
    + intros [Ht [[K Kr]|[[[K|K] [K1 K2]] _]]].
      * destruct K as [[K1 K2]|[_ [K1 K2]]].
        -- right; left. assert ((t - 85/4) * (t + 15/4) = 0) by nra.
           destruct (Rmult_integral _ _ H1); lra.
        -- left. assert ((t - 15) * (t - 5/2) = 0) by nra.
           destruct (Rmult_integral _ _ H1); lra.
      * exfalso. assert (t = 70/3) by lra. subst t. lra.
      * exfalso. assert (t = 20/3) by lra. subst t. lra.
  - intros t [<-|[<-|[]]]; lra.
Qed.

(** A particle 4 above a solid cylinder (r = 3, length 8) whose ray only
    touches the rim is reported as inside. *)
Lemma c19_rim_refuted :
  exists p d, unit d /\ vz p = 8 /\ (forall t, 0 < t -> ~ strictly_in_cyl origin 3 8 (at_ p d t)) /\
    is_inside (cylinder 0 origin 3 0 8) p d = true.
Proof.
  pose proof eps_pos. pose proof eps_small.
  exists (mkvec 0 0 8), (mkvec (3/5) 0 (-4/5)). split; [unfold unit, dot; cbn; field|]. split; [reflexivity|]. split.
  { intros t Ht [K1 K2]. revert K1 K2. unfold between_caps, rho2, at_, vadd, scale, origin. cbn [vx vy vz]. intros.
    assert (t < 5) by nra. lra. }
  unfold is_inside, cylinder. deccmp. cbn [g_distance_to_border].
  assert (E : cylinder_hits origin 3 0 8 (mkvec 0 0 8) (mkvec (3/5) 0 (-4/5)) = [5]).
  { unfold cylinder_hits, barrel_hits.
    rewrite (barrel_roots_eval origin 3 _ _ 0 5); [|cbn; deccmp; reflexivity|lra|cbn; field|cbn; field].
    replace (0 + 5) with 5 by field. replace (0 - 5) with (-5) by field.
    rewrite snap_resolved, snap_nonpos by lra.
    unfold cap_hits, strictly_within. cbn [vx vy vz origin].
    replace ((0 + 1/2 * 8 - 8) / (-4/5)) with 5 by field.
    replace ((0 - 1/2 * 8 - 8) / (-4/5)) with 15 by field.
    rewrite !snap_resolved by lra. unfold axis_distance. cbn [vx vy origin].
    replace ((0 + 5 * (3/5) - 0) ^ 2 + (0 + 5 * 0 - 0) ^ 2) with (3 * 3) by field.
    replace ((0 + 15 * (3/5) - 0) ^ 2 + (0 + 15 * 0 - 0) ^ 2) with (9 * 9) by field.
    rewrite !sqrt_square by lra. deccmp. reflexivity. }
  unfold cylinder_distance. rewrite E. cbn [cylinder_select]. deccmp.
  rewrite precision_control_pos2 by lra. cbn [fst snd]. deccmp. reflexivity.
Qed.

(** Example: a slanted ray through the wall of a solid cylinder. *)
Lemma cylinder_example :
  crossing_list (cylinder_crosses origin 3 0 8 (mkvec (-5) 0 0) (mkvec 1 0 0)) [2; 8] /\ resolvable [2; 8].
Proof.
  pose proof eps_pos. pose proof eps_small. split; [|intros t [<-|[<-|[]]]; lra].
  split; [repeat constructor; lra|]. intros t.
  unfold cylinder_crosses, on_barrel, on_cap, between_caps, rho2, radial, at_, vadd, scale, origin. cbn [vx vy vz In].
  split.
  - intros [<-|[<-|[]]]; (split; [lra|]); left; (split; [left|]; lra).
  - intros [Ht [[[[K1 K2]|[K0 _]] Kr]|[[[K|K] _] _]]]; [|lra|lra|lra].
    assert (Hp : (t - 2) * (t - 8) = 0) by nra. destruct (Rmult_integral _ _ Hp); [left|right; left]; lra.
Qed.

Lemma cylinder_inside_example :
  unit (mkvec 1 0 0) /\ 2 + GEOMETRY_PRECISION <= rho origin (mkvec 4 0 1) /\
  in_open_cylinder origin 5 8 GEOMETRY_PRECISION (mkvec 4 0 1).
Proof.
  pose proof eps_pos. pose proof eps_small.
  assert (E : rho origin (mkvec 4 0 1) = 4).
  { unfold rho, rho2, origin; cbn [vx vy vz]. replace ((4 - 0) ^ 2 + (0 - 0) ^ 2) with (4 * 4) by ring. apply sqrt_square; lra. }
  split; [unfold unit, dot; cbn; ring|]. unfold in_open_cylinder. rewrite E.
  split; [lra|]. split; [lra|]. cbn. rewrite Rabs_pos_eq; lra.
Qed.

(** Both orders of the radii. *)
Lemma c17_radii h c a b p d L :
  unit d -> 0 <= Rmin a b < Rmax a b ->
  crossing_list (sphere_crosses c (Rmax a b) (Rmin a b) p d) L -> resolvable L ->
  g_distance_to_border (sphere h c a b) p d = encode L.
Proof.
  intros U H C RL. unfold sphere. destruct (Rltb_spec a b); cbn [g_distance_to_border].
  - rewrite Rmin_left, Rmax_right in * by lra. apply c17_crossings; auto; lra.
  - rewrite Rmin_right, Rmax_left in * by lra. apply c17_crossings; auto; lra.
Qed.
Lemma c19_radii h c a b z p d :
  0 <= Rmin a b < Rmax a b -> 0 < z -> unit d ->
  (Rmin a b + GEOMETRY_PRECISION <= rho c p \/ Rmin a b = 0) -> in_open_cylinder c (Rmax a b) z GEOMETRY_PRECISION p ->
  exists t, g_distance_to_border (cylinder h c a b z) p d = (t, -1) /\ 0 < t /\
    cylinder_crosses c (Rmax a b) (Rmin a b) z p d t /\
    forall u, 0 < u -> cylinder_crosses c (Rmax a b) (Rmin a b) z p d u -> t <= u.
Proof.
  intros H Hz U A B. unfold cylinder. destruct (Rltb_spec a b); cbn [g_distance_to_border].
  - rewrite Rmin_left, Rmax_right in * by lra. apply c19_inside_first; auto; lra.
  - rewrite Rmin_right, Rmax_left in * by lra. apply c19_inside_first; auto; lra.
Qed.
