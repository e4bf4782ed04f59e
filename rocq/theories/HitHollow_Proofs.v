(** HitGeometry for hollow spheres, when no state of the track lies in the hole. *)
From Verif Require Import Prelude PreludeFacts Vec_Model Geometry_Model Propagator_Model Propagator_Spec
  Propagator_Proofs Propagate_Proofs Shapes_Model Shapes_Spec Shapes_Proofs Box_Proofs Cylinder_Proofs Secondaries_Model Secondaries_Spec
  Secondaries_Proofs Queries_Proofs Hit_Proofs Hit_Convex_Proofs.
From Coq Require Import Lra Lia.
Notation EPS := GEOMETRY_PRECISION.
Ltac plain a := lazymatch a with context [if _ then _ else _] => fail | _ => idtac end.
Ltac cases := repeat (match goal with
  | |- context [Rltb ?a ?b] => plain a; plain b; destruct (Rltb_spec a b)
  | |- context [Rleb ?a ?b] => plain a; plain b; destruct (Rleb_spec a b)
  end; cbn [andb orb fst snd]; try (exfalso; lra)).

Lemma snap_value t : snap t <= 0 \/ EPS <= snap t.
Proof. unfold snap. cases; lra. Qed.
Lemma outer_values A B : let d := sphere_outer A B in (fst d = -1 \/ EPS <= fst d) /\ (snd d = -1 \/ EPS <= snd d).
Proof.
  unfold sphere_outer. cbv zeta. destruct (0 <? B * B - A); [|cbn; lra].
  destruct (snap_value (-1 * B + sqrt (B * B - A))) as [H1|H1], (snap_value (-1 * B - sqrt (B * B - A))) as [H2|H2]; pose proof eps_pos;
    set (t1 := snap _) in *; set (t2 := snap _) in *; clearbody t1 t2; unfold swap; cases; lra.
Qed.
Section Hollow.
Variables (h : N) (c : vec) (r ri : R).
Hypotheses (Hr : 0 < ri < r).
Notation g := (sphere h c r ri).
Notation solid := (sphere h c r 0).
Lemma hollow_distance p d : g_distance_to_border g p d = sphere_distance c r ri p d.
Proof using Hr. unfold sphere. destruct (Rltb_spec r ri); [lra|reflexivity]. Qed.
Lemma hollow_infront p d : is_infront solid p d = true -> is_infront g p d = true.
Proof using Hr.
  unfold is_infront. rewrite hollow_distance, (solid_distance h c r ltac:(lra)). unfold sphere_distance.
  destruct (outer_values (magnitude (vsub p c) ^ 2 - r * r) (dot (vsub p c) d)) as [V1 V2]. pose proof eps_pos as E.
  set (o := sphere_outer _ _) in *. clearbody o. destruct o as [x y]. cbn [fst snd] in *.
  rewrite (proj2 (Rltb_false 0 0)) by lra. rewrite (proj2 (Rltb_true 0 ri)) by lra.
  destruct V1 as [->|V1].
  { intro H. exfalso. revert H. destruct V2 as [->|V2]; unfold precision_control; cbn [fst snd]; cases; intro; discriminate. }
  destruct V2 as [->|V2].
  { intro H. exfalso. revert H. unfold precision_control; cbn [fst snd]; cases; intro; discriminate. }
  intros _. rewrite (proj2 (Rltb_false x 0)) by lra. cbn [andb]. unfold sphere_inner. cbn [fst snd].
  destruct (0 <? dot (vsub p c) d * dot (vsub p c) d - (magnitude (vsub p c) ^ 2 - ri * ri)).
  - rewrite (proj2 (Rltb_true 0 x)) by lra. rewrite (proj2 (Rltb_true 0 y)) by lra. cbn [andb].
    destruct (snap_value (-1 * dot (vsub p c) d + sqrt (dot (vsub p c) d * dot (vsub p c) d - (magnitude (vsub p c) ^ 2 - ri * ri)))) as [H1|H1],
      (snap_value (-1 * dot (vsub p c) d - sqrt (dot (vsub p c) d * dot (vsub p c) d - (magnitude (vsub p c) ^ 2 - ri * ri)))) as [H2|H2];
    set (t1 := snap _) in *; set (t2 := snap _) in *; clearbody t1 t2; unfold precision_control; cases; reflexivity || lra.
  - unfold precision_control. cbn [fst snd]. cases; reflexivity || lra.
Qed.
Lemma hollow_behind p d : is_behind solid p d = true -> is_behind g p d = true.
Proof using Hr.
  unfold is_behind. rewrite hollow_distance, (solid_distance h c r ltac:(lra)). unfold sphere_distance.
  destruct (outer_values (magnitude (vsub p c) ^ 2 - r * r) (dot (vsub p c) d)) as [V1 V2]. pose proof eps_pos as E.
  set (o := sphere_outer _ _) in *. clearbody o. destruct o as [x y]. cbn [fst snd] in *.
  rewrite (proj2 (Rltb_false 0 0)) by lra. rewrite (proj2 (Rltb_true 0 ri)) by lra.
  destruct V1 as [->|V1], V2 as [->|V2].
  1: { rewrite (proj2 (Rltb_true (-1) 0)) by lra. cbn [andb fst snd]. intros _. rewrite (proj2 (Rltb_true (-1) 0)) by lra. reflexivity. }
  all: intro H; exfalso; revert H; unfold precision_control; cbn [fst snd]; cases; intro; discriminate.
Qed.
Lemma front_not_behind k p d : is_infront k p d = true -> is_behind k p d = false.
Proof. unfold is_infront, is_behind. cases; intros; try discriminate; try reflexivity; lra. Qed.
Lemma behind_not_front k p d : is_behind k p d = true -> is_infront k p d = false.
Proof. unfold is_infront, is_behind. cases; intros; try discriminate; try reflexivity; lra. Qed.
Lemma below q x : 0 <= x -> (dist q c < x <-> sqdist q c < x * x).
Proof. intro X. pose proof (dist_sq q c) as S. pose proof (dist_pos q c). rewrite <- S. split; intro; nra. Qed.
Lemma hollow_seen_outside p d : unit d -> True -> r + EPS <= dist p c -> is_inside g p d = false /\
     ((is_infront g p d = true /\ is_behind g p d = false /\ exists t, 0 < t /\ dist (at_ p d t) c < r) \/
      (is_infront g p d = false /\ is_behind g p d = true /\ forall t, 0 < t -> ~ dist (at_ p d t) c < r)).
Proof using Hr.
  intros U _ O. split; [apply c17_outside; [exact U|lra|lra|left; exact O]|]. pose proof eps_pos as E.
  destruct (solid_outside h c r ltac:(lra) p d U O) as [S1 S2].
  assert (HA : 0 < sqdist p c - r * r) by (pose proof (dist_sq p c); nra).
  set (B := dot (vsub p c) d) in *. set (A := sqdist p c - r * r) in *.
  assert (Q : forall t, sqdist (at_ p d t) c - r * r = t * t + 2 * B * t + A) by (intro t; rewrite at_sqdist by exact U; unfold A, B; ring).
  assert (K : (B < 0 /\ 0 < B * B - A) \/ (0 <= B \/ B * B - A <= 0)) by lra.
  destruct K as [[B0 D0]|K].
  - left. destruct (S1 B0 D0) as [F _]. pose proof (hollow_infront p d F) as G. split; [exact G|]. split; [now apply front_not_behind|].
    exists (- B). split; [lra|]. apply below; [lra|]. specialize (Q (- B)). nra.
  - right. destruct (S2 K) as [_ F]. pose proof (hollow_behind p d F) as G. split; [now apply behind_not_front|]. split; [exact G|].
    intros t T H. apply below in H; [|lra]. specialize (Q t). clear S1 S2. clearbody A B. replace (2 * B * t) with (2 * (B * t)) in Q by ring. destruct K as [K|K]; [assert (0 <= B * t) by (apply Rmult_le_pos; lra); assert (0 < t * t) by (apply Rmult_lt_0_compat; lra); lra|]. assert (0 <= (t + B) * (t + B)) by apply (Rle_0_sqr (t + B)). assert (t * t + 2 * B * t + A = (t + B) * (t + B) - (B * B - A)) by ring. replace (2 * (B * t)) with (2 * B * t) in Q by ring. lra.
Qed.
Lemma any_sqdist p d t : sqdist (at_ p d t) c = dot d d * (t * t) + 2 * dot (vsub p c) d * t + sqdist p c.
Proof. unfold sqdist, at_, dot, vsub, vadd, scale; destruct p, d, c; cbn. ring. Qed.
Lemma sphere_convex p d s t u : dist (at_ p d s) c < r -> dist (at_ p d u) c < r -> s <= t <= u -> dist (at_ p d t) c < r.
Proof using Hr.
  intros A1 A2 T. apply below in A1, A2; try lra. apply below; [lra|]. rewrite any_sqdist in *.
  assert (0 <= dot d d) by (unfold dot; destruct d; cbn; nra).
  set (B := dot (vsub p c) d) in *. set (q := sqdist p c) in *. set (C := dot d d) in *. clearbody B q C.
  destruct (Rle_lt_dec 0 (C * (t + s) + 2 * B)) as [K|K].
  - assert (C * (t + s) <= C * (u + t)) by (apply Rmult_le_compat_l; lra). assert (0 <= (C * (u + t) + 2 * B) * (u - t)) by (apply Rmult_le_pos; lra). lra.
  - assert (0 <= - (C * (t + s) + 2 * B) * (t - s)) by (apply Rmult_le_pos; lra). lra.
Qed.
Lemma in_shell l q : (forall s, In s l -> ri + EPS <= dist (position s) c) -> on_track l q -> dist q c < r ->
  exists q', on_track l q' /\ ri < dist q' c < r.
Proof using Hr.
  intros HC HQ D. pose proof eps_pos as E. destruct (Rlt_le_dec ri (dist q c)) as [L|L]; [exists q; split; [exact HQ|lra]|].
  inversion HQ as [s l' Hs|l1 a b l2 x q' W]; subst; [specialize (HC s Hs); lra|].
  assert (Ia : In a (l1 ++ a :: b :: l2)) by (apply in_or_app; right; left; reflexivity). pose proof (HC a Ia) as Ha.
  destruct (Rlt_le_dec (dist (position a) c) r) as [K|K]; [exists (position a); split; [constructor; exact Ia|lra]|].
  destruct (normalize (vsub (position b) (position a))) as [d|] eqn:En.
  2: { apply normalize_none in En. destruct W as (_ & W & _). unfold apart in W. lra. }
  apply heading_of in En. destruct En as [Hh P]. pose proof (way_at _ _ _ _ _ Hh W) as Eq. subst q. pose proof (proj1 Hh) as U. destruct W as (Wx & _).
  set (m := (ri + r) / 2). assert (M : ri < m < r) by (unfold m; lra). clearbody m.
  set (f := fun y => m * m - (y * y + 2 * dot (vsub (position a) c) d * y + sqdist (position a) c)).
  assert (F : forall y, f y = m * m - sqdist (at_ (position a) d y) c) by (intro y; unfold f; rewrite at_sqdist by exact U; ring).
  assert (F0 : f 0 < 0). { rewrite F, at_0, <- dist_sq. pose proof (dist_pos (position a) c). nra. }
  assert (FX : 0 < f x). { rewrite F, <- dist_sq. pose proof (dist_pos (at_ (position a) d x) c). nra. }
  assert (X : 0 < x). { destruct (Req_dec x 0) as [->|]; [lra|lra]. }
  destruct (IVT f 0 x) as (z & Z1 & Z2); [unfold f; reg|exact X|exact F0|exact FX|].
  exists (at_ (position a) d z). split; [apply ot_way with (x := z); apply heading_way; [exact Hh|exact P|lra]|].
  rewrite F, <- dist_sq in Z2. pose proof (dist_pos (at_ (position a) d z) c). split; nra.
Qed.
Lemma c46_hollow_sphere t : clear_of_border c r (tr_states t) -> clear_of_hole c ri (tr_states t) -> tr_states t <> [] ->
  (forall l s, tr_states t = l ++ [s] -> unit (direction s)) ->
  exists answer, hit_geometry t g = Ok answer /\
    (answer = true <-> exists q, on_track (tr_states t) q /\ ri < dist q c < r).
Proof using Hr.
  intros HC HI HN HU. pose proof eps_pos as E. unfold hit_geometry. destruct (tr_states t) as [|s0 l0] eqn:El; [contradiction|]. rewrite <- El in *. eexists. split; [reflexivity|].
  rewrite (hit_convex g (fun q => dist q c < r) (fun p => ri + EPS <= dist p c <= r - EPS) (fun p => r + EPS <= dist p c) (fun _ _ => True)).
  - split; intros (q & Q1 & Q2); [exact (in_shell _ q HI Q1 Q2)|exists q; split; [exact Q1|lra]].
  - intros p H. lra.
  - intros p H K. lra.
  - intros. exact I.
  - intros p d s u v. apply sphere_convex.
  - intros p d U _ H. apply c17_inside; [exact U|lra|lra|left; lra|lra].
  - apply hollow_seen_outside.
  - intros s Hs. specialize (HC s Hs). specialize (HI s Hs). destruct HC as [HC|HC]; [left; lra|right; exact HC].
  - exact HN.
  - intros. exact I.
  - intros l s Hs. split; [exact (HU l s Hs)|exact I].
Qed.
End Hollow.
