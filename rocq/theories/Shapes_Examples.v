(** Example rays for the properties of the shapes, and C20. *)
From Verif Require Import Prelude PreludeFacts Vec_Model Geometry_Model Shapes_Model Shapes_Spec
  Shapes_Proofs Box_Proofs Toy Toy_Runs.
From Coq Require Import Sorted.

Lemma hollow_example :
  unit ex /\ crossing_list (sphere_crosses (px 0) 2 1 (px (-3)) ex) [1; 2; 4; 5] /\ resolvable [1; 2; 4; 5].
Proof.
  split; [apply unit_ex|]. split.
  - split; [repeat (constructor; [|repeat constructor; lra]); constructor|].
    intros t. unfold sphere_crosses, sphere_surface, sqdist, dot, vsub, at_, vadd, scale; cbn.
    split.
    + intros [<-|[<-|[<-|[<-|[]]]]]; (split; [lra|]); (split; [lra|lra]).
    + intros (Ht & [Hs|[_ Hs]] & _).
      * assert ((t - 1) * (t - 5) = 0) by lra. apply Rmult_integral in H. destruct H; [left|do 3 right; left]; lra.
      * assert ((t - 2) * (t - 4) = 0) by lra. apply Rmult_integral in H. destruct H; [do 1 right; left|do 2 right; left]; lra.
  - pose proof eps_small. intros t [<-|[<-|[<-|[<-|[]]]]]; lra.
Qed.

Lemma box_example :
  unit ex /\ no_edges (px 0) 2 2 2 (px (-5)) ex /\
  crossing_list (box_crosses (px 0) 2 2 2 (px (-5)) ex) [4; 6] /\ resolvable [4; 6].
Proof.
  split; [apply unit_ex|]. split; [|split; [split|]].
  - intros t f g Ht [_ Hf] [_ Hg]. destruct f, g; cbn in Hf, Hg; try reflexivity; exfalso; lra.
  - repeat constructor; lra.
  - intros t. split.
    + intros [<-|[<-|[]]]; (split; [lra|]); [exists XN|exists XP];
        unfold on_face, in_closed_box, in_closed; cbn; lra.
    + intros (Ht & f & [(H1 & H2 & H3) Hf]). unfold in_closed in *. destruct f; cbn in *; try (exfalso; lra).
      * right; left; lra.
      * left; lra.
  - pose proof eps_small. intros t [<-|[<-|[]]]; lra.
Qed.

(** * C20 *)
Definition exactly_one (a b c : bool) : Prop :=
  (a = true /\ b = false /\ c = false) \/ (a = false /\ b = true /\ c = false) \/ (a = false /\ b = false /\ c = true).

Lemma partition_wf g p d :
  well_formed (g_distance_to_border g p d) ->
  exactly_one (is_infront g p d) (is_inside g p d) (is_behind g p d) /\
  (get_location g p d = InfrontGeometry <-> is_infront g p d = true) /\
  (get_location g p d = InsideGeometry <-> is_inside g p d = true) /\
  (get_location g p d = BehindGeometry <-> is_behind g p d = true).
Proof.
  intros H. pose proof eps_pos as HE. unfold get_location, is_infront, is_inside, is_behind, exactly_one.
  destruct (g_distance_to_border g p d) as [a b]. cbn [fst snd]. unfold well_formed in H; cbn [fst snd] in H.
  destruct H as [H|[[H ->]|[H H']]]; [injection H as -> ->| |]; deccmp; intuition congruence.
Qed.

Lemma c20_sphere h c r ri p d : well_formed (g_distance_to_border (sphere h c r ri) p d).
Proof. unfold sphere. destruct (r <? ri); apply sphere_wf. Qed.
Lemma c20_box h c x y z p d : well_formed (g_distance_to_border (box h c x y z) p d).
Proof. apply precision_control_wf. Qed.
Lemma c20_cylinder h c r ri z p d : well_formed (g_distance_to_border (cylinder h c r ri z) p d).
Proof. unfold cylinder. destruct (r <? ri); cbn; apply precision_control_wf. Qed.

(** The three concrete shapes, with any (even degenerate) parameters. *)
Inductive library_shape : geometry -> Prop :=
| is_sphere h c r ri : library_shape (sphere h c r ri)
| is_box h c x y z : library_shape (box h c x y z)
| is_cylinder h c r ri z : library_shape (cylinder h c r ri z).

Lemma c20_partition g p d : library_shape g ->
  exactly_one (is_infront g p d) (is_inside g p d) (is_behind g p d) /\
  (get_location g p d = InfrontGeometry <-> is_infront g p d = true) /\
  (get_location g p d = InsideGeometry <-> is_inside g p d = true) /\
  (get_location g p d = BehindGeometry <-> is_behind g p d = true).
Proof.
  intros H. apply partition_wf. destruct H; [apply c20_sphere|apply c20_box|apply c20_cylinder].
Qed.

(** Entering means: inside when looking ahead, behind when looking back;
    leaving is the mirror image. *)
Lemma c20_entering g p d : library_shape g ->
  (is_entering g p d = true <-> is_inside g p d = true /\ is_behind g p (vneg d) = true) /\
  (is_leaving g p d = true <-> is_behind g p d = true /\ is_inside g p (vneg d) = true).
Proof.
  intros H.
  assert (W : forall q e, well_formed (g_distance_to_border g q e)).
  { intros. destruct H; [apply c20_sphere|apply c20_box|apply c20_cylinder]. }
  pose proof eps_pos as HE. pose proof (W p d) as W1. pose proof (W p (vneg d)) as W2.
  unfold is_entering, is_leaving, is_inside, is_behind.
  destruct (g_distance_to_border g p d) as [a b]. destruct (g_distance_to_border g p (vneg d)) as [a' b'].
  unfold well_formed in *; cbn [fst snd] in *.
  destruct W1 as [K|[[K ->]|[K L]]]; [injection K as -> ->| |];
  (destruct W2 as [K'|[[K' ->]|[K' L']]]; [injection K' as -> ->| |]); deccmp; 
  intuition (try congruence).
Qed.

Lemma c20_example : library_shape (ball 1 2) /\ is_inside (ball 1 2) (px 1) ex = true.
Proof. split; [apply is_sphere|apply ball_inside; lra]. Qed.
