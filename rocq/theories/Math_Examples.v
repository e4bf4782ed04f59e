(** Concrete runs for the examples beside C24-C28. *)
From Verif Require Import Prelude PreludeFacts Geometry_Model Function_Model Function_Spec Function_Proofs
  Spline_Model Spline_Spec Spline_Proofs Math_Model Math_Spec Math_Proofs.
From Coq Require Import Sorted.

(** Newton's method on x - 1/2 in [0, 2], starting at 1. *)
Lemma newton_example nan n : (3 <= n)%nat ->
  newton_raphson (fun x => x - 1 / 2) (fun _ => 1) nan 0 2 1 n (/ 1000000) = Ok (1 / 2).
Proof.
  intros Hn. destruct n as [|[|[|n]]]; try lia. unfold newton_raphson.
  destruct (Rltb_spec 0 ((0 - 1 / 2) * (2 - 1 / 2))); [lra|].
  destruct (Reqb_spec (0 - 1 / 2) 0); [lra|]. destruct (Reqb_spec (2 - 1 / 2) 0); [lra|].
  destruct (Rltb_spec (0 - 1 / 2) 0); [|lra].
  replace (Rabs (2 - 0)) with 2 by (rewrite Rabs_right; lra).
  change (S (S (S n)) - 1)%nat with (S (S n)). cbn [newton_loop].
  assert (E1 : newton_step (fun x => x - 1 / 2) (fun _ => 1) nan (/ 1000000) (mknewton 0 2 1 2 2 (1 - 1 / 2) 1) =
    Ok (inl (mknewton 0 (1 / 2) (1 / 2) 2 (1 / 2) 0 1))).
  { unfold newton_step.
    destruct (Rltb_spec 0 (((1 - 2) * 1 - (1 - 1 / 2)) * ((1 - 0) * 1 - (1 - 1 / 2)))); [lra|]. cbn [orb].
    destruct (Rltb_spec (Rabs (2 * 1)) (Rabs (2 * (1 - 1 / 2)))).
    { rewrite !Rabs_right in * by lra. lra. }
    destruct (Reqb_spec 1 0); [lra|]. destruct (Reqb_spec 1 (1 - (1 - 1 / 2) / 1)); [lra|].
    destruct (Rltb_spec (Rabs ((1 - 1 / 2) / 1)) (/ 1000000)).
    { rewrite Rabs_right in * by lra. lra. }
    destruct (Rltb_spec (1 - (1 - 1 / 2) / 1 - 1 / 2) 0); [lra|].
    do 2 f_equal. f_equal; field. }
  rewrite E1. cbn [obind].
  assert (E2 : newton_step (fun x => x - 1 / 2) (fun _ => 1) nan (/ 1000000) (mknewton 0 (1 / 2) (1 / 2) 2 (1 / 2) 0 1) =
    Ok (inr (1 / 2))).
  { unfold newton_step.
    destruct (Rltb_spec 0 (((1 / 2 - 1 / 2) * 1 - 0) * ((1 / 2 - 0) * 1 - 0))); [lra|]. cbn [orb].
    destruct (Rltb_spec (Rabs (2 * 1)) (Rabs (2 * 0))).
    { rewrite Rmult_0_r, Rabs_R0 in *. pose proof (Rabs_pos (2 * 1)). lra. }
    destruct (Reqb_spec 1 0); [lra|]. destruct (Reqb_spec (1 / 2) (1 / 2 - 0 / 1)); [|lra].
    do 2 f_equal. field. }
  rewrite E2. reflexivity.
Qed.
Lemma line_continuous k : continuity (fun x => x - k).
Proof. apply continuity_minus; [apply derivable_continuous, derivable_id|apply continuity_const; intros a b; auto]. Qed.
Lemma between_example : between 0 2 1.
Proof. unfold between. rewrite Rmin_left, Rmax_right; lra. Qed.

Lemma nodes_example : nodes [0; 1; 3; 4] [2; -1; 5; 0].
Proof. split; [cbn; lia|]. split; [auto|]. repeat constructor; lra. Qed.
Lemma resolved_example : forall i, (i + 1 < 4)%nat ->
  node [0; 1; 3; 4] i = 0 \/ GEOMETRY_PRECISION < Rabs (node [0; 1; 3; 4] i).
Proof.
  intros i Hi. destruct i as [|[|[|i]]]; [left; auto| | |lia]; right; unfold node; cbn [nth];
    rewrite Rabs_right by lra; unfold GEOMETRY_PRECISION; lra.
Qed.
