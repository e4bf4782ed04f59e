(** Lemmas about the common vocabulary. *)
From Verif Require Import Prelude.

Lemma Rltb_true a b : (a <? b) = true <-> a < b.
Proof. unfold Rltb; destruct (Rlt_dec a b); split; intros; try easy. Qed.
Lemma Rltb_false a b : (a <? b) = false <-> b <= a.
Proof. unfold Rltb; destruct (Rlt_dec a b); split; intros; try easy; lra. Qed.
Lemma Rleb_true a b : (a <=? b) = true <-> a <= b.
Proof. unfold Rleb; destruct (Rle_dec a b); split; intros; try easy. Qed.
Lemma Rleb_false a b : (a <=? b) = false <-> b < a.
Proof. unfold Rleb; destruct (Rle_dec a b); split; intros; try easy; lra. Qed.
Lemma Reqb_true a b : (a =? b) = true <-> a = b.
Proof. unfold Reqb; destruct (Req_EM_T a b); split; intros; try easy. Qed.
Lemma Reqb_false a b : (a =? b) = false <-> a <> b.
Proof. unfold Reqb; destruct (Req_EM_T a b); split; intros; try easy. Qed.

Lemma Rltb_spec a b : reflect (a < b) (a <? b).
Proof. unfold Rltb; destruct (Rlt_dec a b); constructor; assumption. Qed.
Lemma Rleb_spec a b : reflect (a <= b) (a <=? b).
Proof. unfold Rleb; destruct (Rle_dec a b); constructor; assumption. Qed.
Lemma Reqb_spec a b : reflect (a = b) (a =? b).
Proof. unfold Reqb; destruct (Req_EM_T a b); constructor; assumption. Qed.

(** Split on every real comparison in the goal. *)
Ltac rcases :=
  repeat match goal with
  | |- context [Rltb ?a ?b] => destruct (Rltb_spec a b)
  | |- context [Rleb ?a ?b] => destruct (Rleb_spec a b)
  | |- context [Reqb ?a ?b] => destruct (Reqb_spec a b)
  | |- context [Rlt_dec ?a ?b] => destruct (Rlt_dec a b)
  | |- context [Rle_dec ?a ?b] => destruct (Rle_dec a b)
  | |- context [Req_EM_T ?a ?b] => destruct (Req_EM_T a b)
  end; cbn [andb orb negb].

Lemma obind_Ok {A B} (x : outcome A) (f : A -> outcome B) b :
  obind x f = Ok b -> exists a, x = Ok a /\ f a = Ok b.
Proof. destruct x; cbn; intros H; try discriminate; eauto. Qed.

Ltac inv_ok :=
  repeat match goal with
  | H : Ok _ = Ok _ |- _ => injection H; clear H; intros; subst
  | H : obind _ _ = Ok _ |- _ =>
      let a := fresh "a" in let Ha := fresh "Ha" in
      apply obind_Ok in H; destruct H as (a & Ha & H)
  | H : Throw _ = Ok _ |- _ => discriminate H
  | H : UB _ = Ok _ |- _ => discriminate H
  end.

(** [max_element] for a comparison induced by a key in a totally ordered type. *)
Section MaxSpec.
  Context {A : Type} (lt : A -> A -> bool).
  Hypothesis lt_irrefl : forall a, lt a a = false.
  Hypothesis lt_trans : forall a b c, lt a b = true -> lt b c = true -> lt a c = true.
  Hypothesis lt_neg_trans : forall a b c, lt a b = false -> lt b c = false -> lt a c = false.

  Lemma max_element_from_spec l x :
    exists l1 m l2, x :: l = l1 ++ m :: l2 /\ max_element_from lt x l = m /\
      (forall y, In y l1 -> lt y m = true) /\ (forall y, In y l2 -> lt m y = false).
  Proof using lt_irrefl lt_trans lt_neg_trans.
    revert x; induction l as [|a l IH]; intros x; cbn [max_element_from].
    - exists [], x, []; repeat split; easy.
    - destruct (lt x a) eqn:E.
      + destruct (IH a) as (l1 & m & l2 & H1 & H2 & H3 & H4).
        exists (x :: l1), m, l2; rewrite H1; repeat split; auto.
        intros y [<-|Hy]; auto.
        destruct l1 as [|b l1]; cbn in H1; injection H1 as Ha Hl.
        * rewrite <- Ha; exact E.
        * apply lt_trans with a; auto. apply H3; left; auto.
      + destruct (IH x) as (l1 & m & l2 & H1 & H2 & H3 & H4).
        destruct l1 as [|b l1]; cbn in H1; injection H1 as Ha Hl.
        * exists [], m, (a :: l). rewrite <- Ha in *. rewrite <- Hl in *.
          split; [reflexivity|]. split; [exact H2|]. split; [easy|].
          intros y [<-|Hy]; auto.
        * exists (x :: a :: l1), m, l2.
          rewrite Hl. cbn. split; [reflexivity|]. split; [rewrite <- Hl; exact H2|]. split; auto.
          assert (Hx : lt x m = true) by (apply H3; left; auto).
          intros y [<-|[<-|Hy]]; auto.
          -- destruct (lt a m) eqn:Ea; auto.
             rewrite (lt_neg_trans x a m E Ea) in Hx; discriminate.
          -- apply H3; right; exact Hy.
  Qed.
End MaxSpec.

Lemma Rabs_le_inv a b : Rabs a <= b -> - b <= a <= b.
Proof. unfold Rabs; destruct (Rcase_abs a); lra. Qed.
Lemma bind_ok {A B} (x : outcome A) (f : A -> outcome B) b : obind x f = Ok b -> exists a, x = Ok a /\ f a = Ok b.
Proof. destruct x; cbn; try discriminate. intro H. eexists. split; [reflexivity|exact H]. Qed.
