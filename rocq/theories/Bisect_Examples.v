(** Concrete cases for the bisections of C92. *)
From Coq Require Import List.
From Verif Require Import Prelude PreludeFacts Kronrod_Model Kronrod_Proofs Kronrod_Examples Bisect_Model.
Local Open Scope R_scope.
(** Always the first subinterval is bisected, and nothing is extrapolated. *)
Definition plain : choices := mkchoices (fun _ => 0%nat) (fun _ => None) (fun _ => None).
Lemma plain_index : forall last, (2 <= last <= 50)%nat -> (S (c_index plain last) < last)%nat.
Proof. intros last H. cbn. lia. Qed.
Lemma limit_50 : INR 50 = 50.
Proof. rewrite INR_IZR_INZ. reflexivity. Qed.
Lemma plain_accepted : exists f o, qags 50 (/ 10 ^ 50) (/ 10 ^ 6) plain f (-1) 1 = Ok o /\ q_ier o = 0%Z.
Proof. destruct some_accepted as (f & o & H & Z). exists f, o. split; [|exact Z]. unfold qags. rewrite limit_50, H. reflexivity. Qed.
