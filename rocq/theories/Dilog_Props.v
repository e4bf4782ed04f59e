(** Property C90: the dilogarithm. *)
From Verif Require Import Prelude Cross_Model Dilog_Model Dilog_Spec Dilog_Proofs Dilog_Examples.

(** For every argument there is a value, and it is that of the dilogarithm up to 10^-14. *)
Theorem C90_dilog : forall nan f x, dilogarithm f -> exists v, dilog nan x = Ok v /\ Rabs (v - f x) <= 1 / 10 ^ 14.
Proof. exact (fun nan f x F => dilog_close nan f F x). Qed.
Print Assumptions C90_dilog.

(** There is such a function, and only one. *)
Theorem C90_dilogarithm : (exists f, dilogarithm f) /\ forall f g, dilogarithm f -> dilogarithm g -> forall x, f x = g x.
Proof. exact (conj (ex_intro _ spence spence_dilogarithm) unique_dilogarithm). Qed.
Print Assumptions C90_dilogarithm.
Example C90_example : forall nan, dilogarithm spence /\ exists v, dilog nan 3 = Ok v /\ Rabs (v - spence 3) <= 1 / 10 ^ 14.
Proof. exact (fun nan => conj spence_dilogarithm (dilog_close nan spence spence_dilogarithm 3)). Qed.
