(** A case for C91: a muon of 10^9 MeV in oxygen, half of whose energy goes to a pair. *)
From Coq Require Import Lra.
From Verif Require Import Prelude Particle_Model Limits_Model Cross_Model Differential_Spec Pairs_Spec Cross_Examples Pairs_Examples.

Lemma suppression_case : element oxygen_c /\ 0 < MMU /\ 0 < 10 ^ 9 /\ 0 < 1 / 2 < 1 /\ 0 <= 1 / 3 < 1 /\ 0 < 10 ^ 8 /\ 0 < 1 < 2 /\
  suppression_parameter (10 ^ 8) 1 (10 ^ 9) (1 / 2) (1 / 3) < 1 / 2.
Proof.
  destruct electron_pair_case as (H & M & _). split; [exact H|]. split; [exact M|]. repeat (split; [lra|]).
  unfold suppression_parameter. assert (S : sqrt (10 ^ 8 / (1 * 10 ^ 9 * (1 / 2) * (1 - (1 / 3) ^ 2))) < sqrt 1) by (apply sqrt_lt_1; lra).
  rewrite sqrt_1 in S. lra.
Qed.
Lemma electron_suppression_case : element oxygen_c /\ -1 <> 0 /\ 0 < 10 ^ 9 /\ 0 < 1 / 2 < 1 /\ 2 * ME < 1 / 2 * 10 ^ 9 /\ 0 <= 1 / 3 < 1 /\ 0 < 10 ^ 8 /\ 0 < 1 < 2.
Proof. destruct electron_pair_case as (H & _). split; [exact H|]. unfold ME. repeat split; lra. Qed.
