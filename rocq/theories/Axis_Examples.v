(** A loss that sets in at 200 MeV, and the tables of a muon. *)
From Verif Require Import Prelude PreludeFacts Propagator_Model Math_Model Cross_Model Axis_Model Axis_Spec Axis_Proofs.

Definition above (T E : R) : R := if T <? E then E - T else 0.
Lemma above_sets_in T : sets_in (above T) T.
Proof. split; intros E L; unfold above; destruct (Rltb_spec T E); lra. Qed.
(** From about the mass of the muon to UPPER_ENERGY_LIM with NODES_DEDX nodes *)
Definition muon_axis : axis := mkaxis 106 (10 ^ 14) 500.
Lemma muon_axis_sane : sane muon_axis.
Proof. split; cbn [a_low a_up a_nodes muon_axis]; [lra|lia]. Qed.
Definition perfect : (R -> R) -> axis -> R -> R := fun f _ => f.
Lemma perfect_exact : exact_spline perfect.
Proof. intros f a _ E _. reflexivity. Qed.
(** A variance that grows with the square of the energy until it is no number any
    more *)
Definition square_until (T E : R) : R := if E <=? T then E * E else 0.
Lemma square_until_spec T : (forall E, 106 <= E <= T -> 0 < square_until T E) /\ (forall E, T < E -> square_until T E = 0).
Proof. split; intros E L; unfold square_until; destruct (Rleb_spec E T); nra. Qed.
Lemma far_muon : 10 ^ 14 < far muon_axis.
Proof.
  unfold far. rewrite <- (node_last muon_axis muon_axis_sane) at 1. apply node_increasing; [exact muon_axis_sane|].
  cbn [a_nodes muon_axis]. apply (Rlt_trans _ 500); [lra|]. apply IZR_lt. lia.
Qed.
Definition above_cross : cross_base :=
  mkcross (fun _ => Ok 0) (fun _ => Ok 0) (fun E => Ok (above 200 E)) (fun _ _ => Ok 0) (fun _ _ _ => Ok 0) (fun _ => Ok []) (fun _ _ _ => Ok 0)
    106 Brems None.
Lemma above_rate E : total_rate [above_cross] E = Ok (above 200 E).
Proof. unfold total_rate. cbn. f_equal. ring. Qed.
Lemma square_case : let f := square_until (10 ^ 14) in
  sane muon_axis /\ (forall E, a_low muon_axis <= E <= 10 ^ 14 -> 0 < f E) /\ (forall E, 10 ^ 14 < E -> f E = 0) /\
  a_low muon_axis <= 10 ^ 14 < far muon_axis.
Proof.
  split; [exact muon_axis_sane|]. destruct (square_until_spec (10 ^ 14)) as (A & B). split; [exact A|]. split; [exact B|].
  split; [cbn [a_low muon_axis]; lra|exact far_muon].
Qed.
Lemma square_positive : sane muon_axis /\ 0 < (fun E => E * E) (a_low muon_axis) /\ 0 < (fun E => E * E) (far muon_axis).
Proof.
  split; [exact muon_axis_sane|]. split; [cbn; lra|]. pose proof far_muon. cbv beta. apply Rmult_lt_0_compat; lra.
Qed.
