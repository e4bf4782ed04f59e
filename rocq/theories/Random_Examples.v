(** A concrete generator for the properties of random numbers. *)
From Verif Require Import Prelude PreludeFacts Vec_Model Secondaries_Model Particle_Model Products_Model Random_Model Random_Spec Random_Proofs.

(** A toy engine that returns the same number again and again: 0 after the seed 0
    and 1/2 after all others. *)
Definition toy_uniform (e : Z) : R * Z := ((if (e =? 0)%Z then 0 else 1 / 2), e).
Definition toy_seeded (s : Z) : Z := s.
Definition toy_write (e : Z) : Z := e.
Definition toy_read (t e : Z) : Z := t.
Definition hydrogen_target : target := mktarget 1 1.

Lemma int_part_0 : 0%Z = Int_part 0.
Proof. destruct (base_Int_part 0) as [A B]. assert (-1 < Int_part 0 < 1)%Z by (split; apply lt_IZR; lra). lia. Qed.
Lemma toy_phi nan : reseeded_phi nan Z toy_uniform 1 0%Z ((2 * ME - ME) / ME) (2 * ME / ME) 1 = Some (Ok 0, 0%Z).
Proof.
  replace ((2 * ME - ME) / ME) with 1 by (unfold ME; field). replace (2 * ME / ME) with 2 by (unfold ME; field).
  cbn [reseeded_phi]. unfold toy_uniform. cbn [Z.eqb].
  assert (P : phi_candidate nan 2 0 = Ok 0).
  { unfold phi_candidate, quotient, root. assert (Q : 0 < 1 / (PI * 2) ^ 2).
    { apply Rdiv_lt_0_compat; [lra|]. apply pow_lt. pose proof PI_RGT_0. lra. }
    destruct (Req_EM_T (1 - 0 + 1 / (PI * 2) ^ 2) 0) as [X|X]; [lra|]. unfold Reqb. destruct (Req_EM_T _ 0) as [X'|_]; [lra|]. cbn [obind].
    replace (0 / (1 - 0 + 1 / (PI * 2) ^ 2)) with 0 by (unfold Rdiv; ring). destruct (Rltb_spec 0 0); [lra|]. cbn [obind]. rewrite sqrt_0. f_equal. ring. }
  rewrite P. cbn [obind]. clear P.
  assert (G : 0 < koch_g 0 1 2 1).
  { unfold koch_g. assert (C : Limits_Model.cube_root 1 = 1). { unfold Limits_Model.cube_root, Rpower. rewrite ln_1, Rmult_0_r. apply exp_0. }
    rewrite C. cbv zeta. set (m := ((1 - 1 / 2) / (2 * 2 * (1 / 2))) ^ 2 + (1 / (111 * (0 + 1))) ^ 2).
    assert (M : 0 < m < exp (-2)).
    { unfold m. split; [lra|]. replace (-2) with (- (1 + 1)) by ring. rewrite exp_Ropp, exp_plus.
      pose proof exp_le_3. pose proof (exp_pos 1). apply Rlt_le_trans with (/ 9); [lra|]. apply Rinv_le_contravar; nra. }
    assert (L : ln m < -2). { rewrite <- (ln_exp (-2)). apply ln_increasing; lra. }
    lra. }
  assert (N : exists n, koch_N nan 1 2 1 = Ok n /\ 0 < n).
  { unfold koch_N, quotient. set (q := Rmax _ _). assert (Q : 0 < q).
    { unfold q. eapply Rlt_le_trans; [exact G|]. eapply Rle_trans; [apply Rmax_l|apply Rmax_l]. }
    unfold Reqb. destruct (Req_EM_T q 0); [lra|]. eexists. split; [reflexivity|]. apply Rdiv_lt_0_compat; lra. }
  destruct N as (n & -> & Hn). cbn [obind]. replace ((2 * 0) ^ 2) with 0 by ring.
  destruct (Rltb_spec (n * koch_g 0 1 2 1) 0) as [L|_]; [|reflexivity]. pose proof (Rmult_lt_0_compat _ _ Hn G). lra.
Qed.
(** After a loss of half of its energy of an electron with the energy 2 ME. *)
Definition toy_directions : call Z := Directions ME (mkvec 1 0 0) (2 * ME) ME hydrogen_target [0; 1 / 4].
Lemma toy_performs nan g : perform nan Z Z toy_seeded toy_uniform toy_read 1 toy_directions g <> None.
Proof.
  unfold toy_directions. cbn [perform]. destruct (directions_shape nan Z toy_seeded toy_uniform 1 ME (mkvec 1 0 0) (2 * ME) ME hydrogen_target [0; 1 / 4] g 0 eq_refl ltac:(lra)) as (s & _ & Es & K).
  rewrite K. replace s with 0%Z. 2:{ rewrite Es. unfold truncate. rewrite Rmult_0_r. destruct (Rleb_spec 0 0); [|lra]. apply int_part_0. }
  unfold toy_seeded. cbn [t_charge hydrogen_target]. rewrite toy_phi. discriminate.
Qed.

(** Rounds from the seed 0: every round draws 0 twice and sets the seed 0 again. *)
Lemma toy_round nan : exists o, round nan Z toy_seeded toy_uniform 1 ME (mkvec 1 0 0) (2 * ME) ME hydrogen_target (mkgenerator 0%Z DefaultRandom) =
  Some (o, mkgenerator 0%Z DefaultRandom).
Proof.
  unfold round, random_double. cbn [random_function rng]. unfold toy_uniform at 1. cbn [Z.eqb]. cbn [random_function rng].
  unfold toy_uniform at 1. cbn [Z.eqb].
  destruct (directions_shape nan Z toy_seeded toy_uniform 1 ME (mkvec 1 0 0) (2 * ME) ME hydrogen_target [0; 0] (mkgenerator 0%Z DefaultRandom) 0 eq_refl ltac:(lra)) as (s & _ & Es & K).
  rewrite K. replace s with 0%Z. 2:{ rewrite Es. unfold truncate. rewrite Rmult_0_r. destruct (Rleb_spec 0 0); [|lra]. apply int_part_0. }
  unfold toy_seeded. cbn [t_charge hydrogen_target]. rewrite toy_phi. eexists. reflexivity.
Qed.
Lemma toy_rounds nan n : after_rounds nan Z toy_seeded toy_uniform 1 ME (mkvec 1 0 0) (2 * ME) ME hydrogen_target n (mkgenerator 0%Z DefaultRandom) <> None.
Proof.
  induction n as [|n IH]; [discriminate|]. cbn [after_rounds]. destruct (toy_round nan) as (o & ->). exact IH.
Qed.
