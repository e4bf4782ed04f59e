(** Proofs about the kinematic limits. *)
From Verif Require Import Prelude PreludeFacts Particle_Model Limits_Model Limits_Spec.
From Coq Require Import Lra Psatz.

Ltac consts := unfold ME, MMU, SQRTE, MPI, MP, MN in *.
Lemma div_le_1 a b : 0 < b -> a <= b -> a / b <= 1.
Proof. intros. apply Rmult_le_reg_r with b; auto. unfold Rdiv. rewrite Rmult_assoc, Rinv_l by lra. lra. Qed.
Lemma div_mul a b : b <> 0 -> a / b * b = a.
Proof. intros. field. auto. Qed.
Lemma div_pos a b : 0 <= a -> 0 < b -> 0 <= a / b.
Proof. intros. unfold Rdiv. apply Rmult_le_pos; auto. apply Rlt_le, Rinv_0_lt_compat; auto. Qed.
Lemma cube_root_ge Z : 1 <= Z -> 1 <= cube_root Z.
Proof.
  intros H. unfold cube_root. destruct (Req_dec Z 1) as [->|N].
  - unfold Rpower. rewrite ln_1, Rmult_0_r, exp_0. lra.
  - pose proof (Rpower_lt Z 0 (1 / 3) ltac:(lra) ltac:(lra)) as X. rewrite Rpower_O in X by lra. lra.
Qed.

Lemma le_v m E v x : 0 < E -> v <= x -> m <= E * (1 - x) -> m <= E * (1 - v).
Proof. intros. nra. Qed.

Lemma brems_ok lorenz m Z E : 0 < m <= E -> 1 <= Z -> (forall c, lorenz = Some c -> 0 <= c) ->
  ordered (brems_limits lorenz m Z E) /\ leaves m E (brems_limits lorenz m Z E).
Proof.
  intros H HZ HL. pose proof (cube_root_ge Z HZ) as HC. unfold ordered, leaves, in_limits, brems_limits. cbn [v_min v_max].
  set (q := m / E). assert (Hq : q * E = m) by (apply div_mul; lra). assert (0 < q) by (unfold q; apply Rdiv_lt_0_compat; lra).
  assert (G : m <= E * (1 - (1 - 75 / 100 * SQRTE * q * cube_root Z))).
  { replace (E * (1 - (1 - 75 / 100 * SQRTE * q * cube_root Z))) with (75 / 100 * SQRTE * cube_root Z * (q * E)) by ring. rewrite Hq.
    consts. nra. }
  destruct (Rltb_spec (1 - 75 / 100 * SQRTE * q * cube_root Z) 0).
  - split; [lra|]. intros. lra.
  - destruct lorenz as [c|].
    + split; [apply Rmin_glb; [lra|apply div_pos; [apply HL; auto|lra]]|].
      intros _ v Hv. eapply le_v; [lra| |exact G]. eapply Rle_trans; [apply Hv|apply Rmin_l].
    + split; [lra|]. intros _ v Hv. eapply le_v; [lra|apply Hv|exact G].
Qed.
Lemma brems_default_ok m E : 0 < m <= E -> ordered (brems_default_limits m E) /\ leaves m E (brems_default_limits m E).
Proof.
  intros H. unfold ordered, leaves, in_limits, brems_default_limits. cbn [v_min v_max]. pose proof (div_le_1 m E ltac:(lra) ltac:(lra)).
  split; [lra|]. intros _ v Hv. eapply le_v; [lra|apply Hv|]. replace (E * (1 - (1 - m / E))) with (m / E * E) by ring. rewrite (div_mul m E) by lra. lra.
Qed.
Lemma clamp_ordered a b : a <= (if b <? a then a else b).
Proof. destruct (Rltb_spec b a); lra. Qed.
Lemma epair_ok m Z E : 0 < m <= E -> 1 <= Z -> ordered (epair_limits m Z E) /\ leaves m E (epair_limits m Z E).
Proof.
  intros H HZ. pose proof (cube_root_ge Z HZ) as HC. unfold ordered, leaves, in_limits, epair_limits. cbn [v_min v_max].
  split; [apply clamp_ordered|].
  set (q := m / E). assert (Hq : q * E = m) by (apply div_mul; lra). assert (0 < q) by (unfold q; apply Rdiv_lt_0_compat; lra).
  assert (G : m <= E * (1 - (1 - 75 / 100 * SQRTE * q * cube_root Z))).
  { replace (E * (1 - (1 - 75 / 100 * SQRTE * q * cube_root Z))) with (75 / 100 * SQRTE * cube_root Z * (q * E)) by ring. rewrite Hq.
    consts. nra. }
  destruct (Rltb_spec (Rmin (1 - 75 / 100 * SQRTE * q * cube_root Z) (1 - 6 * q * q)) (4 * ME / E)); [lra|].
  intros _ v Hv. eapply le_v; [lra| |exact G]. eapply Rle_trans; [apply Hv|apply Rmin_l].
Qed.
Lemma mupair_ok m E : 0 < m <= E -> ordered (mupair_limits m E) /\ leaves m E (mupair_limits m E).
Proof.
  intros H. unfold ordered, leaves, in_limits, mupair_limits. cbn [v_min v_max]. split; [apply clamp_ordered|].
  destruct (Rltb_spec (1 - m / E) (2 * MMU / E)); [lra|].
  intros _ v Hv. eapply le_v; [lra|apply Hv|]. replace (E * (1 - (1 - m / E))) with (m / E * E) by ring. rewrite (div_mul m E) by lra. lra.
Qed.
Lemma ionization_ok m I E : 0 < m <= E -> ordered (ionization_limits m I E) /\ leaves m E (ionization_limits m I E).
Proof.
  intros H. unfold ordered, leaves, in_limits, ionization_limits. cbn [v_min v_max]. split; [apply clamp_ordered|].
  match goal with |- context [if ?a <? ?b then _ else _] => destruct (Rltb_spec a b) end; [lra|].
  intros _ v (_ & Hv). eapply le_v; [lra| |]. { eapply Rle_trans; [apply Hv|apply Rmin_r]. }
  replace (E * (1 - (1 - m / E))) with (m / E * E) by ring. rewrite (div_mul m E) by lra. lra.
Qed.
Lemma bhabha_ok m E : 0 < m <= E -> ordered (bhabha_limits m E) /\ leaves m E (bhabha_limits m E).
Proof.
  intros H. unfold ordered, leaves, in_limits, bhabha_limits. cbn [v_min v_max]. split; [apply clamp_ordered|].
  destruct (Rltb_spec (1 - m / E) 0); [lra|].
  intros _ v Hv. eapply le_v; [lra|apply Hv|]. replace (E * (1 - (1 - m / E))) with (m / E * E) by ring. rewrite (div_mul m E) by lra. lra.
Qed.
Lemma moller_ok m E : 0 < m <= E -> ordered (moller_limits m E) /\
  (v_min (moller_limits m E) < v_max (moller_limits m E) ->
   forall v, in_limits (moller_limits m E) v -> m <= E * (1 - v) /\ E * v <= E * (1 - v) - m).
Proof.
  intros H. unfold ordered, in_limits, moller_limits. cbn [v_min v_max]. split; [apply clamp_ordered|].
  destruct (Rltb_spec (1 / 2 * (1 - m / E)) 0); [lra|].
  intros _ v Hv. assert (E * v <= 1 / 2 * (E - m)).
  { apply Rle_trans with (E * (1 / 2 * (1 - m / E))); [apply Rmult_le_compat_l; lra|].
    right. field. lra. }
  lra.
Qed.
Lemma photonuclear_ok m M E : 0 < m <= E -> 0 < M -> m < MPI ->
  ordered (photonuclear_limits m M E) /\ leaves m E (photonuclear_limits m M E).
Proof.
  intros H HM Hm. unfold ordered, leaves, in_limits, photonuclear_limits. cbn [v_min v_max]. split; [apply clamp_ordered|].
  destruct (Rltb_spec m MPI); [|lra]. match goal with |- context [if ?a <? ?b then _ else _] => destruct (Rltb_spec a b) end; [lra|].
  intros _ v Hv. eapply le_v; [lra|apply Hv|].
  replace (E * (1 - (1 - M * (1 + m / M * (m / M)) / (2 * E)))) with ((M * M + m * m) / (2 * M)) by (field; lra).
  apply Rmult_le_reg_r with (2 * M); [lra|]. rewrite div_mul by lra. clear - HM. pose proof (Rle_0_sqr (M - m)). unfold Rsqr in *. lra.
Qed.
Lemma photonuclear_heavy_refuted : exists m M E, MPI <= m <= E /\ 0 < M /\
  v_min (photonuclear_limits m M E) < v_max (photonuclear_limits m M E) /\ E * (1 - v_max (photonuclear_limits m M E)) < m.
Proof.
  exists MTAU, MP, 10000. unfold photonuclear_limits. destruct (Rltb_spec MTAU MPI) as [C|C]; [unfold MTAU in C; consts; lra|].
  assert (X : (MPI + MPI * MPI / (2 * MP)) / 10000 < 1).
  { apply Rmult_lt_reg_r with 10000; [lra|]. unfold Rdiv at 1. rewrite Rmult_assoc, Rinv_l by lra. consts. lra. }
  destruct (Rltb_spec 1 ((MPI + MPI * MPI / (2 * MP)) / 10000)); [lra|]. cbn [v_min v_max].
  repeat split; auto; unfold MTAU; consts; lra.
Qed.
Lemma weak_ok E : 64 <= E -> ordered (weak_limits E).
Proof.
  intros H. unfold ordered, weak_limits. cbn [v_min v_max]. apply div_le_1; consts; nra.
Qed.
Lemma weak_refuted : exists E, ME <= E /\ v_max (weak_limits E) < v_min (weak_limits E).
Proof.
  exists 10. unfold weak_limits. cbn [v_min v_max]. split; [consts; lra|].
  match goal with |- _ < _ / ?b => apply Rmult_lt_reg_r with b; [consts; lra|]; unfold Rdiv; rewrite (Rmult_assoc _ _ b), Rinv_l by (consts; lra) end.
  consts. lra.
Qed.
Lemma compton_ok E : 0 < E -> ordered (compton_limits E) /\ v_max (compton_limits E) < 1.
Proof.
  intros H. unfold ordered, compton_limits. cbn [v_min v_max].
  assert (0 < 2 * E / ME) by (apply Rdiv_lt_0_compat; consts; lra).
  assert (0 < 1 / (1 + 2 * E / ME)) by (apply Rdiv_lt_0_compat; lra).
  pose proof (div_le_1 1 (1 + 2 * E / ME) ltac:(lra) ltac:(lra)). lra.
Qed.
Lemma photo_pair_ok E : 2 * ME < E -> v_min (photo_pair_limits E) < v_max (photo_pair_limits E) /\
  forall x, in_limits (photo_pair_limits E) x -> ME <= E * x /\ ME <= E * (1 - x).
Proof.
  intros H. unfold photo_pair_limits, in_limits. destruct (Rleb_spec E (2 * ME)); [lra|]. cbn [v_min v_max].
  assert (HE : 0 < E) by (consts; lra). assert (Q : ME / E * E = ME) by (apply div_mul; lra). split; [|intros x Hx; nra].
  apply Rmult_lt_reg_r with E; auto. lra.
Qed.
Lemma photo_mupair_ordered E : 0 < E -> ordered (photo_mupair_limits E) /\
  (forall x, in_limits (photo_mupair_limits E) x <-> in_limits (photo_mupair_limits E) (1 - x)) /\
  0 <= v_min (photo_mupair_limits E).
Proof.
  intros H. unfold ordered, photo_mupair_limits, in_limits. destruct (Rleb_spec E (2 * MMU * SQRTE)); cbn [v_min v_max].
  - split; [lra|]. split; [intros; lra|lra].
  - pose proof (sqrt_pos (1 - 2 * SQRTE * MMU / E)). split; [lra|]. split; [intros; lra|].
    assert (sqrt (1 - 2 * SQRTE * MMU / E) <= sqrt 1).
    { apply sqrt_le_1_alt. assert (0 <= 2 * SQRTE * MMU / E) by (apply div_pos; consts; lra). lra. }
    rewrite sqrt_1 in *. lra.
Qed.
(** Above 2 m / (2 - sqrt e) the smallest energy of a muon is below its rest mass. *)
Lemma photo_mupair_refuted E : 2 * MMU < (2 - SQRTE) * E -> v_min (photo_mupair_limits E) < v_max (photo_mupair_limits E) /\
  E * v_min (photo_mupair_limits E) < MMU.
Proof.
  intros H. assert (HE : 0 < E) by (consts; lra). unfold photo_mupair_limits.
  destruct (Rleb_spec E (2 * MMU * SQRTE)) as [C|C]; [exfalso; consts; lra|]. cbn [v_min v_max].
  set (q := MMU / E). assert (Hq : q * E = MMU) by (apply div_mul; lra).
  replace (2 * SQRTE * MMU / E) with (2 * SQRTE * q) by (unfold q; field; lra).
  assert (P : 2 * q < 2 - SQRTE).
  { apply Rmult_lt_reg_r with E; auto. rewrite Rmult_assoc, Hq. lra. }
  assert (0 < q) by (unfold q; apply Rdiv_lt_0_compat; consts; lra).
  assert (R : 1 - 2 * q < sqrt (1 - 2 * SQRTE * q)).
  { rewrite <- (sqrt_Rsqr (1 - 2 * q)) by (consts; lra). apply sqrt_lt_1_alt. unfold Rsqr. split; [consts; nra|]. nra. }
  split; [consts; lra|]. replace MMU with (q * E) at 1. nra.
Qed.
(** ** Examples *)
Lemma muon_brems : let l := brems_limits None MMU 1 1000000 in
  v_min l < v_max l /\ in_limits l (1 / 2) /\ MMU <= 1000000 * (1 - 1 / 2).
Proof.
  cbv zeta. unfold in_limits, brems_limits. cbn [v_min v_max]. assert (C : cube_root 1 = 1). { unfold cube_root, Rpower. rewrite ln_1, Rmult_0_r, exp_0. auto. }
  rewrite C. assert (X : 75 / 100 * SQRTE * (MMU / 1000000) * 1 < 1 / 2) by (consts; lra).
  match goal with |- context [if ?a <? 0 then _ else _] => destruct (Rltb_spec a 0) end; consts; lra.
Qed.
Lemma muon_pairs : let l := mupair_limits MMU 1000 in
  v_min l < v_max l /\ in_limits l (1 / 2) /\ 2 * MMU < (2 - SQRTE) * 1000.
Proof.
  cbv zeta. unfold in_limits, mupair_limits. cbn [v_min v_max].
  match goal with |- context [if ?a <? ?b then _ else _] => destruct (Rltb_spec a b) end; consts; lra.
Qed.
