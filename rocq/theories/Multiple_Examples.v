(** Concrete cases of the hypotheses of C61. *)
From Coq Require Import String.
From Coquelicot Require Rcomplements.
From Verif Require Import Prelude PreludeFacts Particle_Model Limits_Model Vec_Model Cross_Model Photo_Model Integral_Model Utility_Model
  Decay_Spec Multiple_Model Multiple_Spec Log_Proofs Reduced_Proofs Multiple_Proofs Gauss_Proofs Moliere_Proofs MoliereAngle_Proofs MoliereSample_Proofs MoliereDensity_Proofs.
Notation length := List.length.

(** A muon of 1 GeV behind a metre of water *)
Definition water : highland := mkhighland MMU (-1) 36.
Example ex_highland : 0 < h_length water /\ 0 <= h_mass water < 1000 /\ 1000 <= 2000 /\ 0 <= 50 <= 100.
Proof. unfold water, MMU. cbn. lra. Qed.
Lemma ten_log : 0 < ln 10.
Proof. rewrite <- ln_1. apply ln_increasing; lra. Qed.
Example ex_highland_width nan : exists w, theta0 nan water 100 1000 = Ok w /\ 0 < w.
Proof.
  destruct ex_highland as (L & M & _). destruct (c61_highland nan water 100 1000 L M ltac:(lra)) as (w & H & _ & _ & V). exists w. split; [exact H|].
  rewrite V by lra. apply Rlt_le_trans with (2 := Rmax_l _ _). unfold highland_width, water, MMU. cbn [h_charge h_mass h_length].
  assert (0 < ln (100 / 36)) by (rewrite <- ln_1; apply ln_increasing; lra). pose proof ten_log. replace (Rabs (-1)) with 1 by (rewrite Rabs_left; lra).
  repeat apply Rmult_lt_0_compat; try lra.
  - apply sqrt_lt_R0. lra.
  - assert (0 < ln (100 / 36) / ln 10) by now apply Rdiv_lt_0_compat. lra.
Qed.

(** A muon of 1 GeV behind 100 g / cm^2 of standard rock: all solutions exist and
    the object scatters. *)
Lemma rock_proper : proper_medium standard_rock.
Proof. split; [discriminate|]. cbn [m_components standard_rock]. apply Forall_cons; [|apply Forall_nil]. unfold proper_component. cbn. lra. Qed.
Lemma cube_root : 0 < Rpower (11 * 128 / (9 * PI * PI)) (1 / 3) <= 3.
Proof.
  split; [apply exp_pos|]. pose proof PI2_3_2 as P3. assert (3 < PI) by lra. assert (P9 : 9 < PI * PI) by nra.
  replace 3 with (Rpower 27 (1 / 3)) at 2.
  - apply Rle_Rpower_l; [lra|]. split; [apply Rdiv_lt_0_compat; nra|]. apply (proj2 (Rcomplements.Rle_div_l (11 * 128) 27 (9 * PI * PI) ltac:(nra))); nra.
  - replace 27 with (Rpower 3 3); [rewrite Rpower_mult; replace (3 * (1 / 3)) with 1 by field; apply Rpower_1; lra|].
    replace 3 with (INR 3) at 2 by (cbn; ring). rewrite Rpower_pow by lra. ring.
Qed.
Lemma rock_b : 3 <= moliere_b MMU 1000 100 (m_components standard_rock) 11.
Proof.
  unfold moliere_b. assert (R : 64 <= characteristic_angle2 MMU 1000 100 (m_components standard_rock) / screening_angle2 MMU 1000 11).
  { assert (S : 0 < screening_angle2 MMU 1000 11) by (apply screening_positive; unfold MMU; lra). apply (proj1 (Rcomplements.Rle_div_r 64 _ _ S)).
    pose proof cube_root as (C0 & C3). set (c := Rpower (11 * 128 / (9 * PI * PI)) (1 / 3)) in *.
    assert (SB : screening_angle2 MMU 1000 11 <= (ME * ALPHA * 3) ^ 2 / (1000 ^ 2 - MMU ^ 2) * 2).
    { unfold screening_angle2. fold c. assert (K : 0 < 1000 ^ 2 - MMU ^ 2) by (unfold MMU; lra). apply Rmult_le_compat.
      - apply Rmult_le_pos; [apply pow2_ge_0|left; now apply Rinv_0_lt_compat].
      - assert (0 <= 376 / 100 * (ALPHA * 11) ^ 2 * (1000 ^ 2 / (1000 ^ 2 - MMU ^ 2))); [|lra]. apply Rmult_le_pos; [unfold ALPHA; lra|]. apply Rmult_le_pos; [lra|left; now apply Rinv_0_lt_compat].
      - apply Rmult_le_compat_r; [left; now apply Rinv_0_lt_compat|]. apply pow_incr. unfold ME, ALPHA. split; [nra|nra].
      - assert (1000 ^ 2 / (1000 ^ 2 - MMU ^ 2) <= 2) by (apply (proj2 (Rcomplements.Rle_div_l _ 2 _ K)); unfold MMU; lra). unfold ALPHA in *. lra. }
    assert (CB : characteristic_angle2 MMU 1000 100 (m_components standard_rock) = 4 * PI * NA * (ALPHA * HBAR * SPEED) ^ 2 * 100 * (1000 / (1000 ^ 2 - MMU ^ 2)) ^ 2 * (121 / 22)).
    { unfold characteristic_angle2. f_equal. unfold mean_ZZ, mean_A, mass_share. cbn [m_components standard_rock total c_charge c_atomic c_atoms].
      destruct (Req_EM_T MMU ME) as [X|X]; [unfold MMU, ME in X; lra|]. field. }
    rewrite CB. pose proof PI2_3_2 as P3. assert (3 < PI) by lra.
    assert (4 * 3 * NA * (ALPHA * HBAR * SPEED) ^ 2 * 100 * (1000 / (1000 ^ 2 - MMU ^ 2)) ^ 2 * (121 / 22)
      <= 4 * PI * NA * (ALPHA * HBAR * SPEED) ^ 2 * 100 * (1000 / (1000 ^ 2 - MMU ^ 2)) ^ 2 * (121 / 22)).
    { repeat apply Rmult_le_compat_r; try lra; try apply pow2_ge_0. unfold NA; lra. }
    assert (64 * ((ME * ALPHA * 3) ^ 2 / (1000 ^ 2 - MMU ^ 2) * 2) <= 4 * 3 * NA * (ALPHA * HBAR * SPEED) ^ 2 * 100 * (1000 / (1000 ^ 2 - MMU ^ 2)) ^ 2 * (121 / 22)); [|lra].
    unfold ME, ALPHA, MMU, NA, HBAR, SPEED. lra. }
  assert (ln 64 <= ln (characteristic_angle2 MMU 1000 100 (m_components standard_rock) / screening_angle2 MMU 1000 11)).
  { destruct R as [R|R]; [left; apply ln_increasing; lra|right; now rewrite R]. }
  assert (L : ln 64 = 6 * ln 2).
  { replace 64 with (2 ^ 6) by ring. rewrite Rcomplements.ln_pow by lra. cbn [INR]. ring. }
  pose proof ln_2. unfold EULER_MASCHERONI. lra.
Qed.
Example ex_moliere nan : not_a_value nan -> exists s0 p s', new_moliere nan MMU standard_rock = Ok s0 /\ used nan s0 s0 /\
  Forall (fun c => 3 <= moliere_b MMU 1000 100 (m_components standard_rock) (c_charge c)) (m_components standard_rock) /\
  prefactor nan s0 1000 100 = Ok (p, s') /\ p <> 0 /\ used nan s0 s' /\ 0 <= MMU < 1000 /\ 0 < 100.
Proof.
  intros N. exists (fresh MMU (m_components standard_rock)). pose proof (new_ok nan MMU standard_rock rock_proper) as NW.
  assert (M : 0 <= MMU < 1000) by (unfold MMU; lra).
  assert (T : Forall (fun c => 3 <= moliere_b MMU 1000 100 (m_components standard_rock) (c_charge c)) (m_components standard_rock)).
  { apply Forall_cons; [exact rock_b|apply Forall_nil]. }
  destruct (c61_scatters nan MMU standard_rock _ _ 1000 100 N rock_proper M NW (used_new nan _)) as (S & _).
  destruct (S ltac:(lra) T) as (p & s' & H & P). exists p, s'. repeat split; try assumption; try lra.
  - constructor.
  - econstructor; [constructor|exact H].
Qed.
(** The root of its equation *)
Example ex_root : exists B, moliere_root (moliere_b MMU 1000 100 (m_components standard_rock) 11) B.
Proof. destruct (root_exists (moliere_b MMU 1000 100 (m_components standard_rock) 11)) as (B & B1 & E); [pose proof rock_b; lra|]. exists B. split; assumption. Qed.
(** Water has two components. *)
Example ex_two : proper_medium (mkmedium 0 [mkcomponent 0 1 (100794 / 10 ^ 5) 2; mkcomponent 0 8 (159994 / 10 ^ 4) 1]) /\
  (length (m_components (mkmedium 0 [mkcomponent 0 1 (100794 / 10 ^ 5) 2; mkcomponent 0 8 (159994 / 10 ^ 4) 1])) <= 2)%nat.
Proof.
  split; [|cbn; lia]. split; [discriminate|]. cbn [m_components]. repeat (apply Forall_cons || apply Forall_nil); unfold proper_component; cbn; lra.
Qed.
(** The first two terms of the distribution left out: every random number then has
    an angle, in 1 GeV muons behind 100 g / cm^2 of rock. *)
Definition plain : series := moliere_series (fun _ => 0) (fun _ => 0) (fun _ => 0) (fun _ => 0) (fun _ => 0).
Lemma zero_horner n x : horner (fun _ => 0) n x 0 = 0.
Proof. induction n as [|n IH]; [reflexivity|]. cbn [horner]. replace (0 * x + 0) with 0 by ring. exact IH. Qed.
Lemma plain_terms x : 0 <= f1M plain x /\ 0 <= f2M plain x.
Proof.
  cbn [plain f1M f2M moliere_series]. unfold f1M_series, f2M_series, f2M_large, Rltb, Rleb. rewrite !zero_horner. split.
  - destruct (Rlt_dec 12 x); [|lra]. pose proof PI_RGT_0. apply Rmult_le_pos; [pose proof (sqrt_pos PI); lra|].
    left. apply Rinv_0_lt_compat. apply Rmult_lt_0_compat; apply exp_pos.
  - destruct (Rlt_dec (425 / 100 * (425 / 100)) x) as [H|H]; [|lra]. destruct (Rle_dec _ x); [|lra]. destruct (Rle_dec x _); cbn [andb].
    + assert (S : sqrt x * sqrt x = x) by (apply sqrt_sqrt; lra). set (u := sqrt x) in *. rewrite <- S. pose proof (Rle_0_sqr (u - 83417 / 10000)) as Q. unfold Rsqr in Q. lra.
    + unfold sum_2_12. cbn [fold_left seq]. rewrite !Rmult_0_l. lra.
Qed.
Lemma refine_total nan t s : (forall x, exists y, angle_share nan t s x = Ok y) -> (forall x, exists d, angle_density nan t s x = Ok d /\ d <> 0) ->
  forall n r x, exists z, refine nan t s n r x = Ok z.
Proof.
  intros F D. induction n as [|n IH]; intros r x; cbn [refine]; [eauto|].
  destruct (F x) as (y & ->). destruct (D x) as (d & -> & ND). cbn [obind]. rewrite divide_ok by exact ND. cbn [obind].
  destruct (Nat.eqb n 0); [eauto|]. destruct (moved x _); eauto.
Qed.
Example ex_offset nan r0 r1 r2 r3 : not_a_value nan -> 0 < r0 < 1 -> 0 < r1 < 1 -> 0 < r2 < 1 -> 0 < r3 < 1 ->
  exists s0 o s', new_moliere nan MMU standard_rock = Ok s0 /\ moliere_offset nan plain s0 100 1000 r0 r1 r2 r3 = Ok (o, s') /\ mo_B s' <> mo_B s0.
Proof.
  intros N I0 I1 I2 I3. destruct (ex_moliere nan N) as (s0 & p & s' & NW & U & _ & H & NP & _ & M & G). exists s0.
  destruct (c61_root nan MMU standard_rock s0 s0 1000 100 p s' N rock_proper M ltac:(lra) NW U H NP) as (X & FB).
  assert (C : 0 < mo_chi_c s').
  { rewrite X. destruct rock_proper as (NE & P). now apply (characteristic_sign MMU 1000 100 _ NE P M). }
  inversion FB as [|? b ? B (B45 & _) F0 E1 E2]; subst. inversion F0; subst.
  assert (PB : Forall (fun B => 0 < B) (mo_B s')) by (rewrite <- E2; apply Forall_cons; [lra|apply Forall_nil]).
  rewrite (new_ok nan MMU standard_rock rock_proper) in NW. injection NW as <-.
  pose proof (prefactor_fixed nan _ _ _ _ _ H) as (_ & _ & _ & W & WS & _). cbn [fresh mo_weight_ZZ mo_weight_sum] in W, WS.
  destruct rock_proper as (NE & P). destruct (means_positive MMU _ NE P) as (_ & _ & MW). pose proof (mass_positive _ NE P) as MT.
  assert (S1 : 0 < mass_share (m_components standard_rock) (mkcomponent 0 11 22 1)) by (inversion P; subst; now apply share_positive).
  assert (RT : forall r, 0 < r < 1 -> exists z, get_random nan plain s' p r = Ok z).
  { intros r I. unfold get_random. destruct (quantile_total nan r I) as (q & ->). cbn [obind]. apply refine_total.
    - intros x. unfold angle_share. unfold plain. rewrite share_sum by assumption. cbn [obind]. eauto.
    - intros x. unfold angle_density, plain. rewrite density_sum by assumption. cbn [obind]. eexists. split; [reflexivity|].
      rewrite W, WS, <- E2. cbn [m_components standard_rock map MoliereDensity_Proofs.terms]. unfold density_term. fold plain.
      pose proof (plain_terms (x * x / (mo_chi_c s' * b))) as (T1 & T2). pose proof (exp_pos (- (x * x / (mo_chi_c s' * b)))) as TE.
      set (v := x * x / (mo_chi_c s' * b)) in *. apply Rgt_not_eq. apply Rmult_lt_0_compat; [|apply Rdiv_lt_0_compat; [lra|exact MW]].
      rewrite Rplus_0_l, Rplus_0_r. assert (0 < mo_chi_c s' * b) by (apply Rmult_lt_0_compat; lra). apply Rmult_lt_0_compat.
      + apply Rdiv_lt_0_compat; [repeat apply Rmult_lt_0_compat; try exact S1; cbn; lra|]. apply sqrt_lt_R0. apply Rmult_lt_0_compat; [assumption|apply PI_RGT_0].
      + assert (0 <= f1M plain v / b) by (apply Rmult_le_pos; [exact T1|left; apply Rinv_0_lt_compat; lra]).
        assert (0 <= f2M plain v / (b * b)) by (apply Rmult_le_pos; [exact T2|left; apply Rinv_0_lt_compat; nra]). lra. }
  destruct (RT r0 I0) as (z0 & R0), (RT r1 I1) as (z1 & R1), (RT r2 I2) as (z2 & R2), (RT r3 I3) as (z3 & R3).
  eexists _, s'. split; [apply new_ok; split; assumption|]. unfold moliere_offset. rewrite H. cbn [obind]. unfold Reqb. destruct (Req_EM_T p 0); [contradiction|].
  rewrite R0, R1, R2, R3. cbn [obind]. split; [reflexivity|]. rewrite <- E2. cbn. intros K. injection K as K. lra.
Qed.
(** An integral from a table, and limits that are not too close *)
Example ex_integral nan qags : calculate nan qags (Tabulated (fun E => Ok (/ (E * E))) 106 (fun E => - / E) false) 1000 500
  = Some (Ok (- / 1000 - - / 500, Tabulated (fun E => Ok (/ (E * E))) 106 (fun E => - / E) false)).
Proof. unfold calculate. unfold Rltb. destruct (Rlt_dec (1000 - 500) (1000 * IPREC)) as [H|H]; [unfold IPREC in H; lra|]. reflexivity. Qed.
Example ex_destroyed : 0 < 500 < 1000 /\ negligible (ln 500) (ln 1000) = false.
Proof.
  split; [lra|]. unfold negligible, Rleb. destruct (Rle_dec (Rabs (ln 1000 - ln 500)) (Rabs (ln 500) * COMPUTER_PRECISION)) as [H|]; [exfalso|reflexivity].
  assert (D : ln 1000 - ln 500 = ln 2) by (replace 1000 with (2 * 500) by ring; rewrite ln_mult by lra; ring). rewrite D in H. pose proof ln_2.
  assert (0 < ln 500) by (rewrite <- ln_1; apply ln_increasing; lra).
  assert (ln 500 <= ln 512) by (left; apply ln_increasing; lra). assert (L : ln 512 = 9 * ln 2) by (replace 512 with (2 ^ 9) by ring; rewrite Rcomplements.ln_pow by lra; cbn [INR]; ring).
  rewrite !Rabs_pos_eq in H by lra. unfold COMPUTER_PRECISION in H. lra.
Qed.
(** A thickness in rock at which the expansion does not hold *)
Example ex_thin : exists g, 0 < g /\ Forall (fun c => 1 <= moliere_b MMU 1000 g (m_components standard_rock) (c_charge c)) (m_components standard_rock) /\
  Exists (fun c => moliere_b MMU 1000 g (m_components standard_rock) (c_charge c) <= 26 / 10) (m_components standard_rock).
Proof.
  destruct rock_proper as (NE & P). assert (M : 0 <= MMU < 1000) by (unfold MMU; lra).
  pose proof (screening_positive MMU 1000 11 M ltac:(lra)) as S. destruct (characteristic_sign MMU 1000 1 _ NE P M) as (C1 & _). specialize (C1 ltac:(lra)).
  set (cs := m_components standard_rock) in *. set (L := 2 - 1 + 2 * EULER_MASCHERONI).
  exists (exp L * screening_angle2 MMU 1000 11 / characteristic_angle2 MMU 1000 1 cs). set (g := exp L * _ / _).
  assert (X : characteristic_angle2 MMU 1000 g cs = exp L * screening_angle2 MMU 1000 11).
  { transitivity (g * characteristic_angle2 MMU 1000 1 cs); [unfold characteristic_angle2; ring|]. unfold g. field. lra. }
  assert (B : moliere_b MMU 1000 g cs 11 = 2).
  { unfold moliere_b. rewrite X. replace (exp L * screening_angle2 MMU 1000 11 / screening_angle2 MMU 1000 11) with (exp L) by (field; lra).
    rewrite ln_exp. unfold L. ring. }
  split; [apply Rdiv_lt_0_compat; [apply Rmult_lt_0_compat; [apply exp_pos|exact S]|exact C1]|].
  split; [apply Forall_cons; [|apply Forall_nil]|apply Exists_cons_hd]; cbn [c_charge]; rewrite B; lra.
Qed.
