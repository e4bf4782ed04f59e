(** Concrete cases of the hypotheses of C60. *)
From Coquelicot Require Rcomplements.
From Verif Require Import Prelude PreludeFacts Particle_Model Limits_Model Vec_Model Geometry_Model Propagator_Model Deflection_Model Deflection_Spec
  Deflection_Proofs Borog_Proofs Ginneken_Proofs Deflector_Proofs.

(** A muon of 10 GeV loses 4 GeV. *)
Example ex_tsai : 0 < MMU /\ 0 < 6000 <= 10000 /\ 0 <= 1 / 2 <= 1.
Proof. unfold MMU. lra. Qed.
Example ex_epair : 0 < MMU < 6000 /\ 6000 < 10000 /\ 0 <= 1 / 2 < 1.
Proof. unfold MMU. lra. Qed.
Lemma ex_part : lost_part MMU 10000 6000 <= 1 / 2.
Proof. unfold lost_part, MMU. apply Rcomplements.Rle_div_l; lra. Qed.
Example ex_brems_low : 0 < MMU < 6000 /\ 6000 < 10000 /\ 0 < 8 /\ lost_part MMU 10000 6000 <= 1 / 2.
Proof. split; [unfold MMU; lra|]. split; [lra|]. split; [lra|]. apply ex_part. Qed.
(** Its loss by ionization is below the limit; so is one of a positron. *)
Lemma ex_limits : v_min (ionization_limits MMU 75 10000) < 1 / 10 < v_max (ionization_limits MMU 75 10000).
Proof.
  unfold ionization_limits, MMU, ME. cbn [v_min v_max]. match goal with |- _ < _ < (if ?b then _ else ?w) => assert (W : 1 / 10 < w) end.
  - apply Rmin_glb_lt; [|lra]. apply Rcomplements.Rlt_div_r; lra.
  - rewrite no_lt by lra. lra.
Qed.
Example ex_ionization : 0 < MMU < 10000 /\ MMU <> ME /\ v_min (ionization_limits MMU 75 10000) < v_max (ionization_limits MMU 75 10000) /\
  0 <= 1 / 10 <= v_max (ionization_limits MMU 75 10000).
Proof. pose proof ex_limits. unfold MMU, ME in *. lra. Qed.
Example ex_bhabha : ME < 100 /\ 0 <= 1 / 2 < v_max (bhabha_limits ME 100) /\ 0 <= 1 / 4 <= v_max (moller_limits ME 100).
Proof. unfold bhabha_limits, moller_limits, ME. cbn [v_max]. rewrite !no_lt by lra. lra. Qed.
(** Photonuclear losses of muons on protons, and of taus *)
Example ex_borog : 0 < MMU < MPI /\ v_min (photonuclear_limits MMU MP 10000) < 4 / 10 < v_max (photonuclear_limits MMU MP 10000).
Proof.
  assert (A : MPI * MPI / (2 * MP) <= 20) by (unfold MPI, MP; apply Rcomplements.Rle_div_l; lra).
  assert (B : 0 <= MPI * MPI / (2 * MP)) by (unfold MPI, MP; apply Rcomplements.Rle_div_r; lra).
  assert (C : 0 <= MMU / MP <= 1) by (unfold MMU, MP; split; [apply Rcomplements.Rle_div_r|apply Rcomplements.Rle_div_l]; lra).
  assert (D : MMU / MP * (MMU / MP) <= 1) by nra. assert (M : MPI < 140 /\ 0 < MPI /\ 0 < MP < 940 /\ 0 < MMU < MPI) by (unfold MPI, MP, MMU; lra).
  split; [lra|]. unfold photonuclear_limits. cbv zeta. cbn [v_min v_max]. rewrite (yes_lt MMU MPI) by lra. set (q := MMU / MP) in *. set (w := MPI * MPI / (2 * MP)) in *.
  assert (MP * (1 + q * q) <= 1880) by nra. rewrite no_lt by lra. lra.
Qed.
Example ex_borog_heavy : 626 <= MTAU <= 2 * MP /\ MTAU <= 6000 < 10000.
Proof. unfold MTAU, MP. lra. Qed.
(** A large loss at high energy has a small mean angle ... *)
Lemma power_le_1 x y : 0 < x <= 1 -> 0 <= y -> Rpower x y <= 1.
Proof.
  intros X Y. rewrite <- (Rpower_O x) by lra. replace (Rpower x 0) with (Rpower x 0) by reflexivity. unfold Rpower.
  assert (ln x <= 0) by (destruct (proj2 X) as [X1| ->]; [left; rewrite <- ln_1; apply ln_increasing; lra|right; apply ln_1]).
  assert (y * ln x <= 0 * ln x) by nra. destruct H0 as [L| ->]; [left; apply exp_increasing; exact L|right; reflexivity].
Qed.
Lemma power_ge x y z : 1 <= x -> y <= z -> Rpower x y <= Rpower x z.
Proof. intros [X| <-] Y; [|unfold Rpower; rewrite ln_1, !Rmult_0_r; right; reflexivity]. apply Rle_Rpower; lra. Qed.
Example ex_high : let m := 100 in let e_i := 10 ^ 6 in let e_f := e_i - 3 / 4 * (e_i - m) in
  0 < m < e_f /\ e_f < e_i /\ 1 / 2 < lost_part m e_i e_f /\ brems_mean_high (e_i / 1000) (lost_part m e_i e_f) < 2 / 10.
Proof.
  cbv zeta. split; [lra|]. split; [lra|]. assert (L : lost_part 100 (10 ^ 6) (10 ^ 6 - 3 / 4 * (10 ^ 6 - 100)) = 3 / 4) by (unfold lost_part; field). rewrite L. split; [lra|].
  replace (10 ^ 6 / 1000) with 1000 by field. unfold brems_mean_high. pose proof (brems_exponent_pos 1000 ltac:(lra)) as N. set (n := brems_exponent 1000) in *.
  assert (N1 : n <= 1). { unfold n, brems_exponent. pose proof (sqrt_pos 1000). apply (proj2 (Rcomplements.Rle_div_l (81 / 100 * sqrt 1000) 1 (sqrt 1000 + 18 / 10) ltac:(lra))). lra. }
  assert (A : Rpower (3 / 4) (1 + n) <= 1) by (apply power_le_1; lra).
  assert (B : Rpower (1 - 3 / 4) (- n) <= 4).
  { replace (1 - 3 / 4) with (/ 4) by field. rewrite Rpower_Ropp. unfold Rpower. rewrite ln_Rinv by lra. rewrite <- exp_Ropp. replace (- (n * - ln 4)) with (n * ln 4) by ring.
    change (Rpower 4 n <= 4). rewrite <- (Rpower_1 4) at 2 by lra. apply power_ge; lra. }
  assert (C : Rpower 1000 (- (91 / 100)) <= / 10).
  { replace (/ 10) with (Rpower 1000 (- (1 / 3))); [apply power_ge; lra|]. replace 1000 with (10 ^ 3) by ring. rewrite <- Rpower_pow by lra. rewrite Rpower_mult.
    replace (INR 3 * - (1 / 3)) with (Ropp 1) by (cbn; field). rewrite Rpower_Ropp, Rpower_1 by lra. reflexivity. }
  pose proof (Rpower_pos (3 / 4) (1 + n)). pose proof (Rpower_pos (1 - 3 / 4) (- n)). pose proof (Rpower_pos 1000 (- (91 / 100))).
  set (a := Rpower (3 / 4) (1 + n)) in *. set (b := Rpower (1 - 3 / 4) (- n)) in *. set (c := Rpower 1000 (- (91 / 100))) in *.
  assert (26 / 100 * c * a <= 26 / 1000) by nra. assert (0 < 26 / 100 * c * a) by (apply Rmult_lt_0_compat; lra). nra.
Qed.
(** ... at low energies a large one. *)
Example ex_top : exists e_i, let m := MMU in let e_f := e_i - 3 / 4 * (e_i - m) in
  0 < m < e_f /\ e_f < e_i /\ 1 / 2 < lost_part m e_i e_f /\ 2 / 10 <= brems_mean_high (e_i / 1000) (lost_part m e_i e_f).
Proof.
  exists 1000. cbv zeta. split; [unfold MMU; lra|]. split; [unfold MMU; lra|]. assert (L : lost_part MMU 1000 (1000 - 3 / 4 * (1000 - MMU)) = 3 / 4) by (unfold lost_part; field; unfold MMU; lra). rewrite L.
  split; [lra|]. replace (1000 / 1000) with (exp 0) by (rewrite exp_0; field). rewrite phi_mean. pose proof phi_start. lra.
Qed.
(** Objects: a second calculator for bremsstrahlung replaces the first one, and a
    factor for ionization changes only ionization. *)
Example ex_objects : last_for [BremsTsai; IonizNaive; BremsGinneken] Brems BremsGinneken /\ last_for [BremsTsai; IonizNaive; BremsGinneken] Ioniz IonizNaive /\
  factor_for [(Ioniz, 2)] Ioniz 2 /\ factor_for [(Ioniz, 2)] Brems 1.
Proof.
  split; [exists [BremsTsai; IonizNaive], []; split; [reflexivity|]; split; [reflexivity|intros ? []]|].
  split; [exists [BremsTsai], [BremsGinneken]; split; [reflexivity|]; split; [reflexivity|intros ? [<-|[]]; discriminate]|].
  split; [constructor|]. apply factor_there; [discriminate|constructor].
Qed.
Example ex_numbers : (required IonizNaive <= length [1 / 2])%nat /\ (required PhotoBorog <= length [1 / 2; 1 / 3])%nat /\ defined (Throw invalid_argument : outcome R).
Proof. cbn. split; [lia|]. split; [lia|]. discriminate. Qed.
