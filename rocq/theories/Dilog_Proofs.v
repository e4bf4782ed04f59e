(** The dilogarithm of the library is the dilogarithm. *)
From Coquelicot Require Import Coquelicot.
From Verif Require Import Prelude PreludeFacts Cross_Model Transform_Proofs Dilog_Model Dilog_Spec DilogEquations_Proofs DilogSeries_Proofs.

(** The least common multiple of the numbers up to 50 *)
Definition M : Z := 3099044504245996706400.
Definition M2 : Z := M * M.
Fixpoint sq_list (m : Z) (n : nat) : list Z := match n with O => [0%Z] | S n => sq_list m n ++ [(m / (Z.of_nat (S n) * Z.of_nat (S n)))%Z] end.
Fixpoint log_list (m : Z) (n : nat) : list Z := match n with O => [] | S n => log_list m n ++ [(m / Z.of_nat (S n))%Z] end.
Lemma sq_length m n : length (sq_list m n) = S n.
Proof. induction n as [|n IH]; [reflexivity|]. cbn [sq_list]. rewrite app_length, IH. cbn. lia. Qed.
Lemma log_length m n : length (log_list m n) = n.
Proof. induction n as [|n IH]; [reflexivity|]. cbn [log_list]. rewrite app_length, IH. cbn. lia. Qed.
Lemma exact_quotient m d : (m mod d =? 0)%Z = true -> (d <> 0)%Z -> IZR (m / d) = IZR m / IZR d.
Proof.
  intros E D. apply Z.eqb_eq in E. pose proof (Z.div_mod m d D) as H. rewrite E, Z.add_0_r in H.
  assert (IZR d <> 0) by (intro X; apply eq_IZR_R0 in X; contradiction). rewrite H at 2. rewrite mult_IZR. field. assumption.
Qed.
Lemma sq_value m n y : forallb (fun k => (m mod (Z.of_nat (S k) * Z.of_nat (S k)) =? 0)%Z) (seq 0 n) = true ->
  ev (sq_list m n) y = IZR m * squares n y.
Proof.
  induction n as [|n IH]; intro H; [cbn; ring|]. rewrite seq_S, forallb_app in H. apply andb_true_iff in H. destruct H as [H1 H2].
  cbn [forallb plus] in H2. rewrite andb_true_r in H2. cbn [sq_list squares].
  rewrite ev_app, (IH H1), sq_length, exact_quotient by (try assumption; lia). rewrite mult_IZR, <- INR_IZR_INZ. field. apply INR_S_neq.
Qed.
Lemma log_value m n y : forallb (fun k => (m mod Z.of_nat (S k) =? 0)%Z) (seq 0 n) = true -> ev (log_list m n) y = IZR m * logs n y.
Proof.
  induction n as [|n IH]; intro H; [cbn; ring|]. rewrite seq_S, forallb_app in H. apply andb_true_iff in H. destruct H as [H1 H2].
  cbn [forallb plus] in H2. rewrite andb_true_r in H2. cbn [log_list logs].
  rewrite ev_app, (IH H1), log_length, exact_quotient by (try assumption; lia). rewrite <- INR_IZR_INZ. field. apply INR_S_neq.
Qed.
Lemma M2_divisible : forallb (fun k => (M2 mod (Z.of_nat (S k) * Z.of_nat (S k)) =? 0)%Z) (seq 0 50) = true.
Proof. vm_compute. reflexivity. Qed.
Lemma M_divisible : forallb (fun k => (M mod Z.of_nat (S k) =? 0)%Z) (seq 0 50) = true.
Proof. vm_compute. reflexivity. Qed.

(** ** The rational function *)
Definition deviation : list Z := add (mul Q_digits (sq_list M2 50)) (times (- M2) (0%Z :: P_digits)).
Definition deviation_bound : Z := 60000000 * M2 * 16 ^ 56.
Lemma deviation_length : length deviation = 57%nat.
Proof. vm_compute. reflexivity. Qed.
Lemma deviation_small : small_on deviation deviation_bound = true.
Proof. vm_compute. reflexivity. Qed.
Lemma denominator_large : large_on Q_digits (125 * 10 ^ 20 * 16 ^ 6) = true.
Proof. vm_compute. reflexivity. Qed.
Definition num (y : R) : R := P 0 + y * P 1 + y * y * (P 2 + y * P 3) + y * y * (y * y) * (P 4 + y * P 5).
Definition den (y : R) : R := Q 0 + y * Q 1 + y * y * (Q 2 + y * Q 3) + y * y * (y * y) * (Q 4 + y * Q 5 + y * y * Q 6).
Lemma num_value y : ev P_digits y = 10 ^ 23 * num y.
Proof. unfold num, P, literal, P_digits. cbn [nth ev]. field. Qed.
Lemma den_value y : ev Q_digits y = 10 ^ 23 * den y.
Proof. unfold den, Q, literal, Q_digits. cbn [nth ev]. field. Qed.
Lemma M2_pos : 0 < IZR M2.
Proof. apply (IZR_lt 0). reflexivity. Qed.
Lemma den_large y : 0 <= y <= 1 / 2 -> 1 / 8 <= den y.
Proof.
  intro H. pose proof (large_spec _ _ y denominator_large H) as L. rewrite den_value in L.
  change (length Q_digits) with 7%nat in L. rewrite !mult_IZR in L.
  change (10 ^ 20)%Z with (10 ^ Z.of_nat 20)%Z in L. change (16 ^ 6)%Z with (16 ^ Z.of_nat 6)%Z in L. rewrite <- !pow_IZR in L.
  replace (16 ^ 7) with (16 ^ 6 * 16) in L by (cbn [pow]; ring). assert (0 < 16 ^ 6) by (apply pow_lt; lra). nra.
Qed.
Lemma deviation_value y : ev deviation y = 10 ^ 23 * IZR M2 * (den y * squares 50 y - y * num y).
Proof.
  unfold deviation. rewrite ev_add, ev_mul, ev_times. cbn [ev]. fold (ev P_digits y). rewrite num_value, den_value, (sq_value _ _ _ M2_divisible), opp_IZR. ring.
Qed.
Lemma deviation_le y : 0 <= y <= 1 / 2 -> Rabs (den y * squares 50 y - y * num y) <= 6 / 10 ^ 16.
Proof.
  intro H. pose proof (small_spec _ _ y deviation_small H) as L. rewrite deviation_value, deviation_length in L. unfold deviation_bound in L.
  rewrite !mult_IZR in L. change (16 ^ 56)%Z with (16 ^ Z.of_nat 56)%Z in L. rewrite <- pow_IZR in L.
  replace (16 ^ 57) with (16 ^ 56 * 16) in L by (cbn [pow]; ring). pose proof M2_pos as P0.
  set (d := den y * squares 50 y - y * num y) in *. rewrite !Rabs_mult, (Rabs_right (10 ^ 23)), (Rabs_right (IZR M2)) in L by (try lra; apply Rle_ge, pow_le; lra).
  assert (P1 : 0 < 16 ^ 56) by (apply pow_lt; lra). set (w := 16 ^ 56) in *. set (m := IZR M2) in *. clearbody w m.
  assert (P2 : 0 < m * w) by (apply Rmult_lt_0_compat; assumption).
  apply (Rmult_le_reg_l (m * w)); [assumption|]. apply (Rmult_le_reg_l (10 ^ 23 * 16)); [lra|]. 
  replace (10 ^ 23 * 16 * (m * w * Rabs d)) with (10 ^ 23 * m * Rabs d * (w * 16)) by ring.
  replace (10 ^ 23 * 16 * (m * w * (6 / 10 ^ 16))) with (60000000 * m * w * 16) by field. exact L.
Qed.
Section Dilogarithm.
Variable nan : forall A, outcome A.
Variable f : R -> R.
Hypothesis F : dilogarithm f.

Lemma rational_close y : 0 <= y <= 1 / 2 -> Rabs (y * num y / den y - f y) <= 5 / 10 ^ 15.
Proof.
  intro H. pose proof (den_large y H) as D. pose proof (deviation_le y H) as E. pose proof (dilog_remainder f 50 y F H) as S.
  assert (T : 2 * y ^ 51 / (INR 51 * INR 51) <= 1 / 10 ^ 16).
  { assert (Y : y ^ 51 <= (1 / 2) ^ 51) by (apply pow_incr; lra). replace ((1 / 2) ^ 51) with (/ 2 ^ 51) in Y by (rewrite <- pow_inv; f_equal; lra).
    replace (INR 51) with 51 by (rewrite INR_IZR_INZ; reflexivity). assert (/ 2 ^ 51 <= 1 / 10 ^ 15) by lra. lra. }
  replace (y * num y / den y - f y) with (- ((den y * squares 50 y - y * num y) / den y) - (f y - squares 50 y)) by (field; lra).
  assert (B : Rabs ((den y * squares 50 y - y * num y) / den y) <= 48 / 10 ^ 16).
  { unfold Rdiv at 1. rewrite Rabs_mult, Rabs_inv, (Rabs_right (den y)) by lra.
    assert (/ den y <= 8) by (replace 8 with (/ (1 / 8)) by field; apply Rinv_le_contravar; lra).
    assert (0 < / den y) by (apply Rinv_0_lt_compat; lra). pose proof (Rabs_pos (den y * squares 50 y - y * num y)).
    replace (48 / 10 ^ 16) with (6 / 10 ^ 16 * 8) by field. apply Rmult_le_compat; lra. }
  apply Rabs_le_between in B. change (50 + 1)%nat with 51%nat in *. apply Rabs_le. lra.
Qed.
Lemma rational_ok y r s : 0 <= y <= 1 / 2 -> s = 1 \/ s = -1 ->
  exists v, dilog_rational nan y r s = Ok v /\ Rabs (v - (r + s * f y)) <= 5 / 10 ^ 15.
Proof.
  intros H S. pose proof (den_large y H) as D. unfold dilog_rational. fold (num y). fold (den y). rewrite quo_ok by lra. cbn [obind].
  eexists. split; [reflexivity|]. replace (r + s * y * num y / den y - (r + s * f y)) with (s * (y * num y / den y - f y)) by (field; lra).
  rewrite Rabs_mult. replace (Rabs s) with 1 by (destruct S as [->| ->]; [rewrite Rabs_R1|rewrite Rabs_left by lra]; lra).
  rewrite Rmult_1_l. apply rational_close. assumption.
Qed.

(** ** The constant *)
Lemma half_squares : 58224052646501250557 / 10 ^ 20 <= squares 50 (1 / 2) <= 58224052646501250558 / 10 ^ 20.
Proof.
  pose proof (ev_stretch 2 (sq_list M2 50) (1 / 2)) as E. replace (2 * (1 / 2)) with 1 in E by field.
  rewrite ev_one, (sq_value _ _ _ M2_divisible), sq_length in E.
  assert (A : ((58224052646501250557 * M2 * 2 ^ 50 <=? total (stretch 2 (sq_list M2 50)) * 10 ^ 20) && (total (stretch 2 (sq_list M2 50)) * 10 ^ 20 <=? 58224052646501250558 * M2 * 2 ^ 50))%Z = true) by (vm_compute; reflexivity).
  set (t := total (stretch 2 (sq_list M2 50))) in *. clearbody t. apply andb_true_iff in A. destruct A as [A1 A2].
  apply Z.leb_le, IZR_le in A1. apply Z.leb_le, IZR_le in A2. rewrite !mult_IZR in A1, A2.
  change (10 ^ 20)%Z with (10 ^ Z.of_nat 20)%Z in A1, A2. change (2 ^ 50)%Z with (2 ^ Z.of_nat 50)%Z in A1, A2. rewrite <- !pow_IZR in A1, A2.
  pose proof M2_pos as P0. set (m := IZR M2) in *. clearbody m. set (s := squares 50 (1 / 2)) in *. clearbody s.
  replace (2 ^ 51) with (2 ^ 50 * 2) in E by (cbn [pow]; ring). assert (P1 : 0 < 2 ^ 50) by (apply pow_lt; lra). set (w := 2 ^ 50) in *. clearbody w.
  assert (E' : IZR t = w * (m * s)) by lra. rewrite E' in A1, A2. assert (P2 : 0 < m * w) by (apply Rmult_lt_0_compat; assumption).
  split; apply (Rmult_le_reg_l (m * w)); try assumption; apply (Rmult_le_reg_l (10 ^ 20)); lra.
Qed.
Lemma half_logs : 69314718055994529232 / 10 ^ 20 <= 1 / 2 * logs 50 (1 / 2) <= 69314718055994529233 / 10 ^ 20.
Proof.
  pose proof (ev_stretch 2 (log_list M 50) (1 / 2)) as E. replace (2 * (1 / 2)) with 1 in E by field.
  rewrite ev_one, (log_value _ _ _ M_divisible), log_length in E.
  assert (A : ((69314718055994529232 * M * 2 ^ 50 <=? total (stretch 2 (log_list M 50)) * 10 ^ 20) && (total (stretch 2 (log_list M 50)) * 10 ^ 20 <=? 69314718055994529233 * M * 2 ^ 50))%Z = true) by (vm_compute; reflexivity).
  set (t := total (stretch 2 (log_list M 50))) in *. clearbody t. apply andb_true_iff in A. destruct A as [A1 A2].
  apply Z.leb_le, IZR_le in A1. apply Z.leb_le, IZR_le in A2. rewrite !mult_IZR in A1, A2.
  change (10 ^ 20)%Z with (10 ^ Z.of_nat 20)%Z in A1, A2. change (2 ^ 50)%Z with (2 ^ Z.of_nat 50)%Z in A1, A2. rewrite <- !pow_IZR in A1, A2.
  assert (P0 : 0 < IZR M) by (apply (IZR_lt 0); reflexivity). set (m := IZR M) in *. clearbody m. set (s := logs 50 (1 / 2)) in *. clearbody s.
  assert (P1 : 0 < 2 ^ 50) by (apply pow_lt; lra). set (w := 2 ^ 50) in *. clearbody w.
  assert (E' : IZR t = w * (m * s) / 2) by lra. rewrite E' in A1, A2. assert (P2 : 0 < m * w) by (apply Rmult_lt_0_compat; assumption).
  split; apply (Rmult_le_reg_l (m * w)); try assumption; apply (Rmult_le_reg_l (10 ^ 20)); lra.
Qed.
Lemma ln_two : 69314718055994529232 / 10 ^ 20 <= ln 2 <= 69314718055994529233 / 10 ^ 20 + 2 / 10 ^ 17.
Proof.
  pose proof (logs_remainder 50 (1 / 2) ltac:(lra)) as H. replace (1 - 1 / 2) with (/ 2) in H by field. rewrite ln_Rinv in H by lra.
  replace (INR 51) with 51 in H by (rewrite INR_IZR_INZ; reflexivity).
  replace ((1 / 2) ^ 51) with (/ 2 ^ 51) in H by (rewrite <- pow_inv; f_equal; lra).
  pose proof half_logs. assert (2 * / 2 ^ 51 / 51 <= 18 / 10 ^ 18) by lra. lra.
Qed.
Lemma constant_close : Rabs (DILOG_PI * DILOG_PI / 6 - C f) <= 1 / 10 ^ 16.
Proof.
  unfold C. pose proof ln_two as L. pose proof half_squares as S. pose proof (dilog_remainder f 50 (1 / 2) F ltac:(lra)) as H.
  replace (INR 51) with 51 in H by (rewrite INR_IZR_INZ; reflexivity).
  replace ((1 / 2) ^ 51) with (/ 2 ^ 51) in H by (rewrite <- pow_inv; f_equal; lra).
  assert (2 * / 2 ^ 51 / (51 * 51) <= 1 / 10 ^ 18) by lra.
  set (l := ln 2) in *. clearbody l.
  assert (L1 : 69314718055994529232 / 10 ^ 20 * (69314718055994529232 / 10 ^ 20) <= l * l) by (apply Rmult_le_compat; lra).
  assert (L2 : l * l <= (69314718055994529233 / 10 ^ 20 + 2 / 10 ^ 17) * (69314718055994529233 / 10 ^ 20 + 2 / 10 ^ 17)) by (apply Rmult_le_compat; lra).
  unfold DILOG_PI. apply Rabs_le. lra.
Qed.

(** ** All arguments *)
Lemma dilog_close x : exists v, dilog nan x = Ok v /\ Rabs (v - f x) <= 1 / 10 ^ 14.
Proof.
  pose proof constant_close as K. apply Rabs_le_between in K. unfold dilog.
  assert (W : forall y r s b, 0 <= y <= 1 / 2 -> s = 1 \/ s = -1 -> Rabs (r + s * f y - f x) <= 2 / 10 ^ 16 -> b = dilog_rational nan y r s ->
    exists v, b = Ok v /\ Rabs (v - f x) <= 1 / 10 ^ 14).
  { intros y r s b Y S B ->. destruct (rational_ok y r s Y S) as (v & V & A). exists v. split; [exact V|].
    apply Rabs_le_between in A. apply Rabs_le_between in B. apply Rabs_le. lra. }
  destruct (Rltb_spec x (-1)) as [X1|X1].
  { rewrite !log_ok, quo_ok by lra. cbn [obind].
    assert (Y : 0 < 1 / (1 - x) <= 1 / 2).
    { split; [apply Rdiv_lt_0_compat; lra|]. unfold Rdiv. rewrite !Rmult_1_l. apply Rinv_le_contravar; lra. }
    eapply W; [| | |reflexivity]; [lra|auto|].
    rewrite (landen f F x) by lra. replace (x / (x - 1)) with (1 - 1 / (1 - x)) by (field; lra).
    rewrite (reflection f F (1 - 1 / (1 - x))) by lra. replace (1 - (1 - 1 / (1 - x))) with (1 / (1 - x)) by ring.
    replace (ln (1 / (1 - x))) with (- ln (1 - x)) by (replace (1 / (1 - x)) with (/ (1 - x)) by (field; lra); rewrite ln_Rinv by lra; reflexivity).
    replace (ln (1 - 1 / (1 - x))) with (ln (- x) - ln (1 - x)).
    2:{ replace (1 - 1 / (1 - x)) with (- x * / (1 - x)) by (field; lra). rewrite ln_mult, ln_Rinv by (try lra; apply Rinv_0_lt_compat; lra). ring. }
    match goal with |- Rabs ?e <= _ => replace e with (- (DILOG_PI * DILOG_PI / 6 - C f)) by field end. apply Rabs_le. lra. }
  destruct (Reqb_spec x (-1)) as [->|X2].
  { eexists. split; [reflexivity|]. rewrite (landen f F (-1)) by lra. replace (-1 / (-1 - 1)) with (1 / 2) by field. replace (1 - -1) with 2 by ring.
    unfold C in K. apply Rabs_le. lra. }
  destruct (Rltb_spec x 0) as [X3|X3].
  { rewrite log_ok, quo_ok by lra. cbn [obind].
    assert (Y : 0 < x / (x - 1) <= 1 / 2).
    { replace (x / (x - 1)) with (- x * / (1 - x)) by (field; lra). assert (0 < / (1 - x)) by (apply Rinv_0_lt_compat; lra). split; [nra|].
      apply (Rmult_le_reg_r (1 - x)); [lra|]. rewrite Rmult_assoc, Rinv_l by lra. lra. }
    eapply W; [| | |reflexivity]; [lra|auto|]. rewrite (landen f F x) by lra. change (1 + - x) with (1 - x).
    match goal with |- Rabs ?e <= _ => replace e with 0 by ring end. rewrite Rabs_R0. lra. }
  destruct (Reqb_spec x 0) as [->|X4].
  { eexists. split; [reflexivity|]. rewrite (dl_zero f F), Rminus_0_r, Rabs_R0. lra. }
  destruct (Rltb_spec x (1 / 2)) as [X5|X5].
  { eapply W; [| | |reflexivity]; [lra|auto|]. replace (0 + 1 * f x - f x) with 0 by ring. rewrite Rabs_R0. lra. }
  destruct (Rltb_spec x 1) as [X6|X6].
  { rewrite !log_ok by lra. cbn [obind]. eapply W; [| | |reflexivity]; [lra|auto|]. rewrite (reflection f F x) by lra. change (1 + - x) with (1 - x).
    match goal with |- Rabs ?e <= _ => replace e with (DILOG_PI * DILOG_PI / 6 - C f) by ring end. apply Rabs_le. lra. }
  destruct (Reqb_spec x 1) as [->|X7].
  { eexists. split; [reflexivity|]. rewrite (at_one f F). apply Rabs_le. lra. }
  assert (I : 0 < 1 / x < 1).
  { split; [apply Rdiv_lt_0_compat; lra|]. apply (Rmult_lt_reg_r x); [lra|]. unfold Rdiv. rewrite Rmult_assoc, Rinv_l by lra. lra. }
  destruct (Rltb_spec x 2) as [X8|X8].
  { assert (Y : 0 < 1 - 1 / x <= 1 / 2).
    { split; [lra|]. assert (/ 2 <= / x) by (apply Rinv_le_contravar; lra). unfold Rdiv. lra. }
    rewrite (log_ok nan x), quo_ok by lra. cbn [obind]. rewrite log_ok by lra. cbn [obind].
    eapply W; [| | |reflexivity]; [lra|auto|]. rewrite (inversion_ f F x) by lra. rewrite (reflection f F (1 / x)) by lra.
    replace (ln (1 / x)) with (- ln x) by (replace (1 / x) with (/ x) by (field; lra); rewrite ln_Rinv by lra; reflexivity).
    match goal with |- Rabs ?e <= _ => replace e with (DILOG_PI * DILOG_PI / 6 - C f) by field end. apply Rabs_le. lra. }
  { rewrite log_ok, quo_ok by lra. cbn [obind].
    assert (Y : 1 / x <= 1 / 2) by (assert (/ x <= / 2) by (apply Rinv_le_contravar; lra); unfold Rdiv; lra).
    eapply W; [| | |reflexivity]; [lra|auto|]. rewrite (inversion_ f F x) by lra.
    match goal with |- Rabs ?e <= _ => replace e with (2 * (DILOG_PI * DILOG_PI / 6 - C f)) by field end. apply Rabs_le. lra. }
Qed.
End Dilogarithm.
