(** The factor of Landau, Pomeranchuk and Migdal for bremsstrahlung and photon pairs:
    it exceeds one by less than five percent, and not at all for muons and heavier
    particles. *)
From Coq Require Import Lra Psatz.
From Coquelicot Require Import Coquelicot.
From Verif Require Import Prelude PreludeFacts Particle_Model Limits_Model Cross_Model Photo_Model Products_Model Differential_Model Photopair_Model.
From Verif Require Import Differential_Spec Transform_Proofs Differential_Proofs Lpm_Proofs.

(** * Elementary functions *)
Lemma rising f df x y : x <= y -> (forall t, x <= t <= y -> is_derive f t (df t)) -> (forall t, x <= t <= y -> 0 <= df t) -> f x <= f y.
Proof.
  intros L D P. destruct (Req_dec x y) as [->|N]; [lra|]. destruct (MVT_cor2 f df x y ltac:(lra)) as (z & H & Z).
  - intros t T. apply is_derive_Reals. now apply D.
  - specialize (P z ltac:(lra)). nra.
Qed.
Lemma exp_two y : 0 <= y -> exp (- y) <= 1 - y + y * y / 2.
Proof.
  intro Y. pose proof (rising (fun y => 1 - y + y * y / 2 - exp (- y)) (fun y => - 1 + y + exp (- y)) 0 y Y) as H. cbv beta in H.
  rewrite Ropp_0, exp_0 in H. cut (1 - 0 + 0 * 0 / 2 - 1 <= 1 - y + y * y / 2 - exp (- y)); [lra|]. apply H.
  - intros t _. auto_derive; [exact I|]. field.
  - intros t _. pose proof (exp_ineq1_le (- t)). lra.
Qed.
Lemma exp_three y : 0 <= y -> 1 - y + y * y / 2 - y * y * y / 6 <= exp (- y).
Proof.
  intro Y. pose proof (rising (fun y => exp (- y) - (1 - y + y * y / 2 - y * y * y / 6)) (fun y => 1 - y + y * y / 2 - exp (- y)) 0 y Y) as H. cbv beta in H.
  rewrite Ropp_0, exp_0 in H. cut (1 - (1 - 0 + 0 * 0 / 2 - 0 * 0 * 0 / 6) <= exp (- y) - (1 - y + y * y / 2 - y * y * y / 6)); [lra|]. apply H.
  - intros t _. auto_derive; [exact I|]. field.
  - intros t T. pose proof (exp_two t ltac:(lra)). lra.
Qed.
Lemma minus_ln a : 0 < a <= 1 -> - ln a <= (1 - a * a) / (2 * a).
Proof.
  intro A. pose proof (rising (fun t => (t * t - 1) / (2 * t) - ln t) (fun t => (1 - t) * (1 - t) / (2 * (t * t))) a 1 ltac:(lra)) as H. cbv beta in H.
  rewrite ln_1 in H. cut ((a * a - 1) / (2 * a) - ln a <= (1 * 1 - 1) / (2 * 1) - 0).
  { intro K. replace ((1 - a * a) / (2 * a)) with (- ((a * a - 1) / (2 * a))) by (field; lra). lra. }
  apply H.
  - intros t T. auto_derive; [lra|]. field. lra.
  - intros t T. apply Rdiv_le_0_compat; [apply Rle_0_sqr|nra].
Qed.
Lemma concave k y : 0 <= k <= 1 -> 0 <= y -> k * (1 - exp (- y)) <= 1 - exp (- (k * y)).
Proof.
  intros K Y. pose proof (rising (fun y => 1 - exp (- (k * y)) - k * (1 - exp (- y))) (fun y => k * (exp (- (k * y)) - exp (- y))) 0 y Y) as H. cbv beta in H.
  rewrite Rmult_0_r, Ropp_0, exp_0 in H. cut (1 - 1 - k * (1 - 1) <= 1 - exp (- (k * y)) - k * (1 - exp (- y))); [lra|]. apply H.
  - intros t _. auto_derive; [exact I|]. ring.
  - intros t T. apply Rmult_le_pos; [lra|]. assert (exp (- t) <= exp (- (k * t))) by (apply exp_mono; nra). lra.
Qed.
(** * The exponent of phi *)
Definition D3 (s : R) : R := 623 / 1000 + 796 / 1000 * s + 658 / 1000 * (s * s).
Definition P3 (s : R) : R := 6 * s - 84 / 100 * (s * s) - s * s * s / D3 s.
Lemma D3_pos s : 0 <= s -> 0 < D3 s.
Proof. intro S. unfold D3. nra. Qed.
Lemma P3_above s : 0 < s -> - exponent_phi s <= P3 s.
Proof. intro S. pose proof PI_bounds as Q. unfold exponent_phi, P3, D3. assert (0 < s * s) by nra. set (k := s * s * s / _). clearbody k. nra. Qed.
Lemma P3_rising s t : 0 <= s <= t -> t <= 1 -> P3 s <= P3 t.
Proof.
  intros S T. apply (rising P3 (fun s => 6 - 168 / 100 * s - s * s * (3 * (623 / 1000) + 2 * (796 / 1000) * s + 658 / 1000 * (s * s)) / (D3 s * D3 s)) s t (proj2 S)).
  - intros z Z. pose proof (D3_pos z ltac:(lra)) as D. unfold P3, D3 in *. auto_derive; [lra|]. field. lra.
  - intros z Z. pose proof (D3_pos z ltac:(lra)) as D. cut (z * z * (3 * (623 / 1000) + 2 * (796 / 1000) * z + 658 / 1000 * (z * z)) / (D3 z * D3 z) <= 4); [lra|].
    apply Rle_div_l; [apply Rmult_lt_0_compat; exact D|]. unfold D3. assert (0 <= z * z <= z) by nra. nra.
Qed.
Lemma exponent_scale k s : 0 < k <= 1 -> 0 < s -> k * - exponent_phi s <= - exponent_phi (k * s).
Proof.
  intros K S. pose proof PI_bounds as Q. pose proof (D3_pos s ltac:(lra)) as D. pose proof (D3_pos (k * s) ltac:(nra)) as D'.
  assert (H : s * s * (k * k) / D3 (k * s) <= s * s / D3 s).
  { apply Rle_div_l; [exact D'|]. replace (s * s / D3 s * D3 (k * s)) with (s * s * (D3 (k * s) / D3 s)) by (field; lra).
    apply Rmult_le_compat_l; [nra|]. apply (Rle_div_r (k * k) (D3 (k * s)) (D3 s) D). unfold D3. assert (0 <= k * k <= k) by nra. assert (k * k * s <= k * s) by nra. nra. }
  unfold exponent_phi. fold (D3 s) (D3 (k * s)).
  replace (k * s * (k * s) * (k * s) / D3 (k * s)) with (k * s * (s * s * (k * k) / D3 (k * s))) by (field; lra).
  replace (s * s * s / D3 s) with (s * (s * s / D3 s)) by (field; lra).
  set (a := s * s * (k * k) / D3 (k * s)) in *. set (b := s * s / D3 s) in *. clearbody a b.
  assert (k * s * a <= k * s * b) by (apply Rmult_le_compat_l; nra). assert (0 <= (PI - 3) * (s * s) * (k * (1 - k))) by (apply Rmult_le_pos; [apply Rmult_le_pos; nra|nra]). nra.
Qed.
(** * G is not greater than phi *)
Lemma exp_eighth (n : nat) x : INR n / 8 <= x -> (11327 / 10000) ^ n <= exp x.
Proof.
  intro H. apply Rle_trans with (exp (INR n / 8)); [|apply exp_mono; exact H]. replace (exp (INR n / 8)) with (exp (1 / 8) ^ n).
  - apply pow_incr. split; [lra|]. pose proof (exp_two (1 / 8) ltac:(lra)) as E. rewrite exp_Ropp in E. pose proof (exp_pos (1 / 8)) as P.
    assert (1 <= (1 - 1 / 8 + 1 / 8 * (1 / 8) / 2) * exp (1 / 8)); [|lra]. replace 1 with (/ exp (1 / 8) * exp (1 / 8)) at 1 by (field; lra). apply Rmult_le_compat_r; lra.
  - rewrite <- Rpower_pow by apply exp_pos. unfold Rpower. rewrite ln_exp. f_equal. field.
Qed.
Lemma exponent_below s : 0 < s -> 6 * s - 1348 / 1000 * (s * s) <= - exponent_phi s.
Proof. intro S. pose proof PI_bounds as Q. pose proof (cubic_part s S) as [_ C]. unfold exponent_phi. set (k := s * s * s / _) in *. clearbody k. nra. Qed.
Lemma small_exp s q y n : 0 < s -> INR n / 8 <= - exponent_phi s -> 0 < q -> 0 < y -> q / y <= (11327 / 10000) ^ n -> exp (exponent_phi s) <= y / q.
Proof.
  intros S H Q Y B. pose proof (exp_eighth n (- exponent_phi s) H) as E. rewrite exp_Ropp in E. pose proof (exp_pos (exponent_phi s)) as P. set (e := exp _) in *. clearbody e.
  assert (K : q / y <= / e) by lra. apply (Rle_div_r e y q Q). assert (e * (q / y) <= 1).
  { replace 1 with (e * / e) by (field; lra). apply Rmult_le_compat_l; lra. }
  replace (e * q) with (y * (e * (q / y))) by (field; lra). apply Rle_trans with (y * 1); [apply Rmult_le_compat_l; lra|lra].
Qed.
Lemma G_phi s : 0 < s -> lpm_G s <= lpm_phi s.
Proof.
  intro S. pose proof (exponent_below s S) as B. unfold lpm_G. destruct (Rltb_spec s (710390 / 10 ^ 6)) as [L|L].
  - cut (1 - exp (- 4 * s - 8 * (s * s) / denominator_psi s) <= lpm_phi s); [unfold denominator_psi; lra|].
    unfold lpm_phi. rewrite (proj2 (Rltb_true s (154954 / 10 ^ 5))) by lra. fold (exponent_phi s).
    cut (exp (exponent_phi s) <= exp (- 4 * s - 8 * (s * s) / denominator_psi s)); [lra|]. apply exp_mono.
    pose proof (denominator_large s L) as D. assert (P : 0 < denominator_psi s) by nra.
    cut (8 * (s * s) / denominator_psi s <= 2 * s - 1348 / 1000 * (s * s)); [lra|]. apply Rle_div_l; [exact P|].
    apply Rle_trans with ((2 * s - 1348 / 1000 * (s * s)) * (1 + 3936 / 1000 * s + 49 / 10 * (s * s))); [|apply Rmult_le_compat_l; [nra|exact D]].
    replace ((2 * s - 1348 / 1000 * (s * s)) * (1 + 3936 / 1000 * s + 49 / 10 * (s * s))) with (s * ((2 - 1348 / 1000 * s) * (1 + 3936 / 1000 * s + 49 / 10 * (s * s)))) by ring.
    replace (8 * (s * s)) with (s * (8 * s)) by ring. apply Rmult_le_compat_l; [lra|].
    assert (0 <= s * s) by nra. assert (0 <= s * s * (710390 / 10 ^ 6 - s)) by (apply Rmult_le_pos; lra). nra.
  - destruct (Rltb_spec s (904912 / 10 ^ 6)) as [M|M].
    + unfold lpm_phi. rewrite (proj2 (Rltb_true s (154954 / 10 ^ 5))) by lra. fold (exponent_phi s).
      assert (0 < 36 * (s * s) + 1) by nra. replace (36 * (s * s) / (36 * (s * s) + 1)) with (1 - 1 / (36 * (s * s) + 1)) by (field; lra).
      cut (exp (exponent_phi s) <= 1 / (36 * (s * s) + 1)); [lra|]. apply (small_exp s _ _ 28); [lra| |lra|lra|].
      * rewrite INR_IZR_INZ. cbn [Z.of_nat Pos.of_succ_nat Pos.succ]. nra.
      * assert (s * s <= 8189 / 10000) by nra. apply Rle_trans with (3049 / 100); lra.
    + assert (SS : 8188 / 10000 <= s * s) by nra. assert (0 < s * s * (s * s)) as Q by nra.
      unfold lpm_phi. destruct (Rltb_spec s (154954 / 10 ^ 5)) as [T|T].
      * fold (exponent_phi s). cut (exp (exponent_phi s) <= 22 / 1000 / (s * s * (s * s))); [lra|].
        destruct (Rle_lt_dec s (105 / 100)) as [A|A]; [|destruct (Rle_lt_dec s (125 / 100)) as [A2|A2]; [|destruct (Rle_lt_dec s (14 / 10)) as [A3|A3]]].
        -- apply (small_exp s _ _ 34); [lra| |exact Q|lra|].
           ++ rewrite INR_IZR_INZ. cbn [Z.of_nat Pos.of_succ_nat Pos.succ]. nra.
           ++ assert (s * s <= 11026 / 10000) by nra. assert (s * s * (s * s) <= 11026 / 10000 * (11026 / 10000)) by (apply Rmult_le_compat; lra). lra.
        -- apply (small_exp s _ _ 38); [lra| |exact Q|lra|].
           ++ rewrite INR_IZR_INZ. cbn [Z.of_nat Pos.of_succ_nat Pos.succ]. nra.
           ++ assert (s * s <= 15626 / 10000) by nra. assert (s * s * (s * s) <= 15626 / 10000 * (15626 / 10000)) by (apply Rmult_le_compat; lra). lra.
        -- apply (small_exp s _ _ 43); [lra| |exact Q|lra|].
           ++ rewrite INR_IZR_INZ. cbn [Z.of_nat Pos.of_succ_nat Pos.succ]. nra.
           ++ assert (s * s <= 196 / 100) by nra. assert (s * s * (s * s) <= 196 / 100 * (196 / 100)) by (apply Rmult_le_compat; lra). lra.
        -- apply (small_exp s _ _ 46); [lra| |exact Q|lra|].
           ++ rewrite INR_IZR_INZ. cbn [Z.of_nat Pos.of_succ_nat Pos.succ]. nra.
           ++ assert (s * s <= 24011 / 10000) by nra. assert (s * s * (s * s) <= 24011 / 10000 * (24011 / 10000)) by (apply Rmult_le_compat; lra). lra.
      * assert (12 / 1000 / (s * s * (s * s)) <= 22 / 1000 / (s * s * (s * s))); [|lra]. unfold Rdiv. apply Rmult_le_compat_r; [apply Rlt_le, Rinv_0_lt_compat; exact Q|lra].
Qed.
(** * The product of xi and phi *)
Lemma exp_P3 b c y T r s : 0 <= s <= b -> b <= 1 -> c * D3 b <= b * b * b -> 6 * b - 84 / 100 * (b * b) - c <= 16 * y -> 0 <= y ->
  0 <= T <= 1 - y + y * y / 2 - y * y * y / 6 -> r <= (((T ^ 2) ^ 2) ^ 2) ^ 2 -> r <= exp (- P3 s).
Proof.
  intros S B C Y Y0 HT HR. pose proof (D3_pos b ltac:(lra)) as D. apply (Rle_div_r c (b * b * b) (D3 b) D) in C.
  apply Rle_trans with (exp (- (16 * y))).
  - pose proof (exp_three y Y0) as E. apply Rle_trans with (1 := HR). replace (exp (- (16 * y))) with ((((exp (- y) ^ 2) ^ 2) ^ 2) ^ 2).
    + repeat (apply pow_incr; split; [repeat apply pow_le; lra|]). lra.
    + rewrite <- !pow_mult. cbn [Nat.mul Nat.add]. rewrite <- Rpower_pow by apply exp_pos. unfold Rpower. rewrite ln_exp. f_equal. rewrite INR_IZR_INZ. cbn [Z.of_nat Pos.of_succ_nat Pos.succ]. ring.
  - apply exp_mono. pose proof (P3_rising s b S B) as P. unfold P3 at 2 in P. lra.
Qed.
Lemma piece K tau a b c y T r s xi : 0 <= K -> 0 < a -> a <= s <= b -> b <= 1 -> 1 <= xi -> xi <= 1 + K * - ln s ->
  c * (623 / 1000 + 796 / 1000 * b + 658 / 1000 * (b * b)) <= b * b * b -> 6 * b - 84 / 100 * (b * b) - c <= 16 * y -> 0 <= y ->
  0 <= T -> T <= 1 - y + y * y / 2 - y * y * y / 6 -> r <= (((T ^ 2) ^ 2) ^ 2) ^ 2 -> 0 <= r <= 1 ->
  (2 * a + K * (1 - a * a)) * (1 - r) < tau * (2 * a) -> xi * (1 - exp (- P3 s)) < tau.
Proof.
  intros HK A S B X HX C Y Y0 T0 HT HR R1 F. pose proof (exp_P3 b c y T r s ltac:(lra) B C Y Y0 (conj T0 HT) HR) as E.
  pose proof (minus_ln a ltac:(lra)) as M. assert (L : - ln s <= - ln a) by (assert (ln a <= ln s) by (apply ln_le; lra); lra).
  assert (KX : K * - ln s <= K * ((1 - a * a) / (2 * a))) by (apply Rmult_le_compat_l; lra).
  apply Rle_lt_trans with ((1 + K * ((1 - a * a) / (2 * a))) * (1 - r)).
  - apply Rle_trans with (xi * (1 - r)); [apply Rmult_le_compat_l; lra|apply Rmult_le_compat_r; lra].
  - apply (Rmult_lt_reg_r (2 * a)); [lra|]. replace ((1 + K * ((1 - a * a) / (2 * a))) * (1 - r) * (2 * a)) with ((2 * a + K * (1 - a * a)) * (1 - r)) by (field; lra). exact F.
Qed.
Lemma last_piece tau b c y T r s xi : 0 <= s <= b -> b <= 1 -> 1 <= xi <= 2 ->
  c * (623 / 1000 + 796 / 1000 * b + 658 / 1000 * (b * b)) <= b * b * b -> 6 * b - 84 / 100 * (b * b) - c <= 16 * y -> 0 <= y ->
  0 <= T -> T <= 1 - y + y * y / 2 - y * y * y / 6 -> r <= (((T ^ 2) ^ 2) ^ 2) ^ 2 -> 0 <= r <= 1 -> 2 * (1 - r) < tau -> xi * (1 - exp (- P3 s)) < tau.
Proof.
  intros S B X C Y Y0 T0 HT HR R1 F. pose proof (exp_P3 b c y T r s S B C Y Y0 (conj T0 HT) HR) as E.
  apply Rle_lt_trans with (xi * (1 - r)); [apply Rmult_le_compat_l; lra|]. apply Rle_lt_trans with (2 * (1 - r)); [apply Rmult_le_compat_r; lra|exact F].
Qed.
Lemma muon_pieces s xi : 0 < s < 1 -> 1 <= xi <= 2 -> ((117 / 1000) <= s -> xi <= 1 + (189 / 2500) * - ln s) -> xi * (1 - exp (- P3 s)) < (1 / 1).
Proof.
  intros [S L] X H.
  destruct (Rle_lt_dec (891 / 1000) s) as [L'|L']; [apply (piece (189 / 2500) (1 / 1) (891 / 1000) (1 / 1) (2407 / 5000) (117 / 400) (7461 / 10000) (461 / 50000) s xi); try lra; apply H; lra|]; clear L; rename L' into L.
  destruct (Rle_lt_dec (841 / 1000) s) as [L'|L']; [apply (piece (189 / 2500) (1 / 1) (841 / 1000) (891 / 1000) (3813 / 10000) (2687 / 10000) (7641 / 10000) (27 / 2000) s xi); try lra; apply H; lra|]; clear L; rename L' into L.
  destruct (Rle_lt_dec (811 / 1000) s) as [L'|L']; [apply (piece (189 / 2500) (1 / 1) (811 / 1000) (841 / 1000) (3383 / 10000) (2571 / 10000) (7731 / 10000) (407 / 25000) s xi); try lra; apply H; lra|]; clear L; rename L' into L.
  destruct (Rle_lt_dec (79 / 100) s) as [L'|L']; [apply (piece (189 / 2500) (1 / 1) (79 / 100) (811 / 1000) (627 / 2000) (2501 / 10000) (1557 / 2000) (91 / 5000) s xi); try lra; apply H; lra|]; clear L; rename L' into L.
  destruct (Rle_lt_dec (387 / 500) s) as [L'|L']; [apply (piece (189 / 2500) (1 / 1) (387 / 500) (79 / 100) (593 / 2000) (49 / 200) (313 / 400) (79 / 4000) s xi); try lra; apply H; lra|]; clear L; rename L' into L.
  destruct (Rle_lt_dec (761 / 1000) s) as [L'|L']; [apply (piece (189 / 2500) (1 / 1) (761 / 1000) (387 / 500) (1419 / 5000) (2411 / 10000) (491 / 625) (263 / 12500) s xi); try lra; apply H; lra|]; clear L; rename L' into L.
  destruct (Rle_lt_dec (3 / 4) s) as [L'|L']; [apply (piece (189 / 2500) (1 / 1) (3 / 4) (761 / 1000) (2737 / 10000) (2379 / 10000) (7881 / 10000) (1107 / 50000) s xi); try lra; apply H; lra|]; clear L; rename L' into L.
  destruct (Rle_lt_dec (37 / 50) s) as [L'|L']; [apply (piece (189 / 2500) (1 / 1) (37 / 50) (3 / 4) (2653 / 10000) (147 / 625) (3951 / 5000) (231 / 10000) s xi); try lra; apply H; lra|]; clear L; rename L' into L.
  destruct (Rle_lt_dec (731 / 1000) s) as [L'|L']; [apply (piece (189 / 2500) (1 / 1) (731 / 1000) (37 / 50) (2577 / 10000) (2327 / 10000) (3961 / 5000) (1203 / 50000) s xi); try lra; apply H; lra|]; clear L; rename L' into L.
  destruct (Rle_lt_dec (361 / 500) s) as [L'|L']; [apply (piece (189 / 2500) (1 / 1) (361 / 500) (731 / 1000) (2509 / 10000) (144 / 625) (7941 / 10000) (1 / 40) s xi); try lra; apply H; lra|]; clear L; rename L' into L.
  destruct (Rle_lt_dec (357 / 500) s) as [L'|L']; [apply (piece (189 / 2500) (1 / 1) (357 / 500) (361 / 500) (1221 / 5000) (1141 / 5000) (3979 / 5000) (2587 / 100000) s xi); try lra; apply H; lra|]; clear L; rename L' into L.
  destruct (Rle_lt_dec (141 / 200) s) as [L'|L']; [apply (piece (189 / 2500) (1 / 1) (141 / 200) (357 / 500) (149 / 625) (2261 / 10000) (319 / 400) (2677 / 100000) s xi); try lra; apply H; lra|]; clear L; rename L' into L.
  destruct (Rle_lt_dec (87 / 125) s) as [L'|L']; [apply (piece (189 / 2500) (1 / 1) (87 / 125) (141 / 200) (1159 / 5000) (1119 / 5000) (7993 / 10000) (111 / 4000) s xi); try lra; apply H; lra|]; clear L; rename L' into L.
  destruct (Rle_lt_dec (687 / 1000) s) as [L'|L']; [apply (piece (189 / 2500) (1 / 1) (687 / 1000) (87 / 125) (1127 / 5000) (443 / 2000) (2003 / 2500) (2883 / 100000) s xi); try lra; apply H; lra|]; clear L; rename L' into L.
  destruct (Rle_lt_dec (677 / 1000) s) as [L'|L']; [apply (piece (189 / 2500) (1 / 1) (677 / 1000) (687 / 1000) (219 / 1000) (137 / 625) (803 / 1000) (747 / 25000) s xi); try lra; apply H; lra|]; clear L; rename L' into L.
  destruct (Rle_lt_dec (333 / 500) s) as [L'|L']; [apply (piece (189 / 2500) (1 / 1) (333 / 500) (677 / 1000) (53 / 250) (1083 / 5000) (8051 / 10000) (623 / 20000) s xi); try lra; apply H; lra|]; clear L; rename L' into L.
  destruct (Rle_lt_dec (653 / 1000) s) as [L'|L']; [apply (piece (189 / 2500) (1 / 1) (653 / 1000) (333 / 500) (511 / 2500) (2137 / 10000) (323 / 400) (3267 / 100000) s xi); try lra; apply H; lra|]; clear L; rename L' into L.
  destruct (Rle_lt_dec (319 / 500) s) as [L'|L']; [apply (piece (189 / 2500) (1 / 1) (319 / 500) (653 / 1000) (489 / 2500) (2103 / 10000) (4051 / 5000) (3447 / 100000) s xi); try lra; apply H; lra|]; clear L; rename L' into L.
  destruct (Rle_lt_dec (31 / 50) s) as [L'|L']; [apply (piece (189 / 2500) (1 / 1) (31 / 50) (319 / 500) (116 / 625) (2063 / 10000) (1627 / 2000) (1839 / 50000) s xi); try lra; apply H; lra|]; clear L; rename L' into L.
  destruct (Rle_lt_dec (597 / 1000) s) as [L'|L']; [apply (piece (189 / 2500) (1 / 1) (597 / 1000) (31 / 50) (87 / 500) (403 / 2000) (4087 / 5000) (3971 / 100000) s xi); try lra; apply H; lra|]; clear L; rename L' into L.
  destruct (Rle_lt_dec (283 / 500) s) as [L'|L']; [apply (piece (189 / 2500) (1 / 1) (283 / 500) (597 / 1000) (399 / 2500) (122 / 625) (4113 / 5000) (879 / 20000) s xi); try lra; apply H; lra|]; clear L; rename L' into L.
  destruct (Rle_lt_dec (131 / 250) s) as [L'|L']; [apply (piece (189 / 2500) (1 / 1) (131 / 250) (283 / 500) (1411 / 10000) (1867 / 10000) (1037 / 1250) (5033 / 100000) s xi); try lra; apply H; lra|]; clear L; rename L' into L.
  destruct (Rle_lt_dec (463 / 1000) s) as [L'|L']; [apply (piece (189 / 2500) (1 / 1) (463 / 1000) (131 / 250) (589 / 5000) (437 / 2500) (1679 / 2000) (1217 / 20000) s xi); try lra; apply H; lra|]; clear L; rename L' into L.
  destruct (Rle_lt_dec (93 / 250) s) as [L'|L']; [apply (piece (189 / 2500) (1 / 1) (93 / 250) (463 / 1000) (219 / 2500) (1569 / 10000) (8547 / 10000) (8109 / 100000) s xi); try lra; apply H; lra|]; clear L; rename L' into L.
  destruct (Rle_lt_dec (247 / 1000) s) as [L'|L']; [apply (piece (189 / 2500) (1 / 1) (247 / 1000) (93 / 250) (509 / 10000) (1291 / 10000) (2197 / 2500) (6327 / 50000) s xi); try lra; apply H; lra|]; clear L; rename L' into L.
  destruct (Rle_lt_dec (117 / 1000) s) as [L'|L']; [apply (piece (189 / 2500) (1 / 1) (117 / 1000) (247 / 1000) (7 / 400) (221 / 2500) (9153 / 10000) (12133 / 50000) s xi); try lra; apply H; lra|]; clear L; rename L' into L.
  apply (last_piece (1 / 1) (117 / 1000) (11 / 5000) (431 / 10000) (4789 / 5000) (12541 / 25000) s xi); lra.
Qed.
Lemma electron_pieces s xi : 0 < s < 1 -> 1 <= xi <= 2 -> ((11 / 100) <= s -> xi <= 1 + (331 / 2000) * - ln s) -> xi * (1 - exp (- P3 s)) < (21 / 20).
Proof.
  intros [S L] X H.
  destruct (Rle_lt_dec (141 / 200) s) as [L'|L']; [apply (piece (331 / 2000) (21 / 20) (141 / 200) (1 / 1) (2407 / 5000) (117 / 400) (7461 / 10000) (461 / 50000) s xi); try lra; apply H; lra|]; clear L; rename L' into L.
  destruct (Rle_lt_dec (63 / 100) s) as [L'|L']; [apply (piece (331 / 2000) (21 / 20) (63 / 100) (141 / 200) (1159 / 5000) (1119 / 5000) (7993 / 10000) (111 / 4000) s xi); try lra; apply H; lra|]; clear L; rename L' into L.
  destruct (Rle_lt_dec (74 / 125) s) as [L'|L']; [apply (piece (331 / 2000) (21 / 20) (74 / 125) (63 / 100) (451 / 2500) (1021 / 5000) (1019 / 1250) (3803 / 100000) s xi); try lra; apply H; lra|]; clear L; rename L' into L.
  destruct (Rle_lt_dec (71 / 125) s) as [L'|L']; [apply (piece (331 / 2000) (21 / 20) (71 / 125) (74 / 125) (783 / 5000) (1939 / 10000) (2059 / 2500) (4481 / 100000) s xi); try lra; apply H; lra|]; clear L; rename L' into L.
  destruct (Rle_lt_dec (551 / 1000) s) as [L'|L']; [apply (piece (331 / 2000) (21 / 20) (551 / 1000) (71 / 125) (1423 / 10000) (117 / 625) (2073 / 2500) (999 / 20000) s xi); try lra; apply H; lra|]; clear L; rename L' into L.
  destruct (Rle_lt_dec (269 / 500) s) as [L'|L']; [apply (piece (331 / 2000) (21 / 20) (269 / 500) (551 / 1000) (663 / 5000) (114 / 625) (2083 / 2500) (2697 / 50000) s xi); try lra; apply H; lra|]; clear L; rename L' into L.
  destruct (Rle_lt_dec (66 / 125) s) as [L'|L']; [apply (piece (331 / 2000) (21 / 20) (66 / 125) (269 / 500) (627 / 5000) (447 / 2500) (4181 / 5000) (2857 / 50000) s xi); try lra; apply H; lra|]; clear L; rename L' into L.
  destruct (Rle_lt_dec (13 / 25) s) as [L'|L']; [apply (piece (331 / 2000) (21 / 20) (13 / 25) (66 / 125) (1199 / 10000) (1759 / 10000) (4193 / 5000) (2991 / 50000) s xi); try lra; apply H; lra|]; clear L; rename L' into L.
  destruct (Rle_lt_dec (513 / 1000) s) as [L'|L']; [apply (piece (331 / 2000) (21 / 20) (513 / 1000) (13 / 25) (1157 / 10000) (217 / 1250) (1681 / 2000) (6203 / 100000) s xi); try lra; apply H; lra|]; clear L; rename L' into L.
  destruct (Rle_lt_dec (507 / 1000) s) as [L'|L']; [apply (piece (331 / 2000) (21 / 20) (507 / 1000) (513 / 1000) (14 / 125) (429 / 2500) (4211 / 5000) (3203 / 50000) s xi); try lra; apply H; lra|]; clear L; rename L' into L.
  destruct (Rle_lt_dec (251 / 500) s) as [L'|L']; [apply (piece (331 / 2000) (21 / 20) (251 / 500) (507 / 1000) (1089 / 10000) (1699 / 10000) (8437 / 10000) (6591 / 100000) s xi); try lra; apply H; lra|]; clear L; rename L' into L.
  destruct (Rle_lt_dec (249 / 500) s) as [L'|L']; [apply (piece (331 / 2000) (21 / 20) (249 / 500) (251 / 500) (133 / 1250) (421 / 2500) (8449 / 10000) (6743 / 100000) s xi); try lra; apply H; lra|]; clear L; rename L' into L.
  destruct (Rle_lt_dec (247 / 500) s) as [L'|L']; [apply (piece (331 / 2000) (21 / 20) (247 / 500) (249 / 500) (261 / 2500) (1673 / 10000) (8459 / 10000) (859 / 12500) s xi); try lra; apply H; lra|]; clear L; rename L' into L.
  destruct (Rle_lt_dec (49 / 100) s) as [L'|L']; [apply (piece (331 / 2000) (21 / 20) (49 / 100) (247 / 500) (64 / 625) (1661 / 10000) (8469 / 10000) (7003 / 100000) s xi); try lra; apply H; lra|]; clear L; rename L' into L.
  destruct (Rle_lt_dec (243 / 500) s) as [L'|L']; [apply (piece (331 / 2000) (21 / 20) (243 / 500) (49 / 100) (251 / 2500) (1649 / 10000) (8479 / 10000) (223 / 3125) s xi); try lra; apply H; lra|]; clear L; rename L' into L.
  destruct (Rle_lt_dec (483 / 1000) s) as [L'|L']; [apply (piece (331 / 2000) (21 / 20) (483 / 1000) (243 / 500) (197 / 2000) (1637 / 10000) (8489 / 10000) (909 / 12500) s xi); try lra; apply H; lra|]; clear L; rename L' into L.
  destruct (Rle_lt_dec (12 / 25) s) as [L'|L']; [apply (piece (331 / 2000) (21 / 20) (12 / 25) (483 / 1000) (97 / 1000) (1629 / 10000) (531 / 625) (7369 / 100000) s xi); try lra; apply H; lra|]; clear L; rename L' into L.
  destruct (Rle_lt_dec (477 / 1000) s) as [L'|L']; [apply (piece (331 / 2000) (21 / 20) (477 / 1000) (12 / 25) (239 / 2500) (81 / 500) (1063 / 1250) (7481 / 100000) s xi); try lra; apply H; lra|]; clear L; rename L' into L.
  destruct (Rle_lt_dec (237 / 500) s) as [L'|L']; [apply (piece (331 / 2000) (21 / 20) (237 / 500) (477 / 1000) (941 / 10000) (1611 / 10000) (8511 / 10000) (379 / 5000) s xi); try lra; apply H; lra|]; clear L; rename L' into L.
  destruct (Rle_lt_dec (471 / 1000) s) as [L'|L']; [apply (piece (331 / 2000) (21 / 20) (471 / 1000) (237 / 500) (927 / 10000) (801 / 5000) (8519 / 10000) (1539 / 20000) s xi); try lra; apply H; lra|]; clear L; rename L' into L.
  destruct (Rle_lt_dec (117 / 250) s) as [L'|L']; [apply (piece (331 / 2000) (21 / 20) (117 / 250) (471 / 1000) (913 / 10000) (1593 / 10000) (8527 / 10000) (7811 / 100000) s xi); try lra; apply H; lra|]; clear L; rename L' into L.
  destruct (Rle_lt_dec (93 / 200) s) as [L'|L']; [apply (piece (331 / 2000) (21 / 20) (93 / 200) (117 / 250) (899 / 10000) (99 / 625) (4267 / 5000) (3957 / 50000) s xi); try lra; apply H; lra|]; clear L; rename L' into L.
  destruct (Rle_lt_dec (231 / 500) s) as [L'|L']; [apply (piece (331 / 2000) (21 / 20) (231 / 500) (93 / 200) (177 / 2000) (63 / 400) (4271 / 5000) (4017 / 50000) s xi); try lra; apply H; lra|]; clear L; rename L' into L.
  destruct (Rle_lt_dec (459 / 1000) s) as [L'|L']; [apply (piece (331 / 2000) (21 / 20) (459 / 1000) (231 / 500) (871 / 10000) (1567 / 10000) (8549 / 10000) (407 / 5000) s xi); try lra; apply H; lra|]; clear L; rename L' into L.
  destruct (Rle_lt_dec (57 / 125) s) as [L'|L']; [apply (piece (331 / 2000) (21 / 20) (57 / 125) (459 / 1000) (429 / 5000) (779 / 5000) (8557 / 10000) (8263 / 100000) s xi); try lra; apply H; lra|]; clear L; rename L' into L.
  destruct (Rle_lt_dec (453 / 1000) s) as [L'|L']; [apply (piece (331 / 2000) (21 / 20) (453 / 1000) (57 / 125) (211 / 2500) (1549 / 10000) (2141 / 2500) (8371 / 100000) s xi); try lra; apply H; lra|]; clear L; rename L' into L.
  destruct (Rle_lt_dec (9 / 20) s) as [L'|L']; [apply (piece (331 / 2000) (21 / 20) (9 / 20) (453 / 1000) (831 / 10000) (77 / 500) (2143 / 2500) (8497 / 100000) s xi); try lra; apply H; lra|]; clear L; rename L' into L.
  destruct (Rle_lt_dec (447 / 1000) s) as [L'|L']; [apply (piece (331 / 2000) (21 / 20) (447 / 1000) (9 / 20) (817 / 10000) (1531 / 10000) (429 / 500) (69 / 800) s xi); try lra; apply H; lra|]; clear L; rename L' into L.
  destruct (Rle_lt_dec (111 / 250) s) as [L'|L']; [apply (piece (331 / 2000) (21 / 20) (111 / 250) (447 / 1000) (201 / 2500) (761 / 5000) (8587 / 10000) (8739 / 100000) s xi); try lra; apply H; lra|]; clear L; rename L' into L.
  destruct (Rle_lt_dec (441 / 1000) s) as [L'|L']; [apply (piece (331 / 2000) (21 / 20) (441 / 1000) (111 / 250) (791 / 10000) (1513 / 10000) (1719 / 2000) (887 / 10000) s xi); try lra; apply H; lra|]; clear L; rename L' into L.
  destruct (Rle_lt_dec (437 / 1000) s) as [L'|L']; [apply (piece (331 / 2000) (21 / 20) (437 / 1000) (441 / 1000) (389 / 5000) (94 / 625) (8603 / 10000) (9003 / 100000) s xi); try lra; apply H; lra|]; clear L; rename L' into L.
  destruct (Rle_lt_dec (433 / 1000) s) as [L'|L']; [apply (piece (331 / 2000) (21 / 20) (433 / 1000) (437 / 1000) (761 / 10000) (1491 / 10000) (4307 / 5000) (9189 / 100000) s xi); try lra; apply H; lra|]; clear L; rename L' into L.
  destruct (Rle_lt_dec (429 / 1000) s) as [L'|L']; [apply (piece (331 / 2000) (21 / 20) (429 / 1000) (433 / 1000) (93 / 1250) (1479 / 10000) (539 / 625) (9361 / 100000) s xi); try lra; apply H; lra|]; clear L; rename L' into L.
  destruct (Rle_lt_dec (53 / 125) s) as [L'|L']; [apply (piece (331 / 2000) (21 / 20) (53 / 125) (429 / 1000) (727 / 10000) (1467 / 10000) (1727 / 2000) (4777 / 50000) s xi); try lra; apply H; lra|]; clear L; rename L' into L.
  destruct (Rle_lt_dec (419 / 1000) s) as [L'|L']; [apply (piece (331 / 2000) (21 / 20) (419 / 1000) (53 / 125) (353 / 5000) (363 / 2500) (1081 / 1250) (9787 / 100000) s xi); try lra; apply H; lra|]; clear L; rename L' into L.
  destruct (Rle_lt_dec (413 / 1000) s) as [L'|L']; [apply (piece (331 / 2000) (21 / 20) (413 / 1000) (419 / 1000) (343 / 5000) (1437 / 10000) (8661 / 10000) (401 / 4000) s xi); try lra; apply H; lra|]; clear L; rename L' into L.
  destruct (Rle_lt_dec (203 / 500) s) as [L'|L']; [apply (piece (331 / 2000) (21 / 20) (203 / 500) (413 / 1000) (331 / 5000) (709 / 5000) (8677 / 10000) (413 / 4000) s xi); try lra; apply H; lra|]; clear L; rename L' into L.
  destruct (Rle_lt_dec (199 / 500) s) as [L'|L']; [apply (piece (331 / 2000) (21 / 20) (199 / 500) (203 / 500) (317 / 5000) (1397 / 10000) (1087 / 1250) (10693 / 100000) s xi); try lra; apply H; lra|]; clear L; rename L' into L.
  destruct (Rle_lt_dec (389 / 1000) s) as [L'|L']; [apply (piece (331 / 2000) (21 / 20) (389 / 1000) (199 / 500) (603 / 10000) (343 / 2500) (8717 / 10000) (5557 / 50000) s xi); try lra; apply H; lra|]; clear L; rename L' into L.
  destruct (Rle_lt_dec (189 / 500) s) as [L'|L']; [apply (piece (331 / 2000) (21 / 20) (189 / 500) (389 / 1000) (57 / 1000) (84 / 625) (4371 / 5000) (2327 / 20000) s xi); try lra; apply H; lra|]; clear L; rename L' into L.
  destruct (Rle_lt_dec (73 / 200) s) as [L'|L']; [apply (piece (331 / 2000) (21 / 20) (73 / 200) (189 / 500) (53 / 1000) (131 / 1000) (2193 / 2500) (1229 / 10000) s xi); try lra; apply H; lra|]; clear L; rename L' into L.
  destruct (Rle_lt_dec (7 / 20) s) as [L'|L']; [apply (piece (331 / 2000) (21 / 20) (7 / 20) (73 / 200) (97 / 2000) (1269 / 10000) (1101 / 1250) (13123 / 100000) s xi); try lra; apply H; lra|]; clear L; rename L' into L.
  destruct (Rle_lt_dec (83 / 250) s) as [L'|L']; [apply (piece (331 / 2000) (21 / 20) (83 / 250) (7 / 20) (109 / 2500) (1221 / 10000) (177 / 200) (177 / 1250) s xi); try lra; apply H; lra|]; clear L; rename L' into L.
  destruct (Rle_lt_dec (309 / 1000) s) as [L'|L']; [apply (piece (331 / 2000) (21 / 20) (309 / 1000) (83 / 250) (381 / 10000) (291 / 2500) (8901 / 10000) (3881 / 25000) s xi); try lra; apply H; lra|]; clear L; rename L' into L.
  destruct (Rle_lt_dec (281 / 1000) s) as [L'|L']; [apply (piece (331 / 2000) (21 / 20) (281 / 1000) (309 / 1000) (79 / 2500) (1089 / 10000) (1121 / 1250) (17503 / 100000) s xi); try lra; apply H; lra|]; clear L; rename L' into L.
  destruct (Rle_lt_dec (123 / 500) s) as [L'|L']; [apply (piece (331 / 2000) (21 / 20) (123 / 500) (281 / 1000) (123 / 5000) (997 / 10000) (9051 / 10000) (20283 / 100000) s xi); try lra; apply H; lra|]; clear L; rename L' into L.
  destruct (Rle_lt_dec (51 / 250) s) as [L'|L']; [apply (piece (331 / 2000) (21 / 20) (51 / 250) (123 / 500) (173 / 10000) (11 / 125) (9157 / 10000) (24437 / 100000) s xi); try lra; apply H; lra|]; clear L; rename L' into L.
  destruct (Rle_lt_dec (157 / 1000) s) as [L'|L']; [apply (piece (331 / 2000) (21 / 20) (157 / 1000) (51 / 250) (13 / 1250) (737 / 10000) (9289 / 10000) (1229 / 4000) s xi); try lra; apply H; lra|]; clear L; rename L' into L.
  destruct (Rle_lt_dec (11 / 100) s) as [L'|L']; [apply (piece (331 / 2000) (21 / 20) (11 / 100) (157 / 1000) (1 / 200) (573 / 10000) (9443 / 10000) (9993 / 25000) s xi); try lra; apply H; lra|]; clear L; rename L' into L.
  apply (last_piece (21 / 20) (11 / 100) (9 / 5000) (203 / 5000) (4801 / 5000) (26107 / 50000) s xi); lra.
Qed.
(** * The variable xi *)
Lemma xi_small nan s1 sp xi L K : 0 < s1 <= 1 / 512 -> 0 < L -> ln s1 <= - L -> 1 + 16 / 100 / L <= K * L -> s1 <= sp < 1 ->
  lpm_xi nan s1 sp = Ok xi -> xi <= 1 + K * - ln sp.
Proof.
  intros S1 HL L1 HK S H. unfold lpm_xi in H. rewrite (proj2 (Rltb_false sp s1)) in H by lra. rewrite (proj2 (Rltb_true sp 1)) in H by lra.
  rewrite !log_ok in H by lra. cbn [obind] in H. rewrite quo_ok in H by lra. cbn [obind] in H. rewrite quo_ok in H by lra. cbn [obind] in H.
  injection H. intros <-. clear H. assert (L0 : ln sp <= 0) by (rewrite <- ln_1; apply ln_le; lra). assert (L2 : ln s1 <= ln sp) by (apply ln_le; lra).
  set (b := ln s1) in *. set (a := ln sp) in *. clearbody a b.
  assert (H : 0 <= a / b <= 1).
  { replace (a / b) with (- a / - b) by (field; lra). split; [apply Rdiv_le_0_compat; lra|apply Rle_div_l; lra]. }
  assert (HA : a / b <= - a / L).
  { replace (a / b) with (- a / - b) by (field; lra). unfold Rdiv. apply Rmult_le_compat_l; [lra|]. apply Rinv_le_contravar; lra. }
  set (h := a / b) in *. clearbody h.
  assert (N : 0 <= 8 / 100 * (1 - h) * (1 - (1 - h) * (1 - h)) <= 16 / 100 * h).
  { replace (8 / 100 * (1 - h) * (1 - (1 - h) * (1 - h))) with (8 / 100 * h * ((1 - h) * (2 - h))) by ring. assert (0 <= (1 - h) * (2 - h) <= 2) by nra.
    set (w := (1 - h) * (2 - h)) in *. clearbody w. nra. }
  set (n := 8 / 100 * (1 - h) * (1 - (1 - h) * (1 - h))) in *. clearbody n.
  assert (Q : - (n / b) <= 16 / 100 * h / L).
  { replace (- (n / b)) with (n / - b) by (field; lra). apply Rle_trans with (n / L).
    - unfold Rdiv. apply Rmult_le_compat_l; [lra|]. apply Rinv_le_contravar; lra.
    - unfold Rdiv. apply Rmult_le_compat_r; [apply Rlt_le, Rinv_0_lt_compat; exact HL|lra]. }
  assert (Q2 : 16 / 100 * h / L = h * (16 / 100 / L)) by (field; lra). rewrite Q2 in Q.
  assert (I : 0 < 16 / 100 / L) by (apply Rdiv_lt_0_compat; lra).
  assert (h * (1 + 16 / 100 / L) <= - a / L * (1 + 16 / 100 / L)) by (apply Rmult_le_compat_r; lra).
  assert (- a / L * (1 + 16 / 100 / L) <= - a / L * (K * L)) by (apply Rmult_le_compat_l; [apply Rdiv_le_0_compat; lra|exact HK]).
  replace (- a / L * (K * L)) with (K * - a) in * by (field; lra). lra.
Qed.
(** * The factor *)
Lemma product_bound tau xi Gamma sp : 1 <= tau -> 1 <= xi <= 2 -> 1 <= Gamma -> 0 < sp < 1 -> xi * (1 - exp (- P3 sp)) < tau ->
  xi * (lpm_phi (sp / sqrt xi * Gamma) / Gamma) < tau.
Proof.
  intros T X G S H. assert (Q : 1 <= sqrt xi) by (rewrite <- sqrt_1; apply sqrt_le_1_alt; lra). pose proof (sqrt_sqrt xi ltac:(lra)) as QQ.
  set (w := sp / sqrt xi). assert (W : 0 < w) by (apply Rdiv_lt_0_compat; lra). assert (WS : w <= sp) by (apply Rle_div_l; nra).
  assert (SW : sp = w * sqrt xi) by (unfold w; field; lra). clearbody w.
  assert (IG : 0 < / Gamma <= 1) by (split; [apply Rinv_0_lt_compat; lra|rewrite <- Rinv_1; apply Rinv_le_contravar; lra]).
  assert (WG : 0 < w * Gamma) by (apply Rmult_lt_0_compat; lra).
  destruct (Rlt_le_dec (w * Gamma) (154954 / 10 ^ 5)) as [L|L].
  - apply Rle_lt_trans with (2 := H). apply Rmult_le_compat_l; [lra|].
    unfold lpm_phi. rewrite (proj2 (Rltb_true _ _) L). fold (exponent_phi (w * Gamma)).
    pose proof (exponent_phi_negative (w * Gamma) WG L) as N. pose proof (concave (/ Gamma) (- exponent_phi (w * Gamma)) ltac:(lra) ltac:(lra)) as C. rewrite Ropp_involutive in C.
    pose proof (exponent_scale (/ Gamma) (w * Gamma) IG WG) as SC. replace (/ Gamma * (w * Gamma)) with w in SC by (field; lra).
    pose proof (P3_above w W) as A. pose proof (P3_rising w sp ltac:(lra) ltac:(lra)) as R.
    assert (exp (- P3 sp) <= exp (- (/ Gamma * - exponent_phi (w * Gamma)))) by (apply exp_mono; lra). unfold Rdiv. lra.
  - apply Rlt_le_trans with (2 := T). destruct (phi_range (w * Gamma) WG) as [F0 F1].
    assert (KG : lpm_phi (w * Gamma) / Gamma < 1 / Gamma) by (unfold Rdiv; apply Rmult_lt_compat_r; lra).
    apply Rlt_le_trans with (xi * (1 / Gamma)); [apply Rmult_lt_compat_l; lra|].
    replace (xi * (1 / Gamma)) with (xi / Gamma) by (field; lra). apply Rle_div_l; [lra|].
    assert (xi * w <= 1 * (w * Gamma)); [|apply (Rmult_le_reg_r w); lra].
    assert (SX : xi * w = sqrt xi * sp) by (rewrite SW, <- QQ at 1; ring). rewrite SX.
    assert (sqrt xi <= 15 / 10) by nra. nra.
Qed.
Lemma mixture_bound tau xi A B Gamma s : 0 <= A -> 0 < B -> 1 <= Gamma -> 0 < s -> 0 < xi -> xi * (lpm_phi s / Gamma) < tau -> mixture xi A B Gamma s < tau.
Proof.
  intros HA HB G S X H. pose proof (G_phi s S) as GF. destruct (phi_range s S) as [F0 _]. unfold mixture.
  apply Rle_lt_trans with (2 := H). apply Rle_div_l; [lra|]. rewrite Rmult_assoc. apply Rmult_le_compat_l; [lra|].
  assert (Q : lpm_G s / (Gamma * Gamma) <= lpm_phi s / Gamma).
  { apply Rle_trans with (lpm_phi s / (Gamma * Gamma)).
    - unfold Rdiv. apply Rmult_le_compat_r; [apply Rlt_le, Rinv_0_lt_compat; nra|exact GF].
    - unfold Rdiv. apply Rmult_le_compat_l; [lra|]. apply Rinv_le_contravar; nra. }
  replace (A * lpm_G s / (Gamma * Gamma)) with (A * (lpm_G s / (Gamma * Gamma))) by (field; lra).
  replace (B * lpm_phi s / Gamma) with (B * (lpm_phi s / Gamma)) by (field; lra).
  set (x := lpm_G s / (Gamma * Gamma)) in *. set (y := lpm_phi s / Gamma) in *. clearbody x y. assert (A * x <= A * y) by (apply Rmult_le_compat_l; lra). lra.
Qed.
Lemma factor_bound nan tau s1 sp xi A B Gamma : 1 <= tau -> 0 < s1 <= 1 / 512 -> 0 < sp -> lpm_xi nan s1 sp = Ok xi -> 1 <= xi <= 2 -> (1 <= sp -> xi = 1) ->
  0 <= A -> 0 < B -> 1 <= Gamma -> (sp < 1 -> xi * (1 - exp (- P3 sp)) < tau) -> mixture xi A B Gamma (sp / sqrt xi * Gamma) < tau.
Proof.
  intros T S1 S HX X X1 HA HB G H. assert (0 < sqrt xi) as Q5 by (apply sqrt_lt_R0; lra).
  assert (W : 0 < sp / sqrt xi * Gamma) by (apply Rmult_lt_0_compat; [now apply Rdiv_lt_0_compat|lra]).
  destruct (Rlt_le_dec sp 1) as [L|L].
  - apply mixture_bound; try assumption; [lra|]. apply product_bound; try assumption; [lra|apply H; exact L].
  - destruct (mixture_range xi A B Gamma _ (proj1 X) HA HB G W) as [[_ K] _]. specialize (X1 L). lra.
Qed.
Lemma ln_s1 s1 : 0 < s1 <= 1 / 512 -> ln s1 <= - (62 / 10).
Proof.
  intro S. apply Rle_trans with (ln (1 / 512)); [apply ln_le; lra|]. replace (1 / 512) with (/ 512) by field. rewrite ln_Rinv by lra. pose proof ln_512. lra.
Qed.
Lemma any_factor nan s1 sp xi A B Gamma : 0 < s1 <= 1 / 512 -> 0 < sp -> lpm_xi nan s1 sp = Ok xi -> 1 <= xi <= 2 -> (1 <= sp -> xi = 1) ->
  0 <= A -> 0 < B -> 1 <= Gamma -> mixture xi A B Gamma (sp / sqrt xi * Gamma) < 21 / 20.
Proof.
  intros S1 S HX X X1 HA HB G. apply (factor_bound nan (21 / 20) s1); try assumption; [lra|]. intro L. apply electron_pieces; [lra|exact X|].
  intro K. apply (xi_small nan s1 sp xi (62 / 10)); try assumption; [lra|apply ln_s1; exact S1|lra|lra].
Qed.
Lemma heavy_factor nan s1 sp xi A B Gamma : 0 < s1 <= 1 / 715000 -> 0 < sp -> lpm_xi nan s1 sp = Ok xi -> 1 <= xi <= 2 -> (1 <= sp -> xi = 1) ->
  0 <= A -> 0 < B -> 1 <= Gamma -> mixture xi A B Gamma (sp / sqrt xi * Gamma) < 1.
Proof.
  intros S1 S HX X X1 HA HB G. apply (factor_bound nan 1 s1); try assumption; [lra|lra|]. intro L. apply Rlt_le_trans with (1 / 1); [|lra]. apply muon_pieces; [lra|exact X|].
  intro K. apply (xi_small nan s1 sp xi (134 / 10)); try assumption; [lra|lra| |lra|lra].
  rewrite <- (ln_exp (- (134 / 10))). apply ln_le; [lra|]. pose proof (exp_three (134 / 10 / 64) ltac:(lra)) as E.
  replace (exp (- (134 / 10))) with ((((((exp (- (134 / 10 / 64)) ^ 2) ^ 2) ^ 2) ^ 2) ^ 2) ^ 2).
  - apply Rle_trans with (((((((8110 / 10000) ^ 2) ^ 2) ^ 2) ^ 2) ^ 2) ^ 2); [lra|].
    repeat (apply pow_incr; split; [repeat apply pow_le; lra|]). lra.
  - rewrite <- !pow_mult. cbn [Nat.mul Nat.add]. rewrite <- Rpower_pow by apply exp_pos. unfold Rpower. rewrite ln_exp. f_equal. rewrite INR_IZR_INZ. cbn [Z.of_nat Pos.of_succ_nat Pos.succ]. field.
Qed.
(** * Elements *)
Lemma screening_radius c : element c -> 354 / 10 <= inverse_cube_root (c_charge c) * log_constant c.
Proof.
  intro el. pose proof (element_icr c el) as Z. destruct el as [[Z1 _] _].
  assert (C : 165 <= log_constant c \/ ((truncate (c_charge c + 1 / 2) <= 3)%Z /\ 150 <= log_constant c)).
  { unfold log_constant. destruct (truncate (c_charge c + 1 / 2)) as [|p|p]; [left; lra| |left; lra].
    do 7 (destruct p as [p|p|]; try (left; lra); try (right; split; [lia|lra])). }
  destruct C as [C|[C C']].
  - assert (215 / 1000 * 165 <= inverse_cube_root (c_charge c) * log_constant c) by (apply Rmult_le_compat; lra). lra.
  - unfold truncate in C. destruct (Rleb_spec 0 (c_charge c + 1 / 2)) as [K|K]; [|lra]. pose proof (base_Int_part (c_charge c + 1 / 2)) as [_ I].
    apply IZR_le in C. assert (U : c_charge c <= 35 / 10) by lra.
    assert (W : 6 / 10 <= inverse_cube_root (c_charge c)) by (apply icr_ge; lra).
    assert (6 / 10 * 150 <= inverse_cube_root (c_charge c) * log_constant c) by (apply Rmult_le_compat; lra). lra.
Qed.
Lemma radius_small c : element c -> 0 < nuclear_radius (c_atomic c) <= 72 / 10.
Proof.
  intro el. destruct (nuclear_radius_bounds c el) as [D _]. split; [lra|]. destruct el as [[Z1 Z] [A1 A2]]. unfold nuclear_radius.
  assert (H : Rpower (c_atomic c) (27 / 100) <= 4675 / 1000); [|lra].
  apply Rle_trans with (Rpower 300 (27 / 100)); [apply Rle_Rpower_l; lra|].
  assert (N : Rpower 300 (27 / 100) ^ 100 < (4675 / 1000) ^ 100).
  { rewrite <- Rpower_pow by apply exp_pos. rewrite Rpower_mult. replace (27 / 100 * INR 100) with (INR 27) by (rewrite !INR_IZR_INZ; cbn [Z.of_nat Pos.of_succ_nat Pos.succ]; field).
    rewrite Rpower_pow by lra. lra. }
  destruct (Rle_lt_dec (Rpower 300 (27 / 100)) (4675 / 1000)) as [L|L]; [exact L|].
  assert ((4675 / 1000) ^ 100 <= Rpower 300 (27 / 100) ^ 100) by (apply pow_incr; lra). lra.
Qed.
Lemma muon_s1 mass c : MMU <= mass -> element c -> 0 < brems_s1 mass c <= 1 / 715000.
Proof.
  intros M el. pose proof SQRT2_val as S2. pose proof (screening_radius c el) as ZB. pose proof (radius_small c el) as [D0 D1]. unfold brems_s1.
  set (z := inverse_cube_root (c_charge c)) in *. set (B := log_constant c) in *. set (Dn := nuclear_radius (c_atomic c)) in *. clearbody z B Dn.
  assert (MU : 105 <= MMU) by (unfold MMU; lra). assert (MEP : 0 < ME) by (unfold ME; lra). cbv zeta.
  set (t := z * B) in *. replace (mass * z * B) with (mass * t) by (unfold t; ring). clearbody t.
  assert (R : ME / MMU <= 4837 / 10 ^ 6) by (unfold ME, MMU; lra). assert (R0 : 0 < ME / MMU) by (apply Rdiv_lt_0_compat; lra).
  set (q := ME / (mass * t)). assert (Q0 : 0 < q) by (apply Rdiv_lt_0_compat; [exact MEP|apply Rmult_lt_0_compat; lra]).
  assert (IT : 0 < / t <= / (354 / 10)) by (split; [apply Rinv_0_lt_compat; lra|apply Rinv_le_contravar; lra]).
  assert (EQ : q * (mass / MMU) = ME / MMU * / t) by (unfold q; field; lra).
  assert (Q1 : q <= ME / MMU * / t) by (rewrite <- EQ; assert (1 <= mass / MMU) by (apply (Rle_div_r 1 mass MMU ltac:(lra)); lra); nra).
  assert (K : ME / MMU * / t <= 4837 / 10 ^ 6 * / (354 / 10)) by (apply Rmult_le_compat; lra).
  replace (q * q * (1 + mass / MMU * Dn * (mass / MMU * Dn)) * SQRT2) with ((q * q + (q * (mass / MMU)) * (q * (mass / MMU)) * (Dn * Dn)) * SQRT2) by ring.
  rewrite EQ. assert (P0 : 0 < ME / MMU * / t) by (apply Rmult_lt_0_compat; lra). set (p := ME / MMU * / t) in *. clearbody p q.
  assert (PU : p <= 13665 / 10 ^ 8) by lra. assert (PP : 0 < p * p <= 13665 / 10 ^ 8 * (13665 / 10 ^ 8)) by (split; [nra|apply Rmult_le_compat; lra]).
  assert (QQ : 0 < q * q <= p * p) by (split; [nra|apply Rmult_le_compat; lra]).
  assert (DD : 0 < Dn * Dn <= 72 / 10 * (72 / 10)) by (split; [nra|apply Rmult_le_compat; lra]).
  assert (PD : 0 < p * p * (Dn * Dn) <= 13665 / 10 ^ 8 * (13665 / 10 ^ 8) * (72 / 10 * (72 / 10))) by (split; [apply Rmult_lt_0_compat; lra|apply Rmult_le_compat; lra]).
  set (y := p * p * (Dn * Dn)) in *. set (x := q * q) in *. clearbody x y. split; [apply Rmult_lt_0_compat; lra|].
  apply Rle_trans with ((13665 / 10 ^ 8 * (13665 / 10 ^ 8) + 13665 / 10 ^ 8 * (13665 / 10 ^ 8) * (72 / 10 * (72 / 10))) * (1415 / 1000)); [apply Rmult_le_compat; lra|lra].
Qed.
(** * Results *)
Lemma c64_brems nan mass m density c E v : ME <= mass -> element c -> 0 < density -> 0 < E -> 0 < v < 1 ->
  0 < l_energy m -> 0 <= l_sum_charge m * l_mol_density m ->
  exists x, brems_suppression nan mass m density c E v = Ok x /\ 0 < x < 21 / 20 /\
    (MMU <= mass \/ 64 * (density * E * (1 - v)) <= l_energy m * v -> x < 1).
Proof.
  intros M el D EP V LE N. destruct (brems_suppression_xi nan mass m density c E v M el D EP V LE N) as (xi & HX & X1 & X2 & _ & HV).
  destruct (brems_factor nan mass m density c E v M el D EP V LE N) as (x & Hx & X0 & XL). exists x. split; [exact Hx|].
  rewrite HV in Hx. injection Hx. intro Ex. pose proof (brems_sp_pos m density E v D EP V LE) as SP. pose proof (brems_Gamma_big mass m density v) as GB.
  pose proof (brems_s1_range mass c v M el V) as S1. destruct (brems_weight v V) as [W1 W2]. 
  assert (G : 1 <= brems_Gamma mass m density v) by (apply GB; assumption).
  split; [split; [lra|]|].
  - rewrite <- Ex. apply (any_factor nan (brems_s1 mass c)); assumption.
  - intros [H|H]; [|exact (XL H)]. rewrite <- Ex. apply (heavy_factor nan (brems_s1 mass c)); try assumption. apply muon_s1; assumption.
Qed.
Lemma c64_pairs nan m density c E x : element c -> 0 < density -> 0 < E -> 0 < x < 1 -> 0 < l_energy m -> 0 <= l_sum_charge m * l_mol_density m ->
  exists f, pair_suppression nan m density c E x = Ok f /\ 0 < f < 21 / 20 /\ (64 * (density * E * x * (1 - x)) <= l_energy m -> f < 1).
Proof.
  intros el D EP V LE N. destruct (pair_suppression_xi nan m density c E x el D EP V LE N) as (xi & HX & X1 & X2 & HV).
  destruct (pair_factor nan m density c E x el D EP V LE N) as (f & Hx & X0 & XL). exists f. split; [exact Hx|]. split; [split; [lra|]|exact XL].
  rewrite HV in Hx. injection Hx. intros <-. destruct (pair_weight x V) as [W1 W2]. apply (any_factor nan (pair_s1 c)); try assumption.
  - apply (pair_s1_range c x); assumption.
  - apply pair_sp_pos; assumption.
  - apply pair_Gamma_big; assumption.
Qed.
