(** Direct sampling from a spectrum that falls off like the inverse of the loss, and
    the failure for limits that are close. *)
From Coquelicot Require Import Coquelicot.
From Verif Require Import Prelude PreludeFacts Propagator_Model Limits_Model Cross_Model Function_Model Integral_Model Continuous_Model
  Limits_Spec Cross_Spec Function_Spec Integral_Spec Utility_Spec Sampling_Model Sampling_Spec Function_Proofs Trapezoid_Proofs Romberg_Proofs
  Integral_Proofs Values_Proofs Upper_Proofs Place_Proofs Direct_Proofs Inverse_Proofs Sampling_Proofs.

Section Flat.
Variable nan : forall A, outcome A.
Variable qags : (R -> outcome R) -> R -> R -> outcome R.
Variable k : R.
Hypothesis positive : 0 < k.
Hypothesis exact : constants_exact k qags.

Lemma default_room : roomy default_integral.
Proof. split; [split; cbn; lia|]. unfold INT_MAX. cbn. lia. Qed.
Lemma default_precision : e_precision default_integral = / 10 ^ 6.
Proof. cbn. destruct (_ <=? _); reflexivity. Qed.
Lemma flat_constant f g : (forall v, 0 < v -> f v = Ok (k / v)) -> e_power g = 0 -> e_log g = true -> e_reverse g = false ->
  e_integrand g = Some f -> constant nan k g.
Proof.
  intros F P L Rv I t. unfold evaluate. rewrite P, L, Rv, I. destruct (Reqb_spec 0 0) as [_|X]; [|lra]. cbn [obind].
  rewrite F by apply exp_pos. cbn [obind]. rewrite Rmult_1_l. apply f_equal. field. apply Rgt_not_eq, exp_pos.
Qed.

(** The integration *)
Lemma flat_integral f a b rate : (forall v, 0 < v -> f v = Ok (k / v)) -> 0 < a < b -> b - a > a / 10 ^ 10 -> 0 < rate ->
  exists g2, like (prepared default_integral (ln a) (ln b) f 0 (e_random_do default_integral) true (- rate) false (e_reverse_x default_integral)) g2 /\
  integrate_ratio nan qags default_integral a b f 4 (- rate) 0 =
    Some (Ok (k * (ln b - ln a), sampled g2 (clamp01 (rate / (k * (ln b - ln a)))) (k * (ln b - ln a)))) /\
  kept g2 = kept (prepared default_integral (ln a) (ln b) f 0 (e_random_do default_integral) true (- rate) false (e_reverse_x default_integral)).
Proof.
  intros F L Fa Rt. assert (Lln : ln a < ln b) by (apply ln_increasing; lra).
  unfold integrate_ratio. rewrite eqb_no by lra. cbn [andb]. rewrite !leb_no by lra. cbn [orb].
  unfold integrate_log_ratio. rewrite negligible_false by (rewrite !Rabs_right by lra; lra).
  rewrite Rmin_left, Rmax_right by lra. unfold logarithm. rewrite !ltb_yes by lra.
  rewrite !fbind_Ok. cbv zeta. unfold sign_of. rewrite (ltb_no b a) by lra. rewrite (ltb_no 1 (- rate)) by lra.
  set (lo := ln a) in *. set (hi := ln b) in *. set (w := hi - lo) in *. assert (W : 0 < w) by (unfold w; lra).
  set (g1 := prepared _ _ _ _ _ _ _ _ _ _).
  assert (Ro1 : roomy g1) by (apply roomy_prepared, default_room).
  assert (C1 : constant nan k g1) by (apply (flat_constant f); [exact F|reflexivity..]).
  assert (P1 : 0 < e_precision g1) by (change (0 < e_precision default_integral); rewrite default_precision; lra).
  destruct (constant_romberg_opened nan qags k ltac:(lra) exact g1 None Ro1 C1 P1) as (g2 & Lk & E2); [cbn; lra|cbn; lra|].
  change (e_max g1 - e_min g1) with w in E2. rewrite E2. cbn [fbind].
  destruct (romberg_opened_kept _ _ _ _ _ _ E2) as (K2 & _).
  destruct (like_fields _ _ Lk) as (_ & _ & _ & _ & _ & _ & _ & _ & _ & _ & F11 & _).
  assert (Er : e_random g2 = - rate) by (rewrite F11; reflexivity). rewrite Er. rewrite ltb_yes by lra.
  unfold quotient. assert (KW : 0 < k * w) by nra. rewrite eqb_no by lra. cbn [obind]. rewrite fbind_Ok.
  exists g2. split; [exact Lk|]. split; [|exact K2]. unfold done. do 2 f_equal. rewrite Rmult_1_l.
  replace (- rate / (- (1) * (k * w))) with (rate / (k * w)) by (field; lra). reflexivity.
Qed.

(** The loss up to which the spectrum has the wanted rate *)
Lemma flat_place f a b rate : (forall v, 0 < v -> f v = Ok (k / v)) -> 0 < a < b -> b - a > a / 10 ^ 10 ->
  Rabs (ln a) / 10 ^ 10 < ln b - ln a -> 0 < rate < k * (ln b - ln a) ->
  exists v, place_loss nan qags f a b (- rate) = Some (Ok v) /\ 0 < v /\ Rabs (ln v - (ln a + rate / k)) < / 10 ^ 6.
Proof.
  intros F L Fa Ap S. destruct (flat_integral f a b rate F L Fa ltac:(lra)) as (g2 & Lk & Eg & K2).
  unfold place_loss. rewrite Eg. clear Eg. cbn [fbind].
  assert (Lln : ln a < ln b) by (apply ln_increasing; lra).
  set (lo := ln a) in *. set (hi := ln b) in *. set (w := hi - lo) in *. assert (W : 0 < w) by (unfold w; lra).
  assert (N2 : negligible lo hi = false) by (apply negligible_false; rewrite (Rabs_right (hi - lo)) by (fold w; lra); exact Ap).
  assert (KW : 0 < k * w) by nra.
  set (r := rate / (k * w)).
  assert (R01 : 0 < r < 1).
  { split; [apply Rdiv_lt_0_compat; lra|]. apply (Rmult_lt_reg_r (k * w)); [lra|].
    unfold r. replace (rate / (k * w) * (k * w)) with rate by (field; lra). lra. }
  unfold clamp01. rewrite (ltb_no 1 r), (ltb_no r 0) by lra.
  set (g1 := prepared _ _ _ _ _ _ _ _ _ _) in *.
  assert (Ro1 : roomy g1) by (apply roomy_prepared, default_room).
  assert (C1 : constant nan k g1) by (apply (flat_constant f); [exact F|reflexivity..]).
  assert (P1 : e_precision g1 = / 10 ^ 6) by exact default_precision.
  destruct (like_fields _ _ Lk) as (F1 & F2 & F3 & F4 & F5 & F6 & F7 & F8 & F9 & F10 & F11 & F12).
  unfold kept in K2. injection K2 as Kp Kl Kr Kx Kd _ _ _.
  set (g3 := sampled g2 r (k * w)).
  assert (U : exists g4 y, refine_upper_limit nan qags g3 (e_saved g3) = Some (Ok g4) /\ e_random_x g4 = y /\
      Rabs (y - (lo + r * w)) < / 10 ^ 6 /\ e_reverse g4 = false /\ e_power g4 = 0 /\ e_log g4 = true).
  { unfold refine_upper_limit. change (e_random g3) with r. rewrite !eqb_no by lra. cbn [orb]. cbv zeta. change (e_saved g3) with (k * w).
    rewrite (ltb_no 0 (- r * (k * w) * ((1 - r) * (k * w)))).
    2:{ replace (- r * (k * w) * ((1 - r) * (k * w))) with (- (r * (1 - r) * ((k * w) * (k * w)))) by ring.
        assert (0 < r * (1 - r)) by nra. assert (0 < (k * w) * (k * w)) by nra. nra. }
    rewrite (ltb_no 0 (- r * (k * w))) by nra.
    set (g4 := if (_ <? _) || _ then _ else g3).
    assert (M3 : e_min g3 = lo) by exact F9. assert (X3 : e_max g3 = hi) by exact F10.
    assert (G4 : exists x, g4 = with_x g3 x /\ lo <= x <= hi).
    { unfold g4. rewrite M3, X3. destruct (Rltb_spec (e_random_x g3) lo) as [A|A]; [exists ((lo + hi) / 2); split; [reflexivity|lra]|].
      destruct (Rltb_spec hi (e_random_x g3)) as [B|B]; [exists ((lo + hi) / 2); split; [reflexivity|lra]|].
      exists (e_random_x g3). split; [destruct g3; reflexivity|lra]. }
    destruct G4 as (x & -> & Hx). cbn [e_min e_max e_random_x with_x e_romberg]. rewrite M3, X3.
    assert (Rdy : ready nan k (with_x g3 x) x).
    { split.
      - destruct Ro1 as ([A B C D] & O). split; [split|].
        + change (1 <= e_romberg g2)%nat. rewrite F3. exact A.
        + change (e_romberg g2 <= e_work g2)%nat. rewrite F3, F6. exact B.
        + change (e_steps g2 <= length (e_ix g2))%nat. rewrite F1, F7. exact C.
        + change (e_steps g2 <= length (e_iy g2))%nat. rewrite F1, F8. exact D.
        + change (3 ^ Z.of_nat (e_steps g2) <= INT_MAX)%Z. rewrite F1. exact O.
      - intro t. change (evaluate nan g2 t = Ok k). rewrite F12. apply C1.
      - change (0 < e_precision g2). rewrite F5, P1. lra.
      - reflexivity. }
    assert (NZ : k * w <> 0) by lra.
    destruct (ready_romberg nan qags k ltac:(lra) exact (with_x g3 x) x (k * w) lo x Rdy ltac:(lra) NZ) as (g5 & E5 & R5 & P5).
    rewrite E5. cbn [fbind].
    destruct (romberg_opened_kept _ _ _ _ _ _ E5) as (K5 & _). unfold kept in K5. cbn in K5. injection K5 as K5p K5l K5r K5x _ K5e _ _.
    assert (L5 : settings g5 = settings g1).
    { rewrite (opened_settings _ _ _ _ _ _ E5). change (settings g2 = settings g1). exact (like_settings _ _ Lk). }
    unfold settings in L5. injection L5 as S1 S2 S3 S4 S5 S6 S7 S8.
    set (g6 := with_romberg g5 (e_romberg_refine g5)).
    assert (R6 : ready nan k g6 x).
    { split; [|intro t; apply (ready_constant _ _ _ _ R5)|exact (ready_precision _ _ _ _ R5)|exact (ready_x _ _ _ _ R5)].
      destruct (ready_room _ _ _ _ R5) as ([A B C D] & O). split; [split|].
      - change (1 <= e_romberg_refine g5)%nat. rewrite S4. cbn. lia.
      - change (e_romberg_refine g5 <= e_work g5)%nat. rewrite S4, S6. cbn. lia.
      - exact C.
      - exact D.
      - exact O. }
    rewrite (ready_constant _ _ _ _ R6), fbind_Ok. change (e_refine_steps g6) with (e_refine_steps g5). rewrite S2.
    replace (e_random g5) with r by (symmetry; exact K5e).
    replace (k * (x - lo) - r * (k * w)) with (k * (x - (lo + r * w))) by ring.
    assert (T : lo <= lo + r * w <= hi) by (split; [nra|unfold w; nra]).
    change (e_refine_steps g1) with (S (S (S 17))).
    destruct (refine_constant nan qags k ltac:(lra) exact (lo + r * w) g6 x x (k * w) lo hi lo hi 17 R6 NZ T Hx) as (g7 & y & E7 & Y).
    { left. split; reflexivity. }
    { split; nra. }
    rewrite E7. cbn [fbind].
    assert (K7 : kept_fields g7 = kept_fields g6) by (exact (refine_loop_kept _ _ _ _ _ _ _ _ _ _ _ _ _ _ _ E7)).
    unfold kept_fields in K7. injection K7 as K7p K7l K7r K7x.
    eexists _, y. split; [reflexivity|]. split; [reflexivity|]. split; [change (e_precision g6) with (e_precision g5) in Y; rewrite S5 in Y; rewrite <- P1; exact Y|].
    cbn [e_reverse e_reverse_x e_power e_log with_range with_romberg with_x]. rewrite K7r, K7p, K7l.
    cbn [g6 e_reverse e_reverse_x e_power e_log with_romberg]. rewrite K5r, K5p, K5l, Kr, Kp, Kl. repeat split. }
  destruct U as (g4 & y & U & Uy & Ub & Urev & Up & Ul).
  assert (N3 : negligible (e_min g3) (e_max g3) = false).
  { change (e_min g3) with (e_min g2). change (e_max g3) with (e_max g2). rewrite F9, F10. exact N2. }
  unfold get_upper_limit. change (e_random_do g3) with true. cbv iota. rewrite N3, U. cbn [fbind].
  rewrite Uy, Urev, Up, Ul. rewrite (ltb_no 0 0) by lra. cbn [done fbind].
  exists (exp y). split; [reflexivity|]. split; [apply exp_pos|]. rewrite ln_exp.
  replace (lo + rate / k) with (lo + r * w) by (unfold r; field; lra). exact Ub.
Qed.

(** Limits whose logarithms cannot be told apart: the logarithm of the lower limit is
    returned. *)
Lemma flat_close f a b rate : (forall v, 0 < v -> f v = Ok (k / v)) -> 0 < a < b -> b - a > a / 10 ^ 10 ->
  ln b - ln a <= Rabs (ln a) / 10 ^ 10 -> 0 < rate -> place_loss nan qags f a b (- rate) = Some (Ok (ln a)).
Proof.
  intros F L Fa Cl Rt. destruct (flat_integral f a b rate F L Fa Rt) as (g2 & Lk & Eg & _).
  unfold place_loss. rewrite Eg. cbn [fbind].
  destruct (like_fields _ _ Lk) as (_ & _ & _ & _ & _ & _ & _ & _ & F9 & F10 & _ & _).
  unfold get_upper_limit. cbn [e_random_do sampled e_min e_max]. rewrite F9, F10.
  change (negligible (e_min _) (e_max _)) with (negligible (ln a) (ln b)).
  assert (Lln : ln a < ln b) by (apply ln_increasing; lra).
  rewrite negligible_true by (rewrite (Rabs_right (ln b - ln a)) by lra; exact Cl). reflexivity.
Qed.
End Flat.
