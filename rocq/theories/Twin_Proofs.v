(** IntegrateWithRandomRatio and Integrate find the same value. *)
From Verif Require Import Prelude PreludeFacts Function_Model Integral_Model Function_Spec Integral_Spec Math_Model
  Function_Proofs Trapezoid_Proofs Neville_Proofs Expansion_Proofs Romberg_Proofs Integral_Proofs Values_Proofs Safety_Proofs Upper_Proofs Overrun_Proofs
  Vec_Model Geometry_Model Propagator_Model Cross_Model Utility_Model Utility_Spec Utility_Proofs Direct_Proofs.

(** ** Neville's algorithm reads only the points of its window. *)
Lemma loop_ext {S} (f h : S -> nat -> outcome S) l : (forall s i, In i l -> f s i = h s i) -> forall s, loop f l s = loop h l s.
Proof.
  induction l as [|i l IH]; intros H s; [reflexivity|]. cbn [loop]. rewrite H by (left; reflexivity).
  destruct (h s i); cbn [obind]; try reflexivity. apply IH. intros s' j J. apply H. right. exact J.
Qed.
Lemma nearest_num g start x l : forall num aux c d num' aux' c' d',
  loop (nearest g start x) l (num, aux, c, d) = Ok (num', aux', c', d') -> num' = num \/ In num' l.
Proof.
  induction l as [|i l IH]; intros num aux c d num' aux' c' d'; cbn [loop].
  - intro H. injection H as <- _ _ _. left. reflexivity.
  - unfold nearest at 1. destruct (arr_get _ _); cbn [obind]; try discriminate.
    destruct (_ <? _); cbn [obind]; destruct (arr_get _ _); cbn [obind]; try discriminate;
      destruct (arr_set c _ _); cbn [obind]; try discriminate; destruct (arr_set d _ _); cbn [obind]; try discriminate;
      intro H; apply IH in H; cbn [In]; destruct H as [->|H]; auto.
Qed.
Lemma interpolate_local g h start x : e_romberg g = e_romberg h -> e_work g = e_work h -> (1 <= e_romberg h)%nat ->
  (forall j, (j < e_romberg h)%nat -> arr_get (e_ix g) (start + j) = arr_get (e_ix h) (start + j) /\
                                      arr_get (e_iy g) (start + j) = arr_get (e_iy h) (start + j)) ->
  interpolate g start x = interpolate h start x.
Proof.
  intros Rm Wk P H. unfold interpolate. rewrite Rm, Wk. rewrite (proj1 (H 0%nat ltac:(lia))).
  destruct (arr_get (e_ix h) (start + 0)) as [x0| |]; cbn [obind]; try reflexivity.
  rewrite (loop_ext (nearest g start x) (nearest h start x)).
  2:{ intros (((num & aux) & c) & d) i I. apply in_seq in I. unfold nearest. destruct (H i ltac:(lia)) as (-> & ->). reflexivity. }
  destruct (loop (nearest h start x) (seq 0 (e_romberg h)) _) as [(((num & aux) & c) & d)| |] eqn:L; cbn [obind]; try reflexivity.
  assert (Nm : (num < e_romberg h)%nat).
  { destruct (nearest_num _ _ _ _ _ _ _ _ _ _ _ _ L) as [->|I]; [lia|]. apply in_seq in I. lia. }
  rewrite (proj2 (H num Nm)).
  destruct (Nat.eqb_spec num 0) as [Z|Z]; [|destruct (Nat.eqb_spec num (e_romberg h - 1)) as [Y|Y]].
  3:{ replace (start + num - 1)%nat with (start + (num - 1))%nat by lia. replace (start + num + 1)%nat with (start + (num + 1))%nat by lia.
      rewrite (proj1 (H (num - 1)%nat ltac:(lia))), (proj1 (H (num + 1)%nat ltac:(lia))).
      destruct (arr_get (e_ix h) (start + (num - 1))); cbn [obind]; try reflexivity.
      destruct (arr_get (e_ix h) (start + (num + 1))); cbn [obind]; try reflexivity.
      destruct (arr_get (e_iy h) _); cbn [obind]; try reflexivity. rewrite (loop_ext (stage g start x) (stage h start x)); [reflexivity|].
      intros (((((n & dd) & c1) & d1) & r) & e) k K. apply in_seq in K. unfold stage. rewrite Rm.
      rewrite (loop_ext (column g start x k) (column h start x k)); [reflexivity|].
      intros (c2 & d2) i I. apply in_seq in I. unfold column. rewrite (proj1 (H i ltac:(lia))).
      replace (start + i + k)%nat with (start + (i + k))%nat by lia. rewrite (proj1 (H (i + k)%nat ltac:(lia))). reflexivity. }
  all: cbn [obind]; destruct (arr_get (e_iy h) _); cbn [obind]; try reflexivity; rewrite (loop_ext (stage g start x) (stage h start x)); [reflexivity|];
    intros (((((n & dd) & c1) & d1) & r) & e) k K; apply in_seq in K; unfold stage; rewrite Rm;
    rewrite (loop_ext (column g start x k) (column h start x k)); [reflexivity|];
    intros (c2 & d2) i I; apply in_seq in I; unfold column; rewrite (proj1 (H i ltac:(lia)));
    replace (start + i + k)%nat with (start + (i + k))%nat by lia; rewrite (proj1 (H (i + k)%nat ltac:(lia))); reflexivity.
Qed.

(** ** Mirrored integrands *)
Lemma midpoint_mirror F a b n : midpoint_sum (fun x => F (a + b - x)) a b n = midpoint_sum F a b n.
Proof.
  unfold midpoint_sum. f_equal. destruct n as [|n]; [reflexivity|]. rewrite sum_below_rev. apply sum_below_ext. intros j J. f_equal.
  replace (S n - 1 - j)%nat with (n - j)%nat by lia. rewrite minus_INR by lia. rewrite S_INR. assert (0 < INR n + 1) by (pose proof (pos_INR n); lra).
  field. lra.
Qed.

Section Twin.
Variable nan : forall A, outcome A.
Variable qags : (R -> outcome R) -> R -> R -> outcome R.

(** Two engines with the same sums *)
Lemma opened_twin g0 h0 F H : settings g0 = settings h0 -> e_min g0 = e_min h0 -> e_max g0 = e_max h0 ->
  e_min h0 < e_max h0 -> fits h0 -> e_random g0 = 0 -> e_random h0 = 0 -> (3 ^ Z.of_nat (e_steps h0) <= INT_MAX)%Z ->
  good (evaluate nan g0) F (e_min h0) (e_max h0) -> good (evaluate nan h0) H (e_min h0) (e_max h0) ->
  (forall n, midpoint_sum F (e_min h0) (e_max h0) n = midpoint_sum H (e_min h0) (e_max h0) n) ->
  qags (evaluate nan g0) (e_min h0) (e_max h0) = qags (evaluate nan h0) (e_min h0) (e_max h0) ->
  forall steps i g h result v g', like g0 g -> like h0 h -> (i + steps = e_steps h0)%nat ->
  filled 3 (midpoint_sum H (e_min h0) (e_max h0)) g i -> filled 3 (midpoint_sum H (e_min h0) (e_max h0)) h i ->
  (i = 0%nat \/ result = midpoint_sum H (e_min h0) (e_max h0) (3 ^ (i - 1))) ->
  opened_loop nan qags steps None g i (3 ^ Z.of_nat i) ((/ INR (3 ^ i)) ^ 2) result = Some (Ok (v, g')) ->
  exists h', opened_loop nan qags steps None h i (3 ^ Z.of_nat i) ((/ INR (3 ^ i)) ^ 2) result = Some (Ok (v, h')).
Proof.
  intros Se Emin Emax Lt Ft Rg Rh Ov Gg Gh Ms Qe. set (M := midpoint_sum H (e_min h0) (e_max h0)).
  assert (MF : forall n, midpoint_sum F (e_min h0) (e_max h0) n = M n) by exact Ms.
  assert (Sum : forall k0 k (K : R -> R) i result, like k0 k -> e_min k0 = e_min h0 -> e_max k0 = e_max h0 ->
    good (evaluate nan k0) K (e_min h0) (e_max h0) -> (forall n, midpoint_sum K (e_min h0) (e_max h0) n = M n) ->
    (i = 0%nat \/ result = M (3 ^ (i - 1))%nat) -> trapezoid3 nan k (3 ^ Z.of_nat i) result = Some (Ok (M (3 ^ i)%nat))).
  { intros k0 k K i result Lk A B Gd E Re. destruct (like_fields _ _ Lk) as (_ & _ & _ & _ & _ & _ & _ & _ & Ea & Eb & _ & Eev).
    rewrite A in Ea. rewrite B in Eb.
    assert (Gd' : good (evaluate nan k) K (e_min k) (e_max k)) by (rewrite Eev, Ea, Eb; exact Gd).
    destruct i as [|i].
    - change (3 ^ Z.of_nat 0)%Z with 1%Z. rewrite (trapezoid3_first nan k K); [|exact Gd'|rewrite Ea, Eb; exact Lt].
      rewrite Ea, Eb, E. reflexivity.
    - destruct Re as [Re|Re]; [discriminate|]. cbn [Nat.sub] in Re. rewrite Nat.sub_0_r in Re. rewrite Re.
      replace (3 ^ Z.of_nat (S i))%Z with (Z.of_nat (3 * 3 ^ i)).
      2:{ rewrite Nat2Z.inj_mul, Nat2Z.inj_pow, (Nat2Z.inj_succ i), Z.pow_succ_r by lia. reflexivity. }
      rewrite <- (E (3 ^ i)%nat). rewrite <- Ea, <- Eb. rewrite (trapezoid3_triple nan k K); [|exact Gd'|rewrite Ea, Eb; exact Lt|].
      + rewrite Ea, Eb, E. reflexivity.
      + assert (3 ^ i <> 0)%nat by (apply Nat.pow_nonzero; lia). lia. }
  assert (Se' := Se). unfold settings in Se'. injection Se' as Es Ers Em Emr Ep Ew Elx Ely.
  destruct Ft as [F1 F2 F3 F4].
  induction steps as [|steps IH]; intros i g h result v g' Lg Lh St Fg Fh Re; cbn [opened_loop].
  - destruct (like_fields _ _ Lg) as (_ & _ & _ & _ & _ & _ & _ & _ & Ga & Gb & _ & Gev).
    destruct (like_fields _ _ Lh) as (_ & _ & _ & _ & _ & _ & _ & _ & Ha & Hb & _ & Hev).
    rewrite Gev, Ga, Gb, Emin, Emax, Hev, Ha, Hb, Qe. clear Qe. destruct (qags (evaluate nan h0) (e_min h0) (e_max h0)) as [w| |]; try discriminate.
    intro X. apply done_inv in X. cbn [obind] in X. inversion X; subst. eexists. reflexivity.
  - rewrite (Sum g0 g F i result Lg Emin Emax Gg MF Re). rewrite (Sum h0 h H i result Lh eq_refl eq_refl Gh (fun n => eq_refl) Re).
    destruct (like_fields _ _ Lg) as (Gs & _ & Gm & _ & Gp & Gw & Glx & Gly & _ & _ & Grn & _).
    destruct (like_fields _ _ Lh) as (Hs & _ & Hm & _ & Hp & Hw & Hlx & Hly & _ & _ & Hrn & _).
    rewrite Grn, Rg, Hrn, Rh. destruct (Reqb_spec 0 0) as [_|X]; [|lra]. cbn [orb fbind done].
    set (g1 := with_x g (e_min g)). set (h1 := with_x h (e_min h)).
    change (e_ix g1) with (e_ix g). change (e_iy g1) with (e_iy g). change (e_ix h1) with (e_ix h). change (e_iy h1) with (e_iy h).
    destruct (set_ok (e_ix g) i ((/ INR (3 ^ i)) ^ 2)) as (ix & Sx & Lx & Vx); [lia|].
    destruct (set_ok (e_iy g) i (M (3 ^ i)%nat)) as (iy & Sy & Ly & Vy); [lia|].
    destruct (set_ok (e_ix h) i ((/ INR (3 ^ i)) ^ 2)) as (jx & Tx & Kx & Wx); [lia|].
    destruct (set_ok (e_iy h) i (M (3 ^ i)%nat)) as (jy & Ty & Ky & Wy); [lia|].
    rewrite Sx, Sy, Tx, Ty. cbn [fbind].
    set (g2 := with_buffers g1 ix iy). set (h2 := with_buffers h1 jx jy).
    assert (Lg2 : like g0 g2) by (apply like_buffers; [apply like_x; exact Lg|exact Lx|exact Ly]).
    assert (Lh2 : like h0 h2) by (apply like_buffers; [apply like_x; exact Lh|exact Kx|exact Ky]).
    assert (Fg2 : filled 3 M g2 (S i)).
    { intros j J. unfold g2. cbn. rewrite Vx, Vy. destruct (Nat.eqb_spec j i) as [->|Nj]; [split; reflexivity|]. apply Fg. lia. }
    assert (Fh2 : filled 3 M h2 (S i)).
    { intros j J. unfold h2. cbn. rewrite Wx, Wy. destruct (Nat.eqb_spec j i) as [->|Nj]; [split; reflexivity|]. apply Fh. lia. }
    change (e_romberg g2) with (e_romberg g). change (e_romberg h2) with (e_romberg h).
    change (e_precision g2) with (e_precision g). change (e_precision h2) with (e_precision h).
    rewrite Gm, Em, Hm, Gp, Ep, Hp.
    assert (Next : (flet k := done (times (3 ^ Z.of_nat i) 3) in opened_loop nan qags steps None g2 (S i) k ((/ INR (3 ^ i)) ^ 2 / 9) (M (3 ^ i)%nat)) = Some (Ok (v, g')) ->
      exists h', (flet k := done (times (3 ^ Z.of_nat i) 3) in opened_loop nan qags steps None h2 (S i) k ((/ INR (3 ^ i)) ^ 2 / 9) (M (3 ^ i)%nat)) = Some (Ok (v, h'))).
    { rewrite (times_ok 3 i (e_steps h0)) by (assumption || lia). unfold done. cbn [fbind].
      replace ((/ INR (3 ^ i)) ^ 2 / 9) with ((/ INR (3 ^ S i)) ^ 2).
      - apply IH; [exact Lg2|exact Lh2|lia|exact Fg2|exact Fh2|]. right. cbn [Nat.sub]. rewrite Nat.sub_0_r. reflexivity.
      - rewrite <- (node_next 3 i) by lia. f_equal. cbn [Nat.pow Nat.mul Nat.add INR]. lra. }
    destruct (Nat.leb_spec (e_romberg h0) (S i)) as [Le|_]; [|exact Next].
    rewrite (interpolate_local g2 h2).
    + destruct (interpolate h2 (i - (e_romberg h0 - 1)) 0) as [(w & e)| |]; try discriminate. cbn [done fbind].
      destruct (_ <? _); [|exact Next]. intro X. injection X as -> _. eexists. reflexivity.
    + unfold g2, h2; cbn. congruence.
    + unfold g2, h2; cbn. congruence.
    + unfold h2; cbn. lia.
    + change (e_romberg h2) with (e_romberg h). intros j J. rewrite Hm in J.
      assert (Bd : (i - (e_romberg h0 - 1) + j < S i)%nat) by lia.
      destruct (Fg2 _ Bd) as (Xg & Yg), (Fh2 _ Bd) as (Xh & Yh).
      rewrite !get_ok by (unfold g2, h2; cbn; lia). rewrite Xg, Yg, Xh, Yh. split; reflexivity.
Qed.

Hypothesis not_a_number : forall A (v : A), nan A <> Ok v.
Hypothesis mirrored : mirrors qags.

Lemma ratio_value g h lower E f ratio v g1 w h1 F : settings g = settings h -> roomy h -> 0 < lower < E ->
  negligible E lower = false -> negligible (ln lower) (ln E) = false -> (forall x, lower < x < E -> f x = Ok (F x)) ->
  integrate_ratio nan qags g E lower f 4 ratio 0 = Some (Ok (v, g1)) -> integrate nan qags h E lower f 4 0 = Some (Ok (w, h1)) -> v = w.
Proof.
  intros Se Ro L N N2 Hf. unfold integrate_ratio, integrate. rewrite !eqb_no by lra. cbn [andb]. rewrite !leb_no by lra. cbn [orb].
  unfold integrate_log_ratio, integrate_log. rewrite N. rewrite Rmin_right, Rmax_left by lra. unfold logarithm. rewrite !ltb_yes by lra.
  rewrite !fbind_Ok. cbv zeta. cbn [e_min e_max prepared]. rewrite N2. unfold sign_of. rewrite (ltb_yes lower E) by lra.
  set (ga := prepared g (ln lower) (ln E) f 0 _ true _ true _). set (ha := prepared h (ln lower) (ln E) f 0 false true 0 false _).
  intros Hr Hi. apply fbind_inv in Hr. destruct Hr as ((rg & gb) & Og & Hr). apply fbind_inv in Hr. destruct Hr as (rd & _ & Hr).
  apply done_inv in Hr. injection Hr as <- _.
  unfold finish in Hi. apply fbind_inv in Hi. destruct Hi as ((rh & hb) & Oh & Hi). apply done_inv in Hi. injection Hi as <- _.
  f_equal. unfold romberg_opened in Og, Oh.
  destruct (opened_loop_calm nan qags _ ga (calm ga) _ _ _ _ _ _ eq_refl eq_refl Og) as (gc & Oc).
  assert (Lln : ln lower < ln E) by (apply ln_increasing; lra).
  assert (Ev : forall t, ln lower < t < ln E -> evaluate nan ha t = Ok (exp t * F (exp t))).
  { intros t Ht. unfold evaluate, ha, prepared. cbn [e_reverse e_power e_log e_integrand]. destruct (Reqb_spec 0 0) as [_|X]; [|lra].
    cbn [obind]. rewrite Hf; [cbn [obind]; rewrite Rmult_1_l; reflexivity|].
    split; [rewrite <- (exp_ln lower) by lra|rewrite <- (exp_ln E) by lra]; apply exp_increasing; lra. }
  assert (Er : forall t, evaluate nan (calm ga) t = evaluate nan ha (ln lower + ln E - t)) by reflexivity.
  set (H := fun t => exp t * F (exp t)).
  assert (Es : e_steps ga = e_steps ha) by (unfold settings in Se; injection Se; intros; assumption).
  destruct Ro as ([R1 R2 R3 R4] & R5).
  assert (T : exists h', opened_loop nan qags (e_steps ga) None ha 0 1 1 0 = Some (Ok (rg, h'))).
  { assert (One : (/ INR (3 ^ 0)) ^ 2 = 1) by (cbn; lra).
    enough (X : exists h', opened_loop nan qags (e_steps ga) None ha 0 (3 ^ Z.of_nat 0) ((/ INR (3 ^ 0)) ^ 2) 0 = Some (Ok (rg, h')))
      by (rewrite One in X; exact X).
    apply (opened_twin (calm ga) ha (fun t => H (ln lower + ln E - t)) H) with (g := calm ga) (g' := gc); try reflexivity.
    - exact Se.
    - exact Lln.
    - split; assumption.
    - exact R5.
    - intros t Ht. cbn in Ht. rewrite Er. apply Ev. lra.
    - intros t Ht. cbn in Ht. apply Ev. lra.
    - intro n. apply (midpoint_mirror H (ln lower) (ln E) n).
    - exact (mirrored (evaluate nan ha) (ln lower) (ln E)).
    - apply like_refl.
    - apply like_refl.
    - exact Es.
    - intros j J. lia.
    - intros j J. lia.
    - left. reflexivity.
    - rewrite One. exact Oc. }
  destruct T as (h' & T). rewrite Es in T. rewrite T in Oh. injection Oh as -> _. reflexivity.
Qed.

Lemma far_negligible a b : 0 < b -> b < a -> a - b > a / 10 ^ 10 -> negligible a b = false.
Proof.
  intros P L H. unfold negligible, COMPUTER_PRECISION. apply leb_no. rewrite (Rabs_right a) by lra. rewrite Rabs_left by lra. unfold Rdiv in H. lra.
Qed.
Lemma direct_upper find f lower c E s x F : later nan qags find (new_direct f lower) c -> 0 < lower < E -> E - lower > E / 10 ^ 10 -> logs_apart E lower ->
  (forall y, lower < y < E -> f y = Ok (F y)) -> forall most, gives (calculate nan qags c E lower) most -> 0 <= s < most ->
  gives (get_upper nan qags find c E s) x -> lower <= x <= E.
Proof.
  intros La L Fa A Hf most (c1 & C) S (c2 & U). destruct (later_direct _ _ _ _ _ _ La) as (g & -> & St).
  destruct (settings_fields g St) as (Ro & Rm & Sts). pose proof (logs_negligible lower E L A) as N2.
  pose proof (far_negligible E lower ltac:(lra) ltac:(lra) Fa) as N.
  cbn [calculate] in C. apply fbind_inv in C. destruct C as ((w & g1) & I & C). apply done_inv in C. injection C as -> _.
  cbn [get_upper] in U. apply fbind_inv in U. destruct U as ((v & g2) & Ra & U).
  pose proof (ratio_value g g lower E f (- s) v g2 most g1 F eq_refl Ro L N N2 Hf Ra I) as ->.
  destruct (most <? s); [discriminate|]. apply fbind_inv in U. destruct U as ((y & g3) & G & U). apply done_inv in U. injection U as -> _.
  pose proof (upper_log nan qags not_a_number g E lower f (- s) 0 most g2 x g3) as B.
  rewrite Rmin_right, Rmax_left in B by lra. apply B; try assumption; try lra; rewrite ?Sts; lia || lra.
Qed.
(** Energies that the integration does not tell apart *)
Lemma near_upper find f lower g E s x c : negligible E lower = true -> 0 < lower < E -> 0 <= s ->
  get_upper nan qags find (Direct f lower g) E s = Some (Ok (x, c)) -> x = E.
Proof.
  intros N L S H. cbn [get_upper] in H. unfold integrate_ratio in H. rewrite eqb_no in H by lra. cbn [andb] in H. rewrite !leb_no in H by lra. cbn [orb] in H.
  unfold integrate_log_ratio in H. rewrite N in H. rewrite fbind_Ok in H. destruct (0 <? s); [discriminate|].
  unfold get_upper_limit in H. cbn [e_random_do e_min e_max empty_range] in H. rewrite N in H. rewrite fbind_Ok in H.
  injection H as <- _. reflexivity.
Qed.
Lemma near_throws find f lower g E s : negligible E lower = true -> 0 < lower < E -> 0 < s ->
  get_upper nan qags find (Direct f lower g) E s = Some (Throw logic_error).
Proof.
  intros N L S. cbn [get_upper]. unfold integrate_ratio. rewrite eqb_no by lra. cbn [andb]. rewrite !leb_no by lra. cbn [orb].
  unfold integrate_log_ratio. rewrite N. rewrite fbind_Ok. rewrite ltb_yes by exact S. reflexivity.
Qed.
Lemma direct_interaction find f lower c E rnd x F : later nan qags find (new_direct f lower) c -> 0 < lower < E ->
  (forall y, lower < y < E -> f y = Ok (F y)) -> 0 <= rnd <= 1 ->
  gives (energy_interaction nan qags find c E rnd) x -> lower <= x <= E.
Proof.
  intros La L Hf Rn (c' & H). unfold energy_interaction in H. destruct (later_direct _ _ _ _ _ _ La) as (g & -> & St).
  apply fbind_inv in H. destruct H as (r & Lg & H). apply fbind_inv in H. destruct H as ((most & c1) & C & H). cbn [lower_of] in *.
  assert (La1 : later nan qags find (new_direct f lower) c1) by (eapply later_calculate; [exact La|exact C]).
  destruct (later_direct _ _ _ _ _ _ La1) as (g1 & -> & St1). cbn [lower_of] in H.
  destruct (Req_dec rnd 0) as [->|Z].
  - rewrite minus_log_0 in Lg. apply done_inv in Lg. injection Lg as <-. injection H as <- _. lra.
  - rewrite minus_log_pos in Lg by lra. apply done_inv in Lg. injection Lg as <-.
    destruct (Rleb_spec most (- ln rnd)) as [M|M]; [injection H as <- _; lra|]. apply Rnot_le_lt in M.
    pose proof (ln_nonpos rnd ltac:(lra)).
    assert (N2 : negligible (ln lower) (ln E) = false).
    { destruct (negligible (ln lower) (ln E)) eqn:N2; [|reflexivity]. exfalso.
      cbn [calculate] in C. unfold integrate in C. rewrite eqb_no in C by lra. cbn [andb] in C. rewrite !leb_no in C by lra. cbn [orb] in C.
      unfold integrate_log in C. rewrite Rmin_right, Rmax_left in C by lra. unfold logarithm in C. rewrite !ltb_yes in C by lra.
      rewrite !fbind_Ok in C. cbv zeta in C. cbn [e_min e_max prepared] in C. rewrite N2 in C. rewrite fbind_Ok in C.
      apply done_inv in C. injection C as <- _. lra. }
    destruct (settings_fields g St) as (Ro & _ & _). destruct (settings_fields g1 St1) as (Ro1 & _ & Sts1).
    destruct (negligible E lower) eqn:N; [rewrite (near_upper find f lower g1 E (- ln rnd) x c' N L ltac:(lra) H); lra|].
    cbn [calculate] in C. apply fbind_inv in C. destruct C as ((w & g2) & I & C). apply done_inv in C. injection C as -> _.
    cbn [get_upper] in H. apply fbind_inv in H. destruct H as ((v & g3) & Ra & U).
    pose proof (ratio_value g1 g lower E f (- - ln rnd) v g3 most g2 F ltac:(congruence) Ro L N N2 Hf Ra I) as ->.
    destruct (most <? - ln rnd); [discriminate|]. apply fbind_inv in U. destruct U as ((y & g4) & G & U). apply done_inv in U. injection U as -> _.
    pose proof (upper_log nan qags not_a_number g1 E lower f (- - ln rnd) 0 most g3 x g4) as B.
    rewrite Rmin_right, Rmax_left in B by lra. apply B; try assumption; try lra; rewrite ?Sts1; lia || lra.
Qed.
Lemma direct_decay find f lower c lifetime E rnd density x F : later nan qags find (new_direct f lower) c -> 0 < lower < E ->
  (forall y, lower < y < E -> f y = Ok (F y)) -> 0 <= rnd <= 1 -> 0 < lifetime -> 0 < density ->
  gives (energy_decay nan qags find c lifetime E rnd density) x -> lower <= x <= E.
Proof.
  intros La L Hf Rn Li De (c' & H). unfold energy_decay in H. destruct (later_direct _ _ _ _ _ _ La) as (g & -> & St).
  apply fbind_inv in H. destruct H as (r & Lg & H). apply fbind_inv in H. destruct H as (r2 & Lr & H).
  apply fbind_inv in H. destruct H as ((most & c1) & C & H). cbn [lower_of] in *. apply fbind_inv in H. destruct H as (m & Dv & H).
  apply done_inv in Dv. unfold quotient in Dv. rewrite eqb_no in Dv by lra. injection Dv as <-.
  assert (La1 : later nan qags find (new_direct f lower) c1) by (eapply later_calculate; [exact La|exact C]).
  destruct (later_direct _ _ _ _ _ _ La1) as (g1 & -> & St1). cbn [lower_of] in H.
  destruct (Req_dec rnd 0) as [->|Z].
  - rewrite minus_log_0 in Lg. apply done_inv in Lg. injection Lg as <-. rewrite ltb_yes in Lr by lra. apply done_inv in Lr. injection Lr as <-.
    injection H as <- _. lra.
  - rewrite minus_log_pos in Lg by lra. apply done_inv in Lg. injection Lg as <-. apply done_inv in Lr. injection Lr as <-.
    destruct (Rleb_spec (most / lifetime) (- ln rnd * density)) as [M|M]; [injection H as <- _; lra|]. apply Rnot_le_lt in M.
    pose proof (ln_nonpos rnd ltac:(lra)).
    set (s := - ln rnd * density * lifetime) in *.
    assert (S0 : 0 <= s) by (unfold s; apply Rmult_le_pos; [apply Rmult_le_pos|]; lra).
    assert (S1 : s < most).
    { unfold s. replace most with (most / lifetime * lifetime) by (field; lra). apply Rmult_lt_compat_r; lra. }
    assert (N2 : negligible (ln lower) (ln E) = false).
    { destruct (negligible (ln lower) (ln E)) eqn:N2; [|reflexivity]. exfalso.
      cbn [calculate] in C. unfold integrate in C. rewrite eqb_no in C by lra. cbn [andb] in C. rewrite !leb_no in C by lra. cbn [orb] in C.
      unfold integrate_log in C. rewrite Rmin_right, Rmax_left in C by lra. unfold logarithm in C. rewrite !ltb_yes in C by lra.
      rewrite !fbind_Ok in C. cbv zeta in C. cbn [e_min e_max prepared] in C. rewrite N2 in C. rewrite fbind_Ok in C.
      apply done_inv in C. injection C as <- _. lra. }
    destruct (settings_fields g St) as (Ro & _ & _). destruct (settings_fields g1 St1) as (Ro1 & _ & Sts1).
    destruct (negligible E lower) eqn:N; [rewrite (near_upper find f lower g1 E s x c' N L S0 H); lra|].
    cbn [calculate] in C. apply fbind_inv in C. destruct C as ((w & g2) & I & C). apply done_inv in C. injection C as -> _.
    cbn [get_upper] in H. apply fbind_inv in H. destruct H as ((v & g3) & Ra & U).
    pose proof (ratio_value g1 g lower E f (- s) v g3 most g2 F ltac:(congruence) Ro L N N2 Hf Ra I) as ->.
    destruct (most <? s); [discriminate|]. apply fbind_inv in U. destruct U as ((y & g4) & G & U). apply done_inv in U. injection U as -> _.
    pose proof (upper_log nan qags not_a_number g1 E lower f (- s) 0 most g3 x g4) as B.
    rewrite Rmin_right, Rmax_left in B by lra. apply B; try assumption; try lra; rewrite ?Sts1; lia || lra.
Qed.
End Twin.
