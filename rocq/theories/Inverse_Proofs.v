(** GetUpperLimit inverts the integral of a constant, which is the integral of a
    loss proportional to the energy after the change to logarithms. *)
From Coquelicot Require Rcomplements.
From Verif Require Import Prelude PreludeFacts Function_Model Integral_Model Function_Spec Integral_Spec Math_Model
  Function_Proofs Trapezoid_Proofs Neville_Proofs Expansion_Proofs Romberg_Proofs Integral_Proofs Values_Proofs Safety_Proofs Upper_Proofs Overrun_Proofs
  Vec_Model Geometry_Model Propagator_Model Cross_Model Utility_Model Utility_Spec Utility_Proofs Direct_Proofs Twin_Proofs.

Section Inverse.
Variable nan : forall A, outcome A.
Variable qags : (R -> outcome R) -> R -> R -> outcome R.
Variable k : R.
Hypothesis signed : k <> 0.
Hypothesis exact : constants_exact k qags.

(** ** Romberg's method with sums that are known *)
Definition step_sum (big : option R) (g : engine) (n : Z) (result : R) (i : nat) : run (R * engine) :=
  match big with
  | Some _ => flet r := trapezoid3 nan g n result in done (Ok (r, g))
  | None =>
    if (e_random g =? 0) || (e_random g =? 1)
    then flet r := trapezoid3 nan g n result in
         done (Ok (r, with_x g (if e_random g =? 0 then e_min g else e_max g)))
    else trapezoid3s nan g n result i
  end.
Lemma opened_loop_sums g0 M big : fits g0 -> (match big with Some b => b <> 0 | None => True end) -> (3 ^ Z.of_nat (e_steps g0) <= INT_MAX)%Z ->
  (forall i g result, like g0 g -> (i = 0%nat \/ result = M (3 ^ (i - 1))%nat) ->
     exists g1, like g0 g1 /\ e_ix g1 = e_ix g /\ e_iy g1 = e_iy g /\ step_sum big g (3 ^ Z.of_nat i) result i = Some (Ok (M (3 ^ i)%nat, g1))) ->
  forall steps i g result, like g0 g -> (i + steps = e_steps g0)%nat -> filled 3 M g i ->
  (i = 0%nat \/ result = M (3 ^ (i - 1))%nat) ->
  ends nan qags g0 3 M (scale_of big) (opened_loop nan qags steps big g i (3 ^ Z.of_nat i) ((/ INR (3 ^ i)) ^ 2) result).
Proof.
  intros Ft Pl Ov Su.
  induction steps as [|steps IH]; intros i g result Lk St Fi Re; cbn [opened_loop].
  - exists g. split; [exact Lk|]. right. destruct (like_fields _ _ Lk) as (_ & _ & _ & _ & _ & _ & _ & _ & -> & -> & _ & ->). reflexivity.
  - fold (step_sum big g (3 ^ Z.of_nat i) result i).
    destruct (Su i g result Lk Re) as (g1 & Lk1 & Ex & Ey & ->). cbn [fbind].
    destruct (like_fields _ _ Lk) as (_ & _ & _ & _ & _ & _ & _ & _ & Emin & Emax & Eran & Eev).
    destruct (like_fields _ _ Lk1) as (Es1 & _ & Em1 & _ & Ep1 & Ew1 & Lx1 & Ly1 & _).
    destruct Ft as [F1 F2 F3 F4].
    destruct (set_ok (e_ix g1) i ((/ INR (3 ^ i)) ^ 2)) as (ix & Sx & Lx & Vx); [lia|].
    destruct (set_ok (e_iy g1) i (M (3 ^ i)%nat)) as (iy & Sy & Ly & Vy); [lia|].
    rewrite Sx, Sy. unfold done at 1 2. cbn [fbind].
    set (g2 := with_buffers g1 ix iy).
    assert (Lk2 : like g0 g2) by (apply like_buffers; assumption).
    assert (Fi2 : filled 3 M g2 (S i)).
    { intros j J. unfold g2. cbn. rewrite Vx, Vy. destruct (Nat.eqb_spec j i) as [->|Nj]; [split; reflexivity|].
      rewrite Ex, Ey. apply Fi. lia. }
    assert (Next : ends nan qags g0 3 M (scale_of big)
      (flet k := done (times (3 ^ Z.of_nat i) 3) in opened_loop nan qags steps big g2 (S i) k ((/ INR (3 ^ i)) ^ 2 / 9) (M (3 ^ i)%nat))).
    { rewrite (times_ok 3 i (e_steps g0)) by (assumption || lia). unfold done. cbn [fbind].
      replace ((/ INR (3 ^ i)) ^ 2 / 9) with ((/ INR (3 ^ S i)) ^ 2).
      - apply IH; [exact Lk2|lia|exact Fi2|]. right. cbn [Nat.sub]. rewrite Nat.sub_0_r. reflexivity.
      - rewrite <- (node_next 3 i) by lia. f_equal. cbn [Nat.pow Nat.mul Nat.add INR]. lra. }
    assert (Em2 : e_romberg g2 = e_romberg g0) by exact Em1.
    assert (Ep2 : e_precision g2 = e_precision g0) by exact Ep1.
    destruct (Nat.leb_spec (e_romberg g2) (S i)) as [Le|_]; [|exact Next].
    assert (Ft2 : fits g2) by (apply (like_fits g0); [exact Lk2|split; assumption]).
    destruct (window_value 3 M g2 i) as (v & e & E & V & W & Z); [lia|exact Ft2|exact Fi2|exact Le|unfold g2; cbn; lia|].
    rewrite E. unfold done at 1. cbn [fbind].
    assert (Q : forall err, (Rabs err < e_precision g0 -> Rabs e < e_precision g0 * Rabs (scale_of big v)) ->
      ends nan qags g0 3 M (scale_of big) (if Rabs err <? e_precision g2 then done (Ok (v, g2)) else
        flet k := done (times (3 ^ Z.of_nat i) 3) in opened_loop nan qags steps big g2 (S i) k ((/ INR (3 ^ i)) ^ 2 / 9) (M (3 ^ i)%nat))).
    { intros err Herr. rewrite Ep2. destruct (Rltb_spec (Rabs err) (e_precision g0)) as [Sm|_]; [|exact Next].
      exists g2. split; [exact Lk2|]. left. exists v. split; [reflexivity|].
      exists (i - (e_romberg g2 - 1))%nat. rewrite <- Em2. split; [lia|]. split; [exact V|].
      intro T2. destruct (W T2) as (j & w & J & Xw & ->). exists j, w. split; [exact J|]. split; [exact Xw|]. apply Herr. exact Sm. }
    destruct big as [bb|].
    + unfold quotient. destruct (Reqb_spec bb 0) as [|Nb]; [contradiction|]. unfold done at 1. cbn [fbind].
      apply Q. intro H. apply (small_error_big e bb); assumption.
    + unfold done at 1. cbn [fbind]. apply Q. apply small_error.
Qed.

(** ** A constant integrand *)
Definition constant (g : engine) : Prop := forall t, evaluate nan g t = Ok k.
Lemma pow3_pos i : (1 <= 3 ^ Z.of_nat i)%Z.
Proof. assert (0 < 3 ^ Z.of_nat i)%Z by (apply Z.pow_pos_nonneg; lia). lia. Qed.
Lemma constant_sum g i result : constant g -> e_min g <= e_max g -> (i = 0%nat \/ result = k * (e_max g - e_min g)) ->
  trapezoid3 nan g (3 ^ Z.of_nat i) result = Some (Ok (k * (e_max g - e_min g))).
Proof.
  intros C L Re. destruct (Req_dec (e_min g) (e_max g)) as [Q|Q].
  - unfold trapezoid3. rewrite Q, Rminus_eq_0. destruct (Z.eqb_spec (3 ^ Z.of_nat i) 1) as [One|One].
    + rewrite C. cbn. replace (0 * k) with (k * 0) by ring. reflexivity.
    + replace (0 / IZR (3 ^ Z.of_nat i)) with 0 by (unfold Rdiv; ring). cbn [trapezoid3_loop]. rewrite ltb_no by lra. rewrite fbind_Ok.
      destruct Re as [->|Re]; [exfalso; apply One; reflexivity|]. rewrite Re, Q, Rminus_eq_0. unfold done. replace (k * 0 / 3 + 0 * 0) with (k * 0) by field. reflexivity.
  - assert (Lt : e_min g < e_max g) by lra.
    assert (Gd : good (evaluate nan g) (fun _ => k) (e_min g) (e_max g)) by (intros t _; apply C).
    assert (Mid : forall n, (1 <= n)%nat -> midpoint_sum (fun _ => k) (e_min g) (e_max g) n = k * (e_max g - e_min g)).
    { intros n N. unfold midpoint_sum. assert (P : 0 < INR n) by (apply (lt_INR 0); lia).
      replace (sum_below n (fun _ => k)) with (INR n * k); [field; lra|].
      clear. induction n as [|n IH]; cbn [sum_below]; [cbn; ring|]. rewrite <- IH, S_INR. ring. }
    destruct i as [|i].
    + change (3 ^ Z.of_nat 0)%Z with 1%Z. rewrite (trapezoid3_first nan g (fun _ => k)) by assumption. rewrite Mid by lia. reflexivity.
    + destruct Re as [Re|Re]; [discriminate|].
      replace (3 ^ Z.of_nat (S i))%Z with (Z.of_nat (3 * 3 ^ i)).
      2:{ rewrite Nat2Z.inj_mul, Nat2Z.inj_pow, (Nat2Z.inj_succ i), Z.pow_succ_r by lia. reflexivity. }
      assert (1 <= 3 ^ i)%nat by (assert (3 ^ i <> 0)%nat by (apply Nat.pow_nonzero; lia); lia).
      rewrite Re. rewrite <- (Mid (3 ^ i)%nat) by assumption. rewrite (trapezoid3_triple nan g (fun _ => k)) by assumption.
      rewrite !Mid by lia. reflexivity.
Qed.
Lemma constant_locate precision step small sum x : 0 < precision -> 0 < step -> exists p, locate nan precision step small sum x k k = Ok p.
Proof.
  intros P S. unfold locate. unfold quotient at 1. rewrite eqb_no by lra. cbn [obind]. rewrite ltb_yes.
  - unfold quotient. rewrite eqb_no by lra. cbn [obind]. eexists. reflexivity.
  - replace ((k - k) / step) with 0 by (field; lra). rewrite Rmult_0_l, Rabs_R0.
    apply Rmult_lt_0_compat; [exact P|]. replace ((k - 5 * k) / 2 * ((k - 5 * k) / 2)) with (4 * Rsqr k) by (unfold Rsqr; field).
    pose proof (Rsqr_pos_lt k signed). lra.
Qed.
Lemma constant_loop g : constant g -> 0 < e_precision g -> forall wanted small fuel x max h sum found v, 0 < h ->
  trapezoid3_loop fuel (evaluate nan g) x max h sum = Some (Ok v) ->
  exists p, trapezoid3s_loop nan fuel (evaluate nan g) wanted (e_precision g) small x max h sum found = Some (Ok (v, p)).
Proof.
  intros C P wanted small. induction fuel as [|fuel IH]; intros x max h sum found v H; cbn [trapezoid3_loop trapezoid3s_loop]; [discriminate|].
  destruct (x <? max).
  - rewrite !C, !fbind_Ok. intro T. destruct found as [p|].
    + rewrite fbind_Ok. apply IH; assumption.
    + destruct (wanted && _).
      * destruct (constant_locate (e_precision g) h small (sum + k + k) (x + 2 * h) P H) as (p & ->). rewrite !fbind_Ok. apply IH; assumption.
      * rewrite fbind_Ok. apply IH; assumption.
  - intro T. apply done_inv in T. injection T as ->. eexists. reflexivity.
Qed.
Lemma constant_sampling g i result : constant g -> 0 < e_precision g -> e_min g < e_max g -> (i = 0%nat \/ result = k * (e_max g - e_min g)) ->
  exists g1, trapezoid3s nan g (3 ^ Z.of_nat i) result i = Some (Ok (k * (e_max g - e_min g), g1)) /\ exists x, g1 = with_x g x.
Proof.
  intros C P L Re. pose proof (constant_sum g i result C ltac:(lra) Re) as T. unfold trapezoid3 in T. unfold trapezoid3s.
  destruct (Z.eqb_spec (3 ^ Z.of_nat i) 1) as [One|One].
  - rewrite C in *. cbn in *. injection T as ->. eexists. split; [reflexivity|]. exists (e_random_x g). destruct g; reflexivity.
  - assert (H : 0 < (e_max g - e_min g) / IZR (3 ^ Z.of_nat i)).
    { apply Rdiv_lt_0_compat; [lra|]. apply IZR_lt. pose proof (pow3_pos i). lia. }
    cbv zeta in *. set (h := (e_max g - e_min g) / IZR (3 ^ Z.of_nat i)) in *.
    apply fbind_inv in T. destruct T as (sum & T & V). apply done_inv in V. injection V as V.
    set (wanted := Nat.leb (e_romberg g) (S i)).
    assert (Sm : exists small, (if wanted then if 0 <=? e_random g then quotient nan (e_random g * result) (15 / 10 * h)
                 else olet s := quotient nan (- e_random g) (15 / 10 * h) in Ok (if result <? 0 then s * -1 else s) else Ok 0) = Ok small).
    { destruct wanted; [|eexists; reflexivity]. unfold quotient. rewrite eqb_no by lra. destruct (0 <=? _); eexists; reflexivity. }
    destruct Sm as (small & Sm). rewrite Sm, fbind_Ok.
    destruct (constant_loop g C P wanted small _ _ _ _ _ None _ H T) as (p & ->). cbn [fbind]. rewrite V.
    eexists. split; [reflexivity|]. destruct wanted; [eexists; reflexivity|]. exists (e_random_x g). destruct g; reflexivity.
Qed.
Lemma constant_romberg_opened g big : roomy g -> constant g -> 0 < e_precision g -> e_min g <= e_max g ->
  (match big with Some b => b <> 0 | None => e_min g < e_max g end) ->
  exists g', like g g' /\ romberg_opened nan qags big g = Some (Ok (k * (e_max g - e_min g), g')).
Proof.
  intros (Ft & Ov) C P L B.
  assert (E : ends nan qags g 3 (fun _ => k * (e_max g - e_min g)) (scale_of big) (romberg_opened nan qags big g)).
  { unfold romberg_opened. replace 1 with ((/ INR (3 ^ 0)) ^ 2) by (cbn; lra).
    apply (opened_loop_sums g (fun _ => k * (e_max g - e_min g)) big Ft); [destruct big; [exact B|exact I]|exact Ov| |apply like_refl|reflexivity|intros j J; lia|left; reflexivity].
    intros i g1 result Lk Re. destruct (like_fields _ _ Lk) as (_ & _ & _ & _ & Pr & _ & _ & _ & Emin & Emax & _ & Ev).
    assert (C1 : constant g1) by (intro t; rewrite Ev; apply C). rewrite <- Emin, <- Emax in *. rewrite <- Pr in P.
    unfold step_sum. pose proof (constant_sum g1 i result C1 L Re) as T.
    destruct big as [b|].
    - exists g1. rewrite T. repeat split; assumption.
    - destruct ((e_random g1 =? 0) || (e_random g1 =? 1)).
      + eexists. split; [apply like_x; exact Lk|]. rewrite T. repeat split.
      + destruct (constant_sampling g1 i result C1 P B Re) as (g2 & S & x & ->). exists (with_x g1 x). split; [apply like_x; exact Lk|].
        split; [reflexivity|]. split; [reflexivity|exact S]. }
  destruct E as (g' & Lk & E). exists g'. split; [exact Lk|]. destruct E as [(v & -> & Cv)| ->].
  - pose proof (fits_romberg _ Ft) as Fr. rewrite (converged_exact 3 _ _ _ _ _ v 0 (k * (e_max g - e_min g)) ltac:(lia) Fr (expands_const _ _) Cv). reflexivity.
  - rewrite exact by (assumption || lra). reflexivity.
Qed.

(** ** The refinement *)
Variable target : R.
Record ready (g : engine) (x0 : R) : Prop := {
  ready_room : roomy g;
  ready_constant : constant g;
  ready_precision : 0 < e_precision g;
  ready_x : e_random_x g = x0
}.
Lemma ready_romberg g x0 result lo hi : ready g x0 -> lo <= hi -> result <> 0 ->
  exists g', romberg_opened nan qags (Some result) (with_range g lo hi) = Some (Ok (k * (hi - lo), g')) /\ ready g' x0 /\ e_precision g' = e_precision g.
Proof.
  intros [R C P X] L N.
  assert (Rr : roomy (with_range g lo hi)) by (destruct R as ([A B D E] & O); split; [split|]; assumption).
  assert (Cr : constant (with_range g lo hi)) by exact C.
  destruct (constant_romberg_opened (with_range g lo hi) (Some result) Rr Cr P L N) as (g' & Lk & E).
  cbn [e_max e_min with_range] in E. exists g'. split; [exact E|].
  destruct (romberg_opened_kept _ _ _ _ _ _ E) as (_ & K).
  destruct (like_fields _ _ Lk) as (F1 & F2 & F3 & F4 & F5 & F6 & F7 & F8 & F9 & F10 & F11 & F12). split; [|exact F5]. split.
  - split; [apply (like_fits _ _ Lk); exact (proj1 Rr)|]. rewrite F1. exact (proj2 R).
  - intro t. rewrite F12. apply C.
  - rewrite F5. exact P.
  - destruct K as [K|(_ & ->)]; [cbn [placed] in K; rewrite K; exact X|exact X].
Qed.
(** Once the position is the wanted one it is returned. *)
Lemma refine_found g x0 result value xlow xhi delta delta_old steps : ready g x0 -> exists g',
  refine_loop nan qags (S steps) g result value target 0 k xlow xhi delta delta_old = Some (Ok (target, g')).
Proof.
  intros [R C P X]. cbn [refine_loop]. rewrite ltb_no by lra.
  set (t1 := _ <? _). assert (T1 : t1 = false).
  { unfold t1. apply ltb_no. replace ((target - target) * k - 0) with 0 by ring. rewrite Rmult_0_l. lra. }
  rewrite T1. cbn [orb]. rewrite (ltb_no (Rabs (delta_old * k))).
  2:{ rewrite Rmult_0_r, Rabs_R0. apply Rabs_pos. }
  unfold quotient. rewrite eqb_no by exact signed. cbn [obind]. rewrite fbind_Ok.
  replace (target - 0 / k) with target by (field; exact signed).
  destruct (Reqb_spec target target) as [_|Y]; [|contradiction]. cbn [orb]. eexists. reflexivity.
Qed.
(** A Newton step finds it. *)
Lemma bracket x xlow xhi : k * (xlow - target) <= 0 <= k * (xhi - target) ->
  let '(l, h) := if k * (x - target) <? 0 then (x, xhi) else (xlow, x) in k * (l - target) <= 0 <= k * (h - target).
Proof. intro B. destruct (Rltb_spec (k * (x - target)) 0); lra. Qed.
Lemma no_escape x l h : k * (l - target) <= 0 <= k * (h - target) ->
  (0 <? ((x - h) * k - k * (x - target)) * ((x - l) * k - k * (x - target))) = false.
Proof.
  intro B. apply ltb_no. replace (((x - h) * k - k * (x - target)) * ((x - l) * k - k * (x - target)))
    with ((k * (h - target)) * (k * (l - target))) by ring. nra.
Qed.
Lemma newton_allowed d x : 2 * Rabs (x - target) <= Rabs d -> (Rabs (d * k) <? Rabs (2 * (k * (x - target)))) = false.
Proof.
  intro D. apply ltb_no. rewrite !Rabs_mult. rewrite (Rabs_right 2) by lra. pose proof (Rabs_pos k). nra.
Qed.
Lemma newton_refused d x : Rabs d < 2 * Rabs (x - target) -> (Rabs (d * k) <? Rabs (2 * (k * (x - target)))) = true.
Proof.
  intro D. apply ltb_yes. rewrite !Rabs_mult. rewrite (Rabs_right 2) by lra. pose proof (Rabs_pos_lt k signed). nra.
Qed.
Lemma moved x0 y : k * (x0 - target) + sign_of x0 y * (k * (Rmax x0 y - Rmin x0 y)) = k * (y - target).
Proof. unfold sign_of, Rmax, Rmin. destruct (Rltb_spec y x0), (Rle_dec x0 y); try lra; replace y with x0 by lra; ring. Qed.
Lemma refine_newton g x0 x result xlow xhi delta delta_old steps : ready g x0 -> result <> 0 ->
  k * (xlow - target) <= 0 <= k * (xhi - target) -> 2 * Rabs (x - target) <= Rabs delta_old -> exists g',
  refine_loop nan qags (S (S steps)) g result (k * (x0 - target)) x (k * (x - target)) k xlow xhi delta delta_old = Some (Ok (target, g')).
Proof.
  intros R N B D. remember (S steps) as m eqn:Em. cbn [refine_loop]. pose proof (bracket x xlow xhi B) as B'.
  destruct (if k * (x - target) <? 0 then _ else _) as (l & h). rewrite no_escape by exact B'. rewrite newton_allowed by exact D. cbn [orb].
  unfold quotient. rewrite eqb_no by exact signed. cbn [obind]. rewrite fbind_Ok.
  replace (x - k * (x - target) / k) with target by (field; exact signed).
  destruct ((x =? target) || _); [eexists; reflexivity|].
  destruct (ready_romberg g x0 result (Rmin (e_random_x g) target) (Rmax (e_random_x g) target) R) as (g2 & E2 & R2 & _);
    [unfold Rmin, Rmax; destruct (Rle_dec (e_random_x g) target); lra|exact N|].
  rewrite E2. cbn [fbind]. rewrite (ready_constant _ _ R2), fbind_Ok. rewrite (ready_x _ _ R2), (ready_x _ _ R), moved.
  replace (k * (target - target)) with 0 by ring. subst m. apply (refine_found g2 x0); assumption.
Qed.
Lemma refine_constant g x0 x result lo hi xlow xhi steps : ready g x0 -> result <> 0 -> lo <= target <= hi -> lo <= x <= hi ->
  ((xlow = lo /\ xhi = hi) \/ (xlow = hi /\ xhi = lo)) ->
  k * (xlow - target) <= 0 <= k * (xhi - target) -> exists g' y,
  refine_loop nan qags (S (S (S steps))) g result (k * (x0 - target)) x (k * (x - target)) k xlow xhi (hi - lo) (hi - lo) = Some (Ok (y, g')) /\
  Rabs (y - target) < e_precision g.
Proof.
  intros R N T X Bo B. pose proof (ready_precision _ _ R) as Pr.
  destruct (Rle_or_lt (2 * Rabs (x - target)) (Rabs (hi - lo))) as [D|D].
  - destruct (refine_newton g x0 x result xlow xhi (hi - lo) (hi - lo) (S steps) R N B D) as (g' & E). exists g', target.
    split; [exact E|]. rewrite Rminus_eq_0, Rabs_R0. exact Pr.
  - remember (S (S steps)) as m eqn:Em. cbn [refine_loop].
    pose proof (bracket x xlow xhi B) as B'.
    assert (W : Rabs (snd (if k * (x - target) <? 0 then (x, xhi) else (xlow, x)) - fst (if k * (x - target) <? 0 then (x, xhi) else (xlow, x))) <= hi - lo)
      by (destruct (k * (x - target) <? 0); cbn [fst snd]; apply Rabs_le; destruct Bo as [(-> & ->)|(-> & ->)]; lra).
    destruct (if k * (x - target) <? 0 then _ else _) as (l & h). cbn [fst snd] in W. rewrite no_escape by exact B'. rewrite newton_refused by exact D. cbn [orb].
    rewrite fbind_Ok. set (d := (h - l) / 2).
    assert (Hd : Rabs (l + d - target) <= Rabs d).
    { assert (Z : (l - target) * (h - target) <= 0).
      { pose proof (Rsqr_pos_lt k signed) as K2. unfold Rsqr in K2. assert ((k * (l - target)) * (k * (h - target)) <= 0) by nra. nra. }
      unfold d. unfold Rabs. destruct (Rcase_abs (l + (h - l) / 2 - target)), (Rcase_abs ((h - l) / 2)); nra. }
    destruct (Reqb_spec l (l + d)) as [Q|Q]; cbn [orb].
    + exists g, (l + d). split; [reflexivity|]. replace d with 0 in Hd at 2 by lra. rewrite Rabs_R0 in Hd. lra.
    + destruct (Rltb_spec (Rabs d) (e_precision g)) as [S|S].
      * exists g, (l + d). split; [reflexivity|lra].
      * destruct (ready_romberg g x0 result (Rmin (e_random_x g) (l + d)) (Rmax (e_random_x g) (l + d)) R) as (g2 & E2 & R2 & P2);
          [unfold Rmin, Rmax; destruct (Rle_dec (e_random_x g) (l + d)); lra|exact N|].
        rewrite E2. cbn [fbind]. rewrite (ready_constant _ _ R2), fbind_Ok. rewrite (ready_x _ _ R2), (ready_x _ _ R), moved. subst m.
        destruct (refine_newton g2 x0 (l + d) result l h d (hi - lo) steps R2 N B') as (g' & E).
        { assert (Rabs d = Rabs (h - l) / 2) by (unfold d, Rdiv; rewrite Rabs_mult, (Rabs_right (/ 2)) by lra; reflexivity).
          rewrite (Rabs_right (hi - lo)) by lra. lra. }
        exists g', target. split; [exact E|]. rewrite Rminus_eq_0, Rabs_R0. exact Pr.
Qed.
End Inverse.

(** What the refinement leaves alone *)
Definition kept_fields (g : engine) := (e_power g, e_log g, e_reverse g, e_reverse_x g).
Lemma refine_loop_kept nan qags : forall steps g result value x f df xlow xhi delta delta_old y g',
  refine_loop nan qags steps g result value x f df xlow xhi delta delta_old = Some (Ok (y, g')) -> kept_fields g' = kept_fields g.
Proof.
  induction steps as [|steps IH]; intros g result value x f df xlow xhi delta delta_old y g'; cbn [refine_loop].
  - intro H. apply done_inv in H. injection H as _ <-. reflexivity.
  - destruct (if f <? 0 then _ else _) as (xl & xh). intro H. apply fbind_inv in H. destruct H as (((x' & d') & stop) & _ & H).
    destruct (stop || _).
    + apply done_inv in H. injection H as _ <-. reflexivity.
    + apply fbind_inv in H. destruct H as ((w & g2) & R2 & H). apply fbind_inv in H. destruct H as (df' & _ & H).
      rewrite (IH _ _ _ _ _ _ _ _ _ _ _ _ H).
      destruct (romberg_opened_kept _ _ _ _ _ _ R2) as (K & _). unfold kept in K. cbn in K. injection K as K1 K2 K3 K4 _ _ _ _.
      unfold kept_fields. rewrite K1, K2, K3, K4. reflexivity.
Qed.

Section Proportional.
Variable nan : forall A, outcome A.
Variable qags : (R -> outcome R) -> R -> R -> outcome R.
Variable a : R.
Hypothesis positive : 0 < a.
Hypothesis exact : constants_exact (- a) qags.

Lemma loss_constant f g : (forall E, 0 < E -> f E = Ok (- a / E)) -> e_power g = 0 -> e_log g = true -> e_integrand g = Some f ->
  constant nan (- a) g.
Proof.
  intros F P L I t. unfold evaluate. rewrite P, L, I. destruct (Reqb_spec 0 0) as [_|X]; [|lra]. cbn [obind].
  rewrite F by apply exp_pos. cbn [obind]. rewrite Rmult_1_l. apply f_equal. field. apply Rgt_not_eq, exp_pos.
Qed.
Lemma settings_all g : settings g = new_settings ->
  roomy g /\ e_romberg g = 5%nat /\ e_steps g = 12%nat /\ e_refine_steps g = 40%nat /\ e_romberg_refine g = 2%nat /\ e_work g = 5%nat /\ e_precision g = / 10 ^ 5.
Proof.
  intro S. destruct (settings_fields g S) as (A & B & C). split; [exact A|]. split; [exact B|]. split; [exact C|].
  unfold new_settings, settings in S. injection S as S1 S2 S3 S4 S5 S6 S7 S8. repeat split; try assumption.
  rewrite S5. cbn. unfold IPREC2. rewrite leb_no by lra. reflexivity.
Qed.
Lemma proportional_place find f lower c E s : (forall E, 0 < E -> f E = Ok (- a / E)) -> later nan qags find (new_direct f lower) c ->
  0 < lower < E -> E - lower > E / 10 ^ 10 -> logs_apart E lower -> 0 <= s < a * (ln E - ln lower) ->
  exists x, gives (get_upper nan qags find c E s) x /\ 0 < x /\ Rabs (ln x - (ln E - s / a)) < / 10 ^ 5.
Proof.
  intros F La L Fa Ap S. destruct (later_direct _ _ _ _ _ _ La) as (g & -> & St).
  destruct (settings_all g St) as (Ro & Rm & Sts & Rs & Rr & Wk & Pr).
  pose proof (far_negligible E lower ltac:(lra) ltac:(lra) Fa) as N. pose proof (logs_negligible lower E L Ap) as N2.
  assert (Lln : ln lower < ln E) by (apply ln_increasing; lra).
  set (lo := ln lower) in *. set (hi := ln E) in *. set (w := hi - lo) in *. assert (W : 0 < w) by (unfold w; lra).
  cbn [get_upper]. unfold integrate_ratio. rewrite eqb_no by lra. cbn [andb]. rewrite !leb_no by lra. cbn [orb].
  unfold integrate_log_ratio. rewrite N. rewrite Rmin_right, Rmax_left by lra. unfold logarithm. rewrite !ltb_yes by lra.
  rewrite !fbind_Ok. cbv zeta. unfold sign_of. rewrite (ltb_yes lower E) by lra. rewrite (ltb_no 1 (- s)) by lra. fold lo hi.
  set (g1 := prepared g lo hi f 0 (e_random_do g) true (- s) true (lo + hi)).
  assert (Ro1 : roomy g1) by (apply roomy_prepared; exact Ro).
  assert (C1 : constant nan (- a) g1) by (apply (loss_constant f); [exact F|reflexivity..]).
  assert (P1 : 0 < e_precision g1) by (change (0 < e_precision g); rewrite Pr; lra).
  destruct (constant_romberg_opened nan qags (- a) ltac:(lra) exact g1 None Ro1 C1 P1) as (g2 & Lk & E2); [cbn; lra|cbn; lra|].
  change (e_max g1 - e_min g1) with w in E2. rewrite E2. cbn [fbind].
  destruct (romberg_opened_kept _ _ _ _ _ _ E2) as (K2 & Pl).
  destruct (like_fields _ _ Lk) as (F1 & F2 & F3 & F4 & F5 & F6 & F7 & F8 & F9 & F10 & F11 & F12).
  assert (Er : e_random g2 = - s) by (rewrite F11; reflexivity). rewrite Er.
  unfold kept in K2. injection K2 as Kp Kl Kr Kx Kd _ _ _.
  destruct (Req_dec s 0) as [->|Z].
  - (* the beginning of the range *)
    rewrite ltb_no by lra. rewrite fbind_Ok. replace (- (0)) with 0 in * by ring. cbn [done fbind].
    rewrite ltb_no by nra. unfold get_upper_limit. cbn [e_random_do sampled e_min e_max]. rewrite F9, F10.
    change (negligible (e_min g1) (e_max g1)) with (negligible lo hi). rewrite N2.
    unfold refine_upper_limit. cbn [e_random sampled]. destruct (Reqb_spec 0 0) as [_|X]; [|lra]. cbn [orb done fbind e_reverse e_reverse_x e_random_x sampled e_power e_log].
    rewrite Kr, Kx, Kp, Kl. cbn [e_reverse e_reverse_x e_power e_log g1 prepared]. rewrite (ltb_no 0 0) by lra. cbn [done fbind].
    destruct Pl as [Pl|(Q & _)]; [|change (e_steps g = 0%nat) in Q; rewrite Sts in Q; discriminate Q].
    destruct Pl as (Pl & _). rewrite Pl by (cbn; ring). cbn [e_min g1 prepared].
    exists (exp (lo + hi - lo)). split; [eexists; reflexivity|]. split; [apply exp_pos|]. rewrite ln_exp.
    replace (lo + hi - lo - (hi - 0 / a)) with 0 by (field; lra). rewrite Rabs_R0. lra.
  - assert (Sp : 0 < s < a * w) by (unfold w in *; lra). rewrite ltb_yes by lra.
    unfold quotient. rewrite eqb_no by nra. cbn [obind]. rewrite fbind_Ok.
    set (r := - s / (- -1 * (- a * w))).
    assert (Hr : r = s / (a * w)) by (unfold r; field; split; lra).
    assert (R01 : 0 < r < 1).
    { rewrite Hr. assert (0 < a * w) by nra. split; [apply Rdiv_lt_0_compat; lra|].
      apply (Rmult_lt_reg_r (a * w)); [lra|]. replace (s / (a * w) * (a * w)) with s by (field; split; lra). lra. }
    unfold clamp01. rewrite (ltb_no 1 r), (ltb_no r 0) by lra. cbn [done fbind]. rewrite ltb_no by lra.
    set (g3 := sampled g2 r (- a * w)).
    assert (U : exists g4 y, refine_upper_limit nan qags g3 (e_saved g3) = Some (Ok g4) /\ e_random_x g4 = y /\
      Rabs (y - (lo + r * w)) < / 10 ^ 5 /\ e_reverse g4 = true /\ e_reverse_x g4 = lo + hi /\ e_power g4 = 0 /\ e_log g4 = true).
    { unfold refine_upper_limit. change (e_random g3) with r. rewrite !eqb_no by lra. cbn [orb]. cbv zeta. change (e_saved g3) with (- a * w).
      rewrite (ltb_no 0 (- r * (- a * w) * ((1 - r) * (- a * w)))).
      2:{ replace (- r * (- a * w) * ((1 - r) * (- a * w))) with (- (r * (1 - r) * ((a * w) * (a * w)))) by ring.
          assert (0 < r * (1 - r)) by nra. assert (0 < (a * w) * (a * w)) by (assert (0 < a * w) by nra; nra). nra. }
      rewrite (ltb_yes 0 (- r * (- a * w))) by (replace (- r * (- a * w)) with (r * (a * w)) by ring; assert (0 < a * w) by nra; nra).
      set (g4 := if (_ <? _) || _ then _ else g3).
      assert (M3 : e_min g3 = lo) by exact F9. assert (X3 : e_max g3 = hi) by exact F10.
      assert (G4 : exists x, g4 = with_x g3 x /\ lo <= x <= hi).
      { unfold g4. rewrite M3, X3. destruct (Rltb_spec (e_random_x g3) lo) as [A|A]; [exists ((lo + hi) / 2); split; [reflexivity|lra]|].
        destruct (Rltb_spec hi (e_random_x g3)) as [B|B]; [exists ((lo + hi) / 2); split; [reflexivity|lra]|].
        exists (e_random_x g3). split; [destruct g3; reflexivity|lra]. }
      destruct G4 as (x & -> & Hx). cbn [e_min e_max e_random_x with_x e_romberg]. rewrite M3, X3.
      assert (Rdy : ready nan (- a) (with_x g3 x) x).
      { split.
        - destruct Ro1 as ([A B C D] & O). split; [split|].
          + change (1 <= e_romberg g2)%nat. rewrite F3. exact A.
          + change (e_romberg g2 <= e_work g2)%nat. rewrite F3, F6. exact B.
          + change (e_steps g2 <= length (e_ix g2))%nat. rewrite F1, F7. exact C.
          + change (e_steps g2 <= length (e_iy g2))%nat. rewrite F1, F8. exact D.
          + change (3 ^ Z.of_nat (e_steps g2) <= INT_MAX)%Z. rewrite F1. exact O.
        - intro t. change (evaluate nan g2 t = Ok (- a)). rewrite F12. apply C1.
        - change (0 < e_precision g2). rewrite F5. exact P1.
        - reflexivity. }
      assert (NZ : - a * w <> 0) by nra.
      destruct (ready_romberg nan qags (- a) ltac:(lra) exact (with_x g3 x) x (- a * w) lo x Rdy ltac:(lra) NZ) as (g5 & E5 & R5 & P5).
      rewrite E5. cbn [fbind].
      destruct (romberg_opened_kept _ _ _ _ _ _ E5) as (K5 & _). unfold kept in K5. cbn in K5. injection K5 as K5p K5l K5r K5x _ K5e _ _.
      assert (L5 : settings g5 = settings g).
      { rewrite (opened_settings _ _ _ _ _ _ E5). change (settings g2 = settings g). exact (like_settings _ _ Lk). }
      rewrite St in L5. destruct (settings_all g5 L5) as (Ro5 & Rm5 & St5 & Rs5 & Rr5 & Wk5 & Pr5).
      set (g6 := with_romberg g5 (e_romberg_refine g5)).
      assert (R6 : ready nan (- a) g6 x).
      { split; [|intro t; apply (ready_constant _ _ _ _ R5)|exact (ready_precision _ _ _ _ R5)|exact (ready_x _ _ _ _ R5)].
        destruct Ro5 as ([A B C D] & O). split; [split|].
        - change (1 <= e_romberg_refine g5)%nat. lia.
        - change (e_romberg_refine g5 <= e_work g5)%nat. lia.
        - exact C.
        - exact D.
        - exact O. }
      rewrite (ready_constant _ _ _ _ R6), fbind_Ok. change (e_refine_steps g6) with (e_refine_steps g5). rewrite Rs5.
      replace (e_random g5) with r by (symmetry; exact K5e).
      replace (- a * (x - lo) - r * (- a * w)) with (- a * (x - (lo + r * w))) by ring.
      assert (T : lo <= lo + r * w <= hi) by (split; [nra|unfold w; nra]).
      destruct (refine_constant nan qags (- a) ltac:(lra) exact (lo + r * w) g6 x x (- a * w) lo hi hi lo 37 R6 NZ T Hx) as (g7 & y & E7 & Y).
      { right. split; reflexivity. }
      { split; nra. }
      rewrite E7. cbn [fbind].
      assert (K7 : kept_fields g7 = kept_fields g6) by (exact (refine_loop_kept _ _ _ _ _ _ _ _ _ _ _ _ _ _ _ E7)).
      unfold kept_fields in K7. injection K7 as K7p K7l K7r K7x.
      eexists _, y. split; [reflexivity|]. split; [reflexivity|]. split; [change (e_precision g6) with (e_precision g5) in Y; rewrite Pr5 in Y; exact Y|].
      cbn [e_reverse e_reverse_x e_power e_log with_range with_romberg with_x]. rewrite K7r, K7x, K7p, K7l.
      cbn [g6 e_reverse e_reverse_x e_power e_log with_romberg]. rewrite K5r, K5x, K5p, K5l, Kr, Kx, Kp, Kl. repeat split. }
    destruct U as (g4 & y & U & Uy & Ub & Urev & Urx & Up & Ul).
    assert (N3 : negligible (e_min g3) (e_max g3) = false).
    { change (e_min g3) with (e_min g2). change (e_max g3) with (e_max g2). rewrite F9, F10. exact N2. }
    unfold get_upper_limit. change (e_random_do g3) with true. cbv iota. rewrite N3, U. cbn [fbind].
    rewrite Uy, Urev, Urx, Up, Ul. rewrite (ltb_no 0 0) by lra. cbn [done fbind].
    exists (exp (lo + hi - y)). split; [eexists; reflexivity|]. split; [apply exp_pos|]. rewrite ln_exp.
    replace (lo + hi - y - (hi - s / a)) with (- (y - (lo + r * w))) by (rewrite Hr; field; split; lra). rewrite Rabs_Ropp. exact Ub.
Qed.
End Proportional.

(** ** Grammages and sampled energies *)
Section Sampled.
Variable nan : forall A, outcome A.
Variable qags : (R -> outcome R) -> R -> R -> outcome R.
Variable find : (R -> R) -> R -> R -> R -> R -> option R.
Variable a : R.
Variable f : R -> outcome R.
Hypothesis positive : 0 < a.
Hypothesis exact : constants_exact (- a) qags.
Hypothesis loss : log_polynomial qags f [- a] (fun t => - a * t).

Lemma loss_values E : 0 < E -> f E = Ok (- a / E).
Proof. intro HE. rewrite (lp_function _ _ _ _ loss) by exact HE. unfold polynomial. cbn. apply f_equal. field. lra. Qed.
Lemma direct_inverse lower c E s : later nan qags find (new_direct f lower) c ->
  0 < lower < E -> E - lower > E / 10 ^ 10 -> logs_apart E lower -> 0 <= s < a * (ln E - ln lower) ->
  exists x, gives (get_upper nan qags find c E s) x /\ 0 < x /\ Rabs (ln x - (ln E - s / a)) < / 10 ^ 5.
Proof. intros. apply (proportional_place nan qags a positive exact find f lower c E s loss_values); assumption. Qed.
Lemma direct_back lower c c' E E' : later nan qags find (new_direct f lower) c -> later nan qags find (new_direct f lower) c' ->
  0 < lower < E' -> E' < E -> E - lower > E / 10 ^ 10 -> logs_apart E lower -> logs_apart E E' ->
  exists s x, gives (calculate nan qags c E E') s /\ gives (get_upper nan qags find c' E s) x /\ 0 < x /\ Rabs (ln x - ln E') < / 10 ^ 5.
Proof.
  intros La La' L L' Fa A A'. exists (a * (ln E - ln E')).
  pose proof (direct_value nan qags find f lower _ _ c E E' loss La ltac:(lra) A') as V. cbv beta in V.
  replace (- a * ln E' - - a * ln E) with (a * (ln E - ln E')) in V by ring.
  assert (ln lower < ln E') by (apply ln_increasing; lra). assert (ln E' < ln E) by (apply ln_increasing; lra).
  destruct (direct_inverse lower c' E (a * (ln E - ln E')) La' ltac:(lra) Fa A) as (x & U & P & B); [split; nra|].
  exists x. split; [exact V|]. split; [exact U|]. split; [exact P|].
  replace (ln E - a * (ln E - ln E') / a) with (ln E') in B by (field; lra). exact B.
Qed.
Lemma direct_sample lower c E rnd : later nan qags find (new_direct f lower) c ->
  0 < lower < E -> E - lower > E / 10 ^ 10 -> logs_apart E lower -> 0 < rnd <= 1 ->
  exists x, gives (energy_interaction nan qags find c E rnd) x /\ 0 < x /\ Rabs (ln x - Rmax (ln lower) (ln E + ln rnd / a)) < / 10 ^ 5.
Proof.
  intros La L Fa A Rn.
  pose proof (direct_value nan qags find f lower _ _ c E lower loss La ltac:(lra) A) as (c1 & V). cbv beta in V.
  assert (La1 : later nan qags find (new_direct f lower) c1) by (eapply later_calculate; [exact La|exact V]).
  destruct (later_direct _ _ _ _ _ _ La) as (g & -> & St). destruct (later_direct _ _ _ _ _ _ La1) as (g1 & E1 & _). subst c1.
  unfold energy_interaction, minus_log. rewrite ltb_no by lra. rewrite eqb_no by lra. rewrite fbind_Ok. cbn [lower_of]. rewrite V. cbn [fbind].
  replace (- a * ln lower - - a * ln E) with (a * (ln E - ln lower)) by ring.
  assert (ln rnd <= 0). { rewrite <- ln_1. destruct Rn as [? [?| ->]]; [left; apply ln_increasing; lra|right; reflexivity]. }
  assert (Q : a * (ln rnd / a) = ln rnd) by (field; lra).
  destruct (Rleb_spec (a * (ln E - ln lower)) (- ln rnd)) as [Le|Gt].
  - exists lower. split; [eexists; reflexivity|]. split; [lra|]. rewrite Rmax_left by nra. rewrite Rminus_eq_0, Rabs_R0. lra.
  - apply Rnot_le_lt in Gt. destruct (direct_inverse lower (Direct f lower g1) E (- ln rnd) La1 L Fa A ltac:(lra)) as (x & U & P & B).
    exists x. split; [exact U|]. split; [exact P|]. rewrite Rmax_right by nra.
    replace (ln E + ln rnd / a) with (ln E - - ln rnd / a) by (field; lra). exact B.
Qed.
(** An electron just above its rest mass: the integral to the limit is found, but
    not the energy of the interaction. *)
Lemma near_sample_refuted c : later nan qags find (new_direct f (5109989461 / 10 ^ 10)) c ->
  exists E rnd, 5109989461 / 10 ^ 10 < E /\ 0 < rnd < 1 /\ energy_interaction nan qags find c E rnd = Some (Throw logic_error).
Proof.
  intro La. set (m := 5109989461 / 10 ^ 10) in *. assert (M : m = 5109989461 / 10 ^ 10) by reflexivity.
  set (d := 99999 / 10 ^ 15). assert (D : d = 99999 / 10 ^ 15) by reflexivity.
  assert (P : 0 < m < m * (1 + d)) by (rewrite M, D; lra).
  assert (Le : forall x, 0 < x -> 1 - / x <= ln x).
  { intros x X. pose proof (exp_ineq1_le (ln (/ x))) as H. rewrite exp_ln in H by (apply Rinv_0_lt_compat; exact X). rewrite ln_Rinv in H by exact X. lra. }
  assert (Lm : - (958 / 1000) <= ln m <= 0).
  { split; [|rewrite <- ln_1; left; apply ln_increasing; rewrite M; lra]. pose proof (Le m ltac:(lra)) as H. rewrite M in H at 1. lra. }
  assert (Ld : 9999 / 10 ^ 14 <= ln (1 + d)).
  { pose proof (Le (1 + d) ltac:(rewrite D; lra)) as H. rewrite D in H at 1. lra. }
  assert (Lp : ln (m * (1 + d)) = ln m + ln (1 + d)) by (apply ln_mult; lra).
  assert (A : logs_apart (m * (1 + d)) m).
  { unfold logs_apart. rewrite Rmin_right by lra. rewrite Lp. rewrite Rabs_left by lra. rewrite Rabs_left1 by lra. lra. }
  assert (N : negligible (m * (1 + d)) m = true).
  { unfold negligible, COMPUTER_PRECISION. destruct (Rleb_spec (Rabs (m - m * (1 + d))) (Rabs (m * (1 + d)) * / 10 ^ 10)) as [H|H]; [reflexivity|exfalso; apply H; clear H]. rewrite Rabs_left by lra. rewrite Rabs_right by lra. rewrite M, D. lra. }
  clearbody m d.
  exists (m * (1 + d)), (exp (- (a * ln (1 + d) / 2))).
  assert (S : 0 < a * ln (1 + d) / 2) by (apply Rdiv_lt_0_compat; [apply Rmult_lt_0_compat|]; lra).
  split; [lra|]. split; [split; [apply exp_pos|rewrite <- exp_0 at 2; apply exp_increasing; lra]|].
  pose proof (direct_value nan qags find f m _ _ c (m * (1 + d)) m loss La ltac:(lra) A) as (c1 & V). cbv beta in V.
  assert (La1 : later nan qags find (new_direct f m) c1) by (eapply later_calculate; [exact La|exact V]).
  destruct (later_direct _ _ _ _ _ _ La) as (g & -> & St). destruct (later_direct _ _ _ _ _ _ La1) as (g1 & E1 & _). subst c1.
  unfold energy_interaction, minus_log. pose proof (exp_pos (- (a * ln (1 + d) / 2))). rewrite ltb_no by lra. rewrite eqb_no by lra. rewrite fbind_Ok.
  cbn [lower_of]. rewrite V. cbn [fbind]. rewrite ln_exp. rewrite leb_no.
  - apply near_throws; [exact N|lra|lra].
  - rewrite Lp. replace (- a * ln m - - a * (ln m + ln (1 + d))) with (a * ln (1 + d)) by ring. lra.
Qed.
End Sampled.
