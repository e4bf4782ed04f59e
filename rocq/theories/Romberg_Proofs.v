(** Romberg's method: the buffers hold the sums, the value is their extrapolation. *)
From Verif Require Import Prelude PreludeFacts Function_Model Integral_Model Function_Spec Integral_Spec Function_Proofs
  Trapezoid_Proofs Neville_Proofs.

(** The same object up to the buffers and the place found *)
Definition like (g0 g : engine) : Prop := exists ix iy x, g = with_x (with_buffers g0 ix iy) x /\
  length ix = length (e_ix g0) /\ length iy = length (e_iy g0).
Lemma like_refl g : like g g.
Proof. exists (e_ix g), (e_iy g), (e_random_x g). destruct g. repeat split. Qed.
Lemma like_x g0 g x : like g0 g -> like g0 (with_x g x).
Proof. intros (ix & iy & y & -> & A & B). exists ix, iy, x. repeat split; assumption. Qed.
Lemma like_buffers g0 g ix iy : like g0 g -> length ix = length (e_ix g) -> length iy = length (e_iy g) -> like g0 (with_buffers g ix iy).
Proof. intros (ix' & iy' & y & -> & A & B) C D. cbn in C, D. exists ix, iy, y. repeat split; congruence. Qed.
Lemma like_trans g0 g1 g2 : like g0 g1 -> like g1 g2 -> like g0 g2.
Proof. intros (ix & iy & x & -> & A & B) (ix' & iy' & x' & -> & C & D). exists ix', iy', x'. cbn in *. repeat split; congruence. Qed.
Lemma like_fields g0 g : like g0 g ->
  e_steps g = e_steps g0 /\ e_refine_steps g = e_refine_steps g0 /\ e_romberg g = e_romberg g0 /\ e_romberg_refine g = e_romberg_refine g0 /\
  e_precision g = e_precision g0 /\ e_work g = e_work g0 /\ length (e_ix g) = length (e_ix g0) /\ length (e_iy g) = length (e_iy g0) /\
  e_min g = e_min g0 /\ e_max g = e_max g0 /\ e_random g = e_random g0 /\ (forall nan, evaluate nan g = evaluate nan g0).
Proof. intros (ix & iy & x & -> & A & B). cbn. repeat split; assumption. Qed.

Lemma like_fits g0 g : like g0 g -> fits g0 -> fits g.
Proof. intros H [A B C D]. destruct (like_fields _ _ H) as (E1 & _ & E2 & _ & _ & E3 & E4 & E5 & _). split; congruence. Qed.

Definition filled (q : nat) (sum : nat -> R) (g : engine) (i : nat) : Prop :=
  forall j, (j < i)%nat -> nth j (e_ix g) 0 = (/ INR (q ^ j)) ^ 2 /\ nth j (e_iy g) 0 = sum (q ^ j)%nat.

Lemma pow_pos_INR q j : (2 <= q)%nat -> 0 < INR (q ^ j).
Proof. intro Q. apply (lt_INR 0). assert (q ^ j <> 0)%nat by (apply Nat.pow_nonzero; lia). lia. Qed.
Lemma nodes_distinct q i j : (2 <= q)%nat -> (i < j)%nat -> (/ INR (q ^ i)) ^ 2 <> (/ INR (q ^ j)) ^ 2.
Proof.
  intros Q L. assert (A : INR (q ^ i) < INR (q ^ j)) by (apply lt_INR, Nat.pow_lt_mono_r; lia).
  pose proof (pow_pos_INR q i Q). pose proof (pow_pos_INR q j Q). apply Rgt_not_eq. apply Rinv_lt_contravar in A; [|nra].
  assert (0 < / INR (q ^ j)) by (apply Rinv_0_lt_compat; lra). nra.
Qed.

(** The points of a window *)
Lemma window q sum g start i j m : filled q sum g i -> (start + j + m <= i)%nat ->
  map (fun k => (nth (start + k) (e_ix g) 0, nth (start + k) (e_iy g) 0)) (seq j m) = romberg_points q sum (start + j) m.
Proof.
  intros F L. unfold romberg_points. revert j L. induction m as [|m IH]; intros j L; [reflexivity|]. cbn [seq map].
  destruct (F (start + j)%nat) as (-> & ->); [lia|]. rewrite IH by lia. replace (start + S j)%nat with (S (start + j)) by lia. reflexivity.
Qed.
Lemma window_value q sum g i : (2 <= q)%nat -> fits g -> filled q sum g (S i) -> (e_romberg g <= S i)%nat -> (S i <= e_steps g)%nat ->
  let first := (i - (e_romberg g - 1))%nat in
  exists v e, interpolate g first 0 = Ok (v, e) /\ extrapolates (romberg_points q sum first (e_romberg g)) 0 v /\
  ((2 <= e_romberg g)%nat -> exists j w, (j <= 1)%nat /\ extrapolates (romberg_points q sum (first + j) (e_romberg g - 1)) 0 w /\ e = v - w) /\
  ((e_romberg g < 2)%nat -> e = 0).
Proof.
  intros Q [A B C D] F M S first.
  destruct (interpolate_extrapolates g first 0) as (v & e & E & V & W & Z); [unfold first; lia..| |].
  - intros a b H. destruct (F (first + a)%nat) as (-> & _); [unfold first; lia|].
    destruct (F (first + b)%nat) as (-> & _); [unfold first; lia|]. apply nodes_distinct; lia.
  - rewrite (window q sum g first (Datatypes.S i) 0) in V by (assumption || (unfold first; lia)). rewrite Nat.add_0_r in V.
    exists v, e. split; [exact E|]. split; [exact V|]. split; [|exact Z].
    intro T. destruct (W T) as (j & w & J & X & ->). exists j, w. split; [exact J|]. split; [|reflexivity].
    rewrite (window q sum g first (Datatypes.S i) j) in X by (assumption || (unfold first; lia)). exact X.
Qed.

Lemma small_error e v p : Rabs (if v =? 0 then e else e / v) < p -> Rabs e < p * Rabs (own_scale v).
Proof.
  unfold own_scale. destruct (Reqb_spec v 0) as [->|N].
  - destruct (Req_EM_T 0 0); [|lra]. rewrite Rabs_R1. lra.
  - destruct (Req_EM_T v 0); [contradiction|]. unfold Rdiv. rewrite Rabs_mult, Rabs_inv.
    assert (P : 0 < Rabs v) by (apply Rabs_pos_lt; exact N). intro H.
    apply (Rmult_lt_compat_r (Rabs v)) in H; [|exact P]. rewrite Rmult_assoc, Rinv_l, Rmult_1_r in H by lra. exact H.
Qed.
Lemma small_error_big e b p : b <> 0 -> Rabs (e / b) < p -> Rabs e < p * Rabs b.
Proof.
  intros N H. unfold Rdiv in H. rewrite Rabs_mult, Rabs_inv in H.
  assert (P : 0 < Rabs b) by (apply Rabs_pos_lt; exact N).
  apply (Rmult_lt_compat_r (Rabs b)) in H; [|exact P]. rewrite Rmult_assoc, Rinv_l, Rmult_1_r in H by lra. exact H.
Qed.

Lemma times_ok q i steps : (2 <= q)%Z -> (q ^ Z.of_nat steps <= INT_MAX)%Z -> (S i <= steps)%nat ->
  times (q ^ Z.of_nat i) q = Ok (q ^ Z.of_nat (S i))%Z.
Proof.
  intros Q M L. unfold times.
  assert (E : (q ^ Z.of_nat i * q = q ^ Z.of_nat (S i))%Z) by (rewrite Nat2Z.inj_succ, Z.pow_succ_r by lia; ring).
  rewrite E. destruct (Z.ltb_spec INT_MAX (q ^ Z.of_nat (S i))) as [X|]; [|reflexivity].
  assert (q ^ Z.of_nat (S i) <= q ^ Z.of_nat steps)%Z by (apply Z.pow_le_mono_r; lia). lia.
Qed.
Lemma node_next q i : (2 <= q)%nat -> (/ INR (q ^ i)) ^ 2 / INR (q ^ 2) = (/ INR (q ^ S i)) ^ 2.
Proof.
  intro Q. pose proof (pow_pos_INR q i Q). pose proof (pow_pos_INR q 1 Q).
  replace (q ^ S i)%nat with (q ^ 1 * q ^ i)%nat by (rewrite <- Nat.pow_add_r; reflexivity).
  replace (q ^ 2)%nat with (q ^ 1 * q ^ 1)%nat by (rewrite <- Nat.pow_add_r; reflexivity). rewrite !mult_INR. field. split; lra.
Qed.

Section Romberg.
Variable nan : forall A, outcome A.
Variable qags : (R -> outcome R) -> R -> R -> outcome R.

(** The two ways in which a Romberg loop ends, without an exception of the integrand *)
Definition ends (g0 : engine) (q : nat) (sum : nat -> R) (scale : R -> R) (r : run (R * engine)) : Prop :=
  exists g', like g0 g' /\
  ((exists v, r = Some (Ok (v, g')) /\ converged q sum (e_steps g0) (e_romberg g0) (e_precision g0) scale v) \/
   r = Some (olet v := qags (evaluate nan g0) (e_min g0) (e_max g0) in Ok (v, g'))).

Definition plain (g : engine) (big : option R) : Prop :=
  match big with Some b => b <> 0 | None => e_random g = 0 \/ e_random g = 1 end.
Definition scale_of (big : option R) : R -> R := match big with Some b => fun _ => b | None => own_scale end.

Lemma opened_loop_ends g0 F big : fits g0 -> e_min g0 < e_max g0 -> good (evaluate nan g0) F (e_min g0) (e_max g0) ->
  plain g0 big -> (3 ^ Z.of_nat (e_steps g0) <= INT_MAX)%Z ->
  forall steps i g result, like g0 g -> (i + steps = e_steps g0)%nat -> filled 3 (midpoint_sum F (e_min g0) (e_max g0)) g i ->
  (i = 0%nat \/ result = midpoint_sum F (e_min g0) (e_max g0) (3 ^ (i - 1))) ->
  ends g0 3 (midpoint_sum F (e_min g0) (e_max g0)) (scale_of big)
    (opened_loop nan qags steps big g i (3 ^ Z.of_nat i) ((/ INR (3 ^ i)) ^ 2) result).
Proof.
  intros Ft Lt Gd Pl Ov. set (M := midpoint_sum F (e_min g0) (e_max g0)).
  induction steps as [|steps IH]; intros i g result Lk St Fi Re; cbn [opened_loop].
  - exists g. split; [exact Lk|]. right. destruct (like_fields _ _ Lk) as (_ & _ & _ & _ & _ & _ & _ & _ & -> & -> & _ & ->). reflexivity.
  - destruct (like_fields _ _ Lk) as (_ & _ & _ & _ & _ & _ & _ & _ & Emin & Emax & Eran & Eev).
    (* the new sum *)
    assert (T : trapezoid3 nan g (3 ^ Z.of_nat i) result = Some (Ok (M (3 ^ i)%nat))).
    { assert (Gd' : good (evaluate nan g) F (e_min g) (e_max g)) by (rewrite Eev, Emin, Emax; exact Gd).
      destruct i as [|i].
      - change (3 ^ Z.of_nat 0)%Z with 1%Z. rewrite (trapezoid3_first nan g F); [|exact Gd'|rewrite Emin, Emax; exact Lt].
        rewrite Emin, Emax. reflexivity.
      - destruct Re as [Re|Re]; [discriminate|]. cbn [Nat.sub] in Re. rewrite Nat.sub_0_r in Re. rewrite Re.
        replace (3 ^ Z.of_nat (S i))%Z with (Z.of_nat (3 * 3 ^ i)).
        2:{ rewrite Nat2Z.inj_mul, Nat2Z.inj_pow, (Nat2Z.inj_succ i), Z.pow_succ_r by lia. reflexivity. }
        unfold M. rewrite <- Emin, <- Emax. rewrite (trapezoid3_triple nan g F); [reflexivity|exact Gd'|rewrite Emin, Emax; exact Lt|].
        assert (3 ^ i <> 0)%nat by (apply Nat.pow_nonzero; lia). lia. }
    assert (X : exists g1, like g0 g1 /\ e_ix g1 = e_ix g /\ e_iy g1 = e_iy g /\
      (match big with
       | Some _ => flet r := trapezoid3 nan g (3 ^ Z.of_nat i) result in done (Ok (r, g))
       | None =>
         if (e_random g =? 0) || (e_random g =? 1)
         then flet r := trapezoid3 nan g (3 ^ Z.of_nat i) result in
              done (Ok (r, with_x g (if e_random g =? 0 then e_min g else e_max g)))
         else trapezoid3s nan g (3 ^ Z.of_nat i) result i
       end) = Some (Ok (M (3 ^ i)%nat, g1))).
    { destruct big as [bb|].
      - exists g. rewrite T. repeat split; assumption.
      - cbn in Pl. rewrite Eran. destruct (Reqb_spec (e_random g0) 0) as [Z|Z].
        + eexists. split; [apply like_x; exact Lk|]. rewrite T. repeat split.
        + destruct (Reqb_spec (e_random g0) 1) as [W|W]; [|destruct Pl; contradiction].
          eexists. split; [apply like_x; exact Lk|]. rewrite T. repeat split. }
    destruct X as (g1 & Lk1 & Ex & Ey & ->). cbn [fbind].
    destruct (like_fields _ _ Lk1) as (Es1 & _ & Em1 & _ & Ep1 & Ew1 & Lx1 & Ly1 & _).
    destruct Ft as [F1 F2 F3 F4].
    destruct (set_ok (e_ix g1) i ((/ INR (3 ^ i)) ^ 2)) as (ix & Sx & Lx & Vx); [lia|].
    destruct (set_ok (e_iy g1) i (M (3 ^ i)%nat)) as (iy & Sy & Ly & Vy); [lia|].
    rewrite Sx, Sy. unfold done at 1 2. cbn [fbind].
    set (g2 := with_buffers g1 ix iy).
    assert (Lk2 : like g0 g2) by (apply like_buffers; assumption).
    assert (Fi2 : filled 3 M g2 (S i)).
    { intros j J. unfold g2. cbn. rewrite Vx, Vy. destruct (Nat.eqb_spec j i) as [->|Nj]; [split; reflexivity|].
      rewrite Ex, Ey. apply Fi. lia. }
    assert (Next : ends g0 3 M (scale_of big)
      (flet k := done (times (3 ^ Z.of_nat i) 3) in opened_loop nan qags steps big g2 (S i) k ((/ INR (3 ^ i)) ^ 2 / 9) (M (3 ^ i)%nat))).
    { rewrite (times_ok 3 i (e_steps g0)) by (assumption || lia). unfold done. cbn [fbind].
      replace ((/ INR (3 ^ i)) ^ 2 / 9) with ((/ INR (3 ^ S i)) ^ 2).
      - apply IH; [exact Lk2|lia|exact Fi2|]. right. cbn [Nat.sub]. rewrite Nat.sub_0_r. reflexivity.
      - rewrite <- (node_next 3 i) by lia. f_equal. cbn [Nat.pow Nat.mul Nat.add INR]. lra. }
    assert (Em2 : e_romberg g2 = e_romberg g0) by exact Em1.
    assert (Ep2 : e_precision g2 = e_precision g0) by exact Ep1.
    destruct (Nat.leb_spec (e_romberg g2) (S i)) as [Le|_]; [|exact Next].
    assert (Ft2 : fits g2) by (apply (like_fits g0); [exact Lk2|split; assumption]).
    destruct (window_value 3 M g2 i) as (v & e & E & V & W & Z); [lia|exact Ft2|exact Fi2|exact Le|unfold g2; cbn; lia|].
    rewrite E. unfold done at 1. cbn [fbind].
    assert (Q : forall err, (Rabs err < e_precision g0 -> Rabs e < e_precision g0 * Rabs (scale_of big v)) ->
      ends g0 3 M (scale_of big) (if Rabs err <? e_precision g2 then done (Ok (v, g2)) else
        flet k := done (times (3 ^ Z.of_nat i) 3) in opened_loop nan qags steps big g2 (S i) k ((/ INR (3 ^ i)) ^ 2 / 9) (M (3 ^ i)%nat))).
    { intros err Herr. rewrite Ep2. destruct (Rltb_spec (Rabs err) (e_precision g0)) as [Sm|_]; [|exact Next].
      exists g2. split; [exact Lk2|]. left. exists v. split; [reflexivity|].
      exists (i - (e_romberg g2 - 1))%nat. rewrite <- Em2. split; [lia|]. split; [exact V|].
      intro T2. destruct (W T2) as (j & w & J & Xw & ->). exists j, w. split; [exact J|]. split; [exact Xw|]. apply Herr. exact Sm. }
    destruct big as [bb|].
    + cbn in Pl. unfold quotient. destruct (Reqb_spec bb 0) as [|Nb]; [contradiction|]. unfold done at 1. cbn [fbind].
      apply Q. intro H. apply (small_error_big e bb); assumption.
    + unfold done at 1. cbn [fbind]. apply Q. apply small_error.
Qed.
Lemma romberg_opened_ends g F big : fits g -> e_min g < e_max g -> good (evaluate nan g) F (e_min g) (e_max g) ->
  plain g big -> (3 ^ Z.of_nat (e_steps g) <= INT_MAX)%Z ->
  ends g 3 (midpoint_sum F (e_min g) (e_max g)) (scale_of big) (romberg_opened nan qags big g).
Proof.
  intros A B C D E. unfold romberg_opened.
  replace 1 with ((/ INR (3 ^ 0)) ^ 2) by (cbn; lra). apply (opened_loop_ends g F big A B C D E (e_steps g) 0%nat g 0).
  - apply like_refl.
  - reflexivity.
  - intros j J; lia.
  - left; reflexivity.
Qed.

Lemma closed_loop_ends g0 F : fits g0 -> e_min g0 < e_max g0 -> good (evaluate nan g0) F (e_min g0) (e_max g0) ->
  evaluate nan g0 (e_min g0) = Ok (F (e_min g0)) -> evaluate nan g0 (e_max g0) = Ok (F (e_max g0)) ->
  (2 ^ Z.of_nat (e_steps g0) <= INT_MAX)%Z ->
  forall steps i g result, like g0 g -> (i + steps = e_steps g0)%nat -> filled 2 (trapezoid_sum F (e_min g0) (e_max g0)) g i ->
  (i = 0%nat \/ result = trapezoid_sum F (e_min g0) (e_max g0) (2 ^ (i - 1))) ->
  ends g0 2 (trapezoid_sum F (e_min g0) (e_max g0)) own_scale
    (closed_loop nan qags steps g i (2 ^ Z.of_nat i) ((/ INR (2 ^ i)) ^ 2) result).
Proof.
  intros Ft Lt Gd Lo Hi Ov. set (M := trapezoid_sum F (e_min g0) (e_max g0)).
  induction steps as [|steps IH]; intros i g result Lk St Fi Re; cbn [closed_loop].
  - exists g. split; [exact Lk|]. right. destruct (like_fields _ _ Lk) as (_ & _ & _ & _ & _ & _ & _ & _ & -> & -> & _ & ->). reflexivity.
  - destruct (like_fields _ _ Lk) as (Es1 & _ & Em1 & _ & Ep1 & Ew1 & Lx1 & Ly1 & Emin & Emax & Eran & Eev).
    (* the new sum *)
    assert (T : trapezoid nan g (2 ^ Z.of_nat i) result = Some (Ok (M (2 ^ i)%nat))).
    { assert (Gd' : good (evaluate nan g) F (e_min g) (e_max g)) by (rewrite Eev, Emin, Emax; exact Gd).
      destruct i as [|i].
      - change (2 ^ Z.of_nat 0)%Z with 1%Z. rewrite (trapezoid_first nan g F).
        + rewrite Emin, Emax. reflexivity.
        + rewrite Eev, Emin. exact Lo.
        + rewrite Eev, Emax. exact Hi.
      - destruct Re as [Re|Re]; [discriminate|]. cbn [Nat.sub] in Re. rewrite Nat.sub_0_r in Re. rewrite Re.
        replace (2 ^ Z.of_nat (S i))%Z with (Z.of_nat (2 * 2 ^ i)).
        2:{ rewrite Nat2Z.inj_mul, Nat2Z.inj_pow, (Nat2Z.inj_succ i), Z.pow_succ_r by lia. reflexivity. }
        unfold M. rewrite <- Emin, <- Emax. rewrite (trapezoid_double nan g F); [reflexivity|exact Gd'|rewrite Emin, Emax; exact Lt|].
        assert (2 ^ i <> 0)%nat by (apply Nat.pow_nonzero; lia). lia. }
    rewrite T. cbn [fbind].
    destruct Ft as [F1 F2 F3 F4].
    destruct (set_ok (e_ix g) i ((/ INR (2 ^ i)) ^ 2)) as (ix & Sx & Lx & Vx); [lia|].
    destruct (set_ok (e_iy g) i (M (2 ^ i)%nat)) as (iy & Sy & Ly & Vy); [lia|].
    rewrite Sx, Sy. unfold done at 1 2. cbn [fbind].
    set (g2 := with_buffers g ix iy).
    assert (Lk2 : like g0 g2) by (apply like_buffers; assumption).
    assert (Fi2 : filled 2 M g2 (S i)).
    { intros j J. unfold g2. cbn. rewrite Vx, Vy. destruct (Nat.eqb_spec j i) as [->|Nj]; [split; reflexivity|].
      apply Fi. lia. }
    assert (Next : ends g0 2 M own_scale
      (flet k := done (times (2 ^ Z.of_nat i) 2) in closed_loop nan qags steps g2 (S i) k ((/ INR (2 ^ i)) ^ 2 / 4) (M (2 ^ i)%nat))).
    { rewrite (times_ok 2 i (e_steps g0)) by (assumption || lia). unfold done. cbn [fbind].
      replace ((/ INR (2 ^ i)) ^ 2 / 4) with ((/ INR (2 ^ S i)) ^ 2).
      - apply IH; [exact Lk2|lia|exact Fi2|]. right. cbn [Nat.sub]. rewrite Nat.sub_0_r. reflexivity.
      - rewrite <- (node_next 2 i) by lia. f_equal. cbn [Nat.pow Nat.mul Nat.add INR]. lra. }
    assert (Em2 : e_romberg g2 = e_romberg g0) by exact Em1.
    assert (Ep2 : e_precision g2 = e_precision g0) by exact Ep1.
    destruct (Nat.leb_spec (e_romberg g2) (S i)) as [Le|_]; [|exact Next].
    assert (Ft2 : fits g2) by (apply (like_fits g0); [exact Lk2|split; assumption]).
    destruct (window_value 2 M g2 i) as (v & e & E & V & W & Z); [lia|exact Ft2|exact Fi2|exact Le|unfold g2; cbn; lia|].
    rewrite E. unfold done at 1. cbn [fbind]. cbv zeta. rewrite Ep2.
    destruct (Rltb_spec (Rabs (if v =? 0 then e else e / v)) (e_precision g0)) as [Sm|_]; [|exact Next].
    exists g2. split; [exact Lk2|]. left. exists v. split; [reflexivity|].
    exists (i - (e_romberg g2 - 1))%nat. rewrite <- Em2. split; [lia|]. split; [exact V|].
    intro T2. destruct (W T2) as (j & w & J & Xw & ->). exists j, w. split; [exact J|]. split; [exact Xw|]. apply small_error. exact Sm.
Qed.
Lemma romberg_closed_ends g F : fits g -> e_min g < e_max g -> good (evaluate nan g) F (e_min g) (e_max g) ->
  evaluate nan g (e_min g) = Ok (F (e_min g)) -> evaluate nan g (e_max g) = Ok (F (e_max g)) ->
  (2 ^ Z.of_nat (e_steps g) <= INT_MAX)%Z ->
  ends g 2 (trapezoid_sum F (e_min g) (e_max g)) own_scale (romberg_closed nan qags g).
Proof.
  intros A B C D E I. unfold romberg_closed.
  replace 1 with ((/ INR (2 ^ 0)) ^ 2) by (cbn; lra). apply (closed_loop_ends g F A B C D E I (e_steps g) 0%nat g 0).
  - apply like_refl.
  - reflexivity.
  - intros j J; lia.
  - left; reflexivity.
Qed.
End Romberg.
