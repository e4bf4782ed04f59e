(** The place that an integration leaves for a given value lies in the range, if the
    integrand is not negative. *)
From Verif Require Import Prelude PreludeFacts Function_Model Integral_Model Function_Spec Integral_Spec Function_Proofs
  Trapezoid_Proofs Neville_Proofs Romberg_Proofs Integral_Proofs Values_Proofs Upper_Proofs.

Section Place.
Variable nan : forall A, outcome A.
Variable qags : (R -> outcome R) -> R -> R -> outcome R.
Hypothesis not_a_number : forall A (v : A), nan A <> Ok v.

(** A root of the quadratic equation lies in the cell. *)
Lemma quadratic_root a b D h : a <> 0 -> 0 <= D -> 0 < h -> D <= a / 4 * (h * h) - b / 2 * h ->
  0 <= b * b + 4 * a * D /\
  (0 <= (b + sqrt (b * b + 4 * a * D)) / a <= h \/ 0 <= (b - sqrt (b * b + 4 * a * D)) / a <= h).
Proof.
  intros A P H L.
  assert (Dt : 0 <= b * b + 4 * a * D).
  { destruct (Rlt_dec 0 a) as [Pa|Na]; [nra|].
    assert (4 * (- a) * D <= 4 * (- a) * (a / 4 * (h * h) - b / 2 * h)) by (apply Rmult_le_compat_l; lra).
    pose proof (Rle_0_sqr (b - a * h)) as Q. unfold Rsqr in Q. lra. }
  split; [exact Dt|]. set (s := sqrt (b * b + 4 * a * D)).
  assert (S0 : 0 <= s) by apply sqrt_pos. assert (S2 : s * s = b * b + 4 * a * D) by (apply sqrt_sqrt, Dt).
  assert (K : s * s - b * b <= a * (a * (h * h) - 2 * b * h) \/ a * (a * (h * h) - 2 * b * h) <= s * s - b * b).
  { destruct (Rle_dec (s * s - b * b) (a * (a * (h * h) - 2 * b * h))); [left|right]; lra. }
  destruct (Rlt_dec 0 a) as [Pa|Na].
  - (* the greater root *)
    assert (B1 : b * b <= s * s) by nra. assert (B2 : s * s <= (a * h - b) * (a * h - b)).
    { rewrite S2. assert (4 * a * D <= 4 * a * (a / 4 * (h * h) - b / 2 * h)) by (apply Rmult_le_compat_l; lra). lra. }
    left. assert (G1 : - b <= s) by nra.
    assert (Q : 0 <= a * h - 2 * b).
    { assert (0 <= a / 4 * (h * h) - b / 2 * h) by lra. replace (a / 4 * (h * h) - b / 2 * h) with (h / 4 * (a * h - 2 * b)) in H0 by field. nra. }
    assert (G2 : s <= a * h - b).
    { destruct (Rle_dec 0 (a * h - b)) as [G|G]; [nra|]. exfalso. nra. }
    split; [apply Rmult_le_pos; [lra|left; apply Rinv_0_lt_compat; lra]|].
    apply (Rmult_le_reg_r a); [lra|]. unfold Rdiv. rewrite Rmult_assoc, Rinv_l by lra. lra.
  - assert (Na' : a < 0) by lra.
    assert (B1 : s * s <= b * b) by nra. assert (B2 : (a * h - b) * (a * h - b) <= s * s).
    { rewrite S2. assert (4 * (- a) * D <= 4 * (- a) * (a / 4 * (h * h) - b / 2 * h)) by (apply Rmult_le_compat_l; lra). lra. }
    assert (Q : 0 <= a * h - 2 * b).
    { assert (0 <= a / 4 * (h * h) - b / 2 * h) by lra. replace (a / 4 * (h * h) - b / 2 * h) with (h / 4 * (a * h - 2 * b)) in H0 by field. nra. }
    assert (Nb : b < 0) by nra. assert (G1 : s <= - b) by nra.
    left. assert (G2 : a * h - b <= s) by (destruct (Rle_dec 0 (a * h - b)) as [G|G]; nra).
    replace ((b + s) / a) with ((- (b + s)) / (- a)) by (field; lra).
    split; [apply Rmult_le_pos; [lra|left; apply Rinv_0_lt_compat; lra]|].
    apply (Rmult_le_reg_r (- a)); [lra|]. unfold Rdiv. rewrite Rmult_assoc, Rinv_l by lra. lra.
Qed.
Lemma locate_cell precision step small sum x y1 y2 p : 0 < step -> 0 <= y1 -> 0 <= y2 -> sum - (y1 + y2) <= small <= sum ->
  locate nan precision step small sum x y1 y2 = Ok p -> x - 25 / 10 * step <= p <= x + step / 2.
Proof.
  intros H Y1 Y2 S. unfold locate. cbv zeta.
  set (D := (small - (sum - (y1 + y2))) * (15 / 10 * step)).
  assert (D0 : 0 <= D) by (unfold D; apply Rmult_le_pos; lra).
  assert (D1 : D <= (y1 + y2) * (15 / 10 * step)) by (unfold D; apply Rmult_le_compat_r; lra).
  unfold quotient at 1. rewrite eqb_no by lra. cbn [obind]. set (a := (y2 - y1) / step). set (b := (y2 - 5 * y1) / 2).
  assert (Ea : a * step = y2 - y1) by (unfold a; field; lra).
  assert (Lin : forall q, quotient nan (D * 2) (y1 + y2) = Ok q -> 0 <= q <= 3 * step).
  { intros q Q. apply (quotient_inv nan not_a_number) in Q. destruct Q as (N & ->). assert (0 < y1 + y2) by lra. split.
    - apply Rmult_le_pos; [lra|left; apply Rinv_0_lt_compat; lra].
    - apply (Rmult_le_reg_r (y1 + y2)); [lra|]. unfold Rdiv. rewrite Rmult_assoc, Rinv_l by lra. lra. }
  assert (Goal : forall q, 0 <= q <= 3 * step -> x - 25 / 10 * step <= q + (x - 25 / 10 * step) <= x + step / 2) by (intros; lra).
  assert (Top : a / 4 * ((3 * step) * (3 * step)) - b / 2 * (3 * step) = (y1 + y2) * (15 / 10 * step)).
  { replace (a / 4 * ((3 * step) * (3 * step))) with (9 / 4 * step * (a * step)) by field. rewrite Ea. unfold b. field. }
  destruct (Rabs (a * D) <? _) eqn:Small.
  - destruct (quotient nan (D * 2) (y1 + y2)) as [q| |] eqn:Q; cbn; try discriminate. intro E. injection E as <-. apply Goal, Lin. reflexivity.
  - destruct (Rle_dec 0 (b * b + 4 * a * D)) as [Dt|Dt].
    2: { rewrite leb_no by lra. destruct (quotient nan (D * 2) (y1 + y2)) as [q| |] eqn:Q; cbn; try discriminate. intro E. injection E as <-. apply Goal, Lin. reflexivity. }
    rewrite (proj2 (Rleb_true 0 _) Dt). set (s := sqrt _).
    destruct ((b =? 0) && (s =? 0)) eqn:Z.
    + cbn [obind]. rewrite !ltb_no by lra. cbn. intro E. injection E as <-. apply Goal. lra.
    + unfold quotient at 1. destruct (Reqb_spec a 0) as [A|A].
      * (* then the value is not a number *) destruct (nan R) as [w| |] eqn:W; [destruct (not_a_number _ _ W)|discriminate|discriminate].
      * cbn [obind]. destruct (quadratic_root a b D (3 * step) A D0 ltac:(lra) ltac:(lra)) as (_ & [Q|Q]); fold s in Q.
        -- rewrite !ltb_no by lra. cbn. intro E. injection E as <-. apply Goal, Q.
        -- destruct (_ || _) eqn:O.
           ++ unfold quotient. rewrite eqb_no by exact A. cbn. intro E. injection E as <-. apply Goal, Q.
           ++ cbn. intro E. injection E as <-. apply orb_false_iff in O. destruct O as (O1 & O2).
              apply Rltb_false in O1. apply Rltb_false in O2. apply Goal. lra.
Qed.

Lemma loop_place f precision small min max step (m : nat) : 0 < step -> max = min + 3 * INR m * step -> 0 < small ->
  (forall x y, min <= x <= max -> f x = Ok y -> 0 <= y) -> forall fuel wanted j sum found s p,
  0 <= sum -> match found with Some q => min <= q <= max | None => wanted = true -> sum <= small end ->
  trapezoid3s_loop nan fuel f wanted precision small (min + (3 * INR j + 1 / 2) * step) max step sum found = Some (Ok (s, p)) ->
  0 <= s /\ match p with Some q => min <= q <= max | None => True end.
Proof.
  intros H M Sm F. induction fuel as [|fuel IH]; intros wanted j sum found s p S0 Fd; cbn [trapezoid3s_loop]; [discriminate|].
  destruct (Rltb_spec (min + (3 * INR j + 1 / 2) * step) max) as [X|X].
  2: { intro E. apply done_inv in E. injection E as <- <-. split; [exact S0|]. destruct found; [exact Fd|exact I]. }
  assert (J : (j < m)%nat).
  { apply INR_lt. apply (Rmult_lt_reg_r step); [lra|]. nra. }
  assert (J' : INR j + 1 <= INR m) by (rewrite <- S_INR; apply le_INR; lia).
  assert (C : (3 * INR j + 3) * step <= 3 * INR m * step) by nra.
  assert (J0 : 0 <= INR j) by apply pos_INR. assert (0 <= 3 * INR j * step) by nra.
  intro E. apply fbind_inv in E. destruct E as (y1 & E1 & E). apply fbind_inv in E. destruct E as (y2 & E2 & E).
  apply done_inv in E1. apply done_inv in E2.
  assert (Y1 : 0 <= y1) by (refine (F _ _ _ E1); split; lra). assert (Y2 : 0 <= y2) by (refine (F _ _ _ E2); split; lra).
  apply fbind_inv in E. destruct E as (found' & Ef & E).
  replace (min + (3 * INR j + 1 / 2) * step + 2 * step + step) with (min + (3 * INR (S j) + 1 / 2) * step) in E by (rewrite S_INR; field).
  refine (IH _ _ _ _ _ _ _ _ E); [lra|].
  destruct found as [q|]; [apply done_inv in Ef; injection Ef as <-; exact Fd|].
  destruct (wanted && _) eqn:W.
  - apply andb_true_iff in W. destruct W as (W & L). apply Rleb_true in L. rewrite !Rabs_right in L by lra.
    apply fbind_inv in Ef. destruct Ef as (q & Eq & Ef). apply done_inv in Ef. injection Ef as <-. apply done_inv in Eq.
    apply (locate_cell precision step small (sum + y1 + y2)) in Eq; try assumption; [|specialize (Fd W); lra]. split; nra.
  - apply done_inv in Ef. injection Ef as <-. intro W'. rewrite W' in W. cbn [andb] in W. apply Rleb_false in W. rewrite !Rabs_right in W by lra. lra.
Qed.

(** One refinement *)
Definition positive_range (g : engine) : Prop := forall x y, e_min g <= x <= e_max g -> evaluate nan g x = Ok y -> 0 <= y.
Definition in_range (g : engine) : Prop := e_min g <= e_random_x g <= e_max g.
Lemma trapezoid3s_place g n old i v g' : e_min g < e_max g -> positive_range g -> e_random g < 0 -> 0 <= old ->
  (n = 1%Z \/ exists m, (1 <= m)%nat /\ n = (3 * Z.of_nat m)%Z) ->
  trapezoid3s nan g n old i = Some (Ok (v, g')) -> 0 <= v /\ (n <> 1%Z -> (e_romberg g <= S i)%nat -> in_range g').
Proof.
  intros L F Rn O N. unfold trapezoid3s. destruct (Z.eqb_spec n 1) as [N1|N1].
  - destruct (evaluate nan g _) as [u| |] eqn:U; cbn; try discriminate. intro E. injection E as <- _.
    apply F in U; [|lra]. split; [nra|]. intro; contradiction.
  - destruct N as [N|(m & Mp & N)]; [contradiction|]. set (step := _ / IZR n).
    assert (Mr : 0 < INR m) by (apply lt_0_INR; lia).
    assert (In : IZR n = 3 * INR m) by (rewrite N, mult_IZR, <- INR_IZR_INZ; reflexivity).
    assert (St : 0 < step) by (unfold step; rewrite In; apply Rdiv_lt_0_compat; lra).
    assert (Mx : e_max g = e_min g + 3 * INR m * step) by (unfold step; rewrite In; field; lra).
    intro E. apply fbind_inv in E. destruct E as (small & Es & E). apply done_inv in Es.
    apply fbind_inv in E. destruct E as ((sum & found) & El & E). apply done_inv in E. injection E as <- <-.
    replace (e_min g + step / 2) with (e_min g + (3 * INR 0 + 1 / 2) * step) in El by (cbn; field).
    destruct (Nat.leb_spec (e_romberg g) (S i)) as [W|W].
    + rewrite leb_no in Es by lra. destruct (quotient nan (- e_random g) _) as [q| |] eqn:Q; cbn in Es; try discriminate.
      apply (quotient_inv nan not_a_number) in Q. destruct Q as (_ & ->). rewrite ltb_no in Es by lra. injection Es as <-.
      assert (Sm : 0 < - e_random g / (15 / 10 * step)) by (apply Rdiv_lt_0_compat; lra).
      apply (loop_place _ _ _ (e_min g) (e_max g) step m St Mx Sm F) in El; [|lra|intros; lra].
      destruct El as (S0 & P). split; [assert (0 <= sum * step) by (apply Rmult_le_pos; lra); lra|].
      intros _ _. unfold in_range. cbn. destruct found; [exact P|lra].
    + assert (El' : 0 <= sum).
      { clear Es. assert (G : forall fuel j sum0 s p, 0 <= sum0 ->
          trapezoid3s_loop nan fuel (evaluate nan g) false (e_precision g) small (e_min g + (3 * INR j + 1 / 2) * step) (e_max g) step sum0 None
            = Some (Ok (s, p)) -> 0 <= s).
        { induction fuel as [|fuel IH]; intros j sum0 s p S0; cbn [trapezoid3s_loop]; [discriminate|].
          destruct (Rltb_spec (e_min g + (3 * INR j + 1 / 2) * step) (e_max g)) as [X|X].
          2: { intro E. apply done_inv in E. injection E as <- _. exact S0. }
          assert (J : (j < m)%nat) by (apply INR_lt; apply (Rmult_lt_reg_r step); nra).
          assert (J' : INR j + 1 <= INR m) by (rewrite <- S_INR; apply le_INR; lia).
          assert ((3 * INR j + 3) * step <= 3 * INR m * step) by nra. assert (0 <= INR j) by apply pos_INR. assert (0 <= 3 * INR j * step) by nra.
          intro E. apply fbind_inv in E. destruct E as (y1 & E1 & E). apply fbind_inv in E. destruct E as (y2 & E2 & E).
          apply done_inv in E1. apply done_inv in E2.
          assert (Y1 : 0 <= y1) by (refine (F _ _ _ E1); split; lra). assert (Y2 : 0 <= y2) by (refine (F _ _ _ E2); split; lra).
          cbn [andb] in E. rewrite fbind_Ok in E.
          replace (e_min g + (3 * INR j + 1 / 2) * step + 2 * step + step) with (e_min g + (3 * INR (S j) + 1 / 2) * step) in E by (rewrite S_INR; field).
          refine (IH _ _ _ _ _ E). lra. }
        refine (G _ _ _ _ _ _ El). lra. }
      split; [assert (0 <= sum * step) by (apply Rmult_le_pos; lra); lra|]. intros _ W'. lia.
Qed.

(** The loop of refinements *)
Lemma positive_kept g g' : kept g' = kept g -> e_integrand g' = e_integrand g -> positive_range g -> positive_range g'.
Proof.
  intros K I P x y X E. unfold kept in K. injection K as K1 K2 K3 K4 _ _ K7 K8. apply (P x y); [rewrite <- K7, <- K8; exact X|].
  unfold evaluate in *. rewrite <- K1, <- K2, <- K3, <- K4, <- I. exact E.
Qed.
Lemma trapezoid3s_integrand g n old i v g' : trapezoid3s nan g n old i = Some (Ok (v, g')) ->
  e_integrand g' = e_integrand g /\ e_romberg g' = e_romberg g.
Proof.
  unfold trapezoid3s. destruct (n =? 1)%Z.
  - destruct (evaluate _ _ _); cbn; intro H; inversion H. split; reflexivity.
  - intro H. apply fbind_inv in H. destruct H as (small & _ & H). apply fbind_inv in H. destruct H as ((sum & found) & _ & H).
    apply done_inv in H. injection H as _ H. subst g'. destruct (Nat.leb _ _); split; reflexivity.
Qed.
Lemma opened_loop_place : forall steps g i k n result v g', e_min g < e_max g -> positive_range g -> e_random g < 0 -> 0 <= result ->
  ((k = 1%Z /\ i = 0%nat) \/ exists m, (1 <= m)%nat /\ k = (3 * Z.of_nat m)%Z) -> (2 <= e_romberg g)%nat ->
  ((e_romberg g <= i)%nat -> in_range g) -> (e_romberg g <= i + steps)%nat ->
  opened_loop nan qags steps None g i k n result = Some (Ok (v, g')) -> in_range g'.
Proof.
  induction steps as [|steps IH]; intros g i k n result v g' L P Rn R0 K Rb In St; cbn [opened_loop].
  - intro H. apply done_inv in H. destruct (qags _ _ _); cbn in H; try discriminate. inversion H. subst. apply In. lia.
  - intro H. apply fbind_inv in H. destruct H as ((r & g1) & E1 & H). rewrite !eqb_no in E1 by lra. cbn [orb] in E1.
    assert (K1 := trapezoid3s_kept nan _ _ _ _ _ _ E1). destruct (trapezoid3s_integrand _ _ _ _ _ _ E1) as (I1 & B1).
    assert (K' : k = 1%Z \/ exists m, (1 <= m)%nat /\ k = (3 * Z.of_nat m)%Z) by (destruct K as [(K & _)|K]; [left|right]; exact K).
    destruct (trapezoid3s_place g k result i r g1 L P Rn R0 K' E1) as (R1 & X1).
    assert (P1 := positive_kept _ _ K1 I1 P).
    apply fbind_inv in H. destruct H as (ix & _ & H). apply fbind_inv in H. destruct H as (iy & _ & H).
    set (g2 := with_buffers g1 ix iy) in H.
    assert (X2 : (e_romberg g2 <= S i)%nat -> in_range g2).
    { intro W. cbn in W. rewrite B1 in W. apply X1; [|exact W]. destruct K as [(_ & ->)|(m & Mp & ->)]; lia. }
    unfold kept in K1. injection K1 as _ _ _ _ _ Er Emin Emax.
    assert (Next : (flet k := done (times k 3) in opened_loop nan qags steps None g2 (S i) k (n / 9) r) = Some (Ok (v, g')) -> in_range g').
    { intro N. apply fbind_inv in N. destruct N as (k1 & Ek & N). apply done_inv in Ek. unfold times in Ek.
      destruct (INT_MAX <? k * 3)%Z; [discriminate|]. injection Ek as <-.
      assert (Kp : exists m, (1 <= m)%nat /\ k = Z.of_nat m).
      { destruct K as [(-> & _)|(m & Mp & ->)]; [exists 1%nat; split; [lia|reflexivity]|exists (3 * m)%nat; split; lia]. }
      refine (IH g2 (S i) (k * 3)%Z (n / 9) r v g' _ P1 _ R1 _ _ X2 _ N).
      - cbn. rewrite Emin, Emax. exact L.
      - cbn. rewrite Er. exact Rn.
      - right. destruct Kp as (m & Mp & ->). exists m. split; [exact Mp|lia].
      - cbn. rewrite B1. exact Rb.
      - cbn. rewrite B1. lia. }
    destruct (Nat.leb_spec (e_romberg g2) (S i)) as [W|W]; [|apply Next; exact H].
    apply fbind_inv in H. destruct H as ((w & e) & _ & H). apply fbind_inv in H. destruct H as (err & _ & H).
    destruct (_ <? _); [|apply Next; exact H]. apply done_inv in H. injection H as _ H. subst g'. apply X2, W.
Qed.
Lemma romberg_opened_place g v g' : e_min g < e_max g -> positive_range g -> e_random g < 0 ->
  (2 <= e_romberg g <= e_steps g)%nat -> romberg_opened nan qags None g = Some (Ok (v, g')) -> in_range g'.
Proof.
  intros L P Rn B. unfold romberg_opened. apply opened_loop_place; try assumption; try lra; try lia.
Qed.

Lemma clamp_range r : 0 <= clamp01 r <= 1.
Proof. unfold clamp01. cbv zeta. destruct (Rltb_spec 1 r); [rewrite ltb_no; lra|]. destruct (Rltb_spec r 0); lra. Qed.
Lemma sampled_usable_positive g g1 result ratio random : (2 <= e_romberg g <= e_steps g)%nat -> e_min g < e_max g -> positive_range g ->
  e_random g = (if 1 <? ratio then 1 else ratio) -> romberg_opened nan qags None g = Some (Ok (result, g1)) ->
  (0 <= ratio -> random = e_random g) -> (ratio < 0 -> 0 <= random <= 1) -> usable (sampled g1 random result).
Proof.
  intros St L P Er Rr Pos Neg. destruct (Rlt_dec ratio 0) as [N|N].
  - specialize (Neg N). destruct (romberg_opened_kept nan qags _ _ _ _ Rr) as (K & _). unfold kept in K. injection K as _ _ _ _ _ K1 K2 K3.
    rewrite (ltb_no 1 ratio) in Er by lra. pose proof (romberg_opened_place g result g1 L P ltac:(lra) St Rr) as I.
    destruct (Req_dec random 0) as [Z|Z]; [right; split; [left; exact Z|exact I]|].
    destruct (Req_dec random 1) as [O|O]; [right; split; [right; exact O|exact I]|]. left. cbn. lra.
  - apply (sampled_usable nan qags g g1 result ratio random); try assumption; try lra; lia.
Qed.

(** The place for any value, if the integrand is not negative between the limits *)
Lemma upper_log_positive g a b f ratio p v g1 x g2 : (2 <= e_romberg g <= e_steps g)%nat -> 0 < a -> 0 < b ->
  negligible (ln (Rmin a b)) (ln (Rmax a b)) = false -> (forall u y, Rmin a b <= u <= Rmax a b -> f u = Ok y -> 0 <= y) ->
  integrate_ratio nan qags g a b f 4 ratio p = Some (Ok (v, g1)) ->
  get_upper_limit nan qags g1 = Some (Ok (x, g2)) -> Rmin a b <= x <= Rmax a b.
Proof.
  intros St A B N F. unfold integrate_ratio. rewrite eqb_no by lra. cbn [andb]. rewrite !leb_no by lra. cbn [orb].
  unfold integrate_log_ratio. destruct (negligible a b) eqn:N0.
  - intros H. apply done_inv in H. injection H as _ <-. unfold get_upper_limit. cbn [e_random_do empty_range e_min e_max]. rewrite N0.
    intro H. apply done_inv in H. injection H as <- _. unfold Rmin, Rmax. destruct (Rle_dec a b); lra.
  - set (lo := Rmin a b) in *. set (hi := Rmax a b) in *.
    assert (Lo : 0 < lo) by (unfold lo, Rmin; destruct (Rle_dec a b); lra).
    assert (Ll : lo < hi).
    { apply not_negligible in N0. unfold lo, hi, Rmin, Rmax. destruct (Rle_dec a b); lra. }
    unfold logarithm. rewrite !ltb_yes by lra. rewrite !fbind_Ok. cbv zeta.
    set (g0 := prepared _ _ _ _ _ _ _ _ _ _).
    assert (Lln : ln lo < ln hi) by (apply ln_increasing; lra).
    intros H G. apply fbind_inv in H. destruct H as ((result & g3) & R3 & H). apply fbind_inv in H. destruct H as (random & Rd & H).
    apply done_inv in Rd. apply done_inv in H. injection H as Ev <-.
    destruct (romberg_opened_kept nan qags _ _ _ _ R3) as (K & P).
    assert (K' := K). unfold kept in K'. cbn in K'. injection K' as K1 K2 K3 K4 K5 K6 K7 K8.
    assert (Pr : positive_range g0).
    { intros u y U. unfold evaluate. cbn. rewrite (proj2 (Reqb_true 0 0) eq_refl). cbn.
      set (w := if b <? a then _ else u).
      assert (W : ln lo <= w <= ln hi) by (cbn in U; unfold w; destruct (b <? a); lra).
      assert (We : lo <= exp w <= hi).
      { rewrite <- (exp_ln lo), <- (exp_ln hi) by lra. split;
          match goal with |- exp ?c <= exp ?d => destruct (Req_dec c d) as [->|]; [lra|left; apply exp_increasing; lra] end. }
      destruct (f (exp w)) as [z| |] eqn:Z; cbn; try discriminate. intro E. injection E as <-. pose proof (F _ _ We Z). pose proof (exp_pos w). nra. }
    assert (U : usable (sampled g3 random result)).
    { apply (sampled_usable_positive g0 g3 result ratio random); try assumption.
      - reflexivity.
      - intro Z. rewrite K6 in Rd. rewrite ltb_no in Rd; [injection Rd as <-; reflexivity|].
        destruct (Rltb_spec 1 ratio); lra.
      - intro Z. rewrite K6 in Rd. rewrite (ltb_no 1 ratio) in Rd by lra. rewrite ltb_yes in Rd by exact Z.
        destruct (quotient nan ratio _) as [r| |] eqn:Q; cbn in Rd; try discriminate.
        injection Rd as <-. apply clamp_range. }
    destruct (upper_between nan qags not_a_number (sampled g3 random result) x g2) as (y & Y & t & _ & _ & T & ->).
    + reflexivity.
    + cbn. rewrite K7, K8. exact N.
    + cbn. rewrite K7, K8. lra.
    + cbn. rewrite K3, K4, K7, K8. intro Z. rewrite Z. reflexivity.
    + exact U.
    + exact G.
    + cbn in T, Y. cbn. rewrite K1 in T. rewrite (T eq_refl), K2. rewrite K7, K8 in Y.
      split; [rewrite <- (exp_ln lo) by lra|rewrite <- (exp_ln hi) by lra];
        match goal with |- exp ?u <= exp ?w => destruct (Req_dec u w) as [->|]; [lra|left; apply exp_increasing; lra] end.
Qed.
(** Without substitution *)
Lemma upper_plain_positive g a b f ratio v g1 x g2 : (2 <= e_romberg g <= e_steps g)%nat -> a <> 0 \/ b <> 0 ->
  negligible (Rmin a b) (Rmax a b) = false -> (forall u y, Rmin a b <= u <= Rmax a b -> f u = Ok y -> 0 <= y) ->
  integrate_ratio nan qags g a b f 3 ratio 0 = Some (Ok (v, g1)) ->
  get_upper_limit nan qags g1 = Some (Ok (x, g2)) -> Rmin a b <= x <= Rmax a b.
Proof.
  intros St AB N F. unfold integrate_ratio.
  assert (Nz : (a =? 0) && (b =? 0) = false) by (apply andb_false_iff; destruct AB; [left|right]; apply eqb_no; assumption).
  rewrite Nz. unfold integrate_substitution_ratio. destruct (negligible a b) eqn:N0.
  - intros H. apply done_inv in H. injection H as _ <-. unfold get_upper_limit. cbn [e_random_do empty_range e_min e_max]. rewrite N0.
    intro H. apply done_inv in H. injection H as <- _. unfold Rmin, Rmax. destruct (Rle_dec a b); lra.
  - set (lo := Rmin a b) in *. set (hi := Rmax a b) in *. cbv zeta.
    assert (Ll : lo < hi).
    { apply not_negligible in N0. unfold lo, hi, Rmin, Rmax. destruct (Rle_dec a b); lra. }
    rewrite !(ltb_no 0 0) by lra. rewrite fbind_Ok.
    set (g0 := prepared _ _ _ _ _ _ _ _ _ _).
    intros H G. apply fbind_inv in H. destruct H as ((result & g3) & R3 & H). apply fbind_inv in H. destruct H as (random & Rd & H).
    apply done_inv in Rd. apply done_inv in H. injection H as Ev <-.
    destruct (romberg_opened_kept nan qags _ _ _ _ R3) as (K & P).
    assert (K' := K). unfold kept in K'. cbn in K'. injection K' as K1 K2 K3 K4 K5 K6 K7 K8.
    assert (Pr : positive_range g0).
    { intros u y U. unfold evaluate. cbn. rewrite (proj2 (Reqb_true 0 0) eq_refl). cbn.
      set (w := if b <? a then _ else u).
      assert (W : lo <= w <= hi) by (cbn in U; unfold w; destruct (b <? a); lra).
      destruct (f w) as [z| |] eqn:Z; cbn; try discriminate. intro E. injection E as <-. pose proof (F _ _ W Z). lra. }
    assert (U : usable (sampled g3 random result)).
    { apply (sampled_usable_positive g0 g3 result ratio random); try assumption.
      - reflexivity.
      - intro Z. rewrite K6 in Rd. rewrite ltb_no in Rd; [injection Rd as <-; reflexivity|].
        destruct (Rltb_spec 1 ratio); lra.
      - intro Z. rewrite K6 in Rd. rewrite (ltb_no 1 ratio) in Rd by lra. rewrite ltb_yes in Rd by exact Z.
        destruct (quotient nan ratio _) as [r| |] eqn:Q; cbn in Rd; try discriminate.
        injection Rd as <-. apply clamp_range. }
    destruct (upper_between nan qags not_a_number (sampled g3 random result) x g2) as (y & Y & t & _ & _ & T & ->).
    + reflexivity.
    + cbn. rewrite K7, K8. exact N.
    + cbn. rewrite K7, K8. lra.
    + cbn. rewrite K3, K4, K7, K8. intro Z. rewrite Z. reflexivity.
    + exact U.
    + exact G.
    + cbn in T, Y. cbn. rewrite K1 in T. rewrite (T eq_refl), K2. rewrite K7, K8 in Y. exact Y.
Qed.
End Place.
