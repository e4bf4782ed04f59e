(** The place of GetUpperLimit lies between the limits of the integration. *)
From Verif Require Import Prelude PreludeFacts Function_Model Integral_Model Function_Spec Integral_Spec Function_Proofs
  Trapezoid_Proofs Neville_Proofs Romberg_Proofs Integral_Proofs Values_Proofs.

Section Upper.
Variable nan : forall A, outcome A.
Variable qags : (R -> outcome R) -> R -> R -> outcome R.
Hypothesis not_a_number : forall A (v : A), nan A <> Ok v.

Lemma fbind_inv {A B} (r : run A) (k : A -> run B) b : fbind r k = Some (Ok b) -> exists a, r = Some (Ok a) /\ k a = Some (Ok b).
Proof. destruct r as [[a| |]|]; cbn; try discriminate. intro H. exists a. split; [reflexivity|exact H]. Qed.
Lemma done_inv {A} (x : outcome A) b : done x = Some (Ok b) -> x = Ok b.
Proof. intro H. injection H as H. exact H. Qed.
Lemma quotient_inv a b v : quotient nan a b = Ok v -> b <> 0 /\ v = a / b.
Proof.
  unfold quotient. destruct (Reqb_spec b 0); intro H; [exfalso; exact (not_a_number _ _ H)|]. injection H as H. split; [assumption|auto].
Qed.
Lemma power_inv a b v : power nan a b = Ok v -> 0 < a /\ v = Rpower a b.
Proof.
  unfold power. destruct (Rltb_spec 0 a); intro H; [|exfalso; exact (not_a_number _ _ H)]. injection H as H. split; [assumption|auto].
Qed.

(** What an integration leaves alone *)
Definition kept (g : engine) := (e_power g, e_log g, e_reverse g, e_reverse_x g, e_random_do g, e_random g, e_min g, e_max g).
Lemma trapezoid3s_kept g n old i v g' : trapezoid3s nan g n old i = Some (Ok (v, g')) -> kept g' = kept g.
Proof.
  unfold trapezoid3s. destruct (n =? 1)%Z.
  - destruct (evaluate _ _ _); cbn; intro H; inversion H. reflexivity.
  - intro H. apply fbind_inv in H. destruct H as (small & _ & H). apply fbind_inv in H. destruct H as ((sum & found) & _ & H).
    apply done_inv in H. injection H as _ H. subst g'. destruct (Nat.leb _ _); reflexivity.
Qed.
Definition placed (big : option R) (g g' : engine) : Prop := match big with
  | Some _ => e_random_x g' = e_random_x g
  | None => (e_random g = 0 -> e_random_x g' = e_min g) /\ (e_random g = 1 -> e_random_x g' = e_max g)
  end.
Lemma opened_loop_kept big : forall steps g i k n result v g', opened_loop nan qags steps big g i k n result = Some (Ok (v, g')) ->
  kept g' = kept g /\ (placed big g g' \/ (steps = 0%nat /\ g' = g)).
Proof.
  induction steps as [|steps IH]; intros g i k n result v g'; cbn [opened_loop].
  - intro H. apply done_inv in H. destruct (qags _ _ _); cbn in H; try discriminate. inversion H. split; [reflexivity|right; split; reflexivity].
  - intro H. apply fbind_inv in H. destruct H as ((r & g1) & E1 & H).
    assert (K1 : kept g1 = kept g /\ placed big g g1).
    { destruct big as [bg|].
      - apply fbind_inv in E1. destruct E1 as (r1 & _ & E1). apply done_inv in E1. injection E1 as _ E1. subst g1. split; reflexivity.
      - destruct (Reqb_spec (e_random g) 0) as [Z|Z]; [|destruct (Reqb_spec (e_random g) 1) as [O|O]]; cbn [orb] in E1.
        + apply fbind_inv in E1. destruct E1 as (r1 & _ & E1). apply done_inv in E1. injection E1 as _ E1. subst g1.
          split; [reflexivity|]. split; [reflexivity|lra].
        + apply fbind_inv in E1. destruct E1 as (r1 & _ & E1). apply done_inv in E1. injection E1 as _ E1. subst g1.
          split; [reflexivity|]. split; [lra|reflexivity].
        + split; [apply (trapezoid3s_kept _ _ _ _ _ _ E1)|]. split; intro; contradiction. }
    destruct K1 as (K1 & P1).
    apply fbind_inv in H. destruct H as (ix & _ & H). apply fbind_inv in H. destruct H as (iy & _ & H).
    set (g2 := with_buffers g1 ix iy) in H. assert (K2 : kept g2 = kept g) by exact K1. 
    assert (P2 : placed big g g2) by (destruct big; exact P1).
    assert (Next : (flet k := done (times k 3) in opened_loop nan qags steps big g2 (S i) k (n / 9) r) = Some (Ok (v, g')) ->
      kept g' = kept g /\ (placed big g g' \/ (S steps = 0%nat /\ g' = g))).
    { intro N. apply fbind_inv in N. destruct N as (k1 & _ & N). destruct (IH _ _ _ _ _ _ _ N) as (K3 & P3).
      split; [congruence|]. left. destruct P3 as [P3|(_ & ->)]; [|exact P2].
      unfold kept in K2. injection K2 as _ _ _ _ _ Er Emin Emax.
      destruct big; [cbn [placed] in *; congruence|]. destruct P3 as (A & B). split; intro Z; [exact (eq_trans (A (eq_trans Er Z)) Emin)|exact (eq_trans (B (eq_trans Er Z)) Emax)]. }
    destruct (Nat.leb _ _); [|apply Next; exact H].
    apply fbind_inv in H. destruct H as ((w & e) & _ & H). apply fbind_inv in H. destruct H as (err & _ & H).
    destruct (_ <? _); [|apply Next; exact H]. apply done_inv in H. injection H as _ H. subst g'. split; [exact K2|left; exact P2].
Qed.
Lemma romberg_opened_kept big g v g' : romberg_opened nan qags big g = Some (Ok (v, g')) ->
  kept g' = kept g /\ (placed big g g' \/ (e_steps g = 0%nat /\ g' = g)).
Proof. apply opened_loop_kept. Qed.

Lemma newton_between x xlow xhi f df : df <> 0 -> ((x - xhi) * df - f) * ((x - xlow) * df - f) <= 0 ->
  Rmin xlow xhi <= x - f / df <= Rmax xlow xhi.
Proof.
  intros D H. set (y := x - f / df). assert (Ef : f = (x - y) * df) by (unfold y; field; exact D). rewrite Ef in H.
  assert (P : (y - xhi) * (y - xlow) <= 0).
  { assert (0 < df * df) by nra. replace (((x - xhi) * df - (x - y) * df) * ((x - xlow) * df - (x - y) * df))
      with ((y - xhi) * (y - xlow) * (df * df)) in H by ring. nra. }
  unfold Rmin, Rmax. destruct (Rle_dec xlow xhi); nra.
Qed.
Lemma refine_loop_range lo hi : forall steps g result value x f df xlow xhi delta delta_old y g', lo <= x <= hi -> lo <= xlow <= hi -> lo <= xhi <= hi ->
  refine_loop nan qags steps g result value x f df xlow xhi delta delta_old = Some (Ok (y, g')) ->
  lo <= y <= hi /\ e_power g' = e_power g /\ e_log g' = e_log g /\ e_reverse g' = e_reverse g /\ e_reverse_x g' = e_reverse_x g.
Proof.
  induction steps as [|steps IH]; intros g result value x f df xlow xhi delta delta_old y g' X Lo Hi; cbn [refine_loop].
  - intro H. apply done_inv in H. inversion H. subst. repeat split; tauto.
  - destruct (if f <? 0 then _ else _) as (xl & xh) eqn:E.
    assert (B : lo <= xl <= hi /\ lo <= xh <= hi) by (destruct (f <? 0); inversion E; subst; split; assumption). destruct B as (Bl & Bh).
    intro H. apply fbind_inv in H. destruct H as (((x' & d') & stop) & S & H). apply done_inv in S.
    assert (X' : lo <= x' <= hi).
    { destruct (Rltb_spec 0 (((x - xh) * df - f) * ((x - xl) * df - f))) as [Q|Q]; cbn [orb] in S.
      - inversion S. split; lra.
      - destruct (Rabs (delta_old * df) <? Rabs (2 * f)).
        + inversion S. split; lra.
        + destruct (quotient nan f df) as [q| |] eqn:Eq; cbn in S; try discriminate. apply quotient_inv in Eq. destruct Eq as (D & ->).
          inversion S. subst x'. pose proof (newton_between x xl xh f df D ltac:(lra)) as N.
          revert N. unfold Rmin, Rmax. destruct (Rle_dec xl xh); intros; split; lra. }
    destruct (stop || (Rabs d' <? e_precision g)).
    + apply done_inv in H. inversion H. subst. repeat split; tauto.
    + apply fbind_inv in H. destruct H as ((w & g2) & R2 & H). apply fbind_inv in H. destruct H as (df' & _ & H).
      destruct (IH _ _ _ _ _ _ _ _ _ _ _ _ X' Bl Bh H) as (Y & A1 & A2 & A3 & A4).
      destruct (romberg_opened_kept _ _ _ _ R2) as (K & _). unfold kept in K. cbn in K. injection K as K1 K2 K3 K4 _ _ _ _.
      split; [exact Y|]. repeat split; congruence.
Qed.
Lemma refine_range g result g' : e_min g <= e_max g -> 0 < e_random g < 1 ->
  refine_upper_limit nan qags g result = Some (Ok g') ->
  e_min g <= e_random_x g' <= e_max g /\ e_power g' = e_power g /\ e_log g' = e_log g /\ e_reverse g' = e_reverse g /\ e_reverse_x g' = e_reverse_x g.
Proof.
  intros L Rn. unfold refine_upper_limit. rewrite !eqb_no by lra. cbn [orb]. cbv zeta.
  rewrite ltb_no by nra.
  destruct (if 0 <? _ then _ else _) as (xl & xh) eqn:E.
  assert (B : (e_min g <= xl <= e_max g) /\ (e_min g <= xh <= e_max g)).
  { destruct (0 <? _); inversion E; subst; split; lra. } destruct B as (Bl & Bh).
  set (g1 := if (_ <? _) || _ then _ else g).
  assert (K1 : kept g1 = kept g) by (unfold g1; destruct (_ || _); reflexivity).
  assert (X1 : e_min g <= e_random_x g1 <= e_max g).
  { unfold g1. destruct (Rltb_spec (e_random_x g) (e_min g)); cbn [orb]; [cbn; lra|].
    destruct (Rltb_spec (e_max g) (e_random_x g)); [cbn; lra|]. lra. }
  intro H. apply fbind_inv in H. destruct H as ((w & g2) & R2 & H). apply fbind_inv in H. destruct H as (df & _ & H).
  apply fbind_inv in H. destruct H as ((x & g3) & R3 & H). apply done_inv in H. injection H as <-. cbn [e_random_x with_range with_romberg with_x].
  destruct (refine_loop_range (e_min g) (e_max g) _ _ _ _ _ _ _ _ _ _ _ _ _ X1 Bl Bh R3) as (Y & A1 & A2 & A3 & A4).
  split; [exact Y|].
  destruct (romberg_opened_kept _ _ _ _ R2) as (K & _). unfold kept in K, K1. cbn in K. injection K as H1 H2 H3 H4 _ _ _ _.
  injection K1 as G1 G2 G3 G4 _ _ _ _. cbn in A1, A2, A3, A4. cbn. repeat split; congruence.
Qed.
(** The place of GetUpperLimit in the variable of the integration *)
Lemma upper_between g x g' : e_random_do g = true -> negligible (e_min g) (e_max g) = false -> e_min g <= e_max g ->
  (e_reverse g = true -> e_reverse_x g = e_min g + e_max g) ->
  (0 < e_random g < 1 \/ ((e_random g = 0 \/ e_random g = 1) /\ e_min g <= e_random_x g <= e_max g)) ->
  get_upper_limit nan qags g = Some (Ok (x, g')) ->
  exists y, e_min g <= y <= e_max g /\ exists t,
    (0 < e_power g -> 0 < y /\ t = Rpower y (- e_power g)) /\ (e_power g < 0 -> y < 0 /\ t = - Rpower (- y) (e_power g)) /\
    (e_power g = 0 -> t = y) /\ x = (if e_log g then exp t else t).
Proof.
  intros Do N L Rv Rn. unfold get_upper_limit. rewrite Do, N. intro H. apply fbind_inv in H. destruct H as (g1 & R1 & H).
  assert (B : e_min g <= e_random_x g1 <= e_max g /\ e_power g1 = e_power g /\ e_log g1 = e_log g /\ e_reverse g1 = e_reverse g /\
    e_reverse_x g1 = e_reverse_x g).
  { destruct Rn as [Rn|(Rn & X)]; [apply (refine_range g _ _ L Rn R1)|].
    unfold refine_upper_limit in R1. replace ((e_random g =? 0) || (e_random g =? 1)) with true in R1.
    - apply done_inv in R1. injection R1 as <-. repeat split; tauto.
    - symmetry. apply orb_true_iff. destruct Rn as [Rn|Rn]; [left|right]; apply Reqb_true; exact Rn. }
  destruct B as (B & Ep & El & Er & Ex). rewrite Ep, El, Er, Ex in H. cbv zeta in H.
  set (y := if e_reverse g then _ else _) in H.
  assert (Y : e_min g <= y <= e_max g).
  { unfold y. destruct (e_reverse g); [rewrite (Rv eq_refl); lra|exact B]. }
  exists y. split; [exact Y|]. apply fbind_inv in H. destruct H as (t & T & H). apply done_inv in T. apply done_inv in H.
  injection H as <- _. exists t.
  destruct (Rltb_spec 0 (e_power g)) as [P|P]; [|destruct (Rltb_spec (e_power g) 0) as [Q|Q]].
  - apply power_inv in T. repeat split; try tauto; lra.
  - destruct (power nan (- y) _) as [z| |] eqn:E; cbn in T; try discriminate. apply power_inv in E. destruct E as (E1 & ->).
    injection T as <-. repeat split; try lra.
  - injection T as <-. repeat split; try lra.
Qed.

Lemma not_negligible a b : negligible a b = false -> a <> b.
Proof. intros N ->. rewrite negligible_same in N. discriminate. Qed.
Lemma clamp_inside r : 0 < r < 1 -> clamp01 r = r.
Proof. intro H. unfold clamp01. rewrite (ltb_no 1 r) by lra. rewrite ltb_no by lra. reflexivity. Qed.
Lemma inside_ratio ratio w : ratio < 0 -> - ratio < w -> 0 < ratio / (- w) < 1.
Proof.
  intros H K. replace (ratio / - w) with ((- ratio) / w) by (field; lra). split.
  - apply Rdiv_lt_0_compat; lra.
  - apply (Rmult_lt_reg_r w); [lra|]. unfold Rdiv. rewrite Rmult_assoc, Rinv_l by lra. lra.
Qed.
Lemma sign_square a b : sign_of a b = 1 \/ sign_of a b = -1.
Proof. unfold sign_of. destruct (_ <? _); [right|left]; reflexivity. Qed.

(** The random number after the integration and the place it leaves *)
Definition usable (g : engine) : Prop :=
  0 < e_random g < 1 \/ ((e_random g = 0 \/ e_random g = 1) /\ e_min g <= e_random_x g <= e_max g).
Lemma sampled_usable g g1 result ratio random : (1 <= e_steps g)%nat -> e_min g <= e_max g ->
  e_random g = (if 1 <? ratio then 1 else ratio) -> romberg_opened nan qags None g = Some (Ok (result, g1)) ->
  (0 <= ratio -> random = e_random g) -> (ratio < 0 -> 0 < random < 1) -> usable (sampled g1 random result).
Proof.
  intros St L Er R Pos Neg. destruct (romberg_opened_kept _ _ _ _ R) as (K & P). unfold kept in K. injection K as _ _ _ _ _ K1 K2 K3.
  destruct P as [P|(Z & _)]; [|lia]. destruct P as (P0 & P1).
  unfold usable. cbn. rewrite K2, K3.
  destruct (Rlt_dec ratio 0) as [N|N]; [left; apply Neg; exact N|].
  rewrite (Pos ltac:(lra)). rewrite Er in *.
  destruct (Rltb_spec 1 ratio) as [G|G].
  - right. split; [right; reflexivity|]. rewrite P1 by reflexivity. lra.
  - destruct (Req_dec ratio 0) as [Z|Z]; [|destruct (Req_dec ratio 1) as [O|O]].
    + right. split; [left; exact Z|]. rewrite P0 by exact Z. lra.
    + right. split; [right; exact O|]. rewrite P1 by exact O. lra.
    + left. lra.
Qed.

Lemma upper_log g a b f ratio p v g1 x g2 : (1 <= e_steps g)%nat -> 0 < a -> 0 < b ->
  negligible (ln (Rmin a b)) (ln (Rmax a b)) = false ->
  integrate_ratio nan qags g a b f 4 ratio p = Some (Ok (v, g1)) -> (0 <= ratio \/ - ratio < v) ->
  get_upper_limit nan qags g1 = Some (Ok (x, g2)) -> Rmin a b <= x <= Rmax a b.
Proof.
  intros St A B N. unfold integrate_ratio. rewrite eqb_no by lra. cbn [andb]. rewrite !leb_no by lra. cbn [orb].
  unfold integrate_log_ratio. destruct (negligible a b) eqn:N0.
  - intros H _. apply done_inv in H. injection H as _ <-. unfold get_upper_limit. cbn [e_random_do empty_range e_min e_max]. rewrite N0.
    intro H. apply done_inv in H. injection H as <- _. unfold Rmin, Rmax. destruct (Rle_dec a b); lra.
  - set (lo := Rmin a b) in *. set (hi := Rmax a b) in *.
    assert (Lo : 0 < lo) by (unfold lo, Rmin; destruct (Rle_dec a b); lra).
    assert (Ll : lo < hi).
    { apply not_negligible in N0. unfold lo, hi, Rmin, Rmax. destruct (Rle_dec a b); lra. }
    unfold logarithm. rewrite !ltb_yes by lra. rewrite !fbind_Ok. cbv zeta.
    set (g0 := prepared _ _ _ _ _ _ _ _ _ _).
    assert (Lln : ln lo < ln hi) by (apply ln_increasing; lra).
    intros H Rat G. apply fbind_inv in H. destruct H as ((result & g3) & R3 & H). apply fbind_inv in H. destruct H as (random & Rd & H).
    apply done_inv in Rd. apply done_inv in H. injection H as Ev <-.
    destruct (romberg_opened_kept _ _ _ _ R3) as (K & P).
    assert (K' := K). unfold kept in K'. cbn in K'. injection K' as K1 K2 K3 K4 K5 K6 K7 K8.
    assert (U : usable (sampled g3 random result)).
    { apply (sampled_usable g0 g3 result ratio random); try assumption.
      - cbn. lra.
      - reflexivity.
      - intro Z. rewrite K6 in Rd. rewrite ltb_no in Rd; [injection Rd as <-; reflexivity|].
        destruct (Rltb_spec 1 ratio); lra.
      - intro Z. rewrite K6 in Rd. rewrite (ltb_no 1 ratio) in Rd by lra. rewrite ltb_yes in Rd by exact Z.
        destruct (quotient nan ratio _) as [r| |] eqn:Q; cbn in Rd; try discriminate. apply quotient_inv in Q. destruct Q as (_ & ->).
        injection Rd as <-. replace (- sign_of a b * result) with (- v) by lra.
        pose proof (inside_ratio ratio v Z ltac:(lra)) as I. rewrite clamp_inside; exact I. }
    destruct (upper_between (sampled g3 random result) x g2) as (y & Y & t & _ & _ & T & ->).
    + reflexivity.
    + cbn. rewrite K7, K8. exact N.
    + cbn. rewrite K7, K8. lra.
    + cbn. rewrite K3, K4, K7, K8. intro Z. rewrite Z. reflexivity.
    + exact U.
    + exact G.
    + cbn in T, Y. cbn. rewrite K1 in T. rewrite (T eq_refl), K2. rewrite K7, K8 in Y.
      split; [rewrite <- (exp_ln lo) by lra|rewrite <- (exp_ln hi) by lra];
        match goal with |- exp ?u <= exp ?w => destruct (Req_dec u w) as [->|]; [lra|left; apply exp_increasing; lra] end.
Qed.

(** The method with a substitution *)
Lemma Rpower_anti_le x y q : 0 < x <= y -> q < 0 -> Rpower y q <= Rpower x q.
Proof. intros H Q. destruct (Req_dec x y) as [->|]; [lra|]. left. apply Rpower_anti; lra. Qed.
Lemma Rpower_back x p : 0 < x -> p <> 0 -> Rpower (Rpower x (- 1 / p)) (- p) = x.
Proof. intros X P. rewrite Rpower_mult. replace (- 1 / p * - p) with 1 by (field; exact P). apply Rpower_1, X. Qed.
Lemma inverse_negative p : 0 < p -> - 1 / p < 0.
Proof. intro P. replace (- 1 / p) with (- / p) by (field; lra). assert (0 < / p) by (apply Rinv_0_lt_compat; lra). lra. Qed.

Lemma ratio_run g f p ratio u w (reverse : bool) s v g1 x g2 : (1 <= e_steps g)%nat -> u < w -> negligible u w = false ->
  (s = 1 \/ s = -1) ->
  (flet (result, g) := romberg_opened nan qags None
     (prepared g u w f p (e_random_do g) false (if 1 <? ratio then 1 else ratio) reverse (if reverse then u + w else e_reverse_x g)) in
   flet random := done (if e_random g <? 0
                        then olet r := quotient nan (e_random g) (- Rabs result) in Ok (clamp01 r)
                        else Ok (e_random g)) in
   done (Ok (s * result, sampled g random result))) = Some (Ok (v, g1)) ->
  (0 <= ratio \/ - ratio < Rabs v) -> get_upper_limit nan qags g1 = Some (Ok (x, g2)) ->
  exists y, u <= y <= w /\ (0 < p -> 0 < y /\ x = Rpower y (- p)) /\ (p < 0 -> y < 0 /\ x = - Rpower (- y) p) /\ (p = 0 -> x = y).
Proof.
  intros St L N Sg. set (g0 := prepared _ _ _ _ _ _ _ _ _ _).
  intros H Rat G. apply fbind_inv in H. destruct H as ((result & g3) & R3 & H). apply fbind_inv in H. destruct H as (random & Rd & H).
  apply done_inv in Rd. apply done_inv in H. injection H as Ev <-.
  destruct (romberg_opened_kept _ _ _ _ R3) as (K & P).
  assert (K' := K). unfold kept in K'. cbn in K'. injection K' as K1 K2 K3 K4 K5 K6 K7 K8.
  assert (U : usable (sampled g3 random result)).
  { apply (sampled_usable g0 g3 result ratio random); try assumption.
    - cbn. lra.
    - reflexivity.
    - intro Z. rewrite K6 in Rd. rewrite ltb_no in Rd; [injection Rd as <-; reflexivity|].
      destruct (Rltb_spec 1 ratio); lra.
    - intro Z. rewrite K6 in Rd. rewrite (ltb_no 1 ratio) in Rd by lra. rewrite ltb_yes in Rd by exact Z.
      destruct (quotient nan ratio _) as [r| |] eqn:Q; cbn in Rd; try discriminate. apply quotient_inv in Q. destruct Q as (_ & ->).
      injection Rd as <-. assert (Av : Rabs v = Rabs result).
      { rewrite <- Ev, Rabs_mult. destruct Sg as [->| ->]; [rewrite Rabs_R1|rewrite Rabs_left by lra]; ring. }
      pose proof (inside_ratio ratio (Rabs result) Z ltac:(lra)) as I. rewrite clamp_inside; exact I. }
  destruct (upper_between (sampled g3 random result) x g2) as (y & Y & t & T1 & T2 & T3 & ->).
  - reflexivity.
  - cbn. rewrite K7, K8. exact N.
  - cbn. rewrite K7, K8. lra.
  - cbn. rewrite K3, K4, K7, K8. intro Z. rewrite Z. reflexivity.
  - exact U.
  - exact G.
  - cbn in T1, T2, T3, Y. cbn. rewrite K1 in T1, T2, T3. rewrite K2. rewrite K7, K8 in Y. exists y. repeat split; try apply Y.
    + apply T1; assumption.
    + apply T1; assumption.
    + apply T2; assumption.
    + apply T2; assumption.
    + exact T3.
Qed.
Lemma Rpower_back' x p : 0 < x -> p <> 0 -> Rpower (Rpower x (1 / p)) p = x.
Proof. intros X P. rewrite Rpower_mult. replace (1 / p * p) with 1 by (field; exact P). apply Rpower_1, X. Qed.
Lemma upper_substitution g a b f ratio p v g1 x g2 : (1 <= e_steps g)%nat ->
  (0 < p -> 0 < a /\ 0 < b /\ negligible (Rpower (Rmax a b) (- 1 / p)) (Rpower (Rmin a b) (- 1 / p)) = false) ->
  (p < 0 -> a < 0 /\ b < 0 /\ negligible (- Rpower (- Rmax a b) (1 / p)) (- Rpower (- Rmin a b) (1 / p)) = false) ->
  (p = 0 -> (a <> 0 \/ b <> 0) /\ negligible (Rmin a b) (Rmax a b) = false) ->
  integrate_ratio nan qags g a b f 3 ratio p = Some (Ok (v, g1)) -> (0 <= ratio \/ - ratio < Rabs v) ->
  get_upper_limit nan qags g1 = Some (Ok (x, g2)) -> Rmin a b <= x <= Rmax a b.
Proof.
  intros St Pp Pn Pz. unfold integrate_ratio.
  assert (Nz : (a =? 0) && (b =? 0) = false).
  { apply andb_false_iff. destruct (Rtotal_order p 0) as [P|[P|P]].
    - destruct (Pn P) as (A & _). left. apply eqb_no. lra.
    - destruct (Pz P) as ([A|A] & _); [left|right]; apply eqb_no; exact A.
    - destruct (Pp P) as (A & _). left. apply eqb_no. lra. }
  rewrite Nz. unfold integrate_substitution_ratio. destruct (negligible a b) eqn:N0.
  - intros H _. apply done_inv in H. injection H as _ <-. unfold get_upper_limit. cbn [e_random_do empty_range e_min e_max]. rewrite N0.
    intro H. apply done_inv in H. injection H as <- _. unfold Rmin, Rmax. destruct (Rle_dec a b); lra.
  - set (lo := Rmin a b) in *. set (hi := Rmax a b) in *. cbv zeta.
    assert (Ll : lo < hi).
    { apply not_negligible in N0. unfold lo, hi, Rmin, Rmax. destruct (Rle_dec a b); lra. }
    assert (In : lo <= a /\ lo <= b /\ a <= hi /\ b <= hi).
    { unfold lo, hi, Rmin, Rmax. destruct (Rle_dec a b); lra. }
    assert (Is : (lo = a \/ lo = b) /\ (hi = a \/ hi = b)).
    { unfold lo, hi, Rmin, Rmax. destruct (Rle_dec a b); tauto. }
    assert (Sg : sign_of a b * 1 = 1 \/ sign_of a b * 1 = -1) by (destruct (sign_square a b) as [->| ->]; lra).
    destruct (Rltb_spec 0 p) as [P|P]; [|destruct (Rltb_spec p 0) as [Q|Q]].
    + destruct (Pp P) as (A & B & N). assert (0 < lo) by (destruct Is as ([->| ->] & _); assumption).
      rewrite !ltb_yes by lra. cbn [andb]. rewrite !power_pos by lra. cbn [obind]. rewrite fbind_Ok.
      intros H1 Rat G.
      destruct (ratio_run g f p ratio (Rpower hi (- 1 / p)) (Rpower lo (- 1 / p)) (negb (b <? a)) _ v g1 x g2 St
        (Rpower_anti lo hi _ ltac:(lra) (inverse_negative p P)) N Sg H1 Rat G) as (y & Y & T & _).
      destruct (T P) as (Yp & ->).
      rewrite <- (Rpower_back lo p), <- (Rpower_back hi p) by lra. split; apply Rpower_anti_le; try lra.
      split; [apply exp_pos|lra].
    + destruct (Pn Q) as (A & B & N). assert (hi < 0) by (destruct Is as (_ & [->| ->]); assumption).
      rewrite !ltb_yes by lra. cbn [andb]. rewrite !power_pos by lra. cbn [obind]. rewrite fbind_Ok.
      intros H1 Rat G. assert (I : 1 / p < 0) by (replace (1 / p) with (- 1 / - p) by (field; lra); apply inverse_negative; lra).
      pose proof (Rpower_anti (- hi) (- lo) (1 / p) ltac:(lra) I) as An.
      destruct (ratio_run g f p ratio (- Rpower (- hi) (1 / p)) (- Rpower (- lo) (1 / p)) (negb (b <? a)) _ v g1 x g2 St
        ltac:(lra) N Sg H1 Rat G) as (y & Y & _ & T & _).
      destruct (T Q) as (Yp & ->).
      assert (Bl := Rpower_back' (- lo) p ltac:(lra) ltac:(lra)). assert (Bh := Rpower_back' (- hi) p ltac:(lra) ltac:(lra)).
      assert (0 < Rpower (- lo) (1 / p)) by apply exp_pos.
      pose proof (Rpower_anti_le (Rpower (- lo) (1 / p)) (- y) p ltac:(lra) Q).
      pose proof (Rpower_anti_le (- y) (Rpower (- hi) (1 / p)) p ltac:(lra) Q). lra.
    + assert (Z : p = 0) by lra. destruct (Pz Z) as (_ & N). intros H1 Rat G. rewrite fbind_Ok in H1.
      destruct (ratio_run g f p ratio lo hi (b <? a) _ v g1 x g2 St Ll N Sg H1 Rat G) as (y & Y & _ & _ & T).
      rewrite (T Z). exact Y.
Qed.

(** ** Refuted: limits that are close, but not close enough for the test before
    the logarithm is taken, give the logarithm of the lower one. *)
Lemma upper_log_refuted g a b f ratio v g1 p : 0 < a < b -> negligible a b = false -> negligible (ln a) (ln b) = true ->
  integrate_ratio nan qags g a b f 4 ratio p = Some (Ok (v, g1)) ->
  exists g2, get_upper_limit nan qags g1 = Some (Ok (ln a, g2)).
Proof.
  intros L N N2. unfold integrate_ratio. rewrite eqb_no by lra. cbn [andb]. rewrite !leb_no by lra. cbn [orb].
  unfold integrate_log_ratio. rewrite N. destruct (order a b ltac:(lra)) as (-> & -> & ->).
  unfold logarithm. rewrite !ltb_yes by lra. rewrite !fbind_Ok. cbv zeta.
  intro H. apply fbind_inv in H. destruct H as ((result & g3) & R3 & H). apply fbind_inv in H. destruct H as (random & _ & H).
  apply done_inv in H. injection H as _ <-.
  destruct (romberg_opened_kept _ _ _ _ R3) as (K & _). unfold kept in K. cbn in K. injection K as K1 K2 K3 K4 K5 K6 K7 K8.
  unfold get_upper_limit. cbn [e_random_do sampled e_min e_max]. rewrite K7, K8, N2. eexists. reflexivity.
Qed.
End Upper.
