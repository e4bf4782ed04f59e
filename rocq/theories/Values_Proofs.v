(** The values of Integrate. *)
From Verif Require Import Prelude PreludeFacts Function_Model Integral_Model Function_Spec Integral_Spec Function_Proofs
  Trapezoid_Proofs Neville_Proofs Expansion_Proofs Romberg_Proofs Integral_Proofs.

Section Values.
Variable nan : forall A, outcome A.
Variable qags : (R -> outcome R) -> R -> R -> outcome R.

Lemma roomy_two g : roomy g -> (2 ^ Z.of_nat (e_steps g) <= INT_MAX)%Z.
Proof. intros (_ & H). assert (2 ^ Z.of_nat (e_steps g) <= 3 ^ Z.of_nat (e_steps g))%Z by (apply Z.pow_le_mono_l; lia). lia. Qed.
Lemma roomy_prepared g lo hi f p do lg rnd rev rx : roomy g -> roomy (prepared g lo hi f p do lg rnd rev rx).
Proof. intros ([A B C D] & E). split; [split|]; assumption. Qed.

Lemma ends_computed g0 F q sum r : ends nan qags g0 q sum own_scale r ->
  (forall x, e_min g0 < x < e_max g0 -> evaluate nan g0 x = Ok (F x)) ->
  computed qags F (e_min g0) (e_max g0) q sum (e_steps g0) (e_romberg g0) (e_precision g0) (finish 1 r).
Proof.
  intros (g' & _ & H) E. destruct H as [(v & -> & C)|E2].
  - left. exists v, g'. split; [|exact C]. cbn. rewrite Rmult_1_l. reflexivity.
  - right. exists (evaluate nan g0), g'. split; [exact E|]. rewrite E2. destruct (qags _ _ _); cbn; try reflexivity. rewrite Rmult_1_l. reflexivity.
Qed.
Lemma order a b : a < b -> Rmin a b = a /\ Rmax a b = b /\ sign_of a b = 1.
Proof. intro H. rewrite Rmin_left, Rmax_right by lra. unfold sign_of. rewrite ltb_no by lra. repeat split. Qed.
Lemma not_both_zero a b : a < b -> (a =? 0) && (b =? 0) = false.
Proof. intro H. destruct (Reqb_spec a 0), (Reqb_spec b 0); try reflexivity. lra. Qed.

(** Methods 1 and 2 *)
Lemma value_closed g a b f p F : roomy g -> a < b -> negligible a b = false -> (forall x, a <= x <= b -> f x = Ok (F x)) ->
  computed qags F a b 2 (trapezoid_sum F a b) (e_steps g) (e_romberg g) (e_precision g) (integrate nan qags g a b f 1 p).
Proof.
  intros Ro L N Hf. unfold integrate. rewrite not_both_zero by exact L. unfold integrate_closed, init_plain.
  destruct (order a b L) as (-> & -> & ->). cbv zeta. cbn [e_min e_max prepared]. rewrite N.
  set (g0 := prepared g a b f 0 false false (e_random g) false (e_reverse_x g)).
  assert (Ev : forall x, a <= x <= b -> evaluate nan g0 x = Ok (F x)).
  { intros x Hx. unfold evaluate, g0, prepared. cbn [e_reverse e_power e_log e_integrand]. destruct (Reqb_spec 0 0) as [_|X]; [|lra].
    cbn [obind]. rewrite Hf by exact Hx. cbn [obind]. rewrite Rmult_1_l. reflexivity. }
  apply (ends_computed g0 F 2 (trapezoid_sum F a b)).
  - apply (romberg_closed_ends nan qags g0 F).
    + apply (proj1 (roomy_prepared g a b f 0 false false (e_random g) false (e_reverse_x g) Ro)).
    + exact L.
    + intros x Hx. cbn in Hx. apply Ev. lra.
    + apply Ev. cbn. lra.
    + apply Ev. cbn. lra.
    + apply (roomy_two g Ro).
  - intros x Hx. cbn in Hx. apply Ev. lra.
Qed.
Lemma value_opened g a b f p F : roomy g -> e_random g = 0 \/ e_random g = 1 -> a < b -> negligible a b = false ->
  (forall x, a < x < b -> f x = Ok (F x)) ->
  computed qags F a b 3 (midpoint_sum F a b) (e_steps g) (e_romberg g) (e_precision g) (integrate nan qags g a b f 2 p).
Proof.
  intros Ro Rn L N Hf. unfold integrate. rewrite not_both_zero by exact L. unfold integrate_opened, init_plain.
  destruct (order a b L) as (-> & -> & ->). cbv zeta. cbn [e_min e_max prepared]. rewrite N.
  set (g0 := prepared g a b f 0 false false (e_random g) false (e_reverse_x g)).
  assert (Ev : forall x, a < x < b -> evaluate nan g0 x = Ok (F x)).
  { intros x Hx. unfold evaluate, g0, prepared. cbn [e_reverse e_power e_log e_integrand]. destruct (Reqb_spec 0 0) as [_|X]; [|lra].
    cbn [obind]. rewrite Hf by exact Hx. cbn [obind]. rewrite Rmult_1_l. reflexivity. }
  apply (ends_computed g0 F 3 (midpoint_sum F a b)); [|exact Ev].
  destruct (roomy_prepared g a b f 0 false false (e_random g) false (e_reverse_x g) Ro) as (R1 & R2).
  apply (romberg_opened_ends nan qags g0 F None R1 L); [exact Ev|exact Rn|exact R2].
Qed.
(** Method 4: the logarithm is the variable. *)
Lemma value_log g a b f p F : roomy g -> 0 < a < b -> negligible (ln a) (ln b) = false ->
  (forall x, a < x < b -> f x = Ok (F x)) ->
  computed qags (fun t => exp t * F (exp t)) (ln a) (ln b) 3 (midpoint_sum (fun t => exp t * F (exp t)) (ln a) (ln b))
    (e_steps g) (e_romberg g) (e_precision g) (integrate nan qags g a b f 4 p).
Proof.
  intros Ro L N Hf. unfold integrate. rewrite not_both_zero by lra. rewrite !leb_no by lra. cbn [orb].
  unfold integrate_log. destruct (order a b ltac:(lra)) as (-> & -> & ->). unfold logarithm. rewrite !ltb_yes by lra.
  unfold done at 1 2. cbn [fbind]. cbv zeta. cbn [e_min e_max prepared]. rewrite N.
  set (g0 := prepared g (ln a) (ln b) f 0 false true 0 false (e_reverse_x g)).
  assert (Lln : ln a < ln b) by (apply ln_increasing; lra).
  assert (Ev : forall t, ln a < t < ln b -> evaluate nan g0 t = Ok (exp t * F (exp t))).
  { intros t Ht. unfold evaluate, g0, prepared. cbn [e_reverse e_power e_log e_integrand]. destruct (Reqb_spec 0 0) as [_|X]; [|lra].
    cbn [obind]. rewrite Hf.
    - cbn [obind]. rewrite Rmult_1_l. reflexivity.
    - split; [rewrite <- (exp_ln a) by lra|rewrite <- (exp_ln b) by lra]; apply exp_increasing; lra. }
  apply (ends_computed g0 (fun t => exp t * F (exp t)) 3 (midpoint_sum (fun t => exp t * F (exp t)) (ln a) (ln b))); [|exact Ev].
  destruct (roomy_prepared g (ln a) (ln b) f 0 false true 0 false (e_reverse_x g) Ro) as (R1 & R2).
  apply (romberg_opened_ends nan qags g0 (fun t => exp t * F (exp t)) None R1 Lln); [exact Ev|left; reflexivity|exact R2].
Qed.
(** Method 3 with a positive power: x = t^(-p), for positive limits. *)
Lemma Rpower_anti x y q : 0 < x < y -> q < 0 -> Rpower y q < Rpower x q.
Proof. intros H Q. unfold Rpower. apply exp_increasing. assert (ln x < ln y) by (apply ln_increasing; lra). nra. Qed.
Lemma substituted_inside p a b t : 0 < p -> 0 < a < b -> Rpower b (- 1 / p) < t < Rpower a (- 1 / p) -> 0 < t /\ a < Rpower t (- p) < b.
Proof.
  intros P L T. assert (0 < Rpower b (- 1 / p)) by apply exp_pos.
  assert (X : forall x, 0 < x -> Rpower (Rpower x (- 1 / p)) (- p) = x).
  { intros x Hx. rewrite Rpower_mult. replace (- 1 / p * - p) with 1 by (field; lra). apply Rpower_1. exact Hx. }
  split; [lra|]. rewrite <- (X a), <- (X b) by lra. split; apply Rpower_anti; lra.
Qed.
Lemma value_substitution g a b f p F : roomy g -> 0 < p -> 0 < a < b ->
  negligible (Rpower b (- 1 / p)) (Rpower a (- 1 / p)) = false ->
  (forall x, a < x < b -> f x = Ok (F x)) ->
  computed qags (substituted F p) (Rpower b (- 1 / p)) (Rpower a (- 1 / p)) 3
    (midpoint_sum (substituted F p) (Rpower b (- 1 / p)) (Rpower a (- 1 / p)))
    (e_steps g) (e_romberg g) (e_precision g) (integrate nan qags g a b f 3 p).
Proof.
  intros Ro P L N Hf. unfold integrate. rewrite not_both_zero by lra.
  unfold integrate_substitution, init_substitution. destruct (order a b ltac:(lra)) as (-> & -> & ->).
  rewrite !ltb_yes by lra. cbn [andb]. rewrite !power_pos by lra. cbn [obind]. unfold done at 1. cbn [fbind].
  cbn [e_min e_max prepared]. rewrite N. replace (1 * 1) with 1 by lra.
  set (lo := Rpower b (- 1 / p)) in *. set (hi := Rpower a (- 1 / p)) in *.
  set (g0 := prepared _ _ _ _ _ _ _ _ _ _).
  assert (Llh : lo < hi).
  { apply Rpower_anti; [lra|]. replace (- 1 / p) with (- / p) by (field; lra). assert (0 < / p) by (apply Rinv_0_lt_compat; lra). lra. }
  assert (Ev : forall t, lo < t < hi -> evaluate nan g0 t = Ok (substituted F p t)).
  { intros t Ht. destruct (substituted_inside p a b t P L Ht) as (Tp & Ti).
    unfold evaluate, g0, prepared. cbn [e_reverse e_power e_log e_integrand]. rewrite eqb_no by lra. rewrite ltb_yes by lra.
    rewrite power_pos by lra. cbn [obind]. unfold quotient. rewrite eqb_no by lra. cbn [obind]. rewrite Hf by exact Ti. reflexivity. }
  apply (ends_computed g0 (substituted F p) 3 (midpoint_sum (substituted F p) lo hi)); [|exact Ev].
  assert (R1 : roomy g0) by (destruct Ro as ([A B C D] & E); split; [split|]; assumption).
  apply (romberg_opened_ends nan qags g0 (substituted F p) None (proj1 R1) Llh); [exact Ev|left; reflexivity|exact (proj2 R1)].
Qed.

Lemma converged_exact q sum steps m precision scale v d w : (1 <= q)%nat -> (S d <= m)%nat -> expands sum d w ->
  converged q sum steps m precision scale v -> v = w.
Proof.
  intros Q D (c & L & V & E) (first & _ & (_ & U) & _). rewrite <- V. symmetry. apply U.
  - unfold romberg_points. rewrite map_length, seq_length. lia.
  - intros p I. apply in_map_iff in I. destruct I as (j & <- & _). cbn [fst snd]. symmetry. apply E.
    assert (q ^ j <> 0)%nat by (apply Nat.pow_nonzero; lia). lia.
Qed.
(** Limits on both sides of zero: the range from the upper limit to infinity is
    integrated, and the sign is turned. *)
Lemma value_beyond g a b f (Exact : forall h lo hi, lo < hi -> (forall t, lo < t < hi -> h t = Ok 1) -> qags h lo hi = Ok (hi - lo)) :
  roomy g -> a <= 0 < b -> (forall x, b < x -> f x = Ok (/ x ^ 2)) ->
  exists g', integrate nan qags g a b f 3 1 = Some (Ok (- / b, g')).
Proof.
  intros Ro L Hf. unfold integrate. rewrite not_both_zero by lra.
  unfold integrate_substitution, init_substitution. destruct (order a b ltac:(lra)) as (-> & -> & ->).
  rewrite (ltb_yes 0 1), (ltb_yes 0 b), (ltb_no 0 a) by lra. cbn [andb]. rewrite power_pos by lra. cbn [obind].
  unfold done at 1. cbn [fbind]. cbn [e_min e_max prepared].
  replace (Rpower b (- 1 / 1)) with (/ b) by (replace (- 1 / 1) with (Ropp 1) by lra; rewrite Rpower_Ropp, Rpower_1 by lra; reflexivity).
  assert (Pb : 0 < / b) by (apply Rinv_0_lt_compat; lra).
  replace (negligible 0 (/ b)) with false by (symmetry; unfold negligible; apply leb_no; rewrite Rabs_R0, Rabs_right; lra).
  set (g0 := prepared _ _ _ _ _ _ _ _ _ _).
  assert (Ev : forall t, 0 < t < / b -> evaluate nan g0 t = Ok (polynomial [1] t)).
  { intros t Ht. unfold evaluate, g0, prepared. cbn [e_reverse e_power e_log e_integrand]. rewrite (eqb_no 1 0), ltb_yes by lra.
    rewrite power_pos by lra. cbn [obind]. unfold quotient. rewrite eqb_no by lra. cbn [obind].
    rewrite Rpower_Ropp, Rpower_1 by lra. rewrite Hf.
    - cbn [obind]. apply f_equal. rewrite polynomial_cons, polynomial_nil. field. lra.
    - rewrite <- (Rinv_inv b). apply Rinv_lt_contravar; [|lra]. apply Rmult_lt_0_compat; lra. }
  assert (R1 : roomy g0) by (destruct Ro as ([A B C D] & E); split; [split|]; assumption).
  destruct (romberg_opened_ends nan qags g0 (polynomial [1]) None (proj1 R1) Pb Ev (or_introl eq_refl) (proj2 R1)) as (g' & _ & H).
  exists g'. cbn [e_min e_max g0 prepared] in H. fold g0 in H.
  assert (Ex : expands (midpoint_sum (polynomial [1]) 0 (/ b)) (e_romberg g0 - 1) (/ b)).
  { assert (X : expands (midpoint_sum (polynomial [1]) 0 (/ b)) (e_romberg g0 - 1) (id (/ b) - id 0)).
    { apply midpoint_expansion; [cbn [length]; lia|].
      intro x. rewrite polynomial_cons, polynomial_nil. replace (1 + x * 0) with 1 by lra. apply derivable_pt_lim_id. }
    unfold id in X. rewrite Rminus_0_r in X. exact X. }
  destruct H as [(v & -> & C)| ->].
  - assert (v = / b) as ->.
    { apply (converged_exact 3 _ _ _ _ _ v (e_romberg g0 - 1) (/ b)) in C; [exact C|lia| |exact Ex].
      destruct R1 as ([M _ _ _] & _). lia. }
    cbn. replace (1 * -1 * / b) with (- / b) by lra. reflexivity.
  - rewrite Exact; [|exact Pb|].
    + cbn. replace (1 * -1 * (/ b - 0)) with (- / b) by lra. reflexivity.
    + intros t Ht. rewrite Ev by exact Ht. apply f_equal. rewrite polynomial_cons, polynomial_nil. lra.
Qed.

(** ** A random number left by an earlier call does not change the value. *)
Definition calm (g : engine) : engine :=
  mkengine (e_steps g) (e_refine_steps g) (e_romberg g) (e_romberg_refine g) (e_precision g) (e_work g) (e_ix g) (e_iy g)
    (e_min g) (e_max g) (e_integrand g) (e_power g) (e_random_do g) (e_log g) 0 0 (e_reverse g) (e_reverse_x g) (e_saved g).
Lemma calm_facts g g1 : calm g = calm g1 -> e_ix g = e_ix g1 /\ e_iy g = e_iy g1 /\ e_romberg g = e_romberg g1 /\ e_precision g = e_precision g1 /\
  e_min g = e_min g1 /\ e_max g = e_max g1 /\ e_steps g = e_steps g1 /\ evaluate nan g = evaluate nan g1 /\ interpolate g = interpolate g1 /\
  trapezoid3 nan g = trapezoid3 nan g1.
Proof.
  intro H.
  assert (A : evaluate nan g = evaluate nan g1) by (change (evaluate nan (calm g) = evaluate nan (calm g1)); rewrite H; reflexivity).
  assert (B : interpolate g = interpolate g1) by (change (interpolate (calm g) = interpolate (calm g1)); rewrite H; reflexivity).
  assert (C : trapezoid3 nan g = trapezoid3 nan g1) by (change (trapezoid3 nan (calm g) = trapezoid3 nan (calm g1)); rewrite H; reflexivity).
  unfold calm in H. injection H as H1 H2 H3 H4 H5 H6 H7 H8 H9 H10 H11 H12 H13 H14 H15 H16 H17.
  repeat (split; [assumption|]). assumption.
Qed.
Lemma trapezoid3s_calm g k result i r g1 : trapezoid3s nan g k result i = Some (Ok (r, g1)) ->
  trapezoid3 nan g k result = Some (Ok r) /\ calm g1 = calm g.
Proof.
  intro H. split; [apply (trapezoid3s_sum nan g k result i r g1 H)|]. revert H. unfold trapezoid3s. destruct (k =? 1)%Z.
  - destruct (evaluate _ _ _); unfold done; cbn [obind]; intro H; inversion H; reflexivity.
  - destruct (if Nat.leb _ _ then _ else _) as [small| |]; try discriminate. unfold done at 1. cbn [fbind].
    destruct (trapezoid3s_loop _ _ _ _ _ _ _ _ _ _ _) as [[[sum found]| |]|] eqn:E; try discriminate. cbn [fbind].
    intro H. inversion H. destruct (Nat.leb _ _); reflexivity.
Qed.
Lemma opened_loop_calm : forall steps g g1 i k n result v g', calm g = calm g1 -> e_random g1 = 0 ->
  opened_loop nan qags steps None g i k n result = Some (Ok (v, g')) ->
  exists g1', opened_loop nan qags steps None g1 i k n result = Some (Ok (v, g1')).
Proof.
  induction steps as [|steps IH]; intros g g1 i k n result v g' Cm Rn; cbn [opened_loop];
    destruct (calm_facts _ _ Cm) as (Ex & Ey & Er & Ep & Emin & Emax & Es & Ev & Ei & Et).
  - rewrite Ev, Emin, Emax. destruct (qags _ _ _) as [w| |]; try discriminate. intro H. inversion H. eexists. reflexivity.
  - rewrite Rn. destruct (Reqb_spec 0 0) as [_|X]; [|lra]. cbn [orb].
    set (x := if _ || _ then _ else _).
    assert (X : forall r g2, x = Some (Ok (r, g2)) -> trapezoid3 nan g1 k result = Some (Ok r) /\ calm g2 = calm g).
    { intros r g2. unfold x. rewrite <- Et. destruct (_ || _).
      - destruct (trapezoid3 nan g k result) as [[w| |]|]; try discriminate. intro H. inversion H. split; reflexivity.
      - intro H. apply (trapezoid3s_calm _ _ _ _ _ _ H). }
    destruct x as [[(r & g2)| |]|]; try discriminate. destruct (X r g2 eq_refl) as (-> & Cg). clear X.
    cbn [done fbind].
    destruct (calm_facts _ _ Cg) as (Ex2 & Ey2 & _).
    set (g3 := with_x g1 (e_min g1)). change (e_ix g3) with (e_ix g1). change (e_iy g3) with (e_iy g1). rewrite Ex2, Ey2, Ex, Ey.
    destruct (arr_set (e_ix g1) i n) as [ix| |]; try discriminate.
    destruct (arr_set (e_iy g1) i r) as [iy| |]; try discriminate. cbn [done fbind].
    assert (Cb : calm (with_buffers g2 ix iy) = calm (with_buffers g3 ix iy)).
    { change (with_buffers (calm g2) ix iy = with_buffers (calm g3) ix iy). change (calm g3) with (calm g1). rewrite Cg, Cm. reflexivity. }
    destruct (calm_facts _ _ Cb) as (_ & _ & Er4 & Ep4 & _ & _ & _ & _ & Ei4 & _).
    rewrite Er4, Ep4, Ei4.
    assert (Next : forall k0, (flet k0 := done k0 in opened_loop nan qags steps None (with_buffers g2 ix iy) (S i) k0 (n / 9) r) = Some (Ok (v, g')) ->
      exists g1', (flet k0 := done k0 in opened_loop nan qags steps None (with_buffers g3 ix iy) (S i) k0 (n / 9) r) = Some (Ok (v, g1'))).
    { intros [k0| |]; try discriminate. cbn [done fbind]. apply IH; [exact Cb|exact Rn]. }
    destruct (Nat.leb _ _); [|apply Next].
    destruct (interpolate _ _ _) as [(w & e)| |]; try discriminate. cbn [done fbind].
    cbn [done fbind]. destruct (_ <? _); [|apply Next].
    intro H. inversion H. eexists. reflexivity.
Qed.
Lemma value_opened_stale g a b f p F v g' : roomy g -> a < b -> negligible a b = false ->
  (forall x, a < x < b -> f x = Ok (F x)) -> integrate nan qags g a b f 2 p = Some (Ok (v, g')) ->
  exists g1, computed qags F a b 3 (midpoint_sum F a b) (e_steps g) (e_romberg g) (e_precision g) (Some (Ok (v, g1 : engine))).
Proof.
  intros Ro L N Hf H.
  assert (X : exists g1, integrate nan qags (calm g) a b f 2 p = Some (Ok (v, g1))).
  { clear N. revert H. unfold integrate. destruct (_ && _); [intro H; inversion H; eexists; reflexivity|].
    unfold integrate_opened. cbv zeta. change (e_min (init_plain (calm g) a b f)) with (e_min (init_plain g a b f)).
    change (e_max (init_plain (calm g) a b f)) with (e_max (init_plain g a b f)).
    destruct (negligible _ _); [intro H; inversion H; eexists; reflexivity|].
    unfold romberg_opened. change (e_steps (init_plain (calm g) a b f)) with (e_steps (init_plain g a b f)).
    destruct (opened_loop nan qags _ None (init_plain g a b f) _ _ _ _) as [[(w & g2)| |]|] eqn:E; try discriminate.
    destruct (opened_loop_calm _ (init_plain g a b f) (init_plain (calm g) a b f) _ _ _ _ _ _ eq_refl eq_refl E) as (g3 & ->).
    intro H. cbn in H. inversion H. eexists. reflexivity. }
  destruct X as (g1 & E). exists g1. rewrite <- E.
  apply (value_opened (calm g) a b f p F); try assumption; [|left; reflexivity].
  destruct Ro as ([A B C D] & M). split; [split|]; assumption.
Qed.

(** ** Polynomials are integrated exactly. *)
Lemma computed_exact F lo hi q sum steps m precision d w (r : run (R * engine)) : (1 <= q)%nat -> (S d <= m)%nat -> expands sum d w ->
  computed qags F lo hi q sum steps m precision r -> computed_exactly qags F lo hi w r.
Proof.
  intros Q D E [(v & g & -> & C)|H]; [left|right; exact H].
  exists g. rewrite (converged_exact q sum steps m precision own_scale v d w Q D E C). reflexivity.
Qed.
Lemma exact_closed g a b c p G : roomy g -> a < b -> negligible a b = false -> (length c <= 2 * e_romberg g)%nat ->
  (forall x, derivable_pt_lim G x (polynomial c x)) ->
  computed_exactly qags (polynomial c) a b (G b - G a) (integrate nan qags g a b (fun x => Ok (polynomial c x)) 1 p).
Proof.
  intros Ro L N Lc DG. destruct (proj1 Ro) as [M _ _ _].
  apply (computed_exact _ _ _ 2 (trapezoid_sum (polynomial c) a b) (e_steps g) (e_romberg g) (e_precision g) (e_romberg g - 1)); [lia|lia| |].
  - apply trapezoid_expansion; [lia|exact DG].
  - apply value_closed; try assumption. reflexivity.
Qed.
Lemma exact_opened g a b c p G : roomy g -> e_random g = 0 \/ e_random g = 1 -> a < b -> negligible a b = false ->
  (length c <= 2 * e_romberg g)%nat -> (forall x, derivable_pt_lim G x (polynomial c x)) ->
  computed_exactly qags (polynomial c) a b (G b - G a) (integrate nan qags g a b (fun x => Ok (polynomial c x)) 2 p).
Proof.
  intros Ro Rn L N Lc DG. destruct (proj1 Ro) as [M _ _ _].
  apply (computed_exact _ _ _ 3 (midpoint_sum (polynomial c) a b) (e_steps g) (e_romberg g) (e_precision g) (e_romberg g - 1)); [lia|lia| |].
  - apply midpoint_expansion; [lia|exact DG].
  - apply value_opened; try assumption. reflexivity.
Qed.
(** A polynomial in the logarithm over x *)
Lemma exact_log g a b c p G : roomy g -> 0 < a < b -> negligible (ln a) (ln b) = false ->
  (length c <= 2 * e_romberg g)%nat -> (forall t, derivable_pt_lim G t (polynomial c t)) ->
  computed_exactly qags (fun t => exp t * (polynomial c (ln (exp t)) / exp t)) (ln a) (ln b) (G (ln b) - G (ln a))
    (integrate nan qags g a b (fun x => Ok (polynomial c (ln x) / x)) 4 p).
Proof.
  intros Ro L N Lc DG. destruct (proj1 Ro) as [M _ _ _].
  apply (computed_exact _ _ _ 3 (midpoint_sum (fun t => exp t * (polynomial c (ln (exp t)) / exp t)) (ln a) (ln b))
    (e_steps g) (e_romberg g) (e_precision g) (e_romberg g - 1)); [lia|lia| |].
  - apply (expands_ext (midpoint_sum (polynomial c) (ln a) (ln b))); [|apply midpoint_expansion; [lia|exact DG]].
    intros n _. apply midpoint_linear. intro t. rewrite ln_exp. field. apply Rgt_not_eq, exp_pos.
  - apply (value_log g a b _ p (fun x => polynomial c (ln x) / x)); try assumption. reflexivity.
Qed.
End Values.
