(** Proofs about leptonic decays: C34. *)
From Coquelicot Require Import Coquelicot.
From Verif Require Import Prelude PreludeFacts Vec_Model Vec_Proofs Propagator_Model Math_Model Math_Spec Math_Proofs Particle_Model
  Particle_Spec Particle_Proofs Shapes_Spec Decay_Model Decay_Spec Decay_Proofs ManyBody_Proofs.

(** ** The energies *)
Lemma lepton_energies m M x : 0 < m < M -> x <= 1 -> let emax := (M * M + m * m) / (2 * M) in
  let e := Rmax (x * emax) m in let p := sqrt ((e - m) * (e + m)) in
  m <= e <= emax /\ p * p = e * e - m * m /\ 0 <= p /\ 0 < M - e /\
  (M - e - p) * (M - e + p) = 2 * M * (emax - e).
Proof.
  intros H Hx emax e p. assert (E : M * M + m * m = 2 * M * emax) by (unfold emax; field; lra).
  assert (Hm : m <= emax). { apply (Rmult_le_reg_l (2 * M)); [lra|]. rewrite <- E. nra. }
  assert (HM : emax < M). { apply (Rmult_lt_reg_l (2 * M)); [lra|]. rewrite <- E. nra. }
  assert (He : m <= e <= emax). { unfold e. split; [apply Rmax_r|]. apply Rmax_lub; auto. nra. }
  assert (Hp : p * p = e * e - m * m). { unfold p. rewrite sqrt_sqrt by nra. ring. }
  assert (0 <= p) by apply sqrt_pos.
  splits; auto; lra.
Qed.

(** A root above one leaves the neutrinos an imaginary mass. *)
Lemma lepton_too_fast m M x : 0 < m < M -> 1 < x -> let emax := (M * M + m * m) / (2 * M) in
  let e := Rmax (x * emax) m in let p := sqrt ((e - m) * (e + m)) in (M - e - p) * (M - e + p) < 0.
Proof.
  intros H Hx emax e p. assert (E : M * M + m * m = 2 * M * emax) by (unfold emax; field; lra).
  assert (Hm : m <= emax). { apply (Rmult_le_reg_l (2 * M)); [lra|]. rewrite <- E. nra. }
  assert (He : emax < e). { unfold e. apply Rlt_le_trans with (x * emax); [nra|apply Rmax_l]. }
  assert (Hp : p * p = e * e - m * m). { unfold p. rewrite sqrt_sqrt by nra. ring. }
  replace ((M - e - p) * (M - e + p)) with (2 * M * (emax - e)) by (rewrite Rmult_minus_distr_l, <- E; nra). nra.
Qed.
(** The root search gives a value or NaN if the function changes its sign. *)
Lemma newton_loop_fine f df xacc : forall steps s, fine (newton_loop f df (marked R) xacc steps s).
Proof.
  induction steps as [|k IH]; intro s; cbn [newton_loop]; [left; eexists; reflexivity|].
  assert (F : fine (newton_step f df (marked R) xacc s)).
  { destruct s. unfold newton_step. cbv zeta.
    repeat match goal with |- fine (if ?b then _ else _) => destruct b end; try (left; eexists; reflexivity); right; reflexivity. }
  destruct F as [(r & ->)| ->]; [|right; reflexivity]. cbn [obind]. destruct r as [s'|x]; [apply IH|left; eexists; reflexivity].
Qed.
Lemma newton_fine f df x1 x2 x0 steps xacc : f x1 * f x2 <= 0 -> fine (newton_raphson f df (marked R) x1 x2 x0 steps xacc).
Proof.
  intro H. unfold newton_raphson. cbv zeta. destruct (Rltb_spec 0 (f x1 * f x2)) as [|_]; [lra|].
  destruct (f x1 =? 0); [left; eexists; reflexivity|]. destruct (f x2 =? 0); [left; eexists; reflexivity|].
  destruct (f x1 <? 0); apply newton_loop_fine.
Qed.

Section Leptonic.
Variables (nan : forall A, outcome A) (reg : registry).
Variables (rate_at : R -> R -> R) (differential_at : R -> R).
Variables (lepton neutrino anti_neutrino parent : pdef) (c : pstate) (r0 r1 r2 r3 r4 : R).
Let m := pd_mass lepton.
Let M := pd_mass parent.
Let emax := (M * M + m * m) / (2 * M).
Let right_side := rate_at (m / emax) 0 + (rate_at 1 0 - rate_at (m / emax) 0) * r0.

(** What is left once the root is found. *)
Definition leptonic_tail (root : R) : outcome (list particle) :=
  let e := Rmax (root * emax) m in
  let p := sqrt ((e - m) * (e + m)) in
  let lep := product lepton c (random_direction r1 r2) e in
  let en := M - e in
  let y := (en - p) * (en + p) in
  olet v := (if y <? 0 then nan R else Ok (sqrt y)) in
  let dir := random_direction r3 r4 in
  let nu := product neutrino c dir (1 / 2 * v) in
  let anti := product anti_neutrino c (vneg dir) (1 / 2 * v) in
  olet gamma := quot nan en v in
  olet betagamma := quot nan p v in
  olet nu := boost nan reg nu (direction (p_state lep)) gamma betagamma in
  olet anti := boost nan reg anti (direction (p_state lep)) gamma betagamma in
  to_lab nan reg parent c [lep; nu; anti].
Hypothesis Masses : 0 < m < M.
Lemma emax_pos : 0 < emax.
Proof. unfold emax. apply Rdiv_lt_0_compat; nra. Qed.
Lemma leptonic_split :
  leptonic_decay nan reg rate_at differential_at lepton neutrino anti_neutrino parent c r0 r1 r2 r3 r4 =
  olet root := newton_raphson (fun x => rate_at x right_side) differential_at (nan R) (m / emax) 1 (1 / 2) 40 (1 / 1000) in
  leptonic_tail root.
Proof.
  unfold leptonic_decay. fold m M. cbv zeta. unfold quot at 1. destruct (Reqb_spec (2 * M) 0); [lra|]. cbn [obind].
  unfold quot at 1. fold emax. destruct (Reqb_spec emax 0) as [E|_]; [pose proof emax_pos; lra|]. cbn [obind]. reflexivity.
Qed.

Hypothesis Neutrinos : pd_mass neutrino = 0 /\ pd_mass anti_neutrino = 0.
Hypothesis Registered : Forall (registered reg) [lepton; neutrino; anti_neutrino].
Hypothesis State : M <= energy c /\ unit (direction c).
Hypothesis Random : 0 <= r2 <= 1 /\ 0 <= r4 <= 1.

Lemma tail_inv root : not_a_value nan -> forall out, leptonic_tail root = Ok out ->
  decay_products [lepton; neutrino; anti_neutrino] M c out.
Proof.
  intros N out H. destruct (Rle_dec root 1) as [Hx|Hx].
  2:{ exfalso. pose proof (lepton_too_fast m M root Masses ltac:(lra)) as Neg. unfold leptonic_tail in H. fold emax in Neg. cbv zeta in *.
      rewrite (proj2 (Rltb_true _ 0) Neg) in H. exact (not_value_bind _ _ _ N H). }
  destruct (lepton_energies m M root Masses Hx) as (He & Hp & Hp0 & Hn & Hy).
  unfold leptonic_tail in H. fold emax in Hy, Hp, Hp0, Hn, He. cbv zeta in *.
  set (e := Rmax (root * emax) m) in *. set (p := sqrt ((e - m) * (e + m))) in *.
  pose proof emax_pos as PE. destruct (Rltb_spec ((M - e - p) * (M - e + p)) 0) as [|Ny]; [nra|]. cbn [obind] in H.
  set (v := sqrt ((M - e - p) * (M - e + p))) in *.
  assert (Hv : v * v = (M - e) * (M - e) - p * p). { unfold v. rewrite sqrt_sqrt by lra. ring. }
  assert (Hv0 : 0 <= v) by apply sqrt_pos.
  unfold quot in H. destruct (Reqb_spec v 0) as [Zv|Nv].
  { exfalso. cbn in H. exact (not_value_bind _ _ _ N H). }
  cbn [obind] in H. destruct Random as [Hr2 Hr4]. destruct State as [HE U]. destruct Neutrinos as [Z1 Z2].
  pose proof (random_direction_unit r1 r2 Hr2) as UD. pose proof (random_direction_unit r3 r4 Hr4) as UN.
  set (dir := random_direction r1 r2) in *. set (dn := random_direction r3 r4) in *.
  set (lep := product lepton c dir e) in *. set (nu := product neutrino c dn (1 / 2 * v)) in *.
  set (anti := product anti_neutrino c (vneg dn) (1 / 2 * v)) in *.
  assert (Pv : 0 < v) by lra.
  assert (G : (M - e) / v * ((M - e) / v) - p / v * (p / v) = 1).
  { replace ((M - e) / v * ((M - e) / v) - p / v * (p / v)) with (((M - e) * (M - e) - p * p) / (v * v)) by (field; lra).
    rewrite Hv. field. rewrite <- Hv. nra. }
  assert (G1 : 1 <= (M - e) / v).
  { apply (Rmult_le_reg_r v); auto. unfold Rdiv. rewrite Rmult_assoc, Rinv_l by lra. nra. }
  inversion Registered as [|? ? RL R']; subst. inversion R' as [|? ? RN R'']; subst. inversion R'' as [|? ? RA _]; subst.
  destruct RL as (dl & LL & EL). destruct RN as (d1 & L1 & E1). destruct RA as (d2 & L2 & E2).
  apply obind_Ok in H. destruct H as (nu' & B1 & H). apply obind_Ok in H. destruct H as (anti' & B2 & H).
  assert (SN : shells reg [0; 0] [nu; anti]).
  { constructor; [split; [exists d1; split; [auto|congruence]|split; [cbn; lra|exact UN]]|].
    constructor; [split; [exists d2; split; [auto|congruence]|split; [cbn; lra|apply unit_vneg; exact UN]]|]. constructor. }
  assert (BA : boost_all nan reg [nu; anti] dir ((M - e) / v) (p / v) = Ok [nu'; anti']).
  { cbn [boost_all]. change (direction (p_state lep)) with dir in B1, B2. rewrite B1. cbn [obind]. rewrite B2. reflexivity. }
  destruct (boost_all_inv nan reg [0; 0] [nu; anti] dir _ _ _ N SN UD G G1 BA) as (SP & SN' & EB).
  pose proof (f_equal fst EB) as F1. pose proof (f_equal snd EB) as F2. unfold boosted in F1, F2. cbn [fst snd] in F1, F2.
  assert (T1 : total_energy [nu; anti] = v). { unfold total_energy. cbn. lra. }
  assert (T2 : total_momentum [0; 0] [nu; anti] = mkvec 0 0 0).
  { cbn [total_momentum]. unfold momentum_vec. cbn [p_state product energy direction nu anti].
    destruct dn. unfold vadd, scale, vneg. cbn. f_equal; ring. }
  rewrite T1, T2 in F1, F2.
  assert (SH : shells reg [m; 0; 0] [lep; nu'; anti']).
  { constructor; [|exact SN']. split; [exists dl; split; auto|]. split; [cbn; lra|exact UD]. }
  destruct (to_lab_inv nan reg N parent c [m; 0; 0] [lep; nu'; anti'] out) as (SP' & SH' & TE & TP); auto.
  { fold M. lra. }
  { change (e + total_energy [nu'; anti'] = M). rewrite F1. unfold dot. cbn. field. lra. }
  { cbn [total_momentum] in F2 |- *. rewrite F2. unfold momentum_vec at 1. cbn [p_state product energy direction lep].
    rewrite <- Hp, sqrt_square by auto. clear - Pv. destruct dir. unfold vadd, scale, dot. cbn. f_equal; field; lra. }
  apply (products_spec reg); auto.
  - eapply made_places; [|exact SP']. inversion SP as [|? ? ? ? S1 S']; subst. inversion S' as [|? ? ? ? S2 _]; subst.
    constructor; [repeat split|]. constructor; [eapply made_place; [|exact S1]; repeat split|].
    constructor; [eapply made_place; [|exact S2]; repeat split|]. constructor.
  - cbn [map]. rewrite Z1, Z2. exact SH'.
  - cbn [map]. rewrite Z1, Z2. exact TP.
Qed.

Lemma c34_conserved out : not_a_value nan ->
  leptonic_decay nan reg rate_at differential_at lepton neutrino anti_neutrino parent c r0 r1 r2 r3 r4 = Ok out ->
  decay_products [lepton; neutrino; anti_neutrino] M c out.
Proof.
  intros N H. rewrite leptonic_split in H. apply obind_Ok in H. destruct H as (root & HR & H). eapply tail_inv; eauto.
Qed.
End Leptonic.

(** ** The spectra *)
Lemma increasing_from (f df : R -> R) a b : a <= b ->
  (forall x, a < x < b -> is_derive f x (df x)) -> (forall x, a <= x <= b -> continuity_pt f x) ->
  (forall x, a < x <= b -> 0 < df x) -> 0 <= df a ->
  forall x y, a <= x < y -> y <= b -> f x < f y.
Proof.
  intros Hab D C P P0 x y Hx Hy. set (z := (x + y) / 2).
  assert (L : forall u v, a <= u < v -> v <= b -> exists w, u <= w <= v /\ f v - f u = df w * (v - u)).
  { intros u v Hu Hv. destruct (MVT_gen f u v df) as (w & Hw & E).
    - rewrite Rmin_left, Rmax_right by lra. intros t Ht. apply D. lra.
    - rewrite Rmin_left, Rmax_right by lra. intros t Ht. apply C. lra.
    - rewrite Rmin_left, Rmax_right in Hw by lra. eauto. }
  destruct (L x z) as (w1 & W1 & E1); [unfold z; lra|unfold z; lra|].
  destruct (L z y) as (w2 & W2 & E2); [unfold z; lra|unfold z; lra|].
  assert (0 <= df w1). { destruct (Req_dec w1 a) as [->|]; auto. left. apply P. unfold z in W1. lra. }
  assert (0 < df w2). { apply P. unfold z in W2. lra. }
  assert (0 <= f z - f x). { rewrite E1. apply Rmult_le_pos; auto. unfold z. lra. }
  assert (0 < f y - f z). { rewrite E2. apply Rmult_lt_0_compat; auto. unfold z. lra. }
  lra.
Qed.

Lemma approx_derive rs x : is_derive (fun x => approx_rate x rs) x (approx_differential x).
Proof. unfold approx_rate, approx_differential. auto_derive; auto. field. Qed.
Lemma approx_increasing rs x y : 0 <= x < y -> y <= 1 -> approx_rate x rs < approx_rate y rs.
Proof.
  intros H Hy. apply (increasing_from (fun x => approx_rate x rs) approx_differential 0 1); auto; try lra.
  - intros; apply approx_derive.
  - intros t _. apply derivable_continuous_pt. exists (approx_differential t). apply is_derive_Reals, approx_derive.
  - intros t Ht. unfold approx_differential. apply Rmult_lt_0_compat; [|lra]. apply Rmult_lt_0_compat; lra.
  - unfold approx_differential. lra.
Qed.

Section Exact.
Variables m M : R.
Hypothesis Masses : 0 < m < M.
Let emax := (M * M + m * m) / (2 * M).
Lemma emax_facts : M * M + m * m = 2 * M * emax /\ m < emax < M.
Proof.
  assert (E : M * M + m * m = 2 * M * emax) by (unfold emax; field; lra). split; auto. split.
  - apply (Rmult_lt_reg_l (2 * M)); [lra|]. rewrite <- E. nra.
  - apply (Rmult_lt_reg_l (2 * M)); [lra|]. rewrite <- E. nra.
Qed.
Lemma exact_derive E rs x : m < E * x ->
  is_derive (fun x => 3 / 2 * (m * m) * (m * m) * M * ln (sqrt (E * x * (E * x) - m * m) + E * x) +
    sqrt (E * x * (E * x) - m * m) * ((M * M + m * m - M * (E * x)) * (E * x * (E * x) - m * m) - 3 / 2 * M * (E * x) * (m * m)) - rs)
    x (differential m M E x).
Proof.
  intros Hx. assert (HP : 0 < E * x * (E * x) - m * m) by nra. pose proof (sqrt_lt_R0 _ HP) as SP.
  auto_derive.
  - assert (0 < sqrt (E * x * (E * x) + - (m * m)) + E * x).
    { replace (E * x * (E * x) + - (m * m)) with (E * x * (E * x) - m * m) by ring. lra. }
    repeat split; auto; lra.
  - unfold differential. cbv zeta.
    replace (E * x * (E * x) + - (m * m)) with (E * x * (E * x) - m * m) by ring.
    assert (SS : sqrt (E * x * (E * x) - m * m) * sqrt (E * x * (E * x) - m * m) = E * x * (E * x) - m * m) by (apply sqrt_sqrt; lra).
    set (s := sqrt (E * x * (E * x) - m * m)) in *. set (e := E * x) in *.
    assert (Ee : e * e = s * s + m * m) by lra.
    apply (Rmult_eq_reg_r (2 * s * (s + e))); [|nra].
    field_simplify; try lra.
    assert (M2 : m ^ 2 = e * e - s * s) by lra.
    assert (M4 : m ^ 4 = (e * e - s * s) * (e * e - s * s)) by (rewrite <- M2; ring).
    rewrite M4, M2. clearbody e s. field.
Qed.
Lemma differential_pos x : m < emax * x -> x <= 1 -> 0 < differential m M emax x.
Proof.
  intros Hx H1. destruct emax_facts as [E He]. unfold differential. cbv zeta. set (e := emax * x) in *.
  assert (e <= emax) by (unfold e; nra). apply Rmult_lt_0_compat.
  - apply Rmult_lt_0_compat; [lra|]. apply sqrt_lt_R0. nra.
  - assert (A : 0 < 3 * m * (M - m) * (M - m)). { apply Rmult_lt_0_compat; [apply Rmult_lt_0_compat|]; lra. }
    assert (B : 0 < 2 * M * (emax * emax - m * m)). { apply Rmult_lt_0_compat; nra. }
    assert (C : 0 <= (e - m) * (emax - e)). { apply Rmult_le_pos; lra. }
    assert (K : forall t, M * t * (3 * M - 4 * t) + m * m * (3 * t - 2 * M) = 6 * M * emax * t - 4 * M * (t * t) - 2 * M * (m * m)).
    { intros t. replace (M * t * (3 * M - 4 * t) + m * m * (3 * t - 2 * M)) with (3 * (M * M + m * m) * t - 4 * M * (t * t) - 2 * M * (m * m)) by ring.
      rewrite E. ring. }
    rewrite K. assert (A' : 0 < 6 * M * emax * m - 4 * M * (m * m) - 2 * M * (m * m)) by (rewrite <- K; nra).
    assert (B' : 0 < 6 * M * emax * emax - 4 * M * (emax * emax) - 2 * M * (m * m)) by nra.
    set (g := 6 * M * emax * e - 4 * M * (e * e) - 2 * M * (m * m)).
    (* g is concave: a combination of its values at m and at emax *)
    assert (X : (emax - m) * g = (emax - e) * (6 * M * emax * m - 4 * M * (m * m) - 2 * M * (m * m)) +
      (e - m) * (6 * M * emax * emax - 4 * M * (emax * emax) - 2 * M * (m * m)) + 4 * M * (emax - m) * ((e - m) * (emax - e))) by (unfold g; ring).
    assert (Y : 0 < (emax - m) * g).
    { rewrite X. assert (0 < 4 * M * (emax - m)) by nra. assert (0 <= 4 * M * (emax - m) * ((e - m) * (emax - e))) by nra.
      assert (0 < (e - m) * (6 * M * emax * emax - 4 * M * (emax * emax) - 2 * M * (m * m))) by (apply Rmult_lt_0_compat; lra).
      assert (0 <= (emax - e) * (6 * M * emax * m - 4 * M * (m * m) - 2 * M * (m * m))) by (apply Rmult_le_pos; lra). lra. }
    apply (Rmult_lt_reg_l (emax - m)); lra.
Qed.
Lemma above_threshold x : m / emax < x -> m < emax * x.
Proof.
  destruct emax_facts as [_ He]. intros H. apply (Rmult_lt_compat_l emax) in H; [|lra].
  replace (emax * (m / emax)) with m in H by (field; lra). exact H.
Qed.
Lemma rate_derive rs x : m / emax < x -> is_derive (fun x => rate m M emax x rs) x (differential m M emax x).
Proof.
  intros PX. eapply is_derive_ext_loc; [|apply (exact_derive emax rs x), above_threshold, PX].
  assert (L : locally x (fun y => m / emax < y)) by (apply (open_gt (m / emax)); exact PX).
  apply filter_imp with (2 := L). intros y Hy. pose proof (above_threshold y Hy) as Q. unfold rate. cbv zeta.
  destruct emax_facts as [_ He]. rewrite (Rmax_right 0) by nra. reflexivity.
Qed.
Lemma rate_continuous rs x : m / emax <= x -> continuity_pt (fun x => rate m M emax x rs) x.
Proof.
  intros H. destruct emax_facts as [_ He].
  assert (Hx : m <= emax * x).
  { apply (Rmult_le_compat_l emax) in H; [|lra]. replace (emax * (m / emax)) with m in H by (field; lra). exact H. }
  assert (SN : forall u, sqrt (Rmax 0 u) = sqrt u).
  { intros u. destruct (Rle_dec 0 u); [rewrite Rmax_right; auto|]. rewrite Rmax_left by lra. rewrite sqrt_0. symmetry. apply sqrt_neg_0. lra. }
  assert (PC : forall p : R -> R, ex_derive p x -> continuous p x) by (intros p; apply (ex_derive_continuous (V := R_NormedModule))).
  apply continuity_pt_filterlim.
  change (continuous (fun x => rate m M emax x rs) x).
  apply (continuous_ext (T := R_UniformSpace) (U := R_UniformSpace) (fun x => 3 / 2 * (m * m) * (m * m) * M * ln (sqrt (emax * x * (emax * x) - m * m) + emax * x) +
    sqrt (emax * x * (emax * x) - m * m) * ((M * M + m * m - M * (emax * x)) * (emax * x * (emax * x) - m * m) - 3 / 2 * M * (emax * x) * (m * m)) - rs)).
  { intros t. unfold rate. cbv zeta. rewrite SN. reflexivity. }
  assert (CS : continuous (fun x => sqrt (emax * x * (emax * x) - m * m)) x).
  { apply continuous_sqrt_comp. apply PC. auto_derive. auto. }
  assert (CA : continuous (fun x => sqrt (emax * x * (emax * x) - m * m) + emax * x) x).
  { apply (continuous_plus (V := R_NormedModule)); auto. apply PC. auto_derive. auto. }
  assert (CL : continuous (fun x => ln (sqrt (emax * x * (emax * x) - m * m) + emax * x)) x).
  { apply (continuous_comp _ ln); auto. apply (ex_derive_continuous (V := R_NormedModule)). auto_derive. pose proof (sqrt_pos (emax * x * (emax * x) - m * m)). lra. }
  apply (continuous_minus (V := R_NormedModule)); [|apply continuous_const].
  apply (continuous_plus (V := R_NormedModule)).
  - apply (continuous_mult (K := R_AbsRing)); [apply continuous_const|exact CL].
  - apply (continuous_mult (K := R_AbsRing)); [exact CS|]. apply PC. auto_derive. auto.
Qed.
Lemma rate_increasing rs x y : m / emax <= x < y -> y <= 1 -> rate m M emax x rs < rate m M emax y rs.
Proof.
  intros H Hy. destruct emax_facts as [_ He].
  apply (increasing_from (fun x => rate m M emax x rs) (differential m M emax) (m / emax) 1); auto; try lra.
  - intros; apply rate_derive; lra.
  - intros; apply rate_continuous; lra.
  - intros; apply differential_pos; try lra. apply above_threshold; lra.
  - unfold differential. cbv zeta. replace (emax * (m / emax) * (emax * (m / emax)) - m * m) with 0 by (field; lra). rewrite sqrt_0. lra.
Qed.
End Exact.

(** ** The root search finds an energy *)
Lemma rising_root (rate_at : R -> R -> R) df nan a r0 : a <= 1 / 2 -> 0 <= r0 <= 1 ->
  (forall x rs, rate_at x rs = rate_at x 0 - rs) -> (forall x y, a <= x < y -> y <= 1 -> rate_at x 0 < rate_at y 0) ->
  (forall x, a < x <= 1 -> df x <> 0) ->
  exists r, newton_raphson (fun x => rate_at x (rate_at a 0 + (rate_at 1 0 - rate_at a 0) * r0)) df nan a 1 (1 / 2) 40 (1 / 1000) = Ok r.
Proof.
  intros Ha Hr S I D. set (rs := rate_at a 0 + (rate_at 1 0 - rate_at a 0) * r0).
  assert (P : rate_at a 0 < rate_at 1 0) by (apply I; lra).
  destruct (Req_dec r0 0) as [Z|NZ].
  - exists a. unfold newton_raphson. rewrite (S a rs), (S 1 rs). assert (rs = rate_at a 0) as -> by (unfold rs; rewrite Z; ring).
    destruct (Rltb_spec 0 ((rate_at a 0 - rate_at a 0) * (rate_at 1 0 - rate_at a 0))) as [X|_]; [lra|].
    destruct (Reqb_spec (rate_at a 0 - rate_at a 0) 0) as [|NE]; [reflexivity|]. exfalso. apply NE. ring.
  - apply c27_newton_defined.
    + unfold between. rewrite Rmin_left, Rmax_right; lra.
    + rewrite (S a rs), (S 1 rs). unfold rs.
      replace (rate_at a 0 - (rate_at a 0 + (rate_at 1 0 - rate_at a 0) * r0)) with (- ((rate_at 1 0 - rate_at a 0) * r0)) by ring.
      replace (rate_at 1 0 - (rate_at a 0 + (rate_at 1 0 - rate_at a 0) * r0)) with ((rate_at 1 0 - rate_at a 0) * (1 - r0)) by ring.
      assert (0 <= (rate_at 1 0 - rate_at a 0) * r0) by (apply Rmult_le_pos; lra).
      assert (0 <= (rate_at 1 0 - rate_at a 0) * (1 - r0)) by (apply Rmult_le_pos; lra). nra.
    + intros t Ht E. unfold between in Ht. rewrite Rmin_left, Rmax_right in Ht by lra. apply D. split; [|lra].
      destruct (Req_dec t a) as [->|]; [|lra]. exfalso. rewrite S in E. unfold rs in E.
      assert (0 < (rate_at 1 0 - rate_at a 0) * r0) by (apply Rmult_lt_0_compat; lra). lra.
Qed.

Section Answers.
Variables (reg : registry) (lepton neutrino anti_neutrino parent : pdef) (c : pstate) (r0 r1 r2 r3 r4 : R).
Let m := pd_mass lepton.
Let M := pd_mass parent.
Let emax := (M * M + m * m) / (2 * M).
Hypothesis Masses : 0 < m < M.
Hypothesis Neutrinos : pd_mass neutrino = 0 /\ pd_mass anti_neutrino = 0.
Hypothesis Registered : Forall (registered reg) [lepton; neutrino; anti_neutrino].
Hypothesis State : M <= energy c /\ unit (direction c).
Hypothesis Random : 0 <= r0 <= 1 /\ 0 <= r2 <= 1 /\ 0 <= r4 <= 1.

(** A decay fails only if the neutrinos get no mass or if a product is brought to rest. *)
Lemma tail_fine root :
  fine (leptonic_tail marked reg lepton neutrino anti_neutrino parent c r1 r2 r3 r4 root).
Proof.
  destruct (Rle_dec root 1) as [Hx|Hx].
  2:{ right. pose proof (lepton_too_fast m M root Masses ltac:(lra)) as Neg. unfold leptonic_tail. fold m M. fold emax in Neg |- *. cbv zeta in *.
      rewrite (proj2 (Rltb_true _ 0) Neg). reflexivity. }
  destruct (lepton_energies m M root Masses Hx) as (He & Hp & Hp0 & Hn & Hy).
  unfold leptonic_tail. fold m M. fold emax in Hy, Hp, Hp0, Hn, He |- *. cbv zeta in *.
  set (e := Rmax (root * emax) m) in *. set (p := sqrt ((e - m) * (e + m))) in *.
  assert (PE : 0 < emax) by lra.
  destruct (Rltb_spec ((M - e - p) * (M - e + p)) 0) as [|Ny]; [nra|]. cbn [obind].
  set (v := sqrt ((M - e - p) * (M - e + p))) in *.
  assert (Hv : v * v = (M - e) * (M - e) - p * p). { unfold v. rewrite sqrt_sqrt by lra. ring. }
  assert (Hv0 : 0 <= v) by apply sqrt_pos.
  destruct Random as (_ & Hr2 & Hr4). destruct State as [HE U]. destruct Neutrinos as [Z1 Z2].
  pose proof (random_direction_unit r1 r2 Hr2) as UD. pose proof (random_direction_unit r3 r4 Hr4) as UN.
  set (dir := random_direction r1 r2) in *. set (dn := random_direction r3 r4) in *.
  set (lep := product lepton c dir e) in *. set (nu := product neutrino c dn (1 / 2 * v)) in *.
  set (anti := product anti_neutrino c (vneg dn) (1 / 2 * v)) in *.
  inversion Registered as [|? ? RL R']; subst. inversion R' as [|? ? RN R'']; subst. inversion R'' as [|? ? RA _]; subst.
  destruct RL as (dl & LL & EL). destruct RN as (d1 & L1 & E1). destruct RA as (d2 & L2 & E2).
  assert (GG : v <> 0 -> (M - e) / v * ((M - e) / v) - p / v * (p / v) = 1 /\ 1 <= (M - e) / v).
  { intros Nv. assert (Pv : 0 < v) by lra. split.
    - replace ((M - e) / v * ((M - e) / v) - p / v * (p / v)) with (((M - e) * (M - e) - p * p) / (v * v)) by (field; lra).
      rewrite Hv. field. rewrite <- Hv. nra.
    - apply (Rmult_le_reg_r v); auto. unfold Rdiv. rewrite Rmult_assoc, Rinv_l by lra. nra. }
  assert (O1 : on_shell (pd_mass d1) (p_state nu)). { rewrite E1, Z1. split; [cbn; lra|exact UN]. }
  assert (O2 : on_shell (pd_mass d2) (p_state anti)). { rewrite E2, Z2. split; [cbn; lra|apply unit_vneg; exact UN]. }
  assert (SL : known reg m lep /\ on_shell m (p_state lep)). { split; [exists dl; split; auto|]. split; [cbn; lra|exact UD]. }
  change (direction (p_state lep)) with dir. unfold quot.
  destruct (Reqb_spec v 0) as [Zv|Nv]; [right; reflexivity|]. cbn [obind]. destruct (GG Nv) as [G G1].
    apply fine_bind; [eapply fine_boost; eauto|]. intros nu' B1.
    apply fine_bind; [eapply fine_boost; eauto|]. intros anti' B2.
    destruct (boost_inv marked reg nu d1 _ _ _ _ marked_not_value L1 O1 UD G G1 B1) as (S1 & O1' & _).
    destruct (boost_inv marked reg anti d2 _ _ _ _ marked_not_value L2 O2 UD G G1 B2) as (S2 & O2' & _).
    eapply (fine_to_lab reg parent c [m; 0; 0]); auto.
    { fold M. lra. }
    constructor; auto. constructor. { split; [exists d1; split; [destruct S1 as (-> & _); auto|congruence]|congruence]. }
    constructor; [|constructor]. split; [exists d2; split; [destruct S2 as (-> & _); auto|congruence]|congruence].
Qed.
Lemma c34_only_nan (rate_at : R -> R -> R) (differential_at : R -> R) :
  (forall x rs, rate_at x rs = rate_at x 0 - rs) ->
  (forall x y, m / emax <= x < y -> y <= 1 -> rate_at x 0 < rate_at y 0) ->
  fine (leptonic_decay marked reg rate_at differential_at lepton neutrino anti_neutrino parent c r0 r1 r2 r3 r4).
Proof.
  intros S I. rewrite leptonic_split by exact Masses. fold m M emax. destruct Random as (Hr0 & _).
  assert (L : m / emax <= 1).
  { pose proof (emax_pos lepton parent Masses) as P. fold m M emax in P.
    assert (E : M * M + m * m = 2 * M * emax) by (unfold emax; field; lra).
    assert (m <= emax). { apply (Rmult_le_reg_l (2 * M)); [lra|]. rewrite <- E. nra. }
    apply (Rmult_le_reg_r emax); [exact P|]. unfold Rdiv. rewrite Rmult_assoc, Rinv_l by lra. lra. }
  assert (P : rate_at (m / emax) 0 <= rate_at 1 0).
  { destruct (Rle_lt_or_eq_dec _ _ L) as [G|G]; [left; apply I; lra|rewrite G; lra]. }
  set (rs := rate_at (m / emax) 0 + (rate_at 1 0 - rate_at (m / emax) 0) * r0).
  apply fine_bind; [|intros root _; apply tail_fine].
  apply newton_fine. rewrite (S (m / emax)), (S 1). unfold rs.
  replace (rate_at (m / emax) 0 - (rate_at (m / emax) 0 + (rate_at 1 0 - rate_at (m / emax) 0) * r0))
    with (- (r0 * (rate_at 1 0 - rate_at (m / emax) 0))) by ring.
  replace (rate_at 1 0 - (rate_at (m / emax) 0 + (rate_at 1 0 - rate_at (m / emax) 0) * r0))
    with ((1 - r0) * (rate_at 1 0 - rate_at (m / emax) 0)) by ring.
  set (d := rate_at 1 0 - rate_at (m / emax) 0). assert (0 <= d) by (unfold d; lra).
  assert (0 <= r0 * d) by (apply Rmult_le_pos; lra). assert (0 <= (1 - r0) * d) by (apply Rmult_le_pos; lra). nra.
Qed.
Lemma c34_approx_only_nan :
  fine (leptonic_decay marked reg approx_rate approx_differential lepton neutrino anti_neutrino parent c r0 r1 r2 r3 r4).
Proof.
  assert (PE : 0 < m / emax). { pose proof (emax_pos lepton parent Masses) as P. apply Rdiv_lt_0_compat; [lra|exact P]. }
  apply c34_only_nan.
  - intros. unfold approx_rate. ring.
  - intros x y H Hy. apply approx_increasing; lra.
Qed.
Lemma c34_exact_only_nan : 4 * m * M <= M * M + m * m ->
  fine (leptonic_decay marked reg (rate m M emax) (differential m M emax) lepton neutrino anti_neutrino parent c r0 r1 r2 r3 r4).
Proof.
  intros _. apply c34_only_nan.
  - intros. unfold rate. cbv zeta. ring.
  - intros. apply rate_increasing; auto.
Qed.
End Answers.
