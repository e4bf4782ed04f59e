(** Nuclear interactions of photons. *)
From Coq Require Import Lra Psatz.
From Coquelicot Require Import Coquelicot.
From Verif Require Import Prelude PreludeFacts Propagator_Model Particle_Model Limits_Model Cross_Model Photo_Model Products_Model Nuclear_Model.
From Verif Require Import Cross_Spec Differential_Spec Nuclear_Spec Cross_Proofs Components_Proofs Transform_Proofs Ionization_Proofs Differential_Proofs.

(** ** Shadowing *)
Lemma growing f df x : (forall y, 0 <= y <= x -> is_derive f y (df y)) -> (forall y, 0 < y < x -> 0 < df y) -> 0 < x -> f 0 < f x.
Proof.
  intros D P X. destruct (MVT_cor2 f df 0 x X) as (y & H & Y).
  - intros y Y. apply is_derive_Reals. now apply D.
  - specialize (P y Y). nra.
Qed.
Definition shadow (x : R) : R := x * x / 2 - 1 + exp (- x) * (1 + x).
Lemma shadow_derive y : is_derive shadow y (y * (1 - exp (- y))).
Proof. unfold shadow. auto_derive; [exact I|]. field. Qed.
Lemma exp_below y : y <> 0 -> 1 - y < exp (- y).
Proof. intros H. pose proof (exp_ineq1 (- y) ltac:(lra)). lra. Qed.
Lemma shadow_positive x : 0 < x -> 0 < shadow x.
Proof.
  intros X. assert (shadow 0 = 0) as Z by (unfold shadow; rewrite Ropp_0, exp_0; field). rewrite <- Z at 1.
  apply (growing shadow (fun y => y * (1 - exp (- y)))); [intros y _; apply shadow_derive| |exact X].
  intros y Y. apply Rmult_lt_0_compat; [lra|]. assert (exp (- y) < exp 0) as Q by (apply exp_increasing; lra). rewrite exp_0 in Q. lra.
Qed.
Lemma shadow_below x : 0 < x -> 3 * shadow x < x * x * x.
Proof.
  intros X. pose (f := fun y => y * y * y - 3 * shadow y).
  assert (f 0 = 0) as Z by (unfold f, shadow; rewrite Ropp_0, exp_0; field). cut (f 0 < f x); [rewrite Z; unfold f; lra|].
  apply (growing f (fun y => 3 * y * (exp (- y) - (1 - y)))); [| |exact X].
  - intros y _. unfold f, shadow. auto_derive; [exact I|]. field.
  - intros y Y. pose proof (exp_below y ltac:(lra)). apply Rmult_lt_0_compat; lra.
Qed.
Lemma shadow_ratio x : 0 < x -> 0 < 3 / (x * x * x) * shadow x < 1.
Proof.
  intros X. pose proof (shadow_positive x X). pose proof (shadow_below x X). assert (0 < x * x * x) as C by (repeat apply Rmult_lt_0_compat; lra).
  replace (3 / (x * x * x) * shadow x) with (3 * shadow x / (x * x * x)) by (field; lra).
  split; [apply Rdiv_lt_0_compat; lra|apply Rlt_div_l; lra].
Qed.

(** ** The threshold *)
Section Threshold.
Variables (nan : forall A, outcome A) (c : component) (E : R).
Hypotheses (el : element c) (EP : 0 < E).
Lemma nucleon_range : MP <= nucleon_weight c <= MN.
Proof.
  destruct el as [[Z1 Z2] [A1 A2]]. assert (MP <= MN) as PN by (unfold MP, MN; lra). unfold nucleon_weight.
  split; [apply (Rle_div_r MP _ (c_atomic c) ltac:(lra))|apply Rle_div_l]; nra.
Qed.
Lemma nucleon_mean : nucleon_weight c = mean_nucleon c.
Proof. destruct el as [[Z1 Z2] [A1 A2]]. unfold nucleon_weight, mean_nucleon. field. lra. Qed.
Lemma threshold_iff : makes_pion c E <-> production_cutoff c <= E.
Proof.
  unfold makes_pion, production_cutoff. rewrite nucleon_mean. pose proof nucleon_range as N. rewrite nucleon_mean in N.
  assert (0 < MP) by (unfold MP; lra). set (M := mean_nucleon c) in *. clearbody M.
  assert (MPI * MPI / (2 * M) * (2 * M) = MPI * MPI) as Q by (field; lra). set (q := MPI * MPI / (2 * M)) in *. clearbody q. split; nra.
Qed.
Lemma wrap_threshold sigma : (E < production_cutoff c -> sigma = Ok 0) -> (production_cutoff c <= E -> exists x, sigma = Ok x /\ 0 < x) -> has_threshold c E sigma.
Proof.
  intros A B. destruct (Rlt_le_dec E (production_cutoff c)) as [L|L].
  - exists 0. split; [now apply A|]. rewrite threshold_iff. split; [lra|trivial].
  - destruct (B L) as (x & H & X). exists x. split; [exact H|]. rewrite threshold_iff. split; [trivial|lra].
Qed.
Lemma zeus_threshold : has_threshold c E (zeus c E).
Proof.
  apply wrap_threshold; intros H; unfold zeus; [now rewrite (proj2 (Rltb_true _ _)) by lra|]. rewrite (proj2 (Rltb_false _ _)) by lra.
  eexists. split; [reflexivity|]. set (a := 2 / 10 ^ 3 * (E / 10 ^ 3) * nucleon_weight c).
  assert (0 < Rpower a (97 / 1000)) by apply exp_pos. assert (0 < Rpower a (- (1 / 2))) by apply exp_pos. lra.
Qed.
Lemma bugaev_value : production_cutoff c <= E -> exists x, bezrukov_bugaev nan c E = Ok x /\ 0 < x.
Proof.
  intros H. unfold bezrukov_bugaev. rewrite (proj2 (Rltb_false _ _)) by lra. rewrite log_ok by lra. cbn [obind]. eexists. split; [reflexivity|].
  set (l := ln _). pose proof (Rle_0_sqr l). unfold Rsqr in *. lra.
Qed.
Lemma bugaev_threshold : has_threshold c E (bezrukov_bugaev nan c E).
Proof.
  apply wrap_threshold; [|exact bugaev_value]. intros H; unfold bezrukov_bugaev. now rewrite (proj2 (Rltb_true _ _)) by lra.
Qed.
Lemma caldwell_value : production_cutoff c <= E -> exists x, caldwell nan c E = Ok x /\ 0 < x.
Proof.
  intros H. unfold caldwell. rewrite (proj2 (Rltb_false _ _)) by lra. set (nu := E / 10 ^ 3). assert (0 < nu) as N by (unfold nu; lra). clearbody nu.
  rewrite log_ok by lra. cbn [obind]. unfold root. rewrite (proj2 (Rltb_false _ _)) by lra. cbn [obind].
  assert (0 < sqrt nu) as S by now apply sqrt_lt_R0. rewrite quo_ok by lra. cbn [obind]. eexists. split; [reflexivity|].
  assert (ln nu = - 2 * ln (/ sqrt nu)) as ->.
  { rewrite (ln_Rinv (sqrt nu) S). replace nu with (sqrt nu * sqrt nu) at 1 by (apply sqrt_sqrt; lra). rewrite ln_mult by exact S. ring. }
  assert (0 < / sqrt nu) as W by now apply Rinv_0_lt_compat. unfold Rdiv at 3. set (w := / sqrt nu) in *. clearbody w.
  assert (ln w <= w - 1) as L by (rewrite <- (ln_exp (w - 1)); apply ln_le; [lra|]; pose proof (exp_ineq1_le (w - 1)); lra). lra.
Qed.
Lemma caldwell_threshold : has_threshold c E (caldwell nan c E).
Proof.
  apply wrap_threshold; [|exact caldwell_value]. intros H; unfold caldwell. now rewrite (proj2 (Rltb_true _ _)) by lra.
Qed.
Lemma kokoulin_threshold : has_threshold c E (kokoulin nan c E).
Proof.
  apply wrap_threshold; intros H; unfold kokoulin; [now rewrite (proj2 (Rltb_true _ _)) by lra|]. rewrite (proj2 (Rltb_false _ _)) by lra.
  destruct (E / 10 ^ 3 <=? 200); [|now apply caldwell_value]. destruct (E / 10 ^ 3 <=? 17); [|now apply bugaev_value].
  assert (0 < E / 10 ^ 3) as N by lra. unfold root. rewrite (proj2 (Rltb_false _ _)) by lra. cbn [obind].
  assert (0 < sqrt (E / 10 ^ 3)) as S by now apply sqrt_lt_R0. rewrite quo_ok by lra. cbn [obind]. eexists. split; [reflexivity|].
  assert (0 < 82 / sqrt (E / 10 ^ 3)) by (apply Rdiv_lt_0_compat; lra). lra.
Qed.
Lemma rhode_value table : (forall nu, 1 / 10 < nu <= 200 -> exists y, table nu = Ok y) ->
  exists x, rhode nan table c E = Ok x /\ 0 <= x /\ (~ makes_pion c E -> x = 0).
Proof.
  intros T. unfold rhode. destruct (Rltb_spec E (production_cutoff c)) as [L|L]; [exists 0; split; [reflexivity|]; rewrite threshold_iff; lra|].
  destruct (Rleb_spec (E / 10 ^ 3) (1 / 10)) as [A|A]; [exists 0; split; [reflexivity|]; rewrite threshold_iff; lra|].
  destruct (Rleb_spec (E / 10 ^ 3) 200) as [B|B].
  - destruct (T (E / 10 ^ 3) ltac:(lra)) as (y & ->). cbn [obind]. eexists. split; [reflexivity|]. rewrite threshold_iff. split; [apply Rmax_r|lra].
  - destruct (caldwell_value ltac:(lra)) as (x & H & X). exists x. split; [exact H|]. rewrite threshold_iff. split; lra.
Qed.
Lemma onset_value e w : 0 < w -> exists q, onset nan e (152 / 1000) w = Ok q /\ 0 <= q <= 1.
Proof.
  intros W. unfold onset. destruct (Rltb_spec e (152 / 1000)) as [A|A]; [exists 0; split; [reflexivity|lra]|].
  destruct (Rleb_spec (w + 152 / 1000) e) as [B|B]; [exists 1; split; [reflexivity|lra]|].
  rewrite quo_ok by lra. eexists. split; [reflexivity|]. split; [apply Rdiv_le_0_compat; lra|apply Rle_div_l; lra].
Qed.
Lemma breit_wigner_value s e M G S0 : 0 < s -> 0 < e -> 0 < G -> 0 < S0 -> exists b, breit_wigner nan s e M G S0 = Ok b /\ 0 < b.
Proof.
  intros S e0 G0 P. unfold breit_wigner. assert (0 < e * e) by nra. rewrite quo_ok by lra. cbn [obind].
  assert (0 < G * G * s) as Q by (assert (0 < G * G) by nra; nra). assert (0 <= (s - M * M) ^ 2) by apply pow2_ge_0.
  rewrite quo_ok by lra. eexists. split; [reflexivity|]. apply Rdiv_lt_0_compat; [|lra].
  assert (0 < s / (e * e)) by (apply Rdiv_lt_0_compat; lra). set (u := s / (e * e)) in *. clearbody u. repeat apply Rmult_lt_0_compat; lra.
Qed.
Lemma heck_threshold : has_threshold c E (heck nan c E).
Proof.
  apply wrap_threshold; intros H; unfold heck; [now rewrite (proj2 (Rltb_true _ _)) by lra|]. rewrite (proj2 (Rltb_false _ _)) by lra.
  set (e := E / 10 ^ 3). set (m := nucleon_weight c / 10 ^ 3). set (s := m * m + 2 * m * e). pose proof nucleon_range as N.
  assert (0 < e) as e0 by (unfold e; lra). assert (938 / 1000 <= m) as m0 by (unfold m; unfold MP in N; lra).
  assert (1159 / 1000 <= s) as S.
  { assert (MPI / 10 ^ 3 + MPI / 10 ^ 3 * (MPI / 10 ^ 3) / (2 * m) <= e) as Q.
    { unfold e, m, production_cutoff in *. assert (0 < nucleon_weight c) by (unfold MP in N; lra).
      replace (MPI / 10 ^ 3 * (MPI / 10 ^ 3) / (2 * (nucleon_weight c / 10 ^ 3))) with (MPI * MPI / (2 * nucleon_weight c) / 10 ^ 3) by (field; lra). lra. }
    assert (139 / 1000 <= MPI / 10 ^ 3) as P by (unfold MPI; lra). set (p := MPI / 10 ^ 3) in *.
    assert (0 < p * p / (2 * m)) by (apply Rdiv_lt_0_compat; nra).
    assert (p * p / (2 * m) * (2 * m) = p * p) as R by (field; lra). set (q := p * p / (2 * m)) in *. clearbody q p e m.
    unfold s. assert (2 * m * (p + q) <= 2 * m * e) by (apply Rmult_le_compat_l; lra). assert (2 * m * (p + q) = 2 * m * p + p * p) by lra. nra. }
  unfold root. rewrite (proj2 (Rltb_false s 0)) by lra. cbn [obind].
  match goal with |- context [if sqrt s <? 1939 / 100 then ?a else ?b] => assert (exists k, (if sqrt s <? 1939 / 100 then a else b) = Ok k /\ 0 < k) as (k & -> & K) end.
  { assert (forall y, 0 < Rpower s y) as RP by (intros y; apply exp_pos).
    destruct (sqrt s <? 1939 / 100).
    - rewrite quo_ok by lra. cbn [obind]. assert ((10761 / 10 ^ 4) ^ 2 / s < 1) as Q by (apply Rlt_div_l; lra). rewrite (proj2 (Rltb_false _ 0)) by lra. cbn [obind].
      eexists. split; [reflexivity|]. apply Rmult_lt_0_compat; [pose proof (RP (73 / 1000)); pose proof (RP (- (602 / 1000))); lra|apply sqrt_lt_R0; lra].
    - eexists. split; [reflexivity|]. pose proof (RP (93 / 1000)); pose proof (RP (- (358 / 1000))); lra. }
  cbn [obind]. clearbody s e. unfold resonances. cbn [fold_left obind].
  destruct (breit_wigner_value s e (1231 / 1000) (11 / 100) (31125 / 1000) ltac:(lra) e0 ltac:(lra) ltac:(lra)) as (b1 & -> & B1). cbn [obind].
  destruct (onset_value e (17 / 100) ltac:(lra)) as (q1 & -> & Q1). cbn [obind].
  destruct (breit_wigner_value s e (1515 / 1000) (11 / 100) (25567 / 1000) ltac:(lra) e0 ltac:(lra) ltac:(lra)) as (b2 & -> & B2). cbn [obind].
  destruct (onset_value e (38 / 100) ltac:(lra)) as (q2 & -> & Q2). cbn [obind].
  destruct (breit_wigner_value s e (1680 / 1000) (125 / 1000) (17508 / 1000) ltac:(lra) e0 ltac:(lra) ltac:(lra)) as (b3 & -> & B3). cbn [obind].
  eexists. split; [reflexivity|]. nra.
Qed.

(** ** Atoms *)
Lemma atom_value nucleon x : nucleon c E = Ok x -> 0 <= x ->
  exists y, atom_cross_section nan nucleon c E = Ok y /\ c_atomic c * x / 4 <= y <= c_atomic c * x /\ (c_charge c = 1 -> y = c_atomic c * x) /\ (0 < x -> c_charge c <> 1 -> y < c_atomic c * x).
Proof.
  intros H X. destruct el as [[Z1 Z2] [A1 A2]]. unfold atom_cross_section. rewrite H. cbn [obind].
  destruct (Req_dec x 0) as [->|X0].
  - rewrite (proj2 (Reqb_true 0 0) eq_refl). exists 0. split; [reflexivity|]. repeat split; intros; lra.
  - rewrite (proj2 (Reqb_false _ _)) by exact X0. unfold shadowing. destruct (Req_dec (c_charge c) 1) as [Q|Q].
    + rewrite (proj2 (Reqb_true _ _)) by exact Q. cbn [obind]. eexists. split; [reflexivity|]. repeat split; intros; nra.
    + rewrite (proj2 (Reqb_false _ _)) by exact Q. rewrite H. cbn [obind].
      assert (0 < 282 / 10 ^ 5 * Rpower (c_atomic c) (1 / 3) * x) as T by (apply Rmult_lt_0_compat; [|lra]; apply Rmult_lt_0_compat; [lra|apply exp_pos]).
      set (t := 282 / 10 ^ 5 * Rpower (c_atomic c) (1 / 3) * x) in *. clearbody t.
      assert (0 < t * t * t) by (repeat apply Rmult_lt_0_compat; lra). rewrite quo_ok by lra. cbn [obind]. fold (shadow t).
      pose proof (shadow_ratio t T) as S. set (s := 3 / (t * t * t) * shadow t) in *. clearbody s. eexists. split; [reflexivity|].
      assert (0 < c_atomic c * x) as P by nra. set (p := c_atomic c * x) in *. clearbody p. repeat split; intros; try lra; nra.
Qed.
Lemma atom_c7_value nucleon x : nucleon c E = Ok x -> 0 <= x ->
  exists y, atom_cross_section_c7 nucleon c E = Ok y /\ x <= y <= c_atomic c * x.
Proof.
  intros H X. destruct el as [[Z1 Z2] [A1 A2]]. unfold atom_cross_section_c7. rewrite H. cbn [obind].
  destruct (Req_dec x 0) as [->|X0].
  - rewrite (proj2 (Reqb_true 0 0) eq_refl). exists 0. split; [reflexivity|]. lra.
  - rewrite (proj2 (Reqb_false _ _)) by exact X0. eexists. split; [reflexivity|].
    assert (1 <= Rpower (c_atomic c) (91 / 100) <= c_atomic c) as R.
    { assert (0 <= ln (c_atomic c)) by (rewrite <- ln_1; apply ln_le; lra). unfold Rpower. split.
      - pose proof (exp_ineq1_le (91 / 100 * ln (c_atomic c))). lra.
      - rewrite <- (exp_ln (c_atomic c)) at 2 by lra. destruct (Req_dec (ln (c_atomic c)) 0) as [Z|Z]; [rewrite Z, Rmult_0_r; lra|apply Rlt_le, exp_increasing; lra]. }
    nra.
Qed.
End Threshold.

(** ** Charged particles *)
Lemma ln_above y : 0 < y -> y / (1 + y) <= ln (1 + y).
Proof.
  intros Y. assert (0 < / (1 + y)) as P by (apply Rinv_0_lt_compat; lra).
  assert (ln (/ (1 + y)) <= / (1 + y) - 1) as L by (rewrite <- (ln_exp (/ (1 + y) - 1)); apply ln_le; [lra|]; pose proof (exp_ineq1_le (/ (1 + y) - 1)); lra).
  rewrite ln_Rinv in L by lra. replace (y / (1 + y)) with (1 - / (1 + y)) by (field; lra). lra.
Qed.
Lemma ln_at_most y : 0 < y -> ln (1 + y) <= y.
Proof. intros Y. rewrite <- (ln_exp y) at 2. apply ln_le; [lra|]. pose proof (exp_ineq1_le y); lra. Qed.
(** The bracket, with the mass squared [mu] and the least momentum transfer [t] *)
Definition bracket (G kappa mu t : R) : R :=
  G * ((kappa + 4 * mu / (54 / 100)) * ln (1 + 54 / 100 / t) - kappa * (54 / 100) / (54 / 100 + t) - 2 * mu / t)
  + ((kappa + 2 * mu / (18 / 10)) * ln (1 + 18 / 10 / t) - 2 * mu / t)
  + 2 * mu / t * (G * (54 / 100 - 4 * t) / (54 / 100 + t) + 18 / 10 / t * ln (1 + t / (18 / 10))).
Lemma bracket_shape G kappa mu t : 0 < t ->
  bracket G kappa mu t = G * (kappa * (ln (1 + 54 / 100 / t) - 54 / 100 / (54 / 100 + t)) + mu / (54 / 100) * (4 * ln (1 + 54 / 100 / t) - 10 * (54 / 100 / (54 / 100 + t))))
    + kappa * ln (1 + 18 / 10 / t) + 2 * mu * (ln (1 + 18 / 10 / t) / (18 / 10) - 1 / t + 18 / 10 / (t * t) * ln (1 + t / (18 / 10))).
Proof. intros T. unfold bracket. generalize (ln (1 + 54 / 100 / t)) (ln (1 + 18 / 10 / t)) (ln (1 + t / (18 / 10))). intros l1 l2 l3. field. lra. Qed.
Lemma bracket_positive G kappa mu t : 0 < t -> 0 <= G <= 3 -> 1 <= kappa -> 0 < mu <= 3 / 100 -> 0 < bracket G kappa mu t.
Proof.
  intros T GG K M. rewrite bracket_shape by exact T.
  assert (0 < 54 / 100 / t) as Y by (apply Rdiv_lt_0_compat; lra). assert (0 < 18 / 10 / t) as W by (apply Rdiv_lt_0_compat; lra). assert (0 < t / (18 / 10)) as W' by lra.
  pose proof (ln_above _ Y) as L1. pose proof (ln_above _ W) as L2. pose proof (ln_above _ W') as L3.
  replace (54 / 100 / t / (1 + 54 / 100 / t)) with (54 / 100 / (54 / 100 + t)) in L1 by (field; lra).
  replace (18 / 10 / t / (1 + 18 / 10 / t)) with (18 / 10 / (18 / 10 + t)) in L2 by (field; lra).
  replace (t / (18 / 10) / (1 + t / (18 / 10))) with (t / (18 / 10 + t)) in L3 by (field; lra).
  set (l1 := ln (1 + 54 / 100 / t)) in *. set (l2 := ln (1 + 18 / 10 / t)) in *. set (l3 := ln (1 + t / (18 / 10))) in *. clearbody l1 l2 l3.
  assert (0 <= ln (1 + 18 / 10 / t) / (18 / 10) - 1 / t + 18 / 10 / (t * t) * ln (1 + t / (18 / 10)) \/ True) as _ by now right.
  assert (0 <= l2 / (18 / 10) - 1 / t + 18 / 10 / (t * t) * l3) as R.
  { assert (18 / 10 / (t * t) * (t / (18 / 10 + t)) <= 18 / 10 / (t * t) * l3) as A by (apply Rmult_le_compat_l; [apply Rdiv_le_0_compat; nra|exact L3]).
    assert (18 / 10 / (18 / 10 + t) / (18 / 10) <= l2 / (18 / 10)) as B by lra.
    assert (18 / 10 / (18 / 10 + t) / (18 / 10) - 1 / t + 18 / 10 / (t * t) * (t / (18 / 10 + t)) = 0) as C by (field; lra). lra. }
  assert (54 / 100 / (54 / 100 + t) < 18 / 10 / (18 / 10 + t)) as U.
  { apply Rlt_div_l; [lra|]. replace (18 / 10 / (18 / 10 + t) * (54 / 100 + t)) with (18 / 10 * (54 / 100 + t) / (18 / 10 + t)) by (field; lra).
    apply (Rlt_div_r (54 / 100) (18 / 10 * (54 / 100 + t)) (18 / 10 + t) ltac:(lra)). lra. }
  assert (0 < 54 / 100 / (54 / 100 + t)) as U0 by (apply Rdiv_lt_0_compat; lra).
  set (u := 54 / 100 / (54 / 100 + t)) in *. set (u' := 18 / 10 / (18 / 10 + t)) in *. set (r := l2 / (18 / 10) - 1 / t + 18 / 10 / (t * t) * l3) in *. clearbody u u' r.
  assert (- (6 * (mu / (54 / 100)) * u) <= kappa * (l1 - u) + mu / (54 / 100) * (4 * l1 - 10 * u)) as A.
  { assert (0 <= kappa * (l1 - u)) by (apply Rmult_le_pos; lra). set (q := mu / (54 / 100)) in *. assert (0 < q) by (unfold q; lra). nra. }
  assert (6 * (mu / (54 / 100)) * u <= u / 3) as B by nra.
  set (g := kappa * (l1 - u) + mu / (54 / 100) * (4 * l1 - 10 * u)) in *. clearbody g. assert (- u <= G * g) as C by nra.
  assert (u' <= kappa * l2) as D by nra. assert (0 <= 2 * mu * r) by (apply Rmult_le_pos; lra). lra.
Qed.
Lemma bracket_tau kappa mu t : 315 / 100 <= mu <= 316 / 100 -> t = mu * (81 / 10) -> kappa = 1 - 2 / (9 / 10) + 2 / (9 / 10 * (9 / 10)) -> bracket 3 kappa mu t < 0.
Proof.
  intros M -> ->. assert (0 < mu * (81 / 10)) as T by lra. rewrite bracket_shape by exact T. set (t := mu * (81 / 10)) in *.
  assert (2551 / 100 <= t <= 256 / 10) as TB by (unfold t; lra).
  assert (0 < 54 / 100 / t) as Y by (apply Rdiv_lt_0_compat; lra). assert (0 < 18 / 10 / t) as W by (apply Rdiv_lt_0_compat; lra). assert (0 < t / (18 / 10)) as W' by lra.
  pose proof (ln_at_most _ Y) as L1. pose proof (ln_at_most _ W) as L2. pose proof (ln_at_most _ W') as L3.
  assert (54 / 100 / t <= 212 / 10000) as Y1 by (apply Rle_div_l; lra). assert (18 / 10 / t <= 71 / 1000) as W1 by (apply Rle_div_l; lra).
  set (l1 := ln (1 + 54 / 100 / t)) in *. set (l2 := ln (1 + 18 / 10 / t)) in *. set (l3 := ln (1 + t / (18 / 10))) in *. clearbody l1 l2 l3.
  assert (206 / 10000 <= 54 / 100 / (54 / 100 + t)) as U by (apply (Rle_div_r (206 / 10000) (54 / 100) (54 / 100 + t) ltac:(lra)); lra).
  assert (18 / 10 / (t * t) * l3 <= 1 / t) as R1.
  { replace (1 / t) with (18 / 10 / (t * t) * (t / (18 / 10))) by (field; lra). apply Rmult_le_compat_l; [apply Rdiv_le_0_compat; nra|exact L3]. }
  assert (1 / t <= 1 / 25) as T1 by (apply Rle_div_l; lra).
  set (u := 54 / 100 / (54 / 100 + t)) in *. set (w := 18 / 10 / (t * t) * l3) in *. set (i := 1 / t) in *. clearbody u w i t.
  replace (1 - 2 / (9 / 10) + 2 / (9 / 10 * (9 / 10))) with (101 / 81) by field.
  assert (2 * mu * (l2 / (18 / 10) - i + w) <= 2 * mu * (4 / 100)) as A by (apply Rmult_le_compat_l; lra).
  assert (mu / (54 / 100) * (4 * l1 - 10 * u) <= 315 / 100 / (54 / 100) * (4 * l1 - 10 * u)) as B by nra. lra.
Qed.
Section Real_photons.
Variables (nan : forall A, outcome A) (nucleon : component -> R -> outcome R) (hard : R -> R -> outcome R) (mass charge : R) (c : component) (E v x h : R).
Hypotheses (el : element c) (M : 0 < mass) (Q : charge <> 0) (V : 0 < v < 1) (N : nucleon c (v * E) = Ok x) (X : 0 < x) (H : hard E v = Ok h).
Definition momentum_transfer : R := v * mass / 10 ^ 3 * (v * mass / 10 ^ 3) / (1 - v).
Lemma real_photon_value : exists G k, 0 < G <= 1 /\ (c_charge c = 1 -> G = 1) /\ 0 < k /\
  real_photon nan nucleon hard mass charge c E v =
    Ok (k * bracket (3 * G) (1 - 2 / v + 2 / (v * v)) (mass / 10 ^ 3 * (mass / 10 ^ 3)) momentum_transfer + NA * charge ^ 2 / 10 ^ 30 * h).
Proof.
  destruct el as [[Z1 Z2] [A1 A2]]. unfold real_photon. rewrite N. cbn [obind]. rewrite quo_ok by lra. cbn [obind].
  assert (0 < v * v) by nra. rewrite quo_ok by lra. cbn [obind].
  match goal with |- context [if c_charge c =? 1 then ?a else ?b] => assert (exists G, (if c_charge c =? 1 then a else b) = Ok G /\ 0 < G <= 1 /\ (c_charge c = 1 -> G = 1)) as (G & -> & G1 & G2) end.
  { destruct (Req_dec (c_charge c) 1) as [K|K].
    - rewrite (proj2 (Reqb_true _ _)) by exact K. exists 1. split; [reflexivity|lra].
    - rewrite (proj2 (Reqb_false _ _)) by exact K.
      assert (0 < 282 / 10 ^ 5 * Rpower (c_atomic c) (1 / 3) * x) as T by (apply Rmult_lt_0_compat; [|lra]; apply Rmult_lt_0_compat; [lra|apply exp_pos]).
      set (t := 282 / 10 ^ 5 * Rpower (c_atomic c) (1 / 3) * x) in *. clearbody t. rewrite quo_ok by lra. cbn [obind]. rewrite quo_ok by nra. cbn [obind].
      pose proof (shadow_ratio t T) as S. eexists. split; [reflexivity|]. replace (3 / t * (1 / 2 + ((1 + t) * exp (- t) - 1) / (t * t))) with (3 / (t * t * t) * shadow t) by (unfold shadow; field; lra).
      split; [lra|]. intros; contradiction. }
  cbn [obind]. rewrite quo_ok by lra. cbn [obind]. fold momentum_transfer.
  assert (0 < v * mass / 10 ^ 3) as P by nra. assert (0 < momentum_transfer) as T by (apply Rdiv_lt_0_compat; nra).
  set (t := momentum_transfer) in *. clearbody t. rewrite quo_ok by lra. cbn [obind]. rewrite quo_ok by lra. cbn [obind].
  assert (0 < 54 / 100 / t) as Y by (apply Rdiv_lt_0_compat; lra). assert (0 < 18 / 10 / t) as W by (apply Rdiv_lt_0_compat; lra).
  rewrite log_ok by lra. cbn [obind]. rewrite quo_ok by lra. cbn [obind]. rewrite quo_ok by lra. cbn [obind]. rewrite log_ok by lra. cbn [obind].
  rewrite quo_ok by lra. cbn [obind]. rewrite log_ok by lra. cbn [obind]. rewrite H. cbn [obind]. rewrite quo_ok by lra. cbn [obind].
  pose proof PI_RGT_0 as PP. assert (0 < ALPHA) as AL by (unfold ALPHA; lra). assert (0 < NA) as NP by (unfold NA; lra).
  exists G, (NA / c_atomic c * charge * charge * (ALPHA / (8 * PI) * c_atomic c * v * x / 10 ^ 30)). split; [exact G1|]. split; [exact G2|]. split.
  - assert (0 < charge * charge) by nra. assert (0 < NA / c_atomic c) by (apply Rdiv_lt_0_compat; lra). assert (0 < ALPHA / (8 * PI)) by (apply Rdiv_lt_0_compat; lra).
    rewrite (Rmult_assoc (NA / c_atomic c)). apply Rmult_lt_0_compat; [apply Rmult_lt_0_compat; lra|]. apply Rdiv_lt_0_compat; [|lra].
    apply Rmult_lt_0_compat; [|lra]. apply Rmult_lt_0_compat; [|lra]. apply Rmult_lt_0_compat; lra.
  - f_equal. unfold bracket. generalize (ln (1 + 54 / 100 / t)) (ln (1 + 18 / 10 / t)) (ln (1 + t / (18 / 10))). intros l1 l2 l3. field. repeat split; lra.
Qed.
End Real_photons.
Lemma photonuclear_positive nan nucleon mass charge c E : element c -> 0 < mass < MPI -> charge <> 0 -> 0 < E ->
  (forall e, 0 < e -> has_threshold c e (nucleon c e)) ->
  never_negative (photonuclear_limits mass (mean_nucleon c) E) (real_photon nan nucleon soft mass charge c E).
Proof.
  intros el M Q EP T v. unfold photonuclear_limits. rewrite (proj2 (Rltb_true mass MPI)) by lra.
  pose proof (nucleon_range c el) as NR. rewrite (nucleon_mean c el) in NR. assert (0 < MP) as MPP by (unfold MP; lra). set (W := mean_nucleon c) in *.
  assert (0 < MPI) as PP by lra. assert (0 < MPI * MPI / (2 * W)) as K by (apply Rdiv_lt_0_compat; nra). cbv zeta. cbn [v_min v_max].
  set (vmin := (MPI + MPI * MPI / (2 * W)) / E). assert (0 < vmin) as VM by (apply Rdiv_lt_0_compat; lra).
  assert (0 < W * (1 + mass / W * (mass / W)) / (2 * E)) as VX by (apply Rdiv_lt_0_compat; [|lra]; apply Rmult_lt_0_compat; [lra|]; assert (0 <= mass / W * (mass / W)) by apply Rle_0_sqr; lra).
  intros V. assert (0 < v < 1) as V1 by (destruct (Rltb_spec (1 - W * (1 + mass / W * (mass / W)) / (2 * E)) vmin); lra).
  assert (makes_pion c (v * E)) as MK.
  { apply (threshold_iff c (v * E) el). unfold production_cutoff. rewrite (nucleon_mean c el). fold W. destruct V as [V _]. apply (Rlt_div_l _ v E EP) in V. lra. }
  destruct (T (v * E) ltac:(nra)) as (x & N & X & _). specialize (X MK).
  destruct (real_photon_value nan nucleon soft mass charge c E v x 0 el (proj1 M) Q V1 N X eq_refl) as (G & k & G1 & _ & KP & ->).
  eexists. split; [reflexivity|]. rewrite Rmult_0_r, Rplus_0_r. apply Rmult_le_pos; [lra|]. apply Rlt_le, bracket_positive.
  - unfold momentum_transfer. apply Rdiv_lt_0_compat; [|lra]. assert (0 < v * mass / 10 ^ 3) by nra. nra.
  - lra.
  - replace (1 - 2 / v + 2 / (v * v)) with (1 + 2 * (1 - v) / (v * v)) by (field; lra). assert (0 < 2 * (1 - v) / (v * v)) by (apply Rdiv_lt_0_compat; nra). lra.
  - unfold MPI in M. split; nra.
Qed.
Lemma photonuclear_tau nan nucleon charge c E x : element c -> c_charge c = 1 -> charge <> 0 -> MTAU <= E -> nucleon c (9 / 10 * E) = Ok x -> 0 < x ->
  let lim := photonuclear_limits MTAU (mean_nucleon c) E in
  v_min lim < 9 / 10 <= v_max lim /\ exists y, real_photon nan nucleon soft MTAU charge c E (9 / 10) = Ok y /\ y < 0.
Proof.
  intros el Z Q EP N X lim. assert (1776 <= MTAU <= 1777) as MT by (unfold MTAU; lra). split.
  - unfold lim, photonuclear_limits. rewrite (proj2 (Rltb_false MTAU MPI)) by (unfold MTAU, MPI; lra). cbv zeta. cbn [v_min v_max].
    pose proof (nucleon_range c el) as NR. rewrite (nucleon_mean c el) in NR. assert (938 <= MP) as MPP by (unfold MP; lra). set (W := mean_nucleon c) in *. clearbody W.
    assert (MPI * MPI / (2 * W) <= 20) as K by (apply Rle_div_l; [lra|]; unfold MPI; lra).
    assert ((MPI + MPI * MPI / (2 * W)) / E < 9 / 10) as B by (apply Rlt_div_l; [lra|]; unfold MPI in *; lra).
    split; [exact B|]. rewrite (proj2 (Rltb_false _ _)) by lra. lra.
  - destruct (real_photon_value nan nucleon soft MTAU charge c E (9 / 10) x 0 el ltac:(lra) Q ltac:(lra) N X eq_refl) as (G & k & G1 & G2 & KP & ->).
    eexists. split; [reflexivity|]. rewrite Rmult_0_r, Rplus_0_r, (G2 Z), Rmult_1_r.
    assert (bracket 3 (1 - 2 / (9 / 10) + 2 / (9 / 10 * (9 / 10))) (MTAU / 10 ^ 3 * (MTAU / 10 ^ 3)) (momentum_transfer MTAU (9 / 10)) < 0) as B.
    { apply bracket_tau; [unfold MTAU; lra| |reflexivity]. unfold momentum_transfer. field. }
    nra.
Qed.
Lemma photonuclear_limit nan nucleon hard mass charge c E x : element c -> MPI <= mass -> 0 < E -> production_cutoff c <= E ->
  nucleon c E = Ok x -> 0 < x -> (forall A (a : A), nan A <> Ok a) ->
  let lim := photonuclear_limits mass (mean_nucleon c) E in
  v_max lim = 1 /\ forall y, real_photon nan nucleon hard mass charge c E (v_max lim) <> Ok y.
Proof.
  intros el M EP EC N X NN lim. assert (v_max lim = 1) as VM.
  { unfold lim, photonuclear_limits. rewrite (proj2 (Rltb_false mass MPI)) by lra. cbv zeta. cbn [v_max].
    destruct (Rltb_spec 1 ((MPI + MPI * MPI / (2 * mean_nucleon c)) / E)) as [L|L]; [|reflexivity]. exfalso.
    unfold production_cutoff in EC. rewrite (nucleon_mean c el) in EC. apply (Rlt_div_r 1 _ E EP) in L. lra. }
  split; [exact VM|]. rewrite VM. intros y. destruct el as [[Z1 Z2] [A1 A2]]. unfold real_photon. rewrite Rmult_1_l, N. cbn [obind].
  rewrite quo_ok by lra. cbn [obind]. rewrite quo_ok by lra. cbn [obind].
  match goal with |- context [if c_charge c =? 1 then ?a else ?b] => assert (exists G, (if c_charge c =? 1 then a else b) = Ok G) as (G & ->) end.
  { destruct (Req_dec (c_charge c) 1) as [K|K]; [rewrite (proj2 (Reqb_true _ _)) by exact K; now exists 1|].
    rewrite (proj2 (Reqb_false _ _)) by exact K.
    assert (0 < 282 / 10 ^ 5 * Rpower (c_atomic c) (1 / 3) * x) as T by (apply Rmult_lt_0_compat; [|lra]; apply Rmult_lt_0_compat; [lra|apply exp_pos]).
    rewrite quo_ok by lra. cbn [obind]. rewrite quo_ok by nra. cbn [obind]. now eexists. }
  cbn [obind]. unfold quo at 1. rewrite (proj2 (Reqb_true _ _)) by lra.
  intros H. destruct (nan R) as [a| |] eqn:NR; [exact (NN R a NR)|discriminate|discriminate].
Qed.

(** ** The rate in a medium *)
Lemma fold_rates (l : list (N * R)) : forall a, fold_left (fun a e => a + snd e) l a = a + rsum (map snd l).
Proof. induction l as [|[h r] l IH]; intros a; [cbn; lra|]. cbn [fold_left map]. rewrite IH. unfold rsum; cbn. lra. Qed.
Lemma production_total nan atom registry inf m cut E sigma : sound_medium m -> (forall c, In c (m_components m) -> atom c E = Ok (sigma c)) ->
  x_dNdx (production_cross nan atom registry inf m cut) E =
    Ok (rsum (map (fun c => mass_share m c * (NA / c_atomic c) * (sigma c / 10 ^ 30)) (m_components m))).
Proof.
  intros S H. unfold production_cross. cbn [direct x_dNdx]. unfold direct_dNdx.
  assert (forall cs, (forall c, In c cs -> In c (m_components m)) ->
    direct_targets nan (fun E c => production_rate nan atom c E) production_cutoff false m E cs
    = Ok (map (fun c => (c_hash c, mass_share m c * (NA / c_atomic c) * (sigma c / 10 ^ 30))) cs)) as T.
  { induction cs as [|c cs IH]; intros Hi; [reflexivity|]. cbn [direct_targets negb orb map]. rewrite IH by (intros; apply Hi; now right).
    assert (In c (m_components m)) as Hc by (apply Hi; now left). unfold direct_rate. destruct (weight_ok nan m c S Hc) as (w & -> & _ & Q). cbn [obind].
    unfold production_rate. destruct (proj2 S c Hc) as [_ A]. rewrite quo_ok by lra. cbn [obind]. rewrite (H c Hc). cbn [obind]. rewrite Q. cbn [obind].
    do 3 f_equal. field. lra. }
  rewrite T by auto. cbn [obind]. rewrite fold_rates, map_map. cbn [snd]. f_equal. lra.
Qed.
Lemma lower_spec m : forall a E, fold_left (fun a c => Rmin a (production_cutoff c)) m a <= E <-> a <= E \/ exists c, In c m /\ production_cutoff c <= E.
Proof.
  induction m as [|c m IH]; intros a E; cbn [fold_left].
  - split; [now left|]. intros [?|(c & [] & _)]; assumption.
  - rewrite IH. split.
    + intros [H|(c' & I & H)]; [|right; exists c'; split; [now right|exact H]].
      unfold Rmin in H. destruct (Rle_dec a (production_cutoff c)); [now left|]. right. exists c. split; [now left|exact H].
    + intros [H|(c' & [<-|I] & H)].
      * left. pose proof (Rmin_l a (production_cutoff c)). lra.
      * left. pose proof (Rmin_r a (production_cutoff c)). lra.
      * right. now exists c'.
Qed.
Lemma cutoff_below c : element c -> production_cutoff c <= 200.
Proof.
  intros el. pose proof (nucleon_range c el) as NR. unfold production_cutoff. assert (938 <= MP) by (unfold MP; lra). set (W := nucleon_weight c) in *. clearbody W.
  assert (MPI * MPI / (2 * W) <= 20) by (apply Rle_div_l; [lra|]; unfold MPI; lra). unfold MPI in *. lra.
Qed.
Lemma sum_sign (f : component -> R) l : (forall c, In c l -> 0 <= f c) -> 0 <= rsum (map f l) /\ ((exists c, In c l /\ 0 < f c) -> 0 < rsum (map f l)) /\ ((forall c, In c l -> f c = 0) -> rsum (map f l) = 0).
Proof.
  induction l as [|c l IH]; intros H; [cbn; repeat split; try lra; intros (c & [] & _)|].
  destruct IH as (A & B & C); [intros; apply H; now right|]. unfold rsum in *. cbn [map fold_right] in *. pose proof (H c (or_introl eq_refl)).
  repeat split; [lra| |].
  - intros (c' & [<-|I] & P); [lra|]. assert (0 < fold_right Rplus 0 (map f l)) by (apply B; now exists c'). lra.
  - intros Z. rewrite C by (intros; apply Z; now right). rewrite (Z c) by now left. lra.
Qed.
Lemma production_threshold nan atom registry inf m cut E : sound_medium m -> (forall c, In c (m_components m) -> element c) -> 0 < E < inf -> 
  (forall c, In c (m_components m) -> has_threshold c E (atom c E)) ->
  let cross := production_cross nan atom registry inf m cut in
  (x_lower cross <= E <-> exists c, In c (m_components m) /\ makes_pion c E) /\
  exists r, x_dNdx cross E = Ok r /\ (x_lower cross <= E -> 0 < r) /\ (E < x_lower cross -> r = 0).
Proof.
  intros S el EI T cross.
  assert (x_lower cross <= E <-> exists c, In c (m_components m) /\ makes_pion c E) as L.
  { unfold cross, production_cross. cbn [direct x_lower]. unfold production_lower. rewrite lower_spec. split.
    - intros [H|(c & I & H)]; [lra|]. exists c. split; [exact I|]. apply (threshold_iff c E (el c I)). exact H.
    - intros (c & I & H). right. exists c. split; [exact I|]. apply (threshold_iff c E (el c I)). exact H. }
  split; [exact L|].
  assert (forall c, In c (m_components m) -> atom c E = Ok (match atom c E with Ok x => x | _ => 0 end)) as V by (intros c I; destruct (T c I) as (x & -> & _); reflexivity).
  set (sigma c := match atom c E with Ok x => x | _ => 0 end) in *.
  exists (rsum (map (fun c => mass_share m c * (NA / c_atomic c) * (sigma c / 10 ^ 30)) (m_components m))). split; [now apply production_total|].
  assert (forall c, In c (m_components m) -> 0 < mass_share m c * (NA / c_atomic c)) as W.
  { intros c I. destruct (proj2 S c I) as [A B]. apply Rmult_lt_0_compat.
    - unfold mass_share, component_mass. apply Rdiv_lt_0_compat; [nra|now apply mass_pos].
    - apply Rdiv_lt_0_compat; [unfold NA; lra|exact B]. }
  assert (forall c, In c (m_components m) -> (makes_pion c E -> 0 < sigma c) /\ (~ makes_pion c E -> sigma c = 0)) as Sg.
  { intros c I. destruct (T c I) as (x & X & X1 & X2). unfold sigma. rewrite X. auto. }
  assert (forall c, makes_pion c E \/ ~ makes_pion c E) as D by (intros c; unfold makes_pion; destruct (Rle_lt_dec ((mean_nucleon c + MPI) ^ 2) (mean_nucleon c ^ 2 + 2 * mean_nucleon c * E)); [now left|right; lra]).
  destruct (sum_sign (fun c => mass_share m c * (NA / c_atomic c) * (sigma c / 10 ^ 30)) (m_components m)) as (_ & P & Z).
  { intros c I. specialize (W c I). destruct (Sg c I) as [S1 S2]. destruct (D c) as [Y|Y]; [specialize (S1 Y); nra|rewrite (S2 Y); lra]. }
  split; intros H.
  - apply P. destruct (proj1 L H) as (c & I & Y). exists c. split; [exact I|]. specialize (W c I). destruct (Sg c I) as [S1 _]. specialize (S1 Y). apply Rmult_lt_0_compat; lra.
  - apply Z. intros c I. destruct (Sg c I) as [_ S2]. rewrite S2; [lra|]. intros Y. assert (x_lower cross <= E) by (apply L; now exists c). lra.
Qed.
Lemma atom_threshold nan nucleon c E : element c -> 0 < E -> has_threshold c E (nucleon c E) ->
  has_threshold c E (atom_cross_section nan nucleon c E) /\ has_threshold c E (atom_cross_section_c7 nucleon c E).
Proof.
  intros el EP (x & X & X1 & X2). destruct el as [[Z1 Z2] [A1 A2]] eqn:EL. 
  assert (0 <= x) as XP. { destruct (Rle_lt_dec ((mean_nucleon c + MPI) ^ 2) (mean_nucleon c ^ 2 + 2 * mean_nucleon c * E)) as [Y|Y]; [apply Rlt_le, X1, Y|]. rewrite X2; [lra|]. unfold makes_pion. lra. }
  destruct (atom_value nan c E el nucleon x X XP) as (y & Y & B & _). destruct (atom_c7_value c E el nucleon x X XP) as (z & Z & C).
  split; [exists y|exists z]; (split; [assumption|]); split; intros H; try (specialize (X1 H); nra); specialize (X2 H); subst x; lra.
Qed.
Lemma rhode_partial nan c E table : element c -> 0 < E -> (forall nu, 1 / 10 < nu <= 200 -> exists y, table nu = Ok y) ->
  exists x, rhode nan table c E = Ok x /\ 0 <= x /\ (~ makes_pion c E -> x = 0).
Proof. intros el EP T. exact (rhode_value nan c E el EP table T). Qed.
Lemma atom_bounds nan c E nucleon x : element c -> nucleon c E = Ok x -> 0 <= x ->
  exists y, atom_cross_section nan nucleon c E = Ok y /\ c_atomic c * x / 4 <= y <= c_atomic c * x /\
    (c_charge c = 1 -> y = c_atomic c * x) /\ (0 < x -> c_charge c <> 1 -> y < c_atomic c * x).
Proof. intros el. exact (atom_value nan c E el nucleon x). Qed.
Lemma atom_c7_bounds c E nucleon x : element c -> nucleon c E = Ok x -> 0 <= x ->
  exists y, atom_cross_section_c7 nucleon c E = Ok y /\ x <= y <= c_atomic c * x.
Proof. intros el. exact (atom_c7_value c E el nucleon x). Qed.
