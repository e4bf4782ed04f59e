(** Sampled losses lie between the limits. *)
From Coq Require Import Permutation.
From Coquelicot Require Import Coquelicot.
From Verif Require Import Prelude PreludeFacts Propagator_Model Limits_Model Cross_Model Function_Model Integral_Model Continuous_Model
  Limits_Spec Cross_Spec Function_Spec Integral_Spec Sampling_Model Sampling_Spec Function_Proofs Trapezoid_Proofs Romberg_Proofs
  Integral_Proofs Values_Proofs Upper_Proofs Place_Proofs.

Section Direct.
Variable nan : forall A, outcome A.
Variable qags : (R -> outcome R) -> R -> R -> outcome R.
Hypothesis not_a_number : forall A (v : A), nan A <> Ok v.

Lemma log_value x y : log nan x = Ok y -> 0 < x /\ y = ln x.
Proof.
  unfold log. destruct (Rleb_spec x 0); [intro H; exfalso; apply (not_a_number _ _ H)|]. intro H. injection H as <-. split; [lra|reflexivity].
Qed.

Lemma negligible_true a b : Rabs (b - a) <= Rabs a / 10 ^ 10 -> negligible a b = true.
Proof. intro H. unfold negligible, COMPUTER_PRECISION. apply Rleb_true. lra. Qed.
Lemma negligible_false a b : Rabs a / 10 ^ 10 < Rabs (b - a) -> negligible a b = false.
Proof. intro H. unfold negligible, COMPUTER_PRECISION. destruct (Rleb_spec (Rabs (b - a)) (Rabs a * / 10 ^ 10)); [lra|reflexivity]. Qed.

Lemma place_loss_range f a b ratio v : 0 < a <= b ->
  (b - a <= a / 10 ^ 10 \/ Rabs (ln a) / 10 ^ 10 < ln b - ln a) ->
  (forall u y, a <= u <= b -> f u = Ok y -> 0 <= y) ->
  place_loss nan qags f a b ratio = Some (Ok v) -> a <= v <= b.
Proof.
  intros L Rs F H. unfold place_loss in H. apply fbind_inv in H. destruct H as ((r & g) & I & H).
  apply fbind_inv in H. destruct H as ((x & g2) & U & H). apply done_inv in H. injection H as <-.
  destruct Rs as [Q|Q].
  - unfold integrate_ratio in I. rewrite (eqb_no a 0) in I by lra. cbn [andb] in I.
    rewrite !leb_no in I by lra. cbn [orb] in I. unfold integrate_log_ratio in I.
    rewrite negligible_true in I by (rewrite !Rabs_right by lra; lra). apply done_inv in I. injection I as _ <-.
    unfold get_upper_limit in U. cbn [e_random_do empty_range e_min e_max] in U.
    rewrite negligible_true in U by (rewrite !Rabs_right by lra; lra). apply done_inv in U. injection U as <- _. lra.
  - assert (Le : ln a <= ln b) by (apply ln_le; lra).
    replace a with (Rmin a b) by (apply Rmin_left; lra). replace b with (Rmax a b) at 2 by (apply Rmax_right; lra).
    apply (upper_log_positive nan qags not_a_number default_integral a b f ratio 0 r g x g2); try assumption; try lra.
    + cbn. lia.
    + rewrite Rmin_left, Rmax_right by lra. apply negligible_false. rewrite (Rabs_right (ln b - ln a)) by lra. exact Q.
    + rewrite Rmin_left, Rmax_right by lra. exact F.
Qed.

(** The plain method needs nothing about the limits. *)
Lemma plain_range f a b ratio v g x g2 : (forall u y, Rmin a b <= u <= Rmax a b -> f u = Ok y -> 0 <= y) ->
  integrate_ratio nan qags default_integral a b f 3 ratio 0 = Some (Ok (v, g)) ->
  get_upper_limit nan qags g = Some (Ok (x, g2)) -> Rmin a b <= x <= Rmax a b.
Proof.
  intros F I U. destruct (negligible (Rmin a b) (Rmax a b)) eqn:N.
  - assert (AB : Rmin a b <= a <= Rmax a b) by (unfold Rmin, Rmax; destruct (Rle_dec a b); lra).
    assert (AL : Rmin a b <= Rmin a b <= Rmax a b) by (unfold Rmin, Rmax; destruct (Rle_dec a b); lra).
    unfold integrate_ratio in I. destruct ((a =? 0) && (b =? 0)) eqn:Z.
    + apply andb_true_iff in Z. destruct Z as (Za & Zb). apply Reqb_true in Za. apply Reqb_true in Zb. subst.
      apply done_inv in I. injection I as _ <-. unfold get_upper_limit in U. cbn in U. injection U as <- _. exact AB.
    + unfold integrate_substitution_ratio in I. destruct (negligible a b) eqn:N0.
      * apply done_inv in I. injection I as _ <-. unfold get_upper_limit in U. cbn [e_random_do empty_range e_min e_max] in U. rewrite N0 in U.
        apply done_inv in U. injection U as <- _. exact AB.
      * cbv zeta in I. rewrite !(ltb_no 0 0) in I by lra. rewrite fbind_Ok in I.
        apply fbind_inv in I. destruct I as ((result & g3) & R3 & I). apply fbind_inv in I. destruct I as (random & Rd & I).
        apply done_inv in I. injection I as _ <-.
        destruct (romberg_opened_kept nan qags _ _ _ _ R3) as (K & _).
        unfold kept in K. cbn in K. injection K as K1 K2 K3 K4 K5 K6 K7 K8.
        unfold get_upper_limit in U. cbn [e_random_do sampled e_min e_max] in U. rewrite K7, K8, N in U.
        apply done_inv in U. injection U as <- _. exact AL.
  - apply (upper_plain_positive nan qags not_a_number default_integral a b f ratio v g x g2); try assumption.
    + cbn. lia.
    + destruct (Req_dec a 0) as [->|]; [|left; assumption]. destruct (Req_dec b 0) as [->|]; [|right; assumption].
      exfalso. rewrite Rmin_left, Rmax_left in N by lra. rewrite negligible_true in N; [discriminate|]. rewrite Rminus_eq_0, !Rabs_R0. lra.
Qed.

Lemma place_compton_range f a b ratio v : a <= b ->
  (forall u y, a <= u <= b -> f u = Ok y -> 0 <= y) ->
  place_compton nan qags f a b ratio = Some (Ok v) -> a <= v <= b.
Proof.
  intros L F H. unfold place_compton in H. apply fbind_inv in H. destruct H as (t1 & T1 & H). apply done_inv in T1.
  apply fbind_inv in H. destruct H as (t2 & T2 & H). apply done_inv in T2.
  apply log_value in T1. apply log_value in T2. destruct T1 as (P1 & ->), T2 as (P2 & ->).
  apply fbind_inv in H. destruct H as ((r & g) & I & H).
  apply fbind_inv in H. destruct H as ((x & g2) & U & H). apply done_inv in H. injection H as <-.
  assert (Le : ln (1 - b) <= ln (1 - a)) by (apply ln_le; lra).
  assert (Range : forall t, ln (1 - b) <= t <= ln (1 - a) -> a <= 1 - exp t <= b).
  { intros t T. assert (E1 : exp (ln (1 - b)) <= exp t) by (destruct (proj1 T) as [Q|Q]; [left; apply exp_increasing; exact Q|rewrite Q; lra]).
    assert (E2 : exp t <= exp (ln (1 - a))) by (destruct (proj2 T) as [Q|Q]; [left; apply exp_increasing; exact Q|rewrite Q; lra]).
    rewrite exp_ln in E1, E2 by lra. lra. }
  apply Range. replace (ln (1 - b)) with (Rmin (ln (1 - a)) (ln (1 - b))) by (apply Rmin_right; lra).
  replace (ln (1 - a)) with (Rmax (ln (1 - a)) (ln (1 - b))) at 2 by (apply Rmax_left; lra).
  refine (plain_range _ _ _ _ _ _ _ _ _ I U). intros u y W. rewrite Rmin_right, Rmax_left in W by lra.
  destruct (f (1 - exp u)) as [z| |] eqn:Z; cbn; try discriminate. intro E. injection E as <-.
  apply Rmult_le_pos; [left; apply exp_pos|]. exact (F _ _ (Range u W) Z).
Qed.

Lemma direct_generic s p cut E rate v : s <> LogCompton ->
  let lim := integration_limits (p_limits p) cut E in
  ordered lim -> (0 < v_min lim -> resolved lim /\ not_negative lim (p_differential p E)) ->
  upper_direct nan qags s p cut E rate = Some (Ok v) -> in_limits lim v.
Proof.
  intros S lim L Rs H. unfold upper_direct in H. fold lim in H. cbv zeta in H.
  assert (G : place_loss nan qags (p_differential p E) (v_min lim) (v_max lim) (- rate) = Some (Ok v)) by (destruct s; try contradiction; exact H).
  destruct (Rlt_le_dec 0 (v_min lim)) as [Pos|Neg].
  - exact (place_loss_range _ _ _ _ _ (conj Pos L) (proj1 (Rs Pos)) (proj2 (Rs Pos)) G).
  - unfold place_loss, integrate_ratio in G. destruct ((v_min lim =? 0) && (v_max lim =? 0)) eqn:Z.
    + apply andb_true_iff in Z. destruct Z as (Za & Zb). apply Reqb_true in Za. apply Reqb_true in Zb.
      cbn in G. injection G as <-. unfold in_limits. lra.
    + rewrite (proj2 (Rleb_true (v_min lim) 0) Neg) in G. discriminate.
Qed.
Lemma direct_no_cut s p cut E rate : s <> LogCompton ->
  let lim := integration_limits (p_limits p) cut E in
  v_min lim <= 0 < v_max lim -> upper_direct nan qags s p cut E rate = Some (Throw invalid_argument).
Proof.
  intros S lim L. unfold upper_direct. fold lim. cbv zeta.
  assert (G : place_loss nan qags (p_differential p E) (v_min lim) (v_max lim) (- rate) = Some (Throw invalid_argument)); [|destruct s; try contradiction; exact G].
  unfold place_loss, integrate_ratio. rewrite (eqb_no (v_max lim) 0) by lra. rewrite andb_false_r.
  rewrite (proj2 (Rleb_true (v_min lim) 0)) by lra. reflexivity.
Qed.
Lemma direct_compton p cut E rate v :
  let lim := integration_limits (p_limits p) cut E in
  ordered lim -> not_negative lim (p_differential p E) ->
  upper_direct nan qags LogCompton p cut E rate = Some (Ok v) -> in_limits lim v.
Proof. intros lim L F H. exact (place_compton_range _ _ _ _ _ L F H). Qed.
End Direct.

(** Limits of realistic size that differ by more than one part in a hundred million *)
Lemma resolved_realistic lim : / 10 ^ 25 <= v_min lim -> v_max lim <= 1 -> v_min lim * (1 + / 10 ^ 8) <= v_max lim -> resolved lim.
Proof.
  intros A B C. right. set (a := v_min lim) in *. set (b := v_max lim) in *.
  assert (P : 0 < a) by (assert (0 < / 10 ^ 25) by (apply Rinv_0_lt_compat, pow_lt; lra); lra).
  assert (L1 : a <= 1) by (assert (0 < a * / 10 ^ 8) by (apply Rmult_lt_0_compat; lra); lra).
  assert (Low : -84 <= ln a).
  { rewrite <- (ln_exp (-84)). apply ln_le; [apply exp_pos|].
    apply Rle_trans with (/ 10 ^ 25); [|exact A].
    replace (-84) with (- (84)) by lra. rewrite exp_Ropp. apply Rinv_le_contravar; [apply pow_lt; lra|].
    replace (exp 84) with (exp 1 ^ 84).
    - apply Rle_trans with (2 ^ 84); [lra|]. apply pow_incr. split; [lra|]. pose proof (exp_ineq1 1 ltac:(lra)). lra.
    - rewrite <- (Rpower_pow 84 (exp 1)) by apply exp_pos. unfold Rpower. rewrite ln_exp. f_equal. rewrite INR_IZR_INZ. cbn [Z.of_nat Pos.of_succ_nat Pos.succ]. lra. }
  assert (Neg : ln a <= 0) by (rewrite <- ln_1; apply ln_le; lra).
  assert (G : 99 / 10 ^ 10 <= ln (1 + / 10 ^ 8)).
  { assert (X : exp (99 / 10 ^ 10) <= 1 + / 10 ^ 8).
    { assert (Y : 1 - 99 / 10 ^ 10 <= exp (- (99 / 10 ^ 10))) by (pose proof (exp_ineq1_le (- (99 / 10 ^ 10))); lra).
      rewrite exp_Ropp in Y. pose proof (exp_pos (99 / 10 ^ 10)) as Ep.
      apply (Rmult_le_compat_r (exp (99 / 10 ^ 10))) in Y; [|lra]. rewrite Rinv_l in Y by lra. nra. }
    rewrite <- (ln_exp (99 / 10 ^ 10)). apply ln_le; [apply exp_pos|exact X]. }
  assert (M : ln a + ln (1 + / 10 ^ 8) <= ln b).
  { rewrite <- ln_mult by lra. apply ln_le; [nra|exact C]. }
  rewrite Rabs_left1 by exact Neg. lra.
Qed.

(** ** Tables *)
Lemma relative_range nan c a b u v : 0 < c -> 0 < a <= b -> transform_relative_loss nan c a b u = Ok v -> a <= v <= b.
Proof.
  intros C L. unfold transform_relative_loss. rewrite (eqb_no b 0) by lra. rewrite orb_false_r.
  destruct (Rltb_spec u 0) as [|U0]; [intro H; injection H as <-; lra|].
  destruct (Rleb_spec 1 u) as [|U1]; [intro H; injection H as <-; lra|].
  unfold quo. rewrite eqb_no by lra. cbn [obind].
  assert (Q : 1 <= b / a) by (apply (Rmult_le_reg_r a); [lra|]; unfold Rdiv; rewrite Rmult_assoc, Rinv_l by lra; lra).
  unfold log. rewrite leb_no by lra. cbn [obind]. intro H. injection H as <-.
  set (t := rpow u c). assert (T : 0 <= t <= 1).
  { unfold t, rpow. destruct (Reqb_spec u 0); [lra|]. split; [left; apply exp_pos|]. unfold Rpower. rewrite <- exp_0.
    assert (Ln : ln u < 0) by (rewrite <- ln_1; apply ln_increasing; lra). left. apply exp_increasing. nra. }
  assert (Lq : 0 <= ln (b / a)) by (rewrite <- ln_1; apply ln_le; lra).
  split.
  - assert (1 <= exp (t * ln (b / a))).
    { rewrite <- exp_0. destruct (Rle_lt_or_eq_dec 0 (t * ln (b / a)) (Rmult_le_pos _ _ (proj1 T) Lq)) as [G| <-]; [left; apply exp_increasing; exact G|lra]. }
    nra.
  - assert (X : exp (t * ln (b / a)) <= b / a).
    { rewrite <- (exp_ln (b / a)) at 2 by lra.
      destruct (Rle_lt_or_eq_dec (t * ln (b / a)) (ln (b / a))) as [G| ->]; [nra|left; apply exp_increasing; exact G|lra]. }
    apply (Rmult_le_compat_l a) in X; [|lra]. replace (a * (b / a)) with b in X by (field; lra). exact X.
Qed.
Lemma log_range nan a b u v : (forall A (x : A), nan A <> Ok x) -> a <= b -> b < 1 -> 0 <= u <= 1 -> transform_loss_log nan a b u = Ok v -> a <= v <= b.
Proof.
  intros NN L B U. unfold transform_loss_log, quo. rewrite eqb_no by lra. cbn [obind].
  assert (Q : 1 <= (1 - a) / (1 - b)) by (apply (Rmult_le_reg_r (1 - b)); [lra|]; unfold Rdiv; rewrite Rmult_assoc, Rinv_l by lra; lra).
  unfold log. rewrite leb_no by lra. cbn [obind]. intro H. injection H as <-. set (q := (1 - a) / (1 - b)) in *.
  assert (Lq : 0 <= ln q) by (rewrite <- ln_1; apply ln_le; lra).
  assert (X1 : 1 <= exp ((1 - u) * ln q)).
  { rewrite <- exp_0 at 1. destruct (Rle_lt_or_eq_dec 0 ((1 - u) * ln q) (Rmult_le_pos (1 - u) (ln q) ltac:(lra) Lq)) as [G| <-]; [left; apply exp_increasing; exact G|lra]. }
  assert (X2 : exp ((1 - u) * ln q) <= q).
  { rewrite <- (exp_ln q) at 2 by lra.
    destruct (Rle_lt_or_eq_dec ((1 - u) * ln q) (ln q)) as [G| ->]; [nra|left; apply exp_increasing; exact G|lra]. }
  apply (Rmult_le_compat_l (1 - b)) in X2; [|lra]. replace ((1 - b) * q) with (1 - a) in X2 by (unfold q; field; lra). nra.
Qed.
Lemma table_range nan s kin cut table low find E : s <> LogCompton ->
  let lim := integration_limits kin cut E in
  0 < v_min lim <= v_max lim -> places lim (dn_upper (dndx_interpolant nan s kin cut table low find) E).
Proof.
  intros S lim L rate v. cbn [dn_upper dndx_interpolant]. fold lim. cbv zeta. destruct (E <? low); [discriminate|].
  intro H. apply obind_Ok in H. destruct H as (u & _ & H). unfold in_limits.
  destruct s; cbn [transform_loss] in H; try contradiction; refine (relative_range nan _ _ _ _ _ _ L H); lra.
Qed.
Lemma compton_table_range nan kin cut table low find E : (forall A (x : A), nan A <> Ok x) ->
  let lim := integration_limits kin cut E in
  ordered lim -> v_max lim < 1 -> (forall rate, exists u, find E rate = Ok u /\ 0 <= u <= 1) ->
  places lim (dn_upper (dndx_interpolant nan LogCompton kin cut table low find) E).
Proof.
  intros NN lim L B Fi rate v. cbn [dn_upper dndx_interpolant]. fold lim. cbv zeta. destruct (E <? low); [discriminate|].
  destruct (Fi rate) as (u & -> & U). cbn [obind transform_loss]. apply log_range; assumption.
Qed.

(** ** Cross sections *)
Lemma emplace_in {A} h (x : A) l e : In e (emplace h x l) -> In e l \/ e = (h, x).
Proof. unfold emplace. destruct (existsb _ l); [tauto|]. rewrite in_app_iff. cbn. intuition. Qed.
Lemma build_dndx_in nan make m : forall cs acc l e, build_dndx_loop nan make m cs acc = Ok l -> In e l ->
  In e acc \/ exists c, In c cs /\ c_hash c = fst e /\ make c = Ok (snd (snd e)).
Proof.
  induction cs as [|c cs IH]; intros acc l e H I; cbn [build_dndx_loop] in H; [injection H as <-; left; exact I|].
  apply obind_Ok in H. destruct H as (w & _ & H). apply obind_Ok in H. destruct H as (k & Hk & H).
  destruct (IH _ _ _ H I) as [J|(c' & J & Q)].
  - apply emplace_in in J. destruct J as [J| ->]; [left; exact J|right]. exists c. split; [left; reflexivity|split; [reflexivity|exact Hk]].
  - right. exists c'. split; [right; exact J|exact Q].
Qed.
Lemma dndx_at_in l h w : dndx_at l h = Ok w -> In (h, w) l.
Proof.
  unfold dndx_at. destruct (find _ l) as [e|] eqn:F; [|discriminate]. intro H. injection H as <-.
  apply find_some in F. destruct F as (I & Q). apply N.eqb_eq in Q. subst h. destruct e; exact I.
Qed.
Lemma cross_section_places nan order make_n make_e make_e2 m cut lower t x lim E : (forall l, Permutation (order l) l) ->
  new_cross_section nan order make_n make_e make_e2 m cut false lower t = Ok x ->
  (forall c calc, In c (m_components m) -> make_n c = Ok calc -> places (lim (c_hash c)) (dn_upper calc E)) ->
  forall h, places (lim h) (x_loss (as_cross nan x) h E).
Proof.
  intros O H P h rate v. unfold new_cross_section in H. apply obind_Ok in H. destruct H as (dn & D & H).
  apply obind_Ok in H. destruct H as (de & _ & H). apply obind_Ok in H. destruct H as (de2 & _ & H). injection H as <-.
  cbn [as_cross x_loss]. unfold cs_loss. cbn [cs_dndx cs_only_stochastic]. unfold build_dndx_components in D.
  destruct (only_continuous cut); [injection D as <-; discriminate|]. apply obind_Ok in D. destruct D as (l & D & Q). injection Q as <-.
  cbn [option_map]. intro H. apply obind_Ok in H. destruct H as ((w & c) & A & H). apply dndx_at_in in A.
  apply (Permutation_in _ (O l)) in A. destruct (build_dndx_in nan make_n m _ _ _ _ D A) as [[]|(k & I & Hk & Mk)].
  cbn [fst snd] in *. subst h. exact (P k c I Mk (rate * w) v H).
Qed.
Lemma medium_places nan make_n make_e make_e2 m cut lower t x lim E :
  new_cross_section_medium make_n make_e make_e2 m cut false lower t = Ok x ->
  (forall calc, make_n = Ok calc -> places lim (dn_upper calc E)) ->
  forall h, places lim (x_loss (as_cross nan x) h E).
Proof.
  intros H P h rate v. unfold new_cross_section_medium in H. apply obind_Ok in H. destruct H as (dn & D & H).
  apply obind_Ok in H. destruct H as (de & _ & H). apply obind_Ok in H. destruct H as (de2 & _ & H). injection H as <-.
  cbn [as_cross x_loss]. unfold cs_loss. cbn [cs_dndx cs_only_stochastic]. unfold build_dndx_medium in D.
  destruct (only_continuous cut); [injection D as <-; discriminate|]. apply obind_Ok in D. destruct D as (calc & Mk & Q). injection Q as <-.
  intro H. apply obind_Ok in H. destruct H as ((w & c) & A & H). apply dndx_at_in in A.
  destruct A as [A|[]]. injection A as _ _ <-. exact (P calc Mk _ v H).
Qed.
Lemma multiplied_places nan x k h E lim : places lim (x_loss x h E) -> places lim (x_loss (multiplied nan x k) h E).
Proof. intros P rate v. cbn [multiplied x_loss]. intro H. apply obind_Ok in H. destruct H as (q & _ & H). exact (P q v H). Qed.

(** ** The chosen loss *)
Lemma rates_in : forall cross E l r, rates cross E = Ok l -> In r l ->
  exists t, In (r_cross r) cross /\ x_per_target (r_cross r) E = Ok t /\ In (r_hash r, r_rate r) t.
Proof.
  induction cross as [|x cross IH]; intros E l r H I; cbn [rates] in H; [injection H as <-; destruct I|].
  apply obind_Ok in H. destruct H as (t & T & H). apply obind_Ok in H. destruct H as (l' & H' & H). injection H as <-.
  apply in_app_iff in I. destruct I as [I|I].
  - apply in_map_iff in I. destruct I as ((h & q) & <- & I). exists t. cbn. split; [left; reflexivity|split; [exact T|exact I]].
  - destruct (IH E l' r H' I) as (t' & A & B & C). exists t'. split; [right; exact A|split; assumption].
Qed.
Lemma sample_loop_in : forall E l y out, Forall (fun r => 0 <= r_rate r) l -> 0 <= y -> sample_loop E l y = Some (Ok out) ->
  exists r z v, In r l /\ 0 < z <= r_rate r /\ x_loss (r_cross r) (r_hash r) E z = Ok v /\ out = mkloss (x_type (r_cross r)) (r_hash r) v.
Proof.
  induction l as [|q l IH]; intros y out F Y; cbn [sample_loop]; [discriminate|]. cbv zeta.
  inversion F as [|? ? Fq Fl]; subst. destruct (Rltb_spec (y - r_rate q) 0) as [L|L].
  - intro H. injection H as H. apply obind_Ok in H. destruct H as (v & V & H). injection H as <-.
    exists q, (- (y - r_rate q)), v. split; [left; reflexivity|]. split; [lra|]. split; [exact V|reflexivity].
  - intro H. destruct (IH (y - r_rate q) out Fl ltac:(lra) H) as (r & z & v & A & B). exists r, z, v. split; [right; exact A|exact B].
Qed.
Lemma sum_rates_nonneg : forall l a, Forall (fun r => 0 <= r_rate r) l -> 0 <= a -> 0 <= fold_left (fun a r => a + r_rate r) l a.
Proof. induction l as [|q l IH]; intros a F A; cbn; [exact A|]. inversion F; subst. apply IH; [assumption|lra]. Qed.
Lemma chosen cross E rnd out : 0 <= rnd ->
  (forall x l h r, In x cross -> x_per_target x E = Ok l -> In (h, r) l -> 0 <= r) ->
  energy_stochastic_loss cross E rnd = Ok out ->
  out = mkloss Undefined 0%N 0 \/
  exists x l h r z v, In x cross /\ x_per_target x E = Ok l /\ In (h, r) l /\ 0 < z <= r /\ x_loss x h E z = Ok v /\ out = mkloss (x_type x) h v.
Proof.
  intros Rn Nn H. unfold energy_stochastic_loss in H. apply obind_Ok in H. destruct H as (l & Rl & H).
  assert (F : Forall (fun r => 0 <= r_rate r) l).
  { apply Forall_forall. intros r I. destruct (rates_in cross E l r Rl I) as (t & A & B & C). exact (Nn _ _ _ _ A B C). }
  unfold sample_loss in H. cbv zeta in H. destruct (sample_loop E l _) as [o|] eqn:S.
  - subst o. right. apply sample_loop_in in S; [|exact F|apply Rmult_le_pos; [exact Rn|apply sum_rates_nonneg; [exact F|lra]]].
    destruct S as (r & z & v & I & Z & V & ->). destruct (rates_in cross E l r Rl I) as (t & A & B & C).
    exists (r_cross r), t, (r_hash r), (r_rate r), z, v. repeat (split; [assumption|]). reflexivity.
  - left. destruct (_ =? 0); [|discriminate]. injection H as <-. reflexivity.
Qed.
Lemma chosen_range cross E rnd out lim : 0 <= rnd ->
  (forall x l h r, In x cross -> x_per_target x E = Ok l -> In (h, r) l -> 0 <= r) ->
  (forall x, In x cross -> places_targets x E (lim x)) ->
  energy_stochastic_loss cross E rnd = Ok out ->
  out = mkloss Undefined 0%N 0 \/
  exists x l h r, In x cross /\ x_per_target x E = Ok l /\ In (h, r) l /\ loss_type out = x_type x /\ in_limits (lim x h) (v_loss out).
Proof.
  intros Rn Nn P H. destruct (chosen cross E rnd out Rn Nn H) as [->|(x & l & h & r & z & v & A & B & C & D & V & ->)]; [left; reflexivity|right].
  exists x, l, h, r. split; [exact A|]. split; [exact B|]. split; [exact C|]. split; [reflexivity|]. exact (P x A h r l B C z v V).
Qed.
