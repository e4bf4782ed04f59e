(** Production of pairs: the integral over the asymmetry. *)
From Coq Require Import Lra Lia Psatz List.
From Coquelicot Require Import Coquelicot.
From Verif Require Import Prelude PreludeFacts Particle_Model Limits_Model Cross_Model Photo_Model Products_Model
  Differential_Model Integral_Model Utility_Model Continuous_Model Pairs_Model.
From Verif Require Import Function_Spec Integral_Spec Cross_Spec Differential_Spec Pairs_Spec Transform_Proofs Differential_Proofs Brems_Proofs Nuclear_Proofs
  Trapezoid_Proofs Expansion_Proofs Romberg_Proofs Values_Proofs Integral_Examples Pairs_Proofs.

Lemma fine_roomy : roomy fine_integral. Proof. split; [split; cbn; lia|exact small_enough]. Qed.
Lemma fine_precision : e_precision fine_integral = IPREC.
Proof. unfold fine_integral, new_integral. cbn [e_precision]. rewrite (proj2 (Rleb_false IPREC 0)) by (unfold IPREC; lra). reflexivity. Qed.
(** * An integrand that vanishes *)
Section Vanish.
Variable nan : forall A, outcome A.
Variable qags : (R -> outcome R) -> R -> R -> outcome R.
Hypothesis Hq : forall h lo hi, lo < hi -> (forall t, lo < t < hi -> h t = Ok 0) -> qags h lo hi = Ok 0.
Lemma zero_expands F a b d : (forall x, F x = 0) -> expands (midpoint_sum F a b) d 0.
Proof using.
  intros HF.
  apply (expands_ext (fun _ => 0)); [|apply expands_const]. intros n _. unfold midpoint_sum. symmetry.
  rewrite (sum_below_ext n _ (fun _ => 0)) by (intros; apply HF). replace (sum_below n (fun _ => 0)) with 0; [ring|]. induction n as [|n IH]; cbn; [reflexivity|]. cbn in IH. rewrite <- IH. ring.
Qed.
Lemma zero_computed F a b steps m precision (r : run (R * engine)) : (forall x, F x = 0) -> a < b -> (1 <= m)%nat ->
  computed qags F a b 3 (midpoint_sum F a b) steps m precision r -> exists g, r = Some (Ok (0, g)).
Proof using Hq.
  intros HF L M C. destruct (computed_exact qags _ _ _ 3 _ steps m precision 0 0 r ltac:(lia) ltac:(lia) (zero_expands F a b 0 HF) C) as [[g ->]|(h & g & Hh & ->)].
  - now exists g.
  - rewrite (Hq h a b L) by (intros t Ht; rewrite Hh by auto; now rewrite HF). now exists g.
Qed.
Lemma zero_opened g a b f : roomy g -> e_random g = 0 -> a < b -> (forall x, a < x < b -> f x = Ok 0) -> exists g', integrate nan qags g a b f 2 0 = Some (Ok (0, g')).
Proof using Hq.
  intros Ro Rn L H. destruct (negligible a b) eqn:N.
  - unfold integrate. destruct (_ && _); [now exists g|]. unfold integrate_opened, init_plain, prepared. cbn [e_min e_max].
    rewrite Rmin_left, Rmax_right, N by lra. now eexists.
  - apply (zero_computed (fun _ => 0) a b (e_steps g) (e_romberg g) (e_precision g)); [auto|auto|destruct (proj1 Ro); auto|]. apply value_opened; auto.
Qed.
Lemma zero_log g a b f : roomy g -> 0 < a < b -> (forall x, a < x < b -> f x = Ok 0) -> exists g', integrate nan qags g a b f 4 0 = Some (Ok (0, g')).
Proof using Hq.
  intros Ro L H. assert (ln a < ln b) as Ll by (apply ln_increasing; lra). destruct (negligible (ln a) (ln b)) eqn:N.
  - unfold integrate. rewrite (proj2 (Reqb_false a 0)), (proj2 (Rleb_false a 0)), (proj2 (Rleb_false b 0)) by lra. cbn [andb orb]. unfold integrate_log, logarithm.
    rewrite Rmin_left, Rmax_right by lra. rewrite !(proj2 (Rltb_true 0 _)) by lra. unfold prepared. cbn [done fbind e_min e_max]. rewrite N. now eexists.
  - pose proof (value_log nan qags g a b f 0 (fun _ => 0) Ro L N H) as C.
    apply (zero_computed (fun t => exp t * 0) (ln a) (ln b) (e_steps g) (e_romberg g) (e_precision g)); [intros; ring|auto|destruct (proj1 Ro); auto|exact C].
Qed.
End Vanish.

(** * The largest asymmetry *)
Lemma c68_asymmetry nan mass Z E v : 0 < mass -> 0 < E -> v_min (epair_limits mass Z E) < v < v_max (epair_limits mass Z E) ->
  epair_rho_max nan mass E v = Ok (largest_asymmetry mass E v) /\ 0 < largest_asymmetry mass E v < 1 /\ 0 < v < 1.
Proof.
  intros Hm HE [V1 V2]. unfold epair_limits in V1, V2. cbv zeta in V1, V2. cbn [v_min v_max] in V1, V2. pose proof me_val as Me.
  destruct (Rltb_spec (Rmin (1 - 75 / 100 * SQRTE * (mass / E) * cube_root Z) (1 - 6 * (mass / E) * (mass / E))) (4 * ME / E)) as [N|_]; [lra|].
  assert (v < 1 - 6 * (mass / E) * (mass / E)) as V3 by (eapply Rlt_le_trans; [exact V2|apply Rmin_r]).
  assert (0 < mass / E) as Q by (apply Rdiv_lt_0_compat; auto). set (q := mass / E) in *.
  assert (0 < 4 * ME / E) as V0 by (apply Rdiv_lt_0_compat; lra). assert (0 < v) as V by lra.
  assert (0 < q * q) as QQ by nra. assert (0 < E * v) as EV by (apply Rmult_lt_0_compat; auto).
  assert (0 < 4 * ME / (v * E) < 1) as X.
  { split; [apply Rdiv_lt_0_compat; [lra|rewrite Rmult_comm; auto]|]. apply (Rlt_div_l (4 * ME) 1 (v * E)); [rewrite Rmult_comm; auto|].
    assert (4 * ME / E * E = 4 * ME) as K by (field; lra). rewrite <- K. rewrite Rmult_1_l. apply Rmult_lt_compat_r; auto. }
  assert (0 < 6 * q ^ 2 / (1 - v) < 1) as W.
  { split; [apply Rdiv_lt_0_compat; [cbn; lra|lra]|]. apply (Rlt_div_l (6 * q ^ 2) 1 (1 - v)); [lra|]. cbn. lra. }
  unfold epair_rho_max. rewrite quo_ok by lra. cbn [obind]. rewrite quo_ok by (apply Rgt_not_eq, Rmult_lt_0_compat; [nra|lra]). cbn [obind].
  replace (6 * mass * mass / (E * E * (1 - v))) with (6 * q ^ 2 / (1 - v)) by (unfold q; field; lra).
  rewrite (Rmult_comm E v). unfold largest_asymmetry. fold q.
  rewrite !(proj2 (Rltb_true 0 _)) by lra. cbn [andb]. split; [reflexivity|]. split; [|lra].
  set (x := 4 * ME / (v * E)) in *. set (w := 6 * q ^ 2 / (1 - v)) in *. clearbody x w.
  assert (0 < sqrt (1 - x)) as S by (apply sqrt_lt_R0; lra). assert (sqrt (1 - x) < 1) as S1 by (pose proof (sqrt_lt_1 (1 - x) 1 ltac:(lra) ltac:(lra) ltac:(lra)) as H; rewrite sqrt_1 in H; exact H).
  split; [apply Rmult_lt_0_compat; lra|]. assert (sqrt (1 - x) * (1 - w) < 1 * 1); [|lra]. apply Rmult_gt_0_lt_compat; lra.
Qed.
Lemma c68_asymmetry_range nan mass E v : 0 < E -> 0 < v < 1 -> exists r, epair_rho_max nan mass E v = Ok r /\ 0 <= r < 1.
Proof.
  intros HE Hv. pose proof me_val as Me. unfold epair_rho_max. assert (0 < E * v) as A by (apply Rmult_lt_0_compat; lra).
  assert (0 < E * E * (1 - v)) as B by (apply Rmult_lt_0_compat; nra). rewrite quo_ok by lra. cbn [obind]. rewrite quo_ok by lra. cbn [obind].
  assert (0 < 4 * ME / (E * v)) as X by (apply Rdiv_lt_0_compat; lra). assert (0 <= 6 * mass * mass / (E * E * (1 - v))) as W by (apply Rdiv_le_0_compat; [nra|lra]).
  set (x := 4 * ME / (E * v)) in *. set (w := 6 * mass * mass / (E * E * (1 - v))) in *. clearbody x w.
  destruct (Rltb_spec 0 (1 - x)) as [X1|X1]; [|exists 0; split; [reflexivity|lra]]. destruct (Rltb_spec 0 (1 - w)) as [W1|W1]; [|exists 0; split; [reflexivity|lra]].
  cbn [andb]. eexists. split; [reflexivity|]. pose proof (sqrt_pos (1 - x)) as S. pose proof (sqrt_lt_1 (1 - x) 1 ltac:(lra) ltac:(lra) ltac:(lra)) as S1. rewrite sqrt_1 in S1.
  split; [apply Rmult_le_pos; lra|]. apply Rle_lt_trans with (sqrt (1 - x) * 1); [apply Rmult_le_compat_l; lra|lra].
Qed.
(** * The formula *)
Lemma c68_formula nan mass charge c E v rho : element c -> 0 < mass -> 0 < E -> 0 < v < 1 -> 0 <= rho < 1 ->
  exists y, kelner_pair nan None mass charge c E v (1 - rho) = Ok y /\
  Rabs (y - kelner_formula mass charge (c_charge c) (log_constant c) E v rho) <= kelner_formula mass charge (c_charge c) (log_constant c) E v rho / 10 ^ 4.
Proof.
  intros Hc Hm HE Hv Hr. destruct (kelner_value nan mass charge c E v rho Hc Hm HE Hv Hr) as (y & Py & Hval & K & _). cbv zeta in K.
  exists y. split; [exact Hval|replace (10 ^ 4) with 10000 by lra; exact K].
Qed.
Lemma c68_suppressed nan mass charge c E v rho : element c -> 0 < mass -> 0 < E -> 0 < v < 1 -> 0 <= rho < 1 ->
  exists y, 0 <= y /\ kelner_pair nan None mass charge c E v (1 - rho) = Ok y /\ forall e density, 0 < e -> 0 < density ->
  kelner_pair nan (Some (e, density)) mass charge c E v (1 - rho) = Ok (pair_suppressed (suppression_parameter e density E v rho) mass v rho y).
Proof.
  intros Hc Hm HE Hv Hr. destruct (kelner_value nan mass charge c E v rho Hc Hm HE Hv Hr) as (y & Py & Hval & _ & S).
  exists y. split; [exact Py|]. split; [exact Hval|exact S].
Qed.
(** * The integral *)
Section Integral.
Variable nan : forall A, outcome A.
Variable qags : (R -> outcome R) -> R -> R -> outcome R.
Lemma empty_range g a f : exists g', integrate nan qags g a a f 2 0 = Some (Ok (0, g')) /\ (roomy g -> roomy g') /\
  e_steps g' = e_steps g /\ e_romberg g' = e_romberg g /\ e_precision g' = e_precision g.
Proof.
  unfold integrate. destruct (_ && _); [exists g; repeat split; auto; apply H|]. unfold integrate_opened.
  assert (negligible (e_min (init_plain g a a f)) (e_max (init_plain g a a f)) = true) as ->.
  { unfold init_plain, prepared. cbn [e_min e_max]. rewrite Rmin_left, Rmax_left by lra. unfold negligible. apply Rleb_true. rewrite Rminus_eq_0, Rabs_R0.
    apply Rmult_le_pos; [apply Rabs_pos|unfold COMPUTER_PRECISION; lra]. }
  eexists. split; [reflexivity|]. split; [|repeat split]. intros [[A B C D] M]. split; [split; assumption|exact M].
Qed.
Lemma pair_integral f mass c E v : (0 < v < 1 -> forall rho, 0 <= rho < 1 -> exists y, f (1 - rho) = Ok y) -> element c -> 0 < mass -> 0 < E -> v_min (epair_limits mass (c_charge c) E) < v < v_max (epair_limits mass (c_charge c) E) ->
  let top := largest_asymmetry mass E v in top <= 1 - COMPUTER_PRECISION ->
  exists F r, (forall rho, 0 <= rho < 1 -> f (1 - rho) = Ok (F rho)) /\
  computed qags (fun t => exp t * F (1 - exp t)) (ln (1 - top)) (ln 1) 3 (midpoint_sum (fun t => exp t * F (1 - exp t)) (ln (1 - top)) (ln 1)) 12 5 IPREC r /\
  epair_differential nan qags f mass c E v = (flet (x, _) := (r : run (R * engine)) in done (Ok (NA / c_atomic c * x))).
Proof.
  intros Hf Hc Hm HE V top T. destruct (c68_asymmetry nan mass (c_charge c) E v Hm HE V) as (Er & Rt & Hv). fold top in Er, Rt.
  exists (fun rho => match f (1 - rho) with Ok y => y | _ => 0 end).
  assert (HF : forall rho, 0 <= rho < 1 -> f (1 - rho) = Ok (match f (1 - rho) with Ok y => y | _ => 0 end)).
  { intros rho Hr. destruct (Hf Hv rho Hr) as (y & ->). reflexivity. }
  unfold epair_differential. rewrite Er. cbn [done fbind].
  rewrite Rmax_left by lra. destruct (empty_range fine_integral (1 - top) f) as (g & Eg & Rg & G1 & G2 & G3). specialize (Rg fine_roomy).
  exists (integrate nan qags g (1 - top) 1 f 4 0). split; [exact HF|]. split.
  - assert (ln (1 - top) < ln 1) as L by (apply ln_increasing; lra).
    assert (negligible (ln (1 - top)) (ln 1) = false) as N.
    { rewrite ln_1 in *. unfold negligible. set (l := ln (1 - top)) in *. clearbody l. apply Rleb_false. rewrite (Rabs_right (0 - l)), (Rabs_left l) by lra. unfold COMPUTER_PRECISION. lra. }
    pose proof (value_log nan qags g (1 - top) 1 f 0
      (fun x => match f (1 - (1 - x)) with Ok y => y | _ => 0 end) Rg ltac:(lra) N) as C.
    rewrite G1, G2, G3, fine_precision in C. refine (C _). clear C. intros x Hx. refine (eq_trans _ (HF (1 - x) _)); [f_equal; ring|lra].
  - rewrite quo_ok by (destruct Hc; lra). cbn [done fbind]. rewrite Eg. cbn [fbind]. set (r := integrate nan qags g (1 - top) 1 _ 4 0). destruct r as [[[x g']| |]|]; cbn; try reflexivity.
    now rewrite Rplus_0_l.
Qed.
Lemma c68_integral mass charge c E v : element c -> 0 < mass -> 0 < E -> v_min (epair_limits mass (c_charge c) E) < v < v_max (epair_limits mass (c_charge c) E) ->
  let top := largest_asymmetry mass E v in top <= 1 - COMPUTER_PRECISION ->
  exists F r, (forall rho, 0 <= rho < 1 -> kelner_pair nan None mass charge c E v (1 - rho) = Ok (F rho)) /\
  computed qags (fun t => exp t * F (1 - exp t)) (ln (1 - top)) (ln 1) 3 (midpoint_sum (fun t => exp t * F (1 - exp t)) (ln (1 - top)) (ln 1)) 12 5 IPREC r /\
  epair_differential nan qags (kelner_pair nan None mass charge c E v) mass c E v = (flet (x, _) := (r : run (R * engine)) in done (Ok (NA / c_atomic c * x))).
Proof.
  intros Hc Hm HE. apply pair_integral; auto. intros Hv rho Hr. destruct (c68_formula nan mass charge c E v rho Hc Hm HE Hv Hr) as (y & Ey & _). now exists y.
Qed.
(** The engine after an integral over an interval *)
Lemma opened_kept g a b f F : roomy g -> e_random g = 0 \/ e_random g = 1 -> a < b -> negligible a b = false -> (forall x, a < x < b -> f x = Ok (F x)) ->
  forall x g', integrate nan qags g a b f 2 0 = Some (Ok (x, g')) -> roomy g' /\ e_steps g' = e_steps g /\ e_romberg g' = e_romberg g /\ e_precision g' = e_precision g.
Proof.
  intros Ro Rn L N Hf x g'. unfold integrate. rewrite not_both_zero by exact L. unfold integrate_opened, init_plain.
  destruct (order a b L) as (-> & -> & ->). cbv zeta. cbn [e_min e_max prepared]. rewrite N.
  set (g0 := prepared g a b f 0 false false (e_random g) false (e_reverse_x g)).
  assert (Ev : forall x, a < x < b -> evaluate nan g0 x = Ok (F x)).
  { intros t Ht. unfold evaluate, g0, prepared. cbn [e_reverse e_power e_log e_integrand]. destruct (Reqb_spec 0 0) as [_|X]; [|lra].
    cbn [obind]. rewrite Hf by exact Ht. cbn [obind]. rewrite Rmult_1_l. reflexivity. }
  pose proof (roomy_prepared g a b f 0 false false (e_random g) false (e_reverse_x g) Ro) as R0. fold g0 in R0.
  destruct (romberg_opened_ends nan qags g0 F None (proj1 R0) L Ev Rn (proj2 R0)) as (g1 & K & H).
  assert (roomy g1 /\ e_steps g1 = e_steps g /\ e_romberg g1 = e_romberg g /\ e_precision g1 = e_precision g) as P.
  { destruct (like_fields _ _ K) as (A & _ & B & _ & C & _). split; [split; [exact (like_fits _ _ K (proj1 R0))|rewrite A; exact (proj2 R0)]|]. repeat split; assumption. }
  destruct H as [(v & -> & _)| ->]; cbn [finish fbind done obind].
  - intros [= _ <-]. exact P.
  - destruct (qags _ _ _); cbn; intros [=]. now subst g1.
Qed.
Lemma pair_integral_top f mass c E v : (0 < v < 1 -> forall rho, 0 <= rho < 1 -> exists y, f (1 - rho) = Ok y) -> element c -> 0 < mass -> 0 < E -> v_min (epair_limits mass (c_charge c) E) < v < v_max (epair_limits mass (c_charge c) E) ->
  let top := largest_asymmetry mass E v in let cut := COMPUTER_PRECISION in 1 - cut < top ->
  exists F r1 r2, (forall rho, 0 <= rho < 1 -> f (1 - rho) = Ok (F rho)) /\
  (computed qags (fun x => F (1 - x)) (1 - top) cut 3 (midpoint_sum (fun x => F (1 - x)) (1 - top) cut) 12 5 IPREC r1 \/
   top - (1 - cut) <= cut * cut /\ exists g, r1 = Some (Ok (0, g))) /\
  (forall x g, r1 = Some (Ok (x, g)) ->
   computed qags (fun t => exp t * F (1 - exp t)) (ln cut) (ln 1) 3 (midpoint_sum (fun t => exp t * F (1 - exp t)) (ln cut) (ln 1)) 12 5 IPREC (r2 g)) /\
  epair_differential nan qags f mass c E v =
    (flet (x, g) := (r1 : run (R * engine)) in flet (y, _) := (r2 g : run (R * engine)) in done (Ok (NA / c_atomic c * (x + y)))).
Proof.
  intros Hf Hc Hm HE V top cut T. destruct (c68_asymmetry nan mass (c_charge c) E v Hm HE V) as (Er & Rt & Hv). fold top in Er, Rt.
  assert (0 < cut < 1 / 2) as CP by (unfold cut, COMPUTER_PRECISION; lra).
  set (F := fun rho => match f (1 - rho) with Ok y => y | _ => 0 end).
  assert (HF : forall rho, 0 <= rho < 1 -> f (1 - rho) = Ok (F rho)).
  { intros rho Hr. unfold F. destruct (Hf Hv rho Hr) as (y & ->). reflexivity. }
  assert (HF' : forall x, 0 < x <= 1 -> f x = Ok (F (1 - x))).
  { intros x Hx. refine (eq_trans _ (HF (1 - x) _)); [f_equal; ring|lra]. }
  exists F, (integrate nan qags fine_integral (1 - top) cut f 2 0), (fun g => integrate nan qags g cut 1 f 4 0). split; [exact HF|].
  assert (L1 : forall g, roomy g -> e_steps g = e_steps fine_integral -> e_romberg g = e_romberg fine_integral -> e_precision g = e_precision fine_integral ->
    computed qags (fun t => exp t * F (1 - exp t)) (ln cut) (ln 1) 3 (midpoint_sum (fun t => exp t * F (1 - exp t)) (ln cut) (ln 1)) 12 5 IPREC (integrate nan qags g cut 1 f 4 0)).
  { intros g Rg G1 G2 G3. assert (ln cut < ln 1) as L by (apply ln_increasing; lra).
    assert (negligible (ln cut) (ln 1) = false) as N.
    { rewrite ln_1 in *. unfold negligible. set (l := ln cut) in *. clearbody l. apply Rleb_false. rewrite (Rabs_right (0 - l)), (Rabs_left l) by lra. unfold COMPUTER_PRECISION. lra. }
    pose proof (value_log nan qags g cut 1 f 0 (fun x => F (1 - x)) Rg ltac:(lra) N) as C.
    rewrite G1, G2, G3, fine_precision in C. refine (C _). intros x Hx. apply HF'. lra. }
  split; [|split].
  - destruct (negligible (1 - top) cut) eqn:N.
    + right. split.
      * unfold negligible in N. apply Rleb_true in N. rewrite (Rabs_right (cut - (1 - top))), (Rabs_right (1 - top)) in N by lra. fold cut in N. nra.
      * unfold integrate. rewrite not_both_zero by lra. unfold integrate_opened, init_plain, prepared. cbn [e_min e_max].
        rewrite Rmin_left, Rmax_right, N by lra. now eexists.
    + left. pose proof (value_opened nan qags fine_integral (1 - top) cut f 0 (fun x => F (1 - x)) fine_roomy (or_introl eq_refl) ltac:(lra) N) as C.
      rewrite fine_precision in C. refine (C _). intros x Hx. apply HF'. lra.
  - intros x g Hg. destruct (negligible (1 - top) cut) eqn:N.
    + unfold integrate in Hg. rewrite not_both_zero in Hg by lra. unfold integrate_opened, init_plain, prepared in Hg. cbn [e_min e_max] in Hg.
      rewrite Rmin_left, Rmax_right, N in Hg by lra. injection Hg as _ <-.
      apply L1; try reflexivity. destruct fine_roomy as [[A B C D] M]. split; [split; assumption|exact M].
    + destruct (opened_kept fine_integral (1 - top) cut f (fun x => F (1 - x)) fine_roomy (or_introl eq_refl) ltac:(lra) N (fun x Hx => HF' x ltac:(lra)) x g Hg) as (A & B & C & D).
      apply L1; assumption.
  - unfold epair_differential. rewrite Er. cbn [done fbind]. rewrite Rmax_right by (fold cut; lra). fold cut.
    rewrite quo_ok by (destruct Hc; lra). cbn [done fbind]. reflexivity.
Qed.
Lemma c68_integral_top mass charge c E v : element c -> 0 < mass -> 0 < E -> v_min (epair_limits mass (c_charge c) E) < v < v_max (epair_limits mass (c_charge c) E) ->
  let top := largest_asymmetry mass E v in let cut := COMPUTER_PRECISION in 1 - cut < top ->
  exists F r1 r2, (forall rho, 0 <= rho < 1 -> kelner_pair nan None mass charge c E v (1 - rho) = Ok (F rho)) /\
  (computed qags (fun x => F (1 - x)) (1 - top) cut 3 (midpoint_sum (fun x => F (1 - x)) (1 - top) cut) 12 5 IPREC r1 \/
   top - (1 - cut) <= cut * cut /\ exists g, r1 = Some (Ok (0, g))) /\
  (forall x g, r1 = Some (Ok (x, g)) ->
   computed qags (fun t => exp t * F (1 - exp t)) (ln cut) (ln 1) 3 (midpoint_sum (fun t => exp t * F (1 - exp t)) (ln cut) (ln 1)) 12 5 IPREC (r2 g)) /\
  epair_differential nan qags (kelner_pair nan None mass charge c E v) mass c E v =
    (flet (x, g) := (r1 : run (R * engine)) in flet (y, _) := (r2 g : run (R * engine)) in done (Ok (NA / c_atomic c * (x + y)))).
Proof.
  intros Hc Hm HE. apply pair_integral_top; auto. intros Hv rho Hr. destruct (c68_formula nan mass charge c E v rho Hc Hm HE Hv Hr) as (y & Ey & _). now exists y.
Qed.
End Integral.

(** * Electrons *)
Lemma electron_integrand nan charge c E v rho : element c -> charge <> 0 -> 0 < E -> 0 < v < 1 -> 2 * ME < v * E -> 0 <= rho < 1 ->
  exists y, electron_pair nan None charge c E v rho = Ok y /\ (rho < largest_pair_asymmetry ME E v -> 0 < y) /\ (largest_pair_asymmetry ME E v <= rho -> y = 0).
Proof.
  intros Hc Hq HE Hv Ht Hr. pose proof me_val as Me. pose proof (log_constant_bounds c) as LB. pose proof (icr_pos (c_charge c)) as Z3. destruct Hc as [[Z1 _] _].
  assert (0 < log_constant c * inverse_cube_root (c_charge c)) as K by (apply Rmult_lt_0_compat; lra).
  destruct (same_mass nan ME (log_constant c) 1 RE charge (c_charge c) E v ltac:(lra) ltac:(lra) ltac:(lra) re_pos Hq Z1 HE Hv Ht
    (log_constant c * inverse_cube_root (c_charge c)) rho K eq_refl Hr) as (y & p & _ & Hval & _ & _ & P1 & P2).
  exists y. unfold electron_pair. rewrite Hval. cbn [obind suppressed]. auto.
Qed.
Lemma cube_root_small c : element c -> 0 < cube_root (c_charge c) <= 5.
Proof.
  intros H. pose proof (element_icr c H) as I. destruct H as [[Z1 _] _]. pose proof (icr_cube (c_charge c) ltac:(lra)) as C.
  assert (0 < cube_root (c_charge c)) as P by apply exp_pos. split; [auto|]. set (a := cube_root _) in *. set (b := inverse_cube_root _) in *. clearbody a b. nra.
Qed.
Lemma c68_electron nan qags c : (forall h lo hi, lo < hi -> (forall t, lo < t < hi -> h t = Ok 0) -> qags h lo hi = Ok 0) -> element c ->
  exists E v, v_min (epair_limits ME (c_charge c) E) < v < v_max (epair_limits ME (c_charge c) E) /\
  epair_differential nan qags (electron_pair nan None (-1) c E v) ME c E v = Some (Ok 0) /\
  forall rho, 0 <= rho <= largest_asymmetry ME E v -> exists y, electron_pair nan None (-1) c E v rho = Ok y /\ 0 < y.
Proof.
  intros Hq Hc. pose proof me_val as Me. pose proof SQRTE_val as SQ. pose proof (cube_root_small c Hc) as CR. exists 1000, (2 * ME / 450).
  assert (v_min (epair_limits ME (c_charge c) 1000) < 2 * ME / 450 < v_max (epair_limits ME (c_charge c) 1000)) as V.
  { unfold epair_limits. cbv zeta. cbn [v_min v_max]. split; [lra|]. set (q := ME / 1000). assert (51 / 100000 <= q <= 52 / 100000) as Q by (unfold q; lra).
    assert (1 / 2 <= Rmin (1 - 75 / 100 * SQRTE * q * cube_root (c_charge c)) (1 - 6 * q * q)) as M.
    { apply Rmin_glb; [|nra]. assert (0 <= SQRTE * q <= 2 * (52 / 100000)) as A by nra. set (a := SQRTE * q) in *.
      replace (75 / 100 * SQRTE * q * cube_root (c_charge c)) with (75 / 100 * (a * cube_root (c_charge c))) by (unfold a; ring). clearbody a. nra. }
    match goal with |- context [?a <? ?b] => destruct (Rltb_spec a b) end; lra. }
  destruct (c68_asymmetry nan ME (c_charge c) 1000 (2 * ME / 450) ltac:(lra) ltac:(lra) V) as (Er & Rt & Hv).
  split; [exact V|]. assert (largest_pair_asymmetry ME 1000 (2 * ME / 450) = 55 / 100) as L by (unfold largest_pair_asymmetry; field; lra).
  assert (largest_asymmetry ME 1000 (2 * ME / 450) <= 32 / 100) as T.
  { unfold largest_asymmetry in *. replace (4 * ME / (2 * ME / 450 * 1000)) with (9 / 10) in * by (field; lra).
    assert (sqrt (1 - 9 / 10) <= 32 / 100) as S. { rewrite <- (sqrt_Rsqr (32 / 100)) by lra. apply sqrt_le_1; unfold Rsqr; lra. }
    pose proof (sqrt_pos (1 - 9 / 10)). assert (0 <= 6 * (ME / 1000) ^ 2 / (1 - 2 * ME / 450)) as W.
    { apply Rdiv_le_0_compat; [|lra]. assert (0 <= (ME / 1000) ^ 2) by apply pow2_ge_0. lra. }
    set (s := sqrt (1 - 9 / 10)) in *. set (w := 6 * (ME / 1000) ^ 2 / (1 - 2 * ME / 450)) in *. clearbody s w. nra. }
  set (top := largest_asymmetry ME 1000 (2 * ME / 450)) in *. clearbody top.
  assert (forall rho, 0 <= rho < 1 -> exists y, electron_pair nan None (-1) c 1000 (2 * ME / 450) rho = Ok y /\ (rho < 55 / 100 -> 0 < y) /\ (55 / 100 <= rho -> y = 0)) as EI.
  { intros rho Hr. rewrite <- L. apply electron_integrand; auto; lra. }
  split.
  - unfold epair_differential. rewrite Er. cbn [done fbind]. assert (COMPUTER_PRECISION < 1 / 10) by (unfold COMPUTER_PRECISION; lra). rewrite Rmax_left by lra.
    rewrite quo_ok by (destruct Hc; lra). cbn [done fbind].
    destruct (empty_range nan qags fine_integral (1 - top) (electron_pair nan None (-1) c 1000 (2 * ME / 450))) as (g & Eg & Rg & _). rewrite Eg. cbn [fbind].
    destruct (zero_log nan qags Hq g (1 - top) 1 (electron_pair nan None (-1) c 1000 (2 * ME / 450)) (Rg fine_roomy) ltac:(lra)) as [g' ->].
    + intros x Hx. destruct (EI x ltac:(lra)) as (y & -> & _ & Y). now rewrite Y by lra.
    + cbn. unfold done. do 3 f_equal. ring.
  - intros rho Hr. destruct (EI rho ltac:(lra)) as (y & Ey & Y & _). exists y. split; [auto|]. apply Y. lra.
Qed.

(** * Muon pairs *)
Section Muons.
Variable nan : forall A, outcome A.
Variables (mass charge : R) (c : component) (E v : R).
Hypotheses (Hc : element c) (Hm : 0 < mass) (Hq : charge <> 0) (HE : 0 < E) (Hv : 0 < v < 1) (Ht : 2 * MMU < v * E).
Let radius := RE * ME / MMU.
Let k := 65 / 100 * Rpower (c_atoms c) (- (27 / 100)) * 183 * inverse_cube_root (c_charge c) * MMU / ME.
Lemma muon_constants : 0 < radius /\ 0 < k /\ 0 < mass / MMU /\ 1 <= c_charge c /\ 0 < MMU.
Proof using All.
  pose proof me_val. pose proof mmu_val. pose proof re_pos. pose proof (icr_pos (c_charge c)). assert (0 < Rpower (c_atoms c) (- (27 / 100))) by apply exp_pos.
  split; [unfold radius; apply Rdiv_lt_0_compat; [apply Rmult_lt_0_compat; lra|lra]|]. split; [unfold k; apply Rdiv_lt_0_compat; [repeat (apply Rmult_lt_0_compat; [|lra]); lra|lra]|].
  split; [apply Rdiv_lt_0_compat; lra|]. destruct Hc; lra.
Qed.
Lemma c69_defined r : 0 <= r < 1 -> exists y, muon_pair nan mass charge c E v r = Ok y /\ 0 <= y.
Proof using All.
  intros Hr. destruct muon_constants as (A & B & C & D & F).
  destruct (integrand_nonneg nan MMU 183 (mass / MMU) radius charge (c_charge c) E v F ltac:(lra) C A Hq D HE Hv Ht k r B Hr) as (y & p & Hval & Y).
  exists y. split; [|auto]. unfold muon_pair. fold k radius. rewrite Hval. reflexivity.
Qed.
Lemma c69_same r : mass = MMU -> 0 <= r < 1 -> exists y, muon_pair nan mass charge c E v r = Ok y /\
  (r < largest_pair_asymmetry MMU E v -> 0 < y) /\ (largest_pair_asymmetry MMU E v <= r -> y = 0).
Proof using All.
  intros Em Hr. destruct muon_constants as (A & B & C & D & F). assert (mass / MMU = 1) as Q by (rewrite Em; field; lra).
  destruct (same_mass nan MMU 183 (mass / MMU) radius charge (c_charge c) E v F ltac:(lra) C A Hq D HE Hv Ht k r B Q Hr) as (y & p & _ & Hval & _ & _ & P1 & P2).
  exists y. split; [|auto]. unfold muon_pair. fold k radius. rewrite Hval. reflexivity.
Qed.
Lemma c69_light : mass < MMU -> exists y, muon_pair nan mass charge c E v (largest_pair_asymmetry MMU E v) = Ok y /\ 0 < y.
Proof using All.
  intros Em. destruct muon_constants as (A & B & C & D & F). assert (mass / MMU < 1) as Q by (apply (Rlt_div_l mass 1 MMU F); lra).
  destruct (lighter nan MMU 183 (mass / MMU) radius charge (c_charge c) E v F ltac:(lra) C A Hq D HE Hv Ht k B Q) as (y & p & Hval & Y).
  exists y. split; [|auto]. unfold muon_pair, largest_pair_asymmetry. fold k radius. rewrite Hval. reflexivity.
Qed.
Lemma c69_heavy r : MMU < mass -> / (1 - largest_pair_asymmetry MMU E v ^ 2) <= 1 + ((mass / MMU) ^ 2 - 1) * (v * v / (4 * (1 - v))) -> 0 <= r < 1 -> muon_pair nan mass charge c E v r = Ok 0.
Proof using All.
  intros Em H Hr. destruct muon_constants as (A & B & C & D & F). assert (1 < mass / MMU) as Q by (apply (Rlt_div_r 1 mass MMU F); lra).
  replace (largest_pair_asymmetry MMU E v ^ 2) with (largest_pair_asymmetry MMU E v * largest_pair_asymmetry MMU E v) in H by ring.
  replace ((mass / MMU) ^ 2) with (mass / MMU * (mass / MMU)) in H by ring. unfold largest_pair_asymmetry in H.
  destruct (heavier nan MMU 183 (mass / MMU) radius charge (c_charge c) E v F ltac:(lra) C A Hq D HE Hv Ht k r B Q H Hr) as (p & Hval).
  unfold muon_pair. fold k radius. rewrite Hval. reflexivity.
Qed.
End Muons.
Lemma c69_range nan E v : 0 < E -> 0 < v -> 2 * MMU < v * E -> muon_pair_rho_max nan E v = Ok (Some (largest_pair_asymmetry MMU E v)) /\ 0 < largest_pair_asymmetry MMU E v < 1.
Proof.
  intros HE Hv Ht. pose proof mmu_val. unfold muon_pair_rho_max, largest_pair_asymmetry. rewrite quo_ok by lra. cbn [obind].
  assert (0 < 2 * MMU / (v * E)) by (apply Rdiv_lt_0_compat; lra). assert (2 * MMU / (v * E) < 1) by (apply (Rlt_div_l (2 * MMU) 1 (v * E)); lra).
  rewrite (proj2 (Rltb_false _ _)) by lra. split; [reflexivity|lra].
Qed.
Lemma c69_limits mass E v : 0 <= mass -> 0 < E -> v_min (mupair_limits mass E) < v < v_max (mupair_limits mass E) -> 0 < v < 1 /\ 2 * MMU < v * E.
Proof.
  intros Hm HE [V1 V2]. pose proof mmu_val. unfold mupair_limits in *. cbv zeta in *. cbn [v_min v_max] in *.
  destruct (Rltb_spec (1 - mass / E) (2 * MMU / E)) as [N|_]; [lra|]. assert (0 < 2 * MMU / E) by (apply Rdiv_lt_0_compat; lra).
  assert (0 <= mass / E) by (apply Rdiv_le_0_compat; lra). split; [lra|]. apply (Rlt_div_l (2 * MMU) v E) in V1; lra.
Qed.
Lemma c69_tau nan qags c : (forall h lo hi, lo < hi -> (forall t, lo < t < hi -> h t = Ok 0) -> qags h lo hi = Ok 0) -> element c ->
  exists E v, v_min (mupair_limits MTAU E) < v < v_max (mupair_limits MTAU E) /\ 
  muon_pair_differential nan qags (muon_pair nan MTAU (-1) c E v) c E v = Some (Ok 0).
Proof.
  intros Hq Hc. exists (10 ^ 4), (1 / 2). assert (v_min (mupair_limits MTAU (10 ^ 4)) < 1 / 2 < v_max (mupair_limits MTAU (10 ^ 4))) as V.
  { unfold mupair_limits. cbv zeta. cbn [v_min v_max]. unfold MMU, MTAU. match goal with |- context [?a <? ?b] => destruct (Rltb_spec a b) end; lra. }
  split; [exact V|]. destruct (c69_limits MTAU (10 ^ 4) (1 / 2) ltac:(unfold MTAU; lra) ltac:(lra) V) as [Hv Ht].
  destruct (c69_range nan (10 ^ 4) (1 / 2) ltac:(lra) ltac:(lra) Ht) as [Er Rr].
  unfold muon_pair_differential. rewrite Er. cbn [done fbind]. rewrite quo_ok by (destruct Hc; lra). cbn [done fbind]. unfold integral.
  destruct (zero_opened nan qags Hq fine_integral 0 (largest_pair_asymmetry MMU (10 ^ 4) (1 / 2)) (muon_pair nan MTAU (-1) c (10 ^ 4) (1 / 2)) fine_roomy eq_refl (proj1 Rr)) as [g' ->].
  - intros r Hr. apply c69_heavy; auto; try (unfold MTAU; lra); try lra; [unfold MTAU, MMU; lra|].
    apply Rle_trans with 13; [|unfold MTAU, MMU; lra]. rewrite <- (Rinv_involutive 13) by lra. apply Rinv_le_contravar; [lra|]. unfold largest_pair_asymmetry, MMU. lra.
  - cbn. unfold done. do 3 f_equal. ring.
Qed.
(** The number of atoms *)
Lemma c67_muon_pairs nan charge c c' E v r : element c -> c_charge c' = c_charge c -> 0 < c_atoms c < c_atoms c' -> charge <> 0 -> 0 < E -> 0 < v < 1 -> 2 * MMU < v * E ->
  0 <= r < largest_pair_asymmetry MMU E v -> exists y y', muon_pair nan MMU charge c E v r = Ok y /\ muon_pair nan MMU charge c' E v r = Ok y' /\ y' < y.
Proof.
  intros Hc Ez Ha Hq HE Hv Ht Hr. pose proof me_val. pose proof mmu_val.
  destruct (muon_constants nan MMU charge c E v Hc ltac:(lra) Hq HE Hv Ht) as (A & B & C & D & F).
  assert (Rpower (c_atoms c') (- (27 / 100)) < Rpower (c_atoms c) (- (27 / 100))) as P.
  { rewrite !Rpower_Ropp. apply Rinv_lt_contravar; [apply Rmult_lt_0_compat; apply exp_pos|]. unfold Rpower. apply exp_increasing. apply Rmult_lt_compat_l; [lra|]. apply ln_increasing; lra. }
  assert (0 < Rpower (c_atoms c') (- (27 / 100))) as P0 by apply exp_pos. pose proof (icr_pos (c_charge c)) as I.
  set (k' := 65 / 100 * Rpower (c_atoms c') (- (27 / 100)) * 183 * inverse_cube_root (c_charge c) * MMU / ME).
  set (k := 65 / 100 * Rpower (c_atoms c) (- (27 / 100)) * 183 * inverse_cube_root (c_charge c) * MMU / ME) in *.
  assert (0 < 65 / 100 * 183 * inverse_cube_root (c_charge c) * MMU / ME) as W by (apply Rdiv_lt_0_compat; [repeat (apply Rmult_lt_0_compat; [|lra]); lra|lra]).
  assert (0 < k' < k) as K.
  { replace k' with (Rpower (c_atoms c') (- (27 / 100)) * (65 / 100 * 183 * inverse_cube_root (c_charge c) * MMU / ME)) by (unfold k'; field; lra).
    replace k with (Rpower (c_atoms c) (- (27 / 100)) * (65 / 100 * 183 * inverse_cube_root (c_charge c) * MMU / ME)) by (unfold k; field; lra).
    split; [apply Rmult_lt_0_compat; auto|apply Rmult_lt_compat_r; auto]. }
  destruct (grows_with_k nan MMU 183 (MMU / MMU) (RE * ME / MMU) charge (c_charge c) E v F ltac:(lra) C A Hq D HE Hv Ht k' k ltac:(field; lra) ltac:(lra) ltac:(lra) r ltac:(lra) ltac:(unfold largest_pair_asymmetry in Hr; lra))
    as (y' & y & p' & p & E1 & E2 & L).
  exists y, y'. unfold muon_pair. rewrite Ez. fold k k'. rewrite E1, E2. cbn [obind fst]. repeat split; lra.
Qed.
