(** Sampling of the losses of bremsstrahlung and Compton scattering, and cases for the theorems. *)
From Coquelicot Require Import Coquelicot.
From Verif Require Import Prelude PreludeFacts Propagator_Model Limits_Model Particle_Model Cross_Model Function_Model Integral_Model Continuous_Model
  Limits_Spec Cross_Spec Utility_Spec Sampling_Model Sampling_Spec Differential_Model Differential_Spec Trapezoid_Proofs Limits_Proofs
  Integral_Proofs Screening_Proofs Sampling_Proofs SamplingDirect_Proofs.

Lemma cut_limits k kin E : v_min (kin E) <= v_max (kin E) ->
  ordered (integration_limits kin (Some k) E) /\ v_min (kin E) <= v_min (integration_limits kin (Some k) E) /\
  (v_min (kin E) < get_cut k E -> v_min (kin E) < v_max (kin E) -> v_min (kin E) < v_min (integration_limits kin (Some k) E)).
Proof.
  unfold ordered, integration_limits, get_cut_within. cbn [v_min v_max]. intro L.
  set (a := v_min (kin E)) in *. set (b := v_max (kin E)) in *. set (g := get_cut k E).
  unfold Rmax, Rmin. repeat (destruct (Rle_dec _ _)); repeat split; intros; lra.
Qed.
Lemma kelner_sampled nan qags p k mass charge c E rate v : (forall A (x : A), nan A <> Ok x) ->
  ME <= mass <= E -> charge <> 0 -> element c -> lepton mass ->
  p_limits p = brems_limits None mass (c_charge c) ->
  p_differential p = bremsstrahlung nan false (kelner nan mass c) None mass charge c ->
  let lim := integration_limits (p_limits p) (Some k) E in
  (0 < v_min lim -> resolved lim) ->
  upper_direct nan qags Relative p (Some k) E rate = Some (Ok v) -> in_limits lim v /\ mass <= E * (1 - v).
Proof.
  intros NN M Q El Le Pl Pd lim Rs H.
  assert (MP : 0 < ME) by (unfold ME; lra).
  assert (Z1 : 1 <= c_charge c) by (destruct El; lra).
  destruct (brems_ok None mass (c_charge c) E ltac:(lra) Z1) as (O & Lv); [discriminate|].
  assert (O' : v_min (p_limits p E) <= v_max (p_limits p E)) by (rewrite Pl; exact O).
  destruct (cut_limits k (p_limits p) E O') as (L & Lo & Up). fold lim in L, Lo, Up.
  assert (I : in_limits lim v).
  { apply (direct_generic nan qags NN Relative p (Some k) E rate v); [discriminate|exact L| |exact H].
    intro Pos. fold lim in Pos. split; [exact (Rs Pos)|]. intros u y U Y. fold lim in U.
    rewrite Pd in Y. assert (EP : 0 < E) by lra. assert (Nn := kelner_result nan None mass charge c E (proj1 M) Q EP El Le u).
    destruct Nn as (y' & Y' & P'); [|assert (y' = y) as <- by congruence; exact P'].
    change (v_min (brems_limits None mass (c_charge c) E)) with 0. rewrite <- Pl.
    unfold in_limits in U. change (v_max lim) with (v_max (p_limits p E)) in U. lra. }
  split; [exact I|].
  destruct (Rle_lt_dec (v_max (p_limits p E)) (v_min (p_limits p E))) as [G|G].
  - assert (v = 0); [|subst; lra].
    unfold in_limits in I. change (v_max lim) with (v_max (p_limits p E)) in I.
    assert (v_min (p_limits p E) = 0) by (rewrite Pl; reflexivity). lra.
  - apply Lv; [rewrite <- Pl; exact G|]. unfold in_limits in *. change (v_max lim) with (v_max (p_limits p E)) in I. rewrite <- Pl. lra.
Qed.
Lemma compton_sampled nan qags p cut c E rate v : (forall A (x : A), nan A <> Ok x) ->
  0 < E -> 0 < c_charge c -> 0 < c_atomic c -> p_limits p = compton_limits ->
  p_differential p = klein_nishina nan c ->
  let lim := integration_limits (p_limits p) cut E in
  upper_direct nan qags LogCompton p cut E rate = Some (Ok v) -> in_limits lim v /\ 0 < E * (1 - v).
Proof.
  intros NN HE Z A Pl Pd lim H. destruct (compton_ok E HE) as (O & V1).
  assert (O' : v_min (p_limits p E) <= v_max (p_limits p E)) by (rewrite Pl; exact O).
  assert (L : ordered lim /\ v_min (p_limits p E) <= v_min lim).
  { destruct cut as [k|]; [destruct (cut_limits k (p_limits p) E O') as (L & Lo & _); split; assumption|].
    unfold lim, integration_limits, ordered. cbn [v_min v_max]. lra. }
  assert (I : in_limits lim v).
  { apply (direct_compton nan qags NN p cut E rate v); [exact (proj1 L)| |exact H]. fold lim. intros u y U Y. rewrite Pd in Y.
    destruct (klein_nishina_result nan c E u HE Z A) as (Y' & P' & _); [|rewrite Y' in Y; injection Y as <-; lra].
    rewrite <- Pl. unfold in_limits in U. change (v_max lim) with (v_max (p_limits p E)) in U. lra. }
  split; [exact I|]. unfold in_limits in I. change (v_max lim) with (v_max (p_limits p E)) in I. rewrite Pl in I. nra.
Qed.

(** A spectrum that falls off like the inverse of the loss *)
Definition falling (a b : R) : parametrization := mkparametrization (fun _ => mklimits a b) (fun _ v => Ok (1 / v)) (fun _ _ => Ok 0).
Definition ordinary : parametrization := falling (/ 1000) (1 / 2).
Lemma ordinary_limits E : integration_limits (p_limits ordinary) None E = mklimits (/ 1000) (1 / 2).
Proof. reflexivity. Qed.
Lemma ordinary_resolved E : resolved (integration_limits (p_limits ordinary) None E).
Proof. apply resolved_realistic; cbn; lra. Qed.
Lemma ordinary_nonneg E : not_negative (integration_limits (p_limits ordinary) None E) (p_differential ordinary E).
Proof. intros v y V H. cbn in *. injection H as <-. unfold in_limits in V. cbn in V. apply Rmult_le_pos; [lra|]. left. apply Rinv_0_lt_compat. lra. Qed.

(** Limits that differ by five parts in ten thousand millions *)
Definition narrow : parametrization := falling (exp (- 10)) (exp (- 10) * (1 + 5 / 10 ^ 10)).
Lemma narrow_refuted nan qags : constants_exact 1 qags -> exists p E, let lim := integration_limits (p_limits p) None E in
  0 < v_min lim < v_max lim /\ not_negative lim (p_differential p E) /\
  (forall rate, 0 < rate -> exists v, upper_direct nan qags Relative p None E rate = Some (Ok v) /\ v < 0).
Proof.
  intro Ex. exists narrow, 1. cbv zeta. pose proof (exp_pos (-10)) as P.
  assert (Q : exp (-10) < exp (-10) * (1 + 5 / 10 ^ 10)) by nra.
  split; [cbn; lra|]. split.
  - intros v y V H. cbn in *. injection H as <-. unfold in_limits in V. cbn in V. apply Rmult_le_pos; [lra|]. left. apply Rinv_0_lt_compat. lra.
  - intros rate Rt. exists (ln (exp (-10))). split; [|rewrite ln_exp; lra].
    unfold upper_direct. cbn [place narrow falling p_limits p_differential integration_limits v_min v_max].
    apply (flat_close nan qags 1 ltac:(lra) Ex); [intros; reflexivity|lra|nra| |exact Rt].
    rewrite ln_mult, ln_exp by lra. rewrite Rabs_left by lra.
    assert (ln (1 + 5 / 10 ^ 10) <= 5 / 10 ^ 10); [|lra].
    rewrite <- (ln_exp (5 / 10 ^ 10)) at 2. apply ln_le; [lra|]. apply exp_ineq1_le.
Qed.
Lemma cube_root_8 : 0 <= cube_root 8 <= 8.
Proof.
  unfold cube_root. split; [left; apply exp_pos|]. apply Rle_trans with (Rpower 8 1); [apply Rle_Rpower; lra|]. rewrite Rpower_1 by lra. lra.
Qed.
