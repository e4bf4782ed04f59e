(** Ionization in water, and the integrals of simple cross sections. *)
From Coq Require Import Lra Psatz.
From Coquelicot Require Import Coquelicot.
From Verif Require Import Prelude PreludeFacts Propagator_Model Function_Model Particle_Model Limits_Model Cross_Model Photo_Model Integral_Model Utility_Model.
From Verif Require Import Ionization_Model Continuous_Model Integral_Spec Continuous_Spec Function_Proofs Trapezoid_Proofs Neville_Proofs
  Expansion_Proofs Romberg_Proofs Transform_Proofs Integral_Proofs Values_Proofs Ionization_Proofs Continuous_Proofs
  Cross_Examples Integral_Examples.

(** Medium.cxx:237-249 *)
Definition water_ionization : material :=
  mkmaterial [hydrogen_c; oxygen_c] (797 / 10) (- 35017 / 10 ^ 4) (9116 / 10 ^ 5) (34773 / 10 ^ 4) (24 / 100) (28004 / 10 ^ 4) 0.
Lemma water_ionization_sound : sound_material water_ionization.
Proof.
  split; cbn; [discriminate| |lra]. apply Forall_cons; [cbn; lra|]. apply Forall_cons; [cbn; lra|apply Forall_nil].
Qed.
Definition relative_cut (v : R) : energy_cut := mkcut PInf v false.
Lemma relative_accepted v : 0 < v <= 1 -> accepted (relative_cut v).
Proof.
  intros V. exists PInf, v, false. unfold new_energy_cut. rewrite (proj2 (Rleb_false v 0)) by lra.
  rewrite (proj2 (Rltb_false 1 v)) by lra. reflexivity.
Qed.
Definition absolute_cut (e : R) : energy_cut := mkcut (Fin e) 1 false.
Lemma absolute_accepted e : 0 < e -> accepted (absolute_cut e).
Proof.
  intros V. exists (Fin e), 1, false. unfold new_energy_cut. rewrite (proj2 (Rleb_false e 0)) by lra. rewrite (proj2 (Rleb_false 1 0)) by lra.
  rewrite (proj2 (Rltb_false 1 1)) by lra. reflexivity.
Qed.
Lemma exp_two : exp 2 <= 9.
Proof. replace 2 with (1 + 1) by lra. rewrite exp_plus. pose proof exp_le_3. pose proof (exp_pos 1). nra. Qed.
Lemma ln_above x : 9 <= x -> 2 <= ln x.
Proof. intros H. pose proof exp_two. pose proof (exp_pos 2). rewrite <- (ln_exp 2). apply ln_le; lra. Qed.

Section Nan.
Variable nan : forall A, outcome A.
(** No correction for the density of slow particles *)
Lemma slow_effect b g : 0 < b * g <= 1 -> density_effect nan water_ionization b g = Ok 0.
Proof.
  intros H. unfold density_effect. rewrite log_ok by lra. cbn [obind mat_X0 mat_d0 water_ionization].
  rewrite (proj2 (Rltb_true _ _)).
  - f_equal. ring.
  - assert (ln (b * g) <= 0) as L by (rewrite <- ln_1; apply ln_le; lra).
    assert (0 < ln 10) as P by (rewrite <- ln_1; apply ln_increasing; lra).
    assert (ln (b * g) / ln 10 <= 0); [|lra]. unfold Rdiv. assert (0 < / ln 10) by now apply Rinv_0_lt_compat. nra.
Qed.
(** A positron with a quarter of its mass as kinetic energy *)
Definition slow : R := 5 / 4 * ME.
Lemma slow_big : ME < slow.
Proof. pose proof ME_pos. unfold slow. lra. Qed.
Lemma slow_gamma : slow / ME = 5 / 4.
Proof. pose proof ME_pos. unfold slow. field. lra. Qed.
Lemma slow_max : 1 - ME / slow = 1 / 5.
Proof. pose proof ME_pos. unfold slow. field. lra. Qed.
Lemma slow_loss f d : proton_fraction nan (mat_components water_ionization) = Ok f -> 0 < d <= 1 / 5 ->
  bhabha_dedx nan (relative_cut d) ME water_ionization slow =
    Ok (Rmax ((excitation water_ionization slow 0 + fplus (5 / 4) (d * (5 / 4))) * scale slow f) 0).
Proof.
  intros F D.
  assert (density_effect nan water_ionization (sqrt (1 - 1 / (slow / ME * (slow / ME)))) (slow / ME) = Ok 0) as Z.
  { rewrite slow_gamma. apply slow_effect. replace (1 - 1 / (5 / 4 * (5 / 4))) with ((3 / 5) * (3 / 5)) by field.
    rewrite sqrt_square by lra. lra. }
  rewrite (bhabha_dedx_value nan water_ionization slow f (sm_I _ water_ionization_sound) slow_big F 0 Z)
    by (apply relative_accepted; lra).
  rewrite slow_max, slow_gamma. cbn [get_cut relative_cut ecut vcut]. rewrite Rmin_left by lra. reflexivity.
Qed.
Lemma slow_positive d : 1 / 10 <= d <= 1 / 5 -> 0 < excitation water_ionization slow 0 + fplus (5 / 4) (d * (5 / 4)).
Proof.
  intros D. unfold excitation, fplus. rewrite slow_gamma.
  set (t := d * (5 / 4)). assert (1 / 8 <= t <= 1 / 4) as T by (unfold t; lra). clearbody t.
  set (q := 2 * (5 / 4 - 1 + 2) / ((/ 10 ^ 6 * mat_I water_ionization) ^ 2 / ME)).
  assert (9 <= q * (1 / 32)) as Q.
  { unfold q. cbn [mat_I water_ionization]. unfold ME. lra. }
  assert (2 <= ln (q * (1 / 32))) as L by now apply ln_above.
  rewrite ln_mult in L by lra.
  assert (ln (1 / 32) <= ln ((5 / 4 - 1) * t)) as M by (apply ln_le; lra).
  set (a := ln q) in *. set (b := ln ((5 / 4 - 1) * t)) in *. set (c := ln (1 / 32)) in *. clearbody a b c q.
  replace ((1 - 1 / (5 / 4 * (5 / 4))) / (5 / 4 - 1)) with (36 / 25) by field.
  replace (1 / (5 / 4 + 1)) with (4 / 9) by field.
  assert (0 <= t * t <= 1 / 4 * t) as T2 by nra. assert (0 <= t ^ 3 <= 1 / 64) as T3 by (cbn; nra). assert (0 <= t ^ 4) as T4 by (apply pow_le; lra).
  assert (5 / 4 - 1 + 2 * t - 3 * t * t * (4 / 9) / 2 - (t - t ^ 3 / 3) * (4 / 9) * (4 / 9) - (t * t / 2 - (5 / 4 - 1) * t ^ 3 / 3 + t ^ 4 / 4) * (4 / 9) ^ 3 <= 1).
  { replace ((4 / 9) ^ 3) with (64 / 729) by field. nra. }
  lra.
Qed.
Lemma own_cut_matters qags c : exists x1 x2, 
  continuous_loss nan qags (bhabha_scheme nan (relative_cut (1 / 10)) ME water_ionization)
    (bhabha_parametrization nan (relative_cut (1 / 10)) ME water_ionization) c slow = Some (Ok x1) /\
  continuous_loss nan qags (bhabha_scheme nan (relative_cut (1 / 5)) ME water_ionization)
    (bhabha_parametrization nan (relative_cut (1 / 5)) ME water_ionization) c slow = Some (Ok x2) /\
  0 < x1 /\ x1 < x2.
Proof.
  destruct (fraction_positive nan _ water_ionization_sound) as (f & F & Fe).
  eexists _, _. split; [apply (formula_loss nan qags slow slow_big), slow_loss; [exact Fe|lra]|].
  split; [apply (formula_loss nan qags slow slow_big), slow_loss; [exact Fe|lra]|].
  pose proof (slow_positive (1 / 10) ltac:(lra)) as P1. pose proof (slow_positive (1 / 5) ltac:(lra)) as P2.
  pose proof (scale_pos slow f slow_big F) as S.
  rewrite !Rmax_left by (apply Rlt_le, Rmult_lt_0_compat; assumption).
  split; [now apply Rmult_lt_0_compat|]. apply Rmult_lt_compat_r; [exact S|]. apply Rplus_lt_compat_l.
  assert (forall t, 1 / 8 <= t <= 1 / 4 -> 0 < (1 - 1 / (5 / 4 * (5 / 4))) * bhabha_bracket (5 / 4) (t / (5 / 4 - 1)) * (t / (5 / 4 - 1)) / (5 / 4 - 1)) as D.
  { intros t T. pose proof (bhabha_bracket_positive (5 / 4) (t / (5 / 4 - 1)) ltac:(lra) ltac:(lra)) as B.
    apply Rdiv_lt_0_compat; [|lra]. apply Rmult_lt_0_compat; [|lra]. apply Rmult_lt_0_compat; [lra|exact B]. }
  apply (incr_function_le (fplus (5 / 4)) (1 / 8) (1 / 4) (fun t => (1 - 1 / (5 / 4 * (5 / 4))) * bhabha_bracket (5 / 4) (t / (5 / 4 - 1)) * (t / (5 / 4 - 1)) / (5 / 4 - 1))); cbn; try lra.
  - intros t T1 T2. apply fplus_derive; lra.
  - intros t T1 T2. apply D. lra.
Qed.

(** ** A muon with a quarter of its mass as kinetic energy *)
Definition slow_muon : R := 5 / 4 * MMU.
Lemma MMU_pos : 0 < MMU.
Proof. unfold MMU. lra. Qed.
Lemma slow_muon_beta : sqrt (Rmax ((slow_muon - MMU) * (slow_muon + MMU)) 0) / slow_muon = 3 / 5.
Proof.
  pose proof MMU_pos. unfold slow_muon.
  replace ((5 / 4 * MMU - MMU) * (5 / 4 * MMU + MMU)) with ((3 / 4 * MMU) * (3 / 4 * MMU)) by field.
  rewrite Rmax_left by nra. rewrite sqrt_square by lra. field. lra.
Qed.
Lemma slow_muon_gamma : slow_muon / MMU = 5 / 4.
Proof. pose proof MMU_pos. unfold slow_muon. field. lra. Qed.
Lemma slow_muon_effect : density_effect nan water_ionization (sqrt (Rmax ((slow_muon - MMU) * (slow_muon + MMU)) 0) / slow_muon) (slow_muon / MMU) = Ok 0.
Proof. rewrite slow_muon_beta, slow_muon_gamma. apply slow_effect. lra. Qed.
(** The ionization potential in MeV *)
Definition potential : R := 797 / 10 / 10 ^ 6.
Lemma slow_muon_limits : v_min (ionization_limits MMU (mat_I water_ionization) slow_muon) = potential / slow_muon.
Proof. reflexivity. Qed.
Lemma slow_muon_cut e : 0 < e <= 1 -> get_cut (absolute_cut e) slow_muon = e / slow_muon.
Proof.
  intros H. unfold get_cut. cbn. rewrite Rmin_left; [reflexivity|]. pose proof MMU_pos. unfold slow_muon, MMU in *.
  apply (Rmult_le_reg_r (5 / 4 * (1056583745 / 10 ^ 7))); [lra|]. unfold Rdiv at 1. rewrite Rmult_assoc, Rinv_l by lra. lra.
Qed.
Lemma slow_muon_loss e : 1 / 2 * potential <= e <= 1 -> e <> potential ->
  e / slow_muon < v_max (ionization_limits MMU (mat_I water_ionization) slow_muon) ->
  exists l, ionization_loss nan (absolute_cut e) MMU (-1) water_ionization slow_muon = Ok l /\ 0 < l.
Proof.
  intros H N M. pose proof MMU_pos as P. pose proof ME_pos as P'. assert (0 < potential) as I by (unfold potential; lra).
  assert (0 < slow_muon) as S by (unfold slow_muon; lra).
  destruct (fraction_positive nan _ water_ionization_sound) as (f & F & Fe).
  assert (0 < e / slow_muon) as E0 by (apply Rdiv_lt_0_compat; lra).
  assert (-1 <> 0) as Z by lra. assert (MMU < slow_muon) as L by (unfold slow_muon; lra).
  rewrite (loss_value nan MMU (-1) water_ionization slow_muon f water_ionization_sound P L Z F Fe 0 (absolute_cut e) slow_muon_effect).
  2:{ rewrite slow_muon_cut by lra. split; assumption. }
  2:{ rewrite slow_muon_cut, slow_muon_limits by lra. intros X. apply N. unfold Rdiv in X. apply Rmult_eq_reg_r in X; [exact X|].
      apply Rgt_not_eq, Rinv_0_lt_compat, S. }
  rewrite slow_muon_cut by lra. eexists. split; [reflexivity|].
  assert (0 < ground MMU (-1) water_ionization slow_muon f 0 + primitive MMU (-1) water_ionization slow_muon f (e / slow_muon)) as G.
  2:{ rewrite (proj2 (Rltb_true 0 _)) by exact G. exact G. }
  unfold ground, primitive. rewrite slow_muon_beta, slow_muon_gamma.
  pose proof (k_pos MMU (-1) slow_muon f P L Z F) as K. rewrite slow_muon_beta in K.
  match type of K with 0 < ?z => set (k := z) in * end. clearbody k. rewrite <- Rmult_plus_distr_r. apply Rmult_lt_0_compat; [|exact K].
  set (vm := v_max _) in *.
  assert (e / slow_muon / vm <= 1) as W.
  { apply (Rmult_le_reg_r vm); [lra|]. unfold Rdiv at 1. rewrite Rmult_assoc, Rinv_l by lra. lra. }
  assert (9 <= 2 * ME * slow_muon * (e / slow_muon) * (3 / 5 * (5 / 4) / potential * (3 / 5 * (5 / 4) / potential))) as B.
  { replace (2 * ME * slow_muon * (e / slow_muon) * (3 / 5 * (5 / 4) / potential * (3 / 5 * (5 / 4) / potential)))
      with (9 / 8 * ME / potential * (e / potential)) by (field; lra).
    assert (1 / 2 <= e / potential) by (apply (Rmult_le_reg_r potential); [lra|]; unfold Rdiv at 2; rewrite Rmult_assoc, Rinv_l by lra; lra).
    assert (18 <= 9 / 8 * ME / potential) by (unfold potential, ME; lra). nra. }
  apply ln_above in B.
  assert (0 < 3 / 5 * (5 / 4) / potential) as Q by (apply Rdiv_lt_0_compat; lra).
  rewrite ln_mult in B; [|apply Rmult_lt_0_compat; [nra|lra]|nra].
  rewrite (ln_mult _ (e / slow_muon)), (ln_mult (3 / 5 * (5 / 4) / potential)) in B by (try lra; nra).
  replace (/ 10 ^ 6 * mat_I water_ionization) with potential by (unfold potential; cbn [mat_I water_ionization]; field).
  assert (0 <= e / slow_muon / (2 * (1 + 1 / (5 / 4))) * (e / slow_muon / (2 * (1 + 1 / (5 / 4))))) as Sq by apply Rle_0_sqr.
  lra.
Qed.
(** A cut at half the ionization potential: all losses are sampled, and there is a
    continuous one. *)
Lemma below_matters qags : exists x,
  accepted (absolute_cut (1 / 2 * potential)) /\
  get_cut (absolute_cut (1 / 2 * potential)) slow_muon < v_min (ionization_limits MMU (mat_I water_ionization) slow_muon) /\
  continuous_loss nan qags (rossi_scheme nan (absolute_cut (1 / 2 * potential)) MMU (-1) water_ionization)
    (rossi_parametrization nan MMU (-1) water_ionization) (absolute_cut (1 / 2 * potential)) slow_muon = Some (Ok x) /\ 0 < x.
Proof.
  assert (0 < potential < 1) as I by (unfold potential; lra). pose proof MMU_pos as P.
  assert (0 < slow_muon) as S by (unfold slow_muon; lra).
  assert (1 / 2 * potential / slow_muon < potential / slow_muon) as L.
  { unfold Rdiv. apply Rmult_lt_compat_r; [now apply Rinv_0_lt_compat|]. lra. }
  pose proof (vmin_vmax MMU water_ionization slow_muon) as V. rewrite slow_muon_limits in V.
  destruct (slow_muon_loss (1 / 2 * potential)) as (l & Hl & Pl); [lra|lra|lra|].
  exists l. split; [apply absolute_accepted; lra|]. split; [rewrite slow_muon_cut, slow_muon_limits by lra; exact L|].
  split; [|exact Pl].
  unfold continuous_loss, dedx_integral, rossi_scheme. cbn [p_limits p_dedx rossi_parametrization].
  replace (get_cut_within (absolute_cut (1 / 2 * potential)) (ionization_limits MMU (mat_I water_ionization) slow_muon) slow_muon)
    with (v_min (ionization_limits MMU (mat_I water_ionization) slow_muon)).
  2:{ unfold get_cut_within. rewrite slow_muon_cut by lra. rewrite slow_muon_limits. rewrite Rmax_left by lra. rewrite Rmin_left by lra. reflexivity. }
  unfold integral.
  destruct (c39_equal nan qags fine_integral (v_min (ionization_limits MMU (mat_I water_ionization) slow_muon))
              (rossi_dedx nan MMU (-1) water_ionization slow_muon) 4 0) as [g' Hg]; [discriminate|discriminate|].
  rewrite Hg. cbn [fbind done]. rewrite Hl. cbn [fbind done]. rewrite (quo_ok nan l slow_muon) by lra. cbn [fbind done].
  match goal with |- _ = ?r => change (Some (Ok ((0 + l / slow_muon) * slow_muon)) = r) end. do 2 f_equal. field. lra.
Qed.
(** Without a cut the range begins at zero: the rate is zero. *)
Lemma uncut_rate qags kin differential E : v_min (kin E) = 0 -> sampled_rate nan qags (standard kin differential) None E = Some (Ok 0).
Proof.
  intros H. unfold sampled_rate. cbn [p_limits p_differential standard]. unfold integration_limits. rewrite H. cbn [v_min v_max].
  destruct (Rltb_spec 0 (v_max (kin E))); [|reflexivity]. unfold integral, integrate.
  destruct ((0 =? 0) && (v_max (kin E) =? 0))%bool; [reflexivity|].
  rewrite (proj2 (Rleb_true 0 0)) by lra. reflexivity.
Qed.

Lemma slow_muon_max : 1 / 1000 <= v_max (ionization_limits MMU (mat_I water_ionization) slow_muon).
Proof.
  pose proof MMU_pos as P. pose proof ME_pos as P'. unfold ionization_limits. cbn [v_max]. rewrite slow_muon_gamma.
  assert (1 / 1000 <= Rmin (2 * ME * (5 / 4 * (5 / 4) - 1) / ((1 + 2 * (5 / 4) * (ME / MMU) + ME / MMU * (ME / MMU)) * slow_muon)) (1 - MMU / slow_muon)) as A.
  { apply Rmin_glb.
    - assert (0 < ME / MMU < 1 / 200) as Q by (unfold ME, MMU; lra). set (r := ME / MMU) in *. clearbody r.
      assert (0 < (1 + 2 * (5 / 4) * r + r * r) * slow_muon <= 102 / 100 * slow_muon) as D.
      { assert (0 < slow_muon) by (unfold slow_muon; lra). split; [apply Rmult_lt_0_compat; nra|]. apply Rmult_le_compat_r; nra. }
      apply (proj1 (Rcomplements.Rle_div_r (1 / 1000) (2 * ME * (5 / 4 * (5 / 4) - 1)) ((1 + 2 * (5 / 4) * r + r * r) * slow_muon) ltac:(lra))).
      assert (102 / 100 * slow_muon <= 1000 * (2 * ME * (5 / 4 * (5 / 4) - 1))) by (unfold slow_muon, MMU, ME; lra). lra.
    - replace (1 - MMU / slow_muon) with (1 / 5) by (unfold slow_muon; field; lra). lra. }
  destruct (Rltb_spec (Rmin (2 * ME * (5 / 4 * (5 / 4) - 1) / ((1 + 2 * (5 / 4) * (ME / MMU) + ME / MMU * (ME / MMU)) * slow_muon)) (1 - MMU / slow_muon)) (mat_I water_ionization / 10 ^ 6 / slow_muon)); lra.
Qed.
(** A cut a little above the ionization potential *)
Lemma above_example qags d : 0 < d <= / 10 ^ 12 ->
  let c := absolute_cut (potential * (1 + d)) in
  let lim := ionization_limits MMU (mat_I water_ionization) slow_muon in
  accepted c /\ v_min lim < get_cut c slow_muon < v_max lim /\
  (exists l, ionization_loss nan c MMU (-1) water_ionization slow_muon = Ok l /\ 0 < l) /\
  (exists x, integral nan qags fine_integral (v_min lim) (get_cut c slow_muon) (rossi_dedx nan MMU (-1) water_ionization slow_muon) 4 = Some (Ok x)).
Proof.
  intros D c lim. assert (0 < potential < 1 / 10000) as I by (unfold potential; lra). pose proof MMU_pos as P.
  assert (0 < slow_muon) as S by (unfold slow_muon; lra). assert (0 < / slow_muon < 1 / 100) as Si.
  { split; [now apply Rinv_0_lt_compat|]. apply (Rmult_lt_reg_r slow_muon); [lra|]. rewrite Rinv_l by lra. unfold slow_muon, MMU. lra. }
  assert (/ 10 ^ 12 <= 1 / 10) as T by lra.
  assert (0 < potential * (1 + d) < 1 / 1000) as J by nra.
  pose proof slow_muon_max as V. fold lim in V.
  assert (get_cut c slow_muon = potential * (1 + d) / slow_muon) as C by (apply slow_muon_cut; lra).
  assert (v_min lim = potential / slow_muon) as L by reflexivity.
  assert (v_min lim < get_cut c slow_muon < v_max lim) as W.
  { rewrite C, L. unfold Rdiv. split; [apply Rmult_lt_compat_r; nra|nra]. }
  split; [apply absolute_accepted; lra|]. split; [exact W|]. split.
  - apply slow_muon_loss; [nra|nra|]. rewrite <- C. exact (proj2 W).
  - assert (0 < v_min lim) as M by (rewrite L; apply Rdiv_lt_0_compat; lra).
    unfold integral, integrate. rewrite not_both_zero by lra. rewrite !leb_no by lra. cbn [orb]. unfold integrate_log.
    destruct (order (v_min lim) (get_cut c slow_muon) ltac:(lra)) as (-> & -> & ->). unfold logarithm. rewrite !ltb_yes by lra.
    unfold done at 1 2. cbn [fbind]. cbv zeta. cbn [e_min e_max prepared].
    replace (negligible (ln (v_min lim)) (ln (get_cut c slow_muon))) with true; [eexists; reflexivity|].
    symmetry. unfold negligible. apply Rleb_true.
    replace (get_cut c slow_muon) with (v_min lim * (1 + d)) by (rewrite C, L; field; lra).
    rewrite ln_mult by lra. replace (ln (v_min lim) + ln (1 + d) - ln (v_min lim)) with (ln (1 + d)) by ring.
    assert (0 <= ln (1 + d) <= d) as Ld.
    { split; [rewrite <- ln_1; apply ln_le; lra|]. pose proof (exp_ineq1_le d). rewrite <- (ln_exp d) at 2. apply ln_le; lra. }
    rewrite Rabs_right by lra.
    assert (ln (v_min lim) <= - 2) as Lv.
    { assert (2 <= ln (/ v_min lim)); [|rewrite ln_Rinv in *; lra]. apply ln_above.
      apply (Rmult_le_reg_r (v_min lim)); [lra|]. rewrite Rinv_l by lra. rewrite L. unfold Rdiv. nra. }
    rewrite Rabs_left by lra. unfold COMPUTER_PRECISION. lra.
Qed.

(** ** Integrals that end *)
Definition ready (g : engine) : Prop := roomy g /\ (e_random g = 0 \/ e_random g = 1).
Lemma default_ready : ready default_integral.
Proof. split; [apply default_roomy|left; reflexivity]. Qed.
Lemma opened_runs g0 F : roomy g0 -> e_min g0 < e_max g0 -> e_random g0 = 0 \/ e_random g0 = 1 ->
  (forall x, e_min g0 < x < e_max g0 -> evaluate nan g0 x = Ok (F x)) ->
  exists x g', finish 1 (romberg_opened nan exactly_one None g0) = Some (Ok (x, g')) /\ ready g'.
Proof.
  intros [R1 R2] L Rn Ev. destruct (romberg_opened_ends nan exactly_one g0 F None R1 L Ev Rn R2) as (g' & Lk & H).
  assert (ready g') as Rd.
  { destruct (like_fields _ _ Lk) as (Es & _ & _ & _ & _ & _ & _ & _ & _ & _ & Er & _).
    split; [split; [apply (like_fits g0 g' Lk R1)|rewrite Es; exact R2]|rewrite Er; exact Rn]. }
  destruct H as [(v & -> & _)| ->]; cbn; eexists _, g'; (split; [reflexivity|exact Rd]).
Qed.
Lemma plain_runs g a b f F : ready g -> a < b -> negligible a b = false -> (forall x, a < x < b -> f x = Ok (F x)) ->
  exists x g', integrate nan exactly_one g a b f 2 0 = Some (Ok (x, g')) /\ ready g'.
Proof.
  intros [Ro Rn] L N Hf. unfold integrate. rewrite not_both_zero by exact L. unfold integrate_opened, init_plain.
  destruct (order a b L) as (-> & -> & ->). cbv zeta. cbn [e_min e_max prepared]. rewrite N.
  apply (opened_runs (prepared g a b f 0 false false (e_random g) false (e_reverse_x g)) F).
  - apply roomy_prepared, Ro.
  - exact L.
  - exact Rn.
  - intros x Hx. unfold evaluate, prepared. cbn [e_reverse e_power e_log e_integrand]. destruct (Reqb_spec 0 0) as [_|X]; [|lra].
    cbn [obind]. rewrite Hf by exact Hx. cbn [obind]. rewrite Rmult_1_l. reflexivity.
Qed.
Lemma log_runs g a b f F : ready g -> 0 < a < b -> negligible (ln a) (ln b) = false -> (forall x, a < x < b -> f x = Ok (F x)) ->
  exists x g', integrate nan exactly_one g a b f 4 0 = Some (Ok (x, g')) /\ ready g'.
Proof.
  intros [Ro Rn] L N Hf. unfold integrate. rewrite not_both_zero by lra. rewrite !leb_no by lra. cbn [orb].
  unfold integrate_log. destruct (order a b ltac:(lra)) as (-> & -> & ->). unfold logarithm. rewrite !ltb_yes by lra.
  unfold done at 1 2. cbn [fbind]. cbv zeta. cbn [e_min e_max prepared]. rewrite N.
  apply (opened_runs (prepared g (ln a) (ln b) f 0 false true 0 false (e_reverse_x g)) (fun t => exp t * F (exp t))).
  - apply roomy_prepared, Ro.
  - apply ln_increasing; lra.
  - left. reflexivity.
  - intros t Ht. unfold evaluate, prepared. cbn [e_reverse e_power e_log e_integrand]. destruct (Reqb_spec 0 0) as [_|X]; [|lra].
    cbn [obind]. rewrite Hf.
    + cbn [obind]. rewrite Rmult_1_l. reflexivity.
    + cbn [e_min e_max prepared] in Ht. split; [rewrite <- (exp_ln a) by lra|rewrite <- (exp_ln b) by lra]; apply exp_increasing; lra.
Qed.
Lemma some_deviation F a b g f method x g' : integrate nan exactly_one g a b f method 0 = Some (Ok (x, g')) ->
  exists e, deviates F a b e (integral nan exactly_one g a b f method).
Proof. intros H. exists (x - integral_of F a b), x. split; [unfold integral; rewrite H; reflexivity|ring]. Qed.

(** A cross section that grows with the tenth power, from a tenth to all of the energy *)
Definition wide (E : R) : limits := mklimits (1 / 10) 1.
Definition narrow (E : R) : limits := mklimits 0 (1 / 2).
Definition tenth (E v : R) : outcome R := Ok (v ^ 10).
Lemma power_integrable n a b : integrable (fun v => v * v ^ n) a b.
Proof.
  apply (ex_RInt_continuous (V := R_CompleteNormedModule)). intros v _. apply (ex_derive_continuous (fun v => v * v ^ n)). auto_derive. trivial.
Qed.
Lemma tenth_differential kin : v_min (kin 1) <= v_max (kin 1) -> is_differential kin tenth 1 (fun v => v ^ 10).
Proof. intros H. split; [exact H|reflexivity|apply power_integrable]. Qed.
Lemma relative_within kin v : v_min (kin 1) <= v <= v_max (kin 1) -> get_cut_within (relative_cut v) (kin 1) 1 = v.
Proof. intros H. unfold get_cut_within, get_cut. cbn [ecut vcut relative_cut]. rewrite Rmax_right by lra. apply Rmin_left. lra. Qed.
Lemma apart a b : Rabs a <= 100 -> 1 / 10 <= b - a -> negligible a b = false.
Proof.
  intros A B. unfold negligible, COMPUTER_PRECISION. apply leb_no. rewrite (Rabs_right (b - a)) by lra.
  assert (0 <= Rabs a) by apply Rabs_pos. lra.
Qed.
Lemma ln_tenth : - 9 <= ln (1 / 10) <= -2.
Proof.
  replace (1 / 10) with (/ 10) by lra. rewrite ln_Rinv by lra. pose proof (ln_above 10 ltac:(lra)). 
  pose proof (exp_ineq1_le 9). assert (ln 10 <= 9); [|lra]. rewrite <- (ln_exp 9). apply ln_le; lra.
Qed.
Lemma plain_example : exists e, deviates (fun v => v * v ^ 10) 0 (1 / 4) e
  (integral nan exactly_one default_integral 0 (1 / 4) (p_dedx (standard narrow tenth) 1) 2).
Proof.
  destruct (plain_runs default_integral 0 (1 / 4) (p_dedx (standard narrow tenth) 1) (fun v => v * v ^ 10) default_ready) as (x & g & H & _);
    [lra|apply apart; [rewrite Rabs_R0; lra|lra]|reflexivity|]. exact (some_deviation _ _ _ _ _ _ _ _ H).
Qed.
Lemma variance_example : exists e, deviates (fun v => v * v * v ^ 10) 0 (1 / 4) e
  (integral nan exactly_one default_integral 0 (1 / 4) (fun v => olet y := p_differential (standard narrow tenth) 1 v in Ok (v * v * y)) 2).
Proof.
  destruct (plain_runs default_integral 0 (1 / 4) (fun v => olet y := p_differential (standard narrow tenth) 1 v in Ok (v * v * y))
    (fun v => v * v * v ^ 10) default_ready) as (x & g & H & _);
    [lra|apply apart; [rewrite Rabs_R0; lra|lra]|reflexivity|]. exact (some_deviation _ _ _ _ _ _ _ _ H).
Qed.
Lemma reflected_example : exists e, deviates (fun t => exp t * ((1 - exp t) * (1 - exp t) ^ 10)) (ln (1 - 1 / 4)) (ln (1 - 0)) e
  (integral nan exactly_one default_integral (ln (1 - 1 / 4)) (ln (1 - 0))
     (fun t => olet y := p_dedx (standard narrow tenth) 1 (1 - exp t) in Ok (exp t * y)) 2).
Proof.
  assert (ln (1 - 0) = 0) as Z by (rewrite Rminus_0_r; apply ln_1).
  assert (- 1 <= ln (1 - 1 / 4) <= - 1 / 10) as B.
  { split.
    - rewrite <- (ln_exp (-1)). pose proof (exp_ineq1_le 1). pose proof (exp_plus 1 (-1)) as Q. rewrite Rplus_opp_r, exp_0 in Q.
      pose proof (exp_pos (-1)). apply ln_le; [assumption|]. nra.
    - rewrite <- (ln_exp (- 1 / 10)). pose proof (exp_ineq1_le (- 1 / 10)). apply ln_le; lra. }
  rewrite Z.
  destruct (plain_runs default_integral (ln (1 - 1 / 4)) 0 (fun t => olet y := p_dedx (standard narrow tenth) 1 (1 - exp t) in Ok (exp t * y))
    (fun t => exp t * ((1 - exp t) * (1 - exp t) ^ 10)) default_ready) as (x & g & H & _);
    [lra|apply apart; [rewrite Rabs_left; lra|lra]|reflexivity|]. exact (some_deviation _ _ _ _ _ _ _ _ H).
Qed.
Lemma whole_example : exists e, deviates (fun v => v * v ^ 10) (1 / 10) (1 / 2) e
  (integral nan exactly_one default_integral (1 / 10) (1 / 2) (p_dedx (standard wide tenth) 1) 4).
Proof.
  pose proof ln_tenth as T.
  assert (1 / 10 <= ln (1 / 2) - ln (1 / 10)) as G.
  { replace (1 / 2) with (1 / 10 * 5) by lra. rewrite ln_mult by lra. pose proof exp_le_3. assert (1 <= ln 5); [|lra].
    rewrite <- (ln_exp 1). apply ln_le; [apply exp_pos|lra]. }
  destruct (log_runs default_integral (1 / 10) (1 / 2) (p_dedx (standard wide tenth) 1) (fun v => v * v ^ 10) default_ready) as (x & g & H & _);
    [lra|apply apart; [rewrite Rabs_left; lra|lra]|reflexivity|]. exact (some_deviation _ _ _ _ _ _ _ _ H).
Qed.
Lemma split_example : exists e1 e2 e3 g1 g2 g3 x1 x2 x3,
  integrate nan exactly_one default_integral (1 / 10) (8 / 10) (p_dedx (standard wide tenth) 1) 4 0 = Some (Ok (x1, g1)) /\
  x1 = integral_of (fun v => v * v ^ 10) (1 / 10) (8 / 10) + e1 /\
  integrate nan exactly_one g1 (1 - 1) COMPUTER_PRECISION (fun v => olet y := tenth 1 (1 - v) in Ok ((1 - v) * y)) 2 0 = Some (Ok (x2, g2)) /\
  x2 = integral_of (fun v => (1 - v) * (1 - v) ^ 10) (1 - 1) COMPUTER_PRECISION + e2 /\
  integrate nan exactly_one g2 COMPUTER_PRECISION (1 - 8 / 10) (fun v => olet y := tenth 1 (1 - v) in Ok ((1 - v) * y)) 4 0 = Some (Ok (x3, g3)) /\
  x3 = integral_of (fun v => (1 - v) * (1 - v) ^ 10) COMPUTER_PRECISION (1 - 8 / 10) + e3.
Proof.
  pose proof ln_tenth as T. assert (0 < COMPUTER_PRECISION) as P by (unfold COMPUTER_PRECISION; lra).
  assert (1 / 10 <= ln (8 / 10) - ln (1 / 10)) as G.
  { replace (8 / 10) with (1 / 10 * 8) by lra. rewrite ln_mult by lra. pose proof exp_le_3. assert (1 <= ln 8); [|lra].
    rewrite <- (ln_exp 1). apply ln_le; [apply exp_pos|lra]. }
  destruct (log_runs default_integral (1 / 10) (8 / 10) (p_dedx (standard wide tenth) 1) (fun v => v * v ^ 10) default_ready) as (x1 & g1 & H1 & R1);
    [lra|apply apart; [rewrite Rabs_left; lra|lra]|reflexivity|].
  destruct (plain_runs g1 (1 - 1) COMPUTER_PRECISION (fun v => olet y := tenth 1 (1 - v) in Ok ((1 - v) * y)) (fun v => (1 - v) * (1 - v) ^ 10) R1) as (x2 & g2 & H2 & R2);
    [lra| |reflexivity|].
  { unfold negligible. apply leb_no. replace (1 - 1) with 0 by lra. rewrite Rabs_R0, Rminus_0_r, Rabs_right by lra. lra. }
  assert (ln COMPUTER_PRECISION = 10 * ln (1 / 10)) as L.
  { replace COMPUTER_PRECISION with ((1 / 10) ^ 10) by (unfold COMPUTER_PRECISION; lra). rewrite ln_pow by lra.
    replace (INR 10) with 10 by (rewrite INR_IZR_INZ; reflexivity). ring. }
  assert (ln (1 / 10) <= ln (1 - 8 / 10)) as Q by (apply ln_le; lra).
  destruct (log_runs g2 COMPUTER_PRECISION (1 - 8 / 10) (fun v => olet y := tenth 1 (1 - v) in Ok ((1 - v) * y)) (fun v => (1 - v) * (1 - v) ^ 10) R2) as (x3 & g3 & H3 & R3);
    [unfold COMPUTER_PRECISION; lra|apply apart; rewrite L; [rewrite Rabs_left; lra|lra]|reflexivity|].
  exists (x1 - integral_of (fun v => v * v ^ 10) (1 / 10) (8 / 10)),
    (x2 - integral_of (fun v => (1 - v) * (1 - v) ^ 10) (1 - 1) COMPUTER_PRECISION),
    (x3 - integral_of (fun v => (1 - v) * (1 - v) ^ 10) COMPUTER_PRECISION (1 - 8 / 10)), g1, g2, g3, x1, x2, x3.
  repeat split; try assumption; ring.
Qed.
Lemma logarithmic_example qags : deviates (fun v => v * v ^ 10) (1 / 10) (1 / 10) 0
  (integral nan qags fine_integral (1 / 10) (1 / 10) (p_dedx (standard wide tenth) 1) 4).
Proof.
  destruct (c39_equal nan qags fine_integral (1 / 10) (p_dedx (standard wide tenth) 1) 4 0) as [g H]; [discriminate|discriminate|].
  exists 0. split; [unfold integral; rewrite H; reflexivity|]. rewrite (RInt_point (V := R_CompleteNormedModule)). unfold zero. cbn. ring.
Qed.
Lemma steep_tenth : 2 * (8 / 10 * (8 / 10) ^ 10) < 1 * (1 - HALF_PRECISION) * (1 * (1 - HALF_PRECISION)) ^ 10.
Proof. unfold HALF_PRECISION. cbn [pow]. lra. Qed.
End Nan.

(** ** Together *)
Lemma plain_shared nan qags kin differential c E sigma e : is_differential kin differential E sigma ->
  let a := v_min (kin E) in
  let b := get_cut_within c (kin E) E in
  let p := standard kin differential in
  deviates (fun v => v * sigma v) a b e (integral nan qags default_integral a b (p_dedx p E) 2) ->
  exists x, continuous_loss nan qags Plain p c E = Some (Ok x) /\
    x + stochastic_part E sigma kin c = lost_between E sigma a (v_max (kin E)) + E * e.
Proof. intros [O V I] a b p. apply plain_partition; assumption. Qed.
Lemma logarithmic_shared nan qags kin differential c E sigma e : is_differential kin differential E sigma ->
  let a := v_min (kin E) in
  let b := get_cut_within c (kin E) E in
  let p := standard kin differential in
  deviates (fun v => v * sigma v) a b e (integral nan qags fine_integral a b (p_dedx p E) 4) ->
  exists x, continuous_loss nan qags Logarithmic p c E = Some (Ok x) /\
    x + stochastic_part E sigma kin c = lost_between E sigma a (v_max (kin E)) + E * e.
Proof. intros [O V I] a b p. apply logarithmic_partition; assumption. Qed.
Lemma reflected_shared nan qags kin differential c E sigma e : is_differential kin differential E sigma ->
  let a := v_min (kin E) in
  let b := get_cut_within c (kin E) E in
  let p := standard kin differential in
  0 <= a -> v_max (kin E) < 1 -> (forall v, a <= v <= v_max (kin E) -> continuity_pt sigma v) ->
  deviates (fun t => exp t * ((1 - exp t) * sigma (1 - exp t))) (ln (1 - b)) (ln (1 - a)) e
    (integral nan qags default_integral (ln (1 - b)) (ln (1 - a)) (fun t => olet y := p_dedx p E (1 - exp t) in Ok (exp t * y)) 2) ->
  exists x, continuous_loss nan qags Reflected p c E = Some (Ok x) /\
    x + stochastic_part E sigma kin c = lost_between E sigma a (v_max (kin E)) + E * e.
Proof.
  intros [O V I] a b p A D C. apply reflected_partition; try assumption. intros v H. apply continuity_pt_filterlim. exact (C v H).
Qed.
Lemma split_shared nan qags kin differential c E sigma : is_differential kin differential E sigma ->
  let a := v_min (kin E) in
  let b := get_cut_within c (kin E) E in
  let p := standard kin differential in
  let reverse := fun v => olet y := differential E (1 - v) in Ok ((1 - v) * y) in
  let near := b * (1 - HALF_PRECISION) in
  let r := Rmin (Rmax (1 - b) COMPUTER_PRECISION) (1 - 8 / 10) in
  forall e1 e2 e3 g1 g2 g3 x1 x2 x3,
  0 < a < 8 / 10 -> v_max (kin E) <= 1 -> 8 / 10 < near -> 2 * (8 / 10 * sigma (8 / 10)) < near * sigma near ->
  integrate nan qags default_integral a (8 / 10) (p_dedx p E) 4 0 = Some (Ok (x1, g1)) ->
  x1 = integral_of (fun v => v * sigma v) a (8 / 10) + e1 ->
  integrate nan qags g1 (1 - b) r reverse 2 0 = Some (Ok (x2, g2)) ->
  x2 = integral_of (fun v => (1 - v) * sigma (1 - v)) (1 - b) r + e2 ->
  integrate nan qags g2 r (1 - 8 / 10) reverse 4 0 = Some (Ok (x3, g3)) ->
  x3 = integral_of (fun v => (1 - v) * sigma (1 - v)) r (1 - 8 / 10) + e3 ->
  exists x, continuous_loss nan qags Split p c E = Some (Ok x) /\
    x + stochastic_part E sigma kin c = lost_between E sigma a (v_max (kin E)) + E * (e1 + e2 + e3).
Proof.
  intros [O V I] a b p reverse near r e1 e2 e3 g1 g2 g3 x1 x2 x3 [A A'] D N S H1 X1 H2 X2 H3 X3.
  exact (split_partition nan qags kin differential c E sigma O V I e1 e2 e3 g1 g2 g3 x1 x2 x3 A D N S A' H1 X1 H2 X2 H3 X3).
Qed.
Lemma whole_shared nan qags kin differential c E sigma e : is_differential kin differential E sigma ->
  let a := v_min (kin E) in
  let b := get_cut_within c (kin E) E in
  let p := standard kin differential in
  let near := b * (1 - HALF_PRECISION) in
  near <= 8 / 10 \/ (a < 8 / 10 /\ near * sigma near <= 2 * (8 / 10 * sigma (8 / 10))) ->
  deviates (fun v => v * sigma v) a b e (integral nan qags default_integral a b (p_dedx p E) 4) ->
  exists x, continuous_loss nan qags Split p c E = Some (Ok x) /\
    x + stochastic_part E sigma kin c = lost_between E sigma a (v_max (kin E)) + E * e.
Proof. intros [O V I] a b p near. apply whole_partition; assumption. Qed.
Lemma variance_shared nan qags kin differential c E sigma e : is_differential kin differential E sigma ->
  let a := v_min (kin E) in
  let b := get_cut_within c (kin E) E in
  let d := v_max (kin E) in
  let p := standard kin differential in
  integrable (fun v => v * v * sigma v) a d ->
  deviates (fun v => v * v * sigma v) a b e
    (integral nan qags default_integral a b (fun v => olet y := p_differential p E v in Ok (v * v * y)) 2) ->
  exists x, continuous_variance nan qags p c E = Some (Ok x) /\
    x + E * E * integral_of (fun v => v * v * sigma v) b d = E * E * integral_of (fun v => v * v * sigma v) a d + E * E * e.
Proof. intros [O V I] a b d p. apply variance_partition; assumption. Qed.
Lemma own_cut_refuted nan qags c : exists m E own1 own2 x1 x2,
  sound_material m /\ ME < E /\ accepted own1 /\ accepted own2 /\
  continuous_loss nan qags (bhabha_scheme nan own1 ME m) (bhabha_parametrization nan own1 ME m) c E = Some (Ok x1) /\
  continuous_loss nan qags (bhabha_scheme nan own2 ME m) (bhabha_parametrization nan own2 ME m) c E = Some (Ok x2) /\
  0 < x1 /\ x1 < x2.
Proof.
  destruct (own_cut_matters nan qags c) as (x1 & x2 & H). exists water_ionization, slow, (relative_cut (1 / 10)), (relative_cut (1 / 5)), x1, x2.
  split; [apply water_ionization_sound|]. split; [apply slow_big|]. split; [apply relative_accepted; lra|]. split; [apply relative_accepted; lra|]. exact H.
Qed.
Lemma formula_example nan qags : sound_material water_ionization /\ ME < slow /\
  accepted (relative_cut (1 / 10)) /\ accepted (relative_cut (1 / 5)) /\ exists x1 x2,
  continuous_loss nan qags (bhabha_scheme nan (relative_cut (1 / 10)) ME water_ionization)
    (bhabha_parametrization nan (relative_cut (1 / 10)) ME water_ionization) (relative_cut (1 / 10)) slow = Some (Ok x1) /\
  continuous_loss nan qags (bhabha_scheme nan (relative_cut (1 / 5)) ME water_ionization)
    (bhabha_parametrization nan (relative_cut (1 / 5)) ME water_ionization) (relative_cut (1 / 5)) slow = Some (Ok x2) /\
  0 < x1 /\ 0 < x2.
Proof.
  split; [apply water_ionization_sound|]. split; [apply slow_big|]. split; [apply relative_accepted; lra|]. split; [apply relative_accepted; lra|].
  destruct (own_cut_matters nan qags (relative_cut (1 / 10))) as (x1 & y2 & H1 & _ & P1 & _).
  destruct (own_cut_matters nan qags (relative_cut (1 / 5))) as (y1 & x2 & _ & H2 & Q1 & Q2).
  exists x1, x2. repeat split; try assumption. lra.
Qed.
Lemma below_refuted nan qags : exists m E c x, sound_material m /\ MMU < E /\ accepted c /\
  get_cut c E < v_min (ionization_limits MMU (mat_I m) E) /\
  continuous_loss nan qags (rossi_scheme nan c MMU (-1) m) (rossi_parametrization nan MMU (-1) m) c E = Some (Ok x) /\ 0 < x.
Proof.
  destruct (below_matters nan qags) as (x & H). exists water_ionization, slow_muon, (absolute_cut (1 / 2 * potential)), x.
  split; [apply water_ionization_sound|]. split; [pose proof MMU_pos; unfold slow_muon; lra|]. exact H.
Qed.
Lemma integral_example nan : is_differential narrow tenth 1 (fun v => v ^ 10) /\ is_differential wide tenth 1 (fun v => v ^ 10) /\
  get_cut_within (relative_cut (1 / 4)) (narrow 1) 1 = 1 / 4 /\
  (exists e, deviates (fun v => v * v ^ 10) 0 (1 / 4) e
     (integral nan exactly_one default_integral 0 (1 / 4) (p_dedx (standard narrow tenth) 1) 2)) /\
  (exists e, deviates (fun v => v * v * v ^ 10) 0 (1 / 4) e
     (integral nan exactly_one default_integral 0 (1 / 4) (fun v => olet y := p_differential (standard narrow tenth) 1 v in Ok (v * v * y)) 2)) /\
  (exists e, deviates (fun t => exp t * ((1 - exp t) * (1 - exp t) ^ 10)) (ln (1 - 1 / 4)) (ln (1 - 0)) e
     (integral nan exactly_one default_integral (ln (1 - 1 / 4)) (ln (1 - 0))
        (fun t => olet y := p_dedx (standard narrow tenth) 1 (1 - exp t) in Ok (exp t * y)) 2)) /\
  get_cut_within (relative_cut (1 / 2)) (wide 1) 1 = 1 / 2 /\
  (exists e, deviates (fun v => v * v ^ 10) (1 / 10) (1 / 2) e
     (integral nan exactly_one default_integral (1 / 10) (1 / 2) (p_dedx (standard wide tenth) 1) 4)) /\
  get_cut_within (relative_cut (1 / 10)) (wide 1) 1 = 1 / 10 /\
  deviates (fun v => v * v ^ 10) (1 / 10) (1 / 10) 0
    (integral nan exactly_one fine_integral (1 / 10) (1 / 10) (p_dedx (standard wide tenth) 1) 4).
Proof.
  split; [apply tenth_differential; cbn; lra|]. split; [apply tenth_differential; cbn; lra|]. split; [apply (relative_within narrow); cbn; lra|].
  split; [apply plain_example|]. split; [apply variance_example|]. split; [apply reflected_example|].
  split; [apply (relative_within wide); cbn; lra|]. split; [apply whole_example|].
  split; [apply (relative_within wide); cbn; lra|]. apply logarithmic_example.
Qed.
Lemma split_case nan : get_cut_within (relative_cut 1) (wide 1) 1 = 1 /\ Rmin (Rmax (1 - 1) COMPUTER_PRECISION) (1 - 8 / 10) = COMPUTER_PRECISION /\
  8 / 10 < 1 * (1 - HALF_PRECISION) /\
  2 * (8 / 10 * (8 / 10) ^ 10) < 1 * (1 - HALF_PRECISION) * (1 * (1 - HALF_PRECISION)) ^ 10 /\
  exists e1 e2 e3 g1 g2 g3 x1 x2 x3,
  integrate nan exactly_one default_integral (1 / 10) (8 / 10) (p_dedx (standard wide tenth) 1) 4 0 = Some (Ok (x1, g1)) /\
  x1 = integral_of (fun v => v * v ^ 10) (1 / 10) (8 / 10) + e1 /\
  integrate nan exactly_one g1 (1 - 1) COMPUTER_PRECISION (fun v => olet y := tenth 1 (1 - v) in Ok ((1 - v) * y)) 2 0 = Some (Ok (x2, g2)) /\
  x2 = integral_of (fun v => (1 - v) * (1 - v) ^ 10) (1 - 1) COMPUTER_PRECISION + e2 /\
  integrate nan exactly_one g2 COMPUTER_PRECISION (1 - 8 / 10) (fun v => olet y := tenth 1 (1 - v) in Ok ((1 - v) * y)) 4 0 = Some (Ok (x3, g3)) /\
  x3 = integral_of (fun v => (1 - v) * (1 - v) ^ 10) COMPUTER_PRECISION (1 - 8 / 10) + e3.
Proof.
  split; [apply (relative_within wide); cbn; lra|]. split.
  - unfold COMPUTER_PRECISION. rewrite Rmax_right by lra. apply Rmin_left. lra.
  - split; [unfold HALF_PRECISION; lra|]. split; [apply steep_tenth|apply split_example].
Qed.
