(** Concrete cases for the properties of media, and the numbers of a medium that do
    depend on the way it is written down. *)
From Coq Require Import Lra Lia List Permutation.
From Coquelicot Require Import Coquelicot.
From Verif Require Import Prelude PreludeFacts Particle_Model Limits_Model Cross_Model Photo_Model Products_Model Differential_Model Nuclear_Model Pairs_Model Medium_Model.
From Verif Require Import Cross_Spec Differential_Spec Pairs_Spec Medium_Spec Components_Proofs Transform_Proofs Differential_Proofs Screening_Proofs Pairs_Proofs Rho_Proofs Medium_Proofs
  Cross_Examples Differential_Examples Nuclear_Examples.

(** Water as H2O and as H4O2 *)
Definition double_h : component := mkcomponent 1 1 (100794 / 10 ^ 5) 4.
Definition double_o : component := mkcomponent 2 8 (159994 / 10 ^ 4) 2.
Definition double_water : medium := mkmedium 4 [double_h; double_o].
Lemma water_substance : substance (m_components water).
Proof. split; [discriminate|]. intros c [<-|[<-|[]]]; (split; [|cbn; lra]); [exact hydrogen_element|exact oxygen_element]. Qed.
Lemma water_doubled : same_ratios 2 (m_components water) (m_components double_water).
Proof. repeat constructor; cbn; lra. Qed.
(** Two entries of hydrogen instead of one *)
Lemma water_split : substance ([] ++ mkcomponent 1 1 (100794 / 10 ^ 5) 1 :: mkcomponent 1 1 (100794 / 10 ^ 5) 1 :: [oxygen_c]) /\
  same_element hydrogen_c (mkcomponent 1 1 (100794 / 10 ^ 5) 1) /\ c_atoms hydrogen_c = 1 + 1.
Proof.
  split; [|split; [split; reflexivity|cbn; lra]]. split; [discriminate|].
  intros c [<-|[<-|[<-|[]]]]; (split; [|cbn; lra]); [exact hydrogen_element|exact hydrogen_element|exact oxygen_element].
Qed.

(** * The suppression of electron pairs *)
Lemma epair_lpm_sum_value nan cs : (forall c, In c cs -> element c) -> exists s, 0 <= s /\ (cs <> [] -> 0 < s) /\
  (forall x, epair_lpm_sum nan x cs = Ok (x + s)) /\ forall k cs', same_ratios k cs cs' -> forall x, epair_lpm_sum nan x cs' = Ok (x + s).
Proof.
  induction cs as [|c cs IH]; intros H.
  - exists 0. split; [lra|]. split; [tauto|]. split; [intros; cbn; now rewrite Rplus_0_r|]. intros k cs' S x. inversion S. cbn. now rewrite Rplus_0_r.
  - destruct IH as (s & S0 & _ & S1 & S2); [intros; apply H; now right|]. assert (element c) as Hc by (apply H; now left).
    pose proof (log_constant_bounds c) as LB. pose proof (element_icr c Hc) as I. unfold inverse_cube_root in I.
    assert (1 < 325 / 100 * log_constant c * Rpower (c_charge c) (- (1 / 3))) as A by nra. destruct Hc as [[Z1 _] _].
    assert (0 < ln (325 / 100 * log_constant c * Rpower (c_charge c) (- (1 / 3)))) as L by (rewrite <- ln_1; apply ln_increasing; lra).
    exists (c_charge c * c_charge c * ln (325 / 100 * log_constant c * Rpower (c_charge c) (- (1 / 3))) + s).
    assert (0 < c_charge c * c_charge c * ln (325 / 100 * log_constant c * Rpower (c_charge c) (- (1 / 3)))) as P by (apply Rmult_lt_0_compat; [nra|auto]).
    split; [lra|]. split; [lra|]. split.
    + intros x. cbn [epair_lpm_sum]. rewrite log_ok by lra. cbn [obind]. rewrite S1. f_equal. ring.
    + intros k cs' F x. inversion F as [|? c' ? cs1 [[Ez Ea] En] F']; subst. cbn [epair_lpm_sum].
      assert (log_constant c' = log_constant c) as -> by (unfold log_constant; now rewrite Ez). rewrite Ez.
      rewrite log_ok by lra. cbn [obind]. rewrite (S2 k cs1 F'). f_equal. ring.
Qed.
Lemma c67_epair_lpm nan mass charge rho k cs cs' : 0 < mass -> charge <> 0 -> 0 < rho -> 0 < k -> same_ratios k cs cs' -> substance cs ->
  exists e, 0 < e /\ epair_lpm_energy nan mass charge rho cs = Ok e /\ epair_lpm_energy nan mass charge rho cs' = Ok (k * e).
Proof.
  intros Hm Hq Hr Hk H S. pose proof (ratios_substance k cs cs' Hk H S) as S'. pose proof (atomic_pos cs S) as P. pose proof me_val as Me. pose proof re_pos as Re.
  pose proof ALPHA_val as Al. pose proof PI_RGT_0 as Pi. assert (0 < NA) as Na by (unfold NA; lra).
  destruct (epair_lpm_sum_value nan cs (fun c I => proj1 (proj2 S c I))) as (s & _ & S0 & S1 & S2). specialize (S0 (proj1 S)).
  unfold epair_lpm_energy. rewrite (init_value nan rho cs S), (init_value nan rho cs' S'). cbn [obind su_mol_density summary_of].
  rewrite S1, (S2 k cs' H). cbn [obind]. rewrite Rplus_0_l, (molecule_scale k _ atomic_elemental cs cs' H).
  set (M := molecule c_atomic cs) in *. clearbody M. assert (0 < charge * charge) as QQ by (destruct (Rdichotomy _ _ Hq); nra).
  set (e := mass / (ME * RE)). assert (0 < e) as He by (apply Rdiv_lt_0_compat; [auto|apply Rmult_lt_0_compat; lra]). clearbody e.
  assert (0 < rho * NA / M) as D by (apply Rdiv_lt_0_compat; [apply Rmult_lt_0_compat; auto|auto]).
  assert (rho * NA / (k * M) = rho * NA / M / k) as -> by (field; lra). set (d := rho * NA / M) in *. clearbody d.
  assert (0 < 2 * PI * d * charge * charge * s) as D1.
  { replace (2 * PI * d * charge * charge * s) with (2 * PI * d * (charge * charge) * s) by ring. repeat (apply Rmult_lt_0_compat; [|auto]); lra. }
  assert (2 * PI * (d / k) * charge * charge * s = 2 * PI * d * charge * charge * s / k) as -> by (field; lra).
  assert (0 < 2 * PI * d * charge * charge * s / k) as D2 by (apply Rdiv_lt_0_compat; auto).
  set (D0 := 2 * PI * d * charge * charge * s) in *. clearbody D0. rewrite !quo_ok by lra. cbn [obind].
  exists (e * (e * e * ALPHA * mass / D0)). split; [apply Rmult_lt_0_compat; auto; apply Rdiv_lt_0_compat; auto; repeat (apply Rmult_lt_0_compat; [|lra]); lra|].
  split; [reflexivity|]. f_equal. field. lra.
Qed.
(** * The fraction of a mean charge *)
Lemma truncate_between n x : (0 <= n)%Z -> IZR n <= x < IZR n + 1 -> truncate x = n.
Proof.
  intros N H. unfold truncate. assert (0 <= IZR n) as P by (apply IZR_le; lia). rewrite (proj2 (Rleb_true 0 x)) by lra.
  unfold Int_part. rewrite <- (tech_up x (n + 1)); [lia| |]; rewrite plus_IZR; lra.
Qed.
Lemma c67_fraction nan rho n c c' : (0 <= n)%Z -> IZR n <= c_charge c < IZR n + 1 -> IZR n <= c_charge c' < IZR n + 1 ->
  c_atomic c = c_atomic c' -> c_atoms c = c_atoms c' -> substance [c] -> substance [c'] ->
  exists s s', medium_init nan rho [c] = Ok s /\ medium_init nan rho [c'] = Ok s' /\ su_length s = su_length s'.
Proof.
  intros N H H' A M S S'. exists (summary_of rho [c]), (summary_of rho [c']). split; [now apply init_value|]. split; [now apply init_value|].
  cbn [su_length summary_of]. unfold molecule. cbn [map rsum]. unfold x_atomic, inverse_length. rewrite (truncate_between n (c_charge c)), (truncate_between n (c_charge c')) by auto.
  now rewrite A, M.
Qed.
(** FrejusRock has the mean charge 10.12. *)
Definition frejus : component := mkcomponent 7 (1012 / 100) (2024 / 100) 1.
Definition neon_like : component := mkcomponent 8 10 (2024 / 100) 1.
Lemma frejus_case : (0 <= 10)%Z /\ IZR 10 <= c_charge frejus < IZR 10 + 1 /\ IZR 10 <= c_charge neon_like < IZR 10 + 1 /\ c_charge neon_like < c_charge frejus /\
  substance [frejus] /\ substance [neon_like].
Proof.
  split; [lia|]. cbn. split; [lra|]. split; [lra|]. split; [lra|]. split; (split; [discriminate|]; intros c [<-|[]]; unfold element; cbn; lra).
Qed.
(** A muon of 10 GeV that makes a muon pair in water *)
Lemma pair_in_water : element hydrogen_c /\ 0 < c_atoms hydrogen_c < 4 /\ 0 < 10 ^ 4 /\ 2 * MMU < 1 / 2 * 10 ^ 4 /\ 0 <= 1 / 2 < largest_pair_asymmetry MMU (10 ^ 4) (1 / 2).
Proof. split; [exact hydrogen_element|]. cbn [c_atoms hydrogen_c]. unfold largest_pair_asymmetry, MMU. lra. Qed.

(** A cross section of water in both forms, with the rate Z (Z + 1) of an element *)
Lemma double_sound : sound_medium double_water.
Proof. split; [discriminate|]. intros c [<-|[<-|[]]]; cbn; lra. Qed.
Definition simple_cross nan (m : medium) : outcome cross_section :=
  new_cross_section nan (fun l => rev l) (fun c => Ok (calc0 nan c)) (fun c => Ok (Some (fun E => Ok (2 * E)))) (fun c => Ok (fun E => Ok (E * E)))
    m (Some cut0) false 105 Propagator_Model.Brems.
Lemma simple_cross_ok nan : (exists x, simple_cross nan water = Ok x) /\ (exists x, simple_cross nan double_water = Ok x) /\
  forall c, element c -> dn_rate (calc0 nan c) 20000 = Ok (c_charge c * (c_charge c + 1)).
Proof.
  split; [|split].
  - unfold simple_cross, new_cross_section, build_dndx_components, build_dedx_components, build_de2dx_components. cbn [only_continuous ecut cut0 andb].
    cbn [water m_components build_dndx_loop build_dedx_loop cut_cont_rand cut0].
    destruct (weight_ok nan water hydrogen_c water_sound (or_introl eq_refl)) as (w1 & W1 & _).
    destruct (weight_ok nan water oxygen_c water_sound (or_intror (or_introl eq_refl))) as (w2 & W2 & _).
    rewrite W1, W2. cbn [obind]. eauto.
  - unfold simple_cross, new_cross_section, build_dndx_components, build_dedx_components, build_de2dx_components. cbn [only_continuous ecut cut0 andb].
    cbn [double_water m_components build_dndx_loop build_dedx_loop cut_cont_rand cut0].
    destruct (weight_ok nan double_water double_h double_sound (or_introl eq_refl)) as (w1 & W1 & _).
    destruct (weight_ok nan double_water double_o double_sound (or_intror (or_introl eq_refl))) as (w2 & W2 & _).
    rewrite W1, W2. cbn [obind]. eauto.
  - intros c [Hc _]. unfold calc0, dndx_interpolant. cbn [dn_rate]. unfold evaluate_interpolant, table0. rewrite (proj2 (Rltb_false 20000 1)) by lra.
    cbv zeta. rewrite (proj2 (Rltb_false _ 0)); [f_equal; ring|nra].
Qed.
