(** Concrete decays for the examples beside C31-C36, C52 and C53. *)
From Coq Require String.
From Verif Require Import Prelude PreludeFacts Vec_Model Vec_Proofs Propagator_Model Math_Model Math_Spec Math_Proofs Particle_Model
  Particle_Spec Particle_Proofs Shapes_Spec Decay_Model Decay_Spec Decay_Proofs ManyBody_Proofs Leptonic_Proofs DecayAll_Proofs.

(** A massless particle keeps moving. *)
Lemma boost_moving nan reg p d n g bg q : not_a_value nan -> lookup reg (p_type p) = Some d -> pd_mass d = 0 ->
  on_shell (pd_mass d) (p_state p) -> unit n -> g * g - bg * bg = 1 -> 1 <= g -> boost nan reg p n g bg = Ok q ->
  0 < energy (p_state q).
Proof.
  intros N L Z OS U G G1 H. pose proof (boost_ok nan reg p d n g bg L OS U G G1) as B. cbv zeta in B.
  pose proof (momentum_vec_sq _ _ OS) as Q.
  pose proof (boost_energy n g bg (energy (p_state p)) (momentum_vec (pd_mass d) (p_state p)) (pd_mass d) U G G1 (proj1 OS) Q) as E.
  destruct (boosted n g bg (energy (p_state p)) (momentum_vec (pd_mass d) (p_state p))) as [e' v'] eqn:EB.
  destruct E as [E P]. destruct (normalize v') as [u|] eqn:Eu.
  - rewrite B in H. injection H as <-. cbn. destruct (normalize_some _ _ Eu) as (_ & _ & Pm). rewrite Z in *.
    pose proof (magnitude_sq v') as MS. destruct (Req_dec e' 0) as [->|]; [|lra]. nra.
  - destruct B as [f B]. rewrite B in H. destruct (not_value_bind _ _ _ N H).
Qed.

Lemma massless_ne (p : particle) g : 0 < energy (p_state p) -> energy (p_state p) <> g * 0.
Proof. lra. Qed.

Definition flying (M : R) : pstate := mkpstate (mkvec 1 2 3) (mkvec 0 0 1) (1000 * M) 5 7.
Definition reg0 : registry := standard_registry.
Lemma reg0_run : reg0 = opened (fst (registry_run None [])). Proof. reflexivity. Qed.
Definition halves : nat -> R := fun _ => 1 / 2.

(** ** Two bodies: tau -> pi nu *)
Lemma pion_nu_runs nan : exists ps, two_body_decay nan reg0 PiMinusDef NuTauDef TauMinusDef (flying MTAU) (1 / 4) (1 / 3) = Ok ps.
Proof.
  apply c32_answers; try (cbn; constants; lra).
  - rewrite reg0_run. apply standard_registered. cbn [In standard_particles]. tauto.
  - rewrite reg0_run. apply standard_registered. cbn [In standard_particles]. tauto.
  - unfold unit, dot. cbn. ring.
  - unfold rest_energy. cbn. replace ((MTAU * MTAU + MPI * MPI - 0 * 0) / (2 * MTAU) * MTAU) with ((MTAU * MTAU + MPI * MPI) / 2) by (field; constants; lra).
    constants. lra.
  - unfold rest_energy. cbn. replace ((MTAU * MTAU + 0 * 0 - MPI * MPI) / (2 * MTAU) * MTAU) with ((MTAU * MTAU - MPI * MPI) / 2) by (field; constants; lra).
    constants. lra.
Qed.

(** ** Three bodies: a particle decaying to three photons *)
Definition heavy : pdef := PDef String.EmptyString 10 10 (Some 1) 0 EmptyTable [(1, ManyBody [GammaDef; GammaDef; GammaDef] false 1000 None)] 7000 0.
Lemma gamma_registered : registered reg0 GammaDef.
Proof. rewrite reg0_run. apply standard_registered. cbn [In standard_particles]. tauto. Qed.
Lemma photons_kinematics nan norm : exists w, w = norm * (75 / 8) /\
  calculate_kinematics nan (map pd_mass [GammaDef; GammaDef; GammaDef]) norm 10 [1 / 2] = Ok (mkkin [0; 5; 10] [5 / 2; 15 / 4] w).
Proof.
  unfold calculate_kinematics. cbn [map pd_mass GammaDef].
  assert (E : sort (0 :: [1 / 2] ++ [1]) = [0; 1 / 2; 1]).
  { cbn [app sort fold_right insert_sorted]. destruct (Rleb_spec (1 / 2) 1); [|lra]. cbn [insert_sorted]. destruct (Rleb_spec 0 (1 / 2)); [|lra]. reflexivity. }
  rewrite E. cbn [virtual_masses sum_masses fold_left].
  replace (0 + 0 + 0 * (10 - (0 + 0 + 0 + 0))) with 0 by ring.
  replace (0 + 0 + 0 + 1 / 2 * (10 - (0 + 0 + 0 + 0))) with 5 by field.
  replace (0 + 0 + 0 + 0 + 1 * (10 - (0 + 0 + 0 + 0))) with 10 by ring.
  assert (P1 : decay_momentum nan 5 0 0 = Ok (5 / 2)).
  { unfold decay_momentum, quot. destruct (Rltb_spec 0 ((5 - 0 - 0) * (5 + 0 + 0) * (5 - 0 + 0) * (5 + 0 - 0))); [|lra].
    destruct (Reqb_spec (2 * 5) 0); [lra|]. f_equal.
    replace ((5 - 0 - 0) * (5 + 0 + 0) * (5 - 0 + 0) * (5 + 0 - 0)) with (25 * 25) by ring. rewrite sqrt_square by lra. field. }
  assert (P2 : decay_momentum nan 10 5 0 = Ok (15 / 4)).
  { unfold decay_momentum, quot. destruct (Rltb_spec 0 ((10 - 5 - 0) * (10 + 5 + 0) * (10 - 5 + 0) * (10 + 5 - 0))); [|lra].
    destruct (Reqb_spec (2 * 10) 0); [lra|]. f_equal.
    replace ((10 - 5 - 0) * (10 + 5 + 0) * (10 - 5 + 0) * (10 + 5 - 0)) with (75 * 75) by ring. rewrite sqrt_square by lra. field. }
  cbn [chain_momenta]. rewrite P1. cbn [obind]. rewrite P2. cbn [obind fst snd]. exists (norm * (1 * (5 / 2) * (15 / 4))). split; [field|reflexivity].
Qed.
Lemma photons_run nan par element : not_a_value nan -> exists ps,
  many_body_decay nan reg0 [GammaDef; GammaDef; GammaDef] par element heavy (flying 10) halves false 1 0 = Some (Ok ps).
Proof.
  intros N. unfold many_body_decay, one_event. cbn [length Nat.sub].
  change (draws halves 0 1) with [1 / 2].
  destruct (photons_kinematics nan (normalization par)) as (w & _ & EK). change (pd_mass heavy) with 10. rewrite EK. cbn [obind].
  set (dirs := direction_draws halves (0 + 1) 2).
  assert (UD : Forall unit dirs) by (apply direction_draws_unit; intros; unfold halves; lra).
  assert (ED : exists d1 d2, dirs = [d1; d2]) by (eexists; eexists; reflexivity). destruct ED as (d1 & d2 & ->).
  inversion UD as [|? ? U1 UD']; subst. inversion UD' as [|? ? U2 _]; subst.
  assert (L : lookup reg0 22 = Some GammaDef) by reflexivity.
  unfold generate_event. cbn [map k_momenta k_masses].
  rewrite (set_momentum_ok reg0 _ GammaDef) by exact L. cbn [obind]. rewrite (set_momentum_ok reg0 _ GammaDef) by exact L. cbn [obind].
  change (pd_mass GammaDef) with 0. set (p := product GammaDef (flying 10) (direction (flying 10)) (energy (flying 10))).
  assert (SO : forall q u, 0 < q -> unit u -> let x := with_energy (with_direction p u) (sqrt (q * q + 0 * 0)) in
    known reg0 0 x /\ on_shell 0 (p_state x) /\ 0 < energy (p_state x)).
  { intros q u Hq Hu x. destruct (set_on_shell p 0 q u) as [O _]; auto; try lra. splits; auto.
    - exists GammaDef. auto.
    - cbn. apply sqrt_lt_R0. nra. }
  destruct (SO (5 / 2) d1 ltac:(lra) U1) as (K1 & O1 & P1). destruct (SO (5 / 2) (vneg d1) ltac:(lra) (unit_vneg _ U1)) as (K0 & O0 & P0).
  destruct (SO (15 / 4) d2 ltac:(lra) U2) as (K2 & O2 & P2).
  set (q1 := with_energy (with_direction p d1) _) in *. set (q0 := with_energy (with_direction p (vneg d1)) _) in *.
  set (q2 := with_energy (with_direction p d2) _) in *.
  cbn [chain_boosts]. rewrite (set_momentum_ok reg0 _ GammaDef) by exact L. cbn [obind]. change (pd_mass GammaDef) with 0. fold q2.
  unfold quot. destruct (Reqb_spec 5 0); [lra|]. cbn [obind]. change (direction (p_state q2)) with d2.
  destruct (chain_gamma (15 / 4) 5 ltac:(lra)) as [G G1].
  assert (SH : shells reg0 [0; 0] [q0; q1]) by (apply Forall2_cons; [auto|apply Forall2_cons; [auto|constructor]]).
  destruct (boost_all_defined nan reg0 [0; 0] [q0; q1] d2 _ _ SH ltac:(repeat apply Forall2_cons; try apply Forall2_nil; apply massless_ne; assumption) U2 G G1) as (done & ED). rewrite ED. cbn [obind snd].
  pose proof (boost_all_inv nan reg0 [0; 0] [q0; q1] d2 _ _ done N SH U2 G G1 ED) as (SP & SH' & _).
  cbn [boost_all] in ED. apply obind_Ok in ED. destruct ED as (x0 & B0 & ED). apply obind_Ok in ED. destruct ED as (xs & B1 & ED).
  apply obind_Ok in B1. destruct B1 as (x1 & B1 & E1). cbn in E1. injection E1 as <-. injection ED as <-.
  assert (X0 : 0 < energy (p_state x0)) by (exact (boost_moving nan reg0 q0 GammaDef d2 _ _ x0 N L eq_refl O0 U2 G G1 B0)).
  assert (X1 : 0 < energy (p_state x1)) by (exact (boost_moving nan reg0 q1 GammaDef d2 _ _ x1 N L eq_refl O1 U2 G G1 B1)).
  unfold to_lab, quot. change (pd_mass heavy) with 10. destruct (Reqb_spec 10 0); [lra|]. cbn [obind].
  destruct (gamma_facts (energy (flying 10)) 10) as (_ & G' & G1'); [cbn; lra|]. cbv zeta in *.
  assert (SH2 : shells reg0 [0; 0; 0] ([x0; x1] ++ [q2])). { apply (Forall2_app (l1 := [0; 0]) (l2 := [0])); [exact SH'|]. apply Forall2_cons; [auto|constructor]. }
  destruct (boost_all_defined nan reg0 [0; 0; 0] ([x0; x1] ++ [q2]) (vneg (direction (flying 10))) _ _ SH2
    ltac:(repeat apply Forall2_cons; try apply Forall2_nil; apply massless_ne; assumption) ltac:(apply unit_vneg; unfold unit, dot; cbn; ring) G' G1') as (out & EO).
  exists out. f_equal. exact EO.
Qed.
(** With rejection: a matrix element of 2 and the weights of EstimateMaxWeight *)
Lemma photons_accepted nan : not_a_value nan -> exists ps,
  many_body_decay nan reg0 [GammaDef; GammaDef; GammaDef] (mkparams 1 25 0) (fun _ _ => 2) heavy (flying 10) halves true 1 0 = Some (Ok ps).
Proof.
  intro N. destruct (photons_run nan (mkparams 1 25 0) (fun _ _ => 2) N) as (ps & H). exists ps. rewrite <- H. unfold many_body_decay. cbn [rejection].
  destruct (one_event nan reg0 [GammaDef; GammaDef; GammaDef] (mkparams 1 25 0) heavy halves 0 _) as [(kin & out)| |] eqn:E; [|reflexivity|reflexivity].
  assert (W : k_weight kin = 75 / 8).
  { unfold one_event in E. cbn [length Nat.sub] in E. change (draws halves 0 1) with [1 / 2] in E. destruct (photons_kinematics nan (normalization (mkparams 1 25 0))) as (w & Ew & EK).
    change (pd_mass heavy) with 10 in E. rewrite EK in E. cbn [obind] in E. destruct (generate_event _ _ _ _) in E; cbn [obind] in E; try discriminate. injection E as <- <-. cbn. rewrite Ew. cbn. field. }
  cbv zeta. rewrite W. cbn [weight_min weight_max]. unfold halves at 1. match goal with |- context [?a <? ?b] => destruct (Rltb_spec a b) as [L|L] end; [lra|reflexivity].
Qed.

(** ** Leptons: a muon decaying to an electron of half the maximal energy *)
Lemma tail_defined nan reg lepton neutrino anti parent c r1 r2 r3 r4 root :
  let m := pd_mass lepton in let M := pd_mass parent in let emax := (M * M + m * m) / (2 * M) in
  not_a_value nan -> 0 < m < M -> pd_mass neutrino = 0 -> pd_mass anti = 0 -> Forall (registered reg) [lepton; neutrino; anti] ->
  M <= energy c -> unit (direction c) -> 0 <= r2 <= 1 -> 0 <= r4 <= 1 -> root < 1 -> m < emax * root -> M * emax < energy c * m ->
  exists out, leptonic_tail nan reg lepton neutrino anti parent c r1 r2 r3 r4 root = Ok out.
Proof.
  intros m M emax N Masses Z1 Z2 RG HE U Hr2 Hr4 R1 R2 HF.
  destruct (lepton_energies m M root Masses ltac:(lra)) as (He & Hp & Hp0 & Hn & Hy).
  unfold leptonic_tail. fold m M. fold emax in Hy, Hp, Hp0, Hn, He |- *. cbv zeta in *.
  set (e := Rmax (root * emax) m) in *. set (p := sqrt ((e - m) * (e + m))) in *.
  assert (Ee : e = root * emax). { unfold e. apply Rmax_left. lra. }
  assert (PY : 0 < (M - e - p) * (M - e + p)). { rewrite Hy. apply Rmult_lt_0_compat; nra. }
  destruct (Rltb_spec ((M - e - p) * (M - e + p)) 0) as [|Ny]; [lra|]. cbn [obind].
  set (v := sqrt ((M - e - p) * (M - e + p))) in *.
  assert (Hv : v * v = (M - e) * (M - e) - p * p). { unfold v. rewrite sqrt_sqrt by lra. ring. }
  assert (Pv : 0 < v) by (apply sqrt_lt_R0; auto).
  pose proof (random_direction_unit r1 r2 Hr2) as UD. pose proof (random_direction_unit r3 r4 Hr4) as UN.
  set (dir := random_direction r1 r2) in *. set (dn := random_direction r3 r4) in *.
  set (lep := product lepton c dir e) in *. set (nu := product neutrino c dn (1 / 2 * v)) in *.
  set (an := product anti c (vneg dn) (1 / 2 * v)) in *.
  inversion RG as [|? ? RL R']; subst. inversion R' as [|? ? RN R'']; subst. inversion R'' as [|? ? RA _]; subst.
  destruct RL as (dl & LL & EL). destruct RN as (d1 & L1 & E1). destruct RA as (d2 & L2 & E2).
  assert (G : (M - e) / v * ((M - e) / v) - p / v * (p / v) = 1).
  { replace ((M - e) / v * ((M - e) / v) - p / v * (p / v)) with (((M - e) * (M - e) - p * p) / (v * v)) by (field; lra).
    rewrite Hv. field. rewrite <- Hv. nra. }
  assert (G1 : 1 <= (M - e) / v).
  { apply (Rmult_le_reg_r v); auto. unfold Rdiv. rewrite Rmult_assoc, Rinv_l by lra. nra. }
  assert (O1 : on_shell (pd_mass d1) (p_state nu)). { rewrite E1, Z1. split; [cbn; lra|exact UN]. }
  assert (O2 : on_shell (pd_mass d2) (p_state an)). { rewrite E2, Z2. split; [cbn; lra|apply unit_vneg; exact UN]. }
  assert (SL : known reg m lep /\ on_shell m (p_state lep)). { split; [exists dl; split; auto|]. split; [cbn; lra|exact UD]. }
  change (direction (p_state lep)) with dir. unfold quot. destruct (Reqb_spec v 0) as [Zv|Nv]; [lra|]. cbn [obind].
  destruct (boost_defined nan reg nu d1 dir ((M - e) / v) (p / v)) as (nu' & B1); auto. { rewrite E1, Z1. cbn. lra. }
  destruct (boost_defined nan reg an d2 dir ((M - e) / v) (p / v)) as (an' & B2); auto. { rewrite E2, Z2. cbn. lra. }
  rewrite B1, B2. cbn [obind].
  destruct (boost_inv nan reg nu d1 _ _ _ nu' N L1 O1 UD G G1 B1) as (S1 & O1' & _).
  destruct (boost_inv nan reg an d2 _ _ _ an' N L2 O2 UD G G1 B2) as (S2 & O2' & _).
  assert (X1 : 0 < energy (p_state nu')) by (exact (boost_moving nan reg nu d1 _ _ _ nu' N L1 (eq_trans E1 Z1) O1 UD G G1 B1)).
  assert (X2 : 0 < energy (p_state an')) by (exact (boost_moving nan reg an d2 _ _ _ an' N L2 (eq_trans E2 Z2) O2 UD G G1 B2)).
  unfold to_lab, quot. fold M. destruct (Reqb_spec M 0) as [|_]; [lra|]. cbn [obind].
  destruct (gamma_facts (energy c) M ltac:(lra)) as (_ & G' & G1'). cbv zeta in *.
  apply (boost_all_defined nan reg [m; 0; 0]); auto.
  - constructor; auto. constructor. { split; [exists d1; split; [destruct S1 as (-> & _); auto|congruence]|congruence]. }
    constructor; [|constructor]. split; [exists d2; split; [destruct S2 as (-> & _); auto|congruence]|congruence].
  - constructor; [|constructor; [lra|constructor; [lra|constructor]]]. cbn. intros E.
    assert (e * M = energy c * m). { rewrite E. field. lra. } nra.
  - apply unit_vneg; auto.
Qed.
Definition emax_mu : R := (MMU * MMU + ME * ME) / (2 * MMU).
Definition half_random : R :=
  (approx_rate (1 / 2) 0 - approx_rate (ME / emax_mu) 0) / (approx_rate 1 0 - approx_rate (ME / emax_mu) 0).
Lemma emax_mu_bounds : 52 < emax_mu < 53.
Proof.
  unfold emax_mu. constants. split; apply (Rmult_lt_reg_r (2 * (1056583745 / 10 ^ 7))); try lra;
    unfold Rdiv at 2 || unfold Rdiv at 1; try lra.
  all: rewrite ?Rmult_assoc; lra.
Qed.
Lemma newton_at_start f df nan x1 xacc n : x1 < 1 / 2 -> f x1 < 0 -> 0 < f 1 -> f (1 / 2) = 0 -> 0 < df (1 / 2) ->
  newton_raphson f df nan x1 1 (1 / 2) (S (S n)) xacc = Ok (1 / 2).
Proof.
  intros Hx F1 F2 F0 D. unfold newton_raphson. destruct (Rltb_spec 0 (f x1 * f 1)); [nra|].
  destruct (Reqb_spec (f x1) 0); [lra|]. destruct (Reqb_spec (f 1) 0); [lra|]. destruct (Rltb_spec (f x1) 0); [|lra].
  change (S (S n) - 1)%nat with (S n). cbn [newton_loop]. unfold newton_step. rewrite F0. set (d := df (1 / 2)) in *.
  destruct (Rltb_spec 0 (((1 / 2 - 1) * d - 0) * ((1 / 2 - x1) * d - 0))) as [X|_].
  { assert (0 <= (1 / 2) * d * ((1 / 2 - x1) * d)) by (repeat apply Rmult_le_pos; lra). lra. }
  destruct (Rltb_spec (Rabs (Rabs (1 - x1) * d)) (Rabs (2 * 0))) as [X|_].
  { rewrite Rmult_0_r, Rabs_R0 in X. pose proof (Rabs_pos (Rabs (1 - x1) * d)). lra. }
  cbn [orb]. destruct (Reqb_spec d 0); [lra|]. unfold Rdiv. rewrite Rmult_0_l, Rminus_0_r.
  destruct (Reqb_spec (1 * / 2) (1 * / 2)); [reflexivity|congruence].
Qed.
Lemma start_mu : 0 < ME / emax_mu < 1 / 2.
Proof.
  pose proof emax_mu_bounds as B. assert (P : 0 < ME < 1) by (constants; lra).
  split; [apply Rdiv_lt_0_compat; lra|]. apply (Rmult_lt_reg_r emax_mu); [lra|]. unfold Rdiv at 1. rewrite Rmult_assoc, Rinv_l by lra. lra.
Qed.
Lemma half_random_bounds : 0 <= half_random <= 1.
Proof.
  pose proof start_mu. unfold half_random.
  assert (A : approx_rate (ME / emax_mu) 0 < approx_rate (1 / 2) 0) by (apply approx_increasing; lra).
  assert (B : approx_rate (1 / 2) 0 < approx_rate 1 0) by (apply approx_increasing; lra).
  split; [left; apply Rdiv_lt_0_compat; lra|].
  apply (Rmult_le_reg_r (approx_rate 1 0 - approx_rate (ME / emax_mu) 0)); [lra|]. unfold Rdiv. rewrite Rmult_assoc, Rinv_l by lra. lra.
Qed.
Lemma muon_runs nan r1 r2 r3 r4 : not_a_value nan -> 0 <= r2 <= 1 -> 0 <= r4 <= 1 -> exists ps,
  leptonic_decay nan reg0 approx_rate approx_differential EMinusDef NuMuDef NuEBarDef MuMinusDef (flying MMU) half_random r1 r2 r3 r4 = Ok ps.
Proof.
  intros N Hr2 Hr4. pose proof start_mu as S. pose proof emax_mu_bounds as B.
  assert (MM : 0 < ME < MMU) by (constants; lra).
  rewrite leptonic_split by exact MM. change (pd_mass EMinusDef) with ME. change (pd_mass MuMinusDef) with MMU. fold emax_mu.
  assert (A1 : approx_rate (ME / emax_mu) 0 < approx_rate (1 / 2) 0) by (apply approx_increasing; lra).
  assert (A2 : approx_rate (1 / 2) 0 < approx_rate 1 0) by (apply approx_increasing; lra).
  assert (ER : approx_rate (ME / emax_mu) 0 + (approx_rate 1 0 - approx_rate (ME / emax_mu) 0) * half_random = approx_rate (1 / 2) 0).
  { unfold half_random. field. lra. }
  rewrite ER. rewrite newton_at_start.
  - cbn [obind]. apply tail_defined; auto; change (pd_mass EMinusDef) with ME; change (pd_mass MuMinusDef) with MMU; fold emax_mu; try lra.
    + rewrite reg0_run. repeat (apply Forall_cons || apply Forall_nil); apply standard_registered; cbn [In standard_particles]; tauto.
    + cbn. lra.
    + unfold unit, dot. cbn. ring.
    + assert (ME < 1) by (constants; lra). lra.
    + cbn. assert (1 / 2 < ME) by (constants; lra). nra.
  - lra.
  - unfold approx_rate in *. lra.
  - unfold approx_rate in *. lra.
  - unfold approx_rate. ring.
  - unfold approx_differential. lra.
Qed.

(** ** A whole decay: the muon, any program *)
Definition muon_random : nat -> R := fun i => if Nat.eqb i 1 then half_random else 1 / 2.
Lemma muon_random_bounds i : 0 <= muon_random i <= 1.
Proof. unfold muon_random. destruct (Nat.eqb i 1); [apply half_random_bounds|lra]. Qed.
Lemma muon_decays nan elements par fuel : not_a_value nan -> exists ps,
  decay_particle nan reg0 elements par MuMinusDef (flying MMU) muon_random fuel = Some (Ok ps).
Proof.
  intros N. unfold decay_particle.
  assert (E : select_channel (pd_decays MuMinusDef) (muon_random 0) = Ok (LeptonicApprox EMinusDef NuMuDef NuEBarDef)).
  { unfold select_channel. cbn. destruct (_ <? _); reflexivity. }
  rewrite E. cbn [decay]. destruct (muon_runs nan (muon_random 2) (muon_random 3) (muon_random 4) (muon_random 5)) as (ps & H); auto; try apply muon_random_bounds.
  exists ps. f_equal. exact H.
Qed.
Lemma c53_example nan elements par fuel : not_a_value nan -> exists ps,
  decay_particle nan (opened (fst (registry_run None []))) elements par MuMinusDef (flying MMU) muon_random fuel = Some (Ok ps) /\
  length ps = 3%nat.
Proof.
  intros N. destruct (muon_decays nan elements par fuel N) as (ps & H). exists ps. split; auto.
  rewrite reg0_run in H. destruct (c53_predefined nan [] MuMinusDef elements par (flying MMU) muon_random fuel ps N) as (br & ch & I & D); auto.
  - left. auto.
  - cbn. constants. lra.
  - unfold unit, dot. cbn. ring.
  - apply muon_random_bounds.
  - apply decay_table_sub in I. cbn [map snd In] in I. destruct I as [<-|[]]. destruct D as (D & _).
    apply (f_equal (@length Z)) in D. rewrite !map_length in D. exact D.
Qed.
