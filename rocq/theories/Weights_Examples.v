(** Concrete decays for C86: a particle of mass 10 into three photons. *)
From Verif Require Import Prelude PreludeFacts Vec_Model Vec_Proofs Propagator_Model Particle_Model Particle_Spec Particle_Proofs Shapes_Spec
  Math_Proofs Decay_Model Decay_Spec Decay_Proofs ManyBody_Proofs Decay_Examples Weights_Model Weights_Spec Weights_Proofs.

Definition photons : list pdef := [GammaDef; GammaDef; GammaDef].
Lemma kinematics_of nan norm r : 0 < r < 1 ->
  calculate_kinematics nan (map pd_mass photons) norm 10 [r] = Ok (mkkin [0; 10 * r; 10] [5 * r; 5 * (1 - r * r)] (norm * (25 * r * (1 - r * r)))).
Proof.
  intro L. unfold calculate_kinematics. cbn [photons map pd_mass GammaDef].
  assert (E : sort (0 :: [r] ++ [1]) = [0; r; 1]).
  { cbn [app sort fold_right insert_sorted]. destruct (Rleb_spec r 1); [|lra]. cbn [insert_sorted]. destruct (Rleb_spec 0 r); [|lra]. reflexivity. }
  rewrite E. cbn [virtual_masses sum_masses fold_left].
  replace (0 + 0 + 0 * (10 - (0 + 0 + 0 + 0))) with 0 by ring.
  replace (0 + 0 + 0 + r * (10 - (0 + 0 + 0 + 0))) with (10 * r) by ring.
  replace (0 + 0 + 0 + 0 + 1 * (10 - (0 + 0 + 0 + 0))) with 10 by ring.
  assert (P1 : decay_momentum nan (10 * r) 0 0 = Ok (5 * r)).
  { unfold decay_momentum, quot. replace ((10 * r - 0 - 0) * (10 * r + 0 + 0) * (10 * r - 0 + 0) * (10 * r + 0 - 0)) with ((100 * (r * r)) * (100 * (r * r))) by ring.
    assert (0 < r * r) by nra. destruct (Rltb_spec 0 (100 * (r * r) * (100 * (r * r)))) as [_|N]; [|exfalso; apply N; nra].
    destruct (Reqb_spec (2 * (10 * r)) 0); [lra|]. rewrite sqrt_square by nra. f_equal. field. lra. }
  assert (P2 : decay_momentum nan 10 (10 * r) 0 = Ok (5 * (1 - r * r))).
  { unfold decay_momentum, quot. replace ((10 - 10 * r - 0) * (10 + 10 * r + 0) * (10 - 10 * r + 0) * (10 + 10 * r - 0)) with ((100 * (1 - r * r)) * (100 * (1 - r * r))) by ring.
    assert (0 < 1 - r * r) by nra. destruct (Rltb_spec 0 (100 * (1 - r * r) * (100 * (1 - r * r)))) as [_|N]; [|exfalso; apply N; nra].
    destruct (Reqb_spec (2 * 10) 0); [lra|]. rewrite sqrt_square by nra. f_equal. field. }
  cbn [chain_momenta]. rewrite P1. cbn [obind]. rewrite P2. cbn [obind fst snd]. do 2 f_equal. ring.
Qed.

Lemma photon_event nan par rnd k ps r : not_a_value nan -> (forall i, 0 <= rnd i <= 1) -> rnd k = r -> 0 < r < 1 -> map p_type ps = [22; 22; 22]%Z ->
  exists out, one_event nan reg0 photons par heavy rnd k ps =
    Ok (mkkin [0; 10 * r; 10] [5 * r; 5 * (1 - r * r)] (normalization par * (25 * r * (1 - r * r))), out) /\
    map p_type out = [22; 22; 22]%Z /\ exists p0 p1 p2, out = [p0; p1; p2] /\ energy (p_state p2) = 5 * (1 - r * r) /\
      Forall (fun p => 0 < energy (p_state p)) out.
Proof.
  intros N Rn Er L T. unfold one_event. change (length photons - 2)%nat with 1%nat. change (draws rnd k 1) with [rnd k]. rewrite Er.
  change (pd_mass heavy) with 10. rewrite kinematics_of by exact L. cbn [obind].
  set (dirs := direction_draws rnd (k + 1) (length photons - 1)).
  assert (UD : Forall unit dirs) by (apply direction_draws_unit; exact Rn).
  assert (ED : exists d1 d2, dirs = [d1; d2]) by (eexists; eexists; reflexivity). destruct ED as (d1 & d2 & ->).
  inversion UD as [|? ? U1 UD']; subst. inversion UD' as [|? ? U2 _]; subst. clear UD UD'.
  destruct ps as [|p0 [|p1 [|p2 [|]]]]; try discriminate. cbn in T. injection T as T0 T1 T2.
  assert (Lk : forall p : particle, p_type p = 22%Z -> lookup reg0 (p_type p) = Some GammaDef) by (intros p ->; reflexivity).
  set (v := 10 * rnd k). set (q := 5 * rnd k). set (q' := 5 * (1 - rnd k * rnd k)).
  assert (0 < v) by (unfold v; lra). assert (0 < q) by (unfold q; lra). assert (0 < q') by (unfold q'; nra).
  clearbody v q q'.
  unfold generate_event. cbn [k_momenta k_masses].
  rewrite (set_momentum_ok reg0 _ GammaDef) by (apply Lk; exact T1). cbn [obind]. rewrite (set_momentum_ok reg0 _ GammaDef) by (apply Lk; exact T0). cbn [obind].
  change (pd_mass GammaDef) with 0.
  assert (SO : forall p m u, p_type p = 22%Z -> 0 < m -> unit u -> let x := with_energy (with_direction p u) (sqrt (m * m + 0 * 0)) in
    known reg0 0 x /\ on_shell 0 (p_state x) /\ 0 < energy (p_state x)).
  { intros p m u Tp Hm Hu x. destruct (set_on_shell p 0 m u) as [O _]; auto; try lra. splits; auto.
    - exists GammaDef. split; [apply Lk; exact Tp|reflexivity].
    - cbn. apply sqrt_lt_R0. nra. }
  destruct (SO p1 q d1 T1 ltac:(lra) U1) as (K1 & O1 & P1). destruct (SO p0 q (vneg d1) T0 ltac:(lra) (unit_vneg _ U1)) as (K0 & O0 & P0).
  set (q1 := with_energy (with_direction p1 d1) _) in *. set (q0 := with_energy (with_direction p0 (vneg d1)) _) in *.
  cbn [chain_boosts]. rewrite (set_momentum_ok reg0 _ GammaDef) by (apply Lk; exact T2). cbn [obind]. change (pd_mass GammaDef) with 0.
  set (q2 := with_energy (with_direction p2 d2) _).
  unfold quot. destruct (Reqb_spec v 0); [lra|]. cbn [obind]. change (direction (p_state q2)) with d2.
  destruct (chain_gamma q' v ltac:(lra)) as [G G1].
  assert (SH : shells reg0 [0; 0] [q0; q1]) by (apply Forall2_cons; [auto|apply Forall2_cons; [auto|constructor]]).
  destruct (boost_all_defined nan reg0 [0; 0] [q0; q1] d2 _ _ SH ltac:(repeat apply Forall2_cons; try apply Forall2_nil; apply massless_ne; assumption) U2 G G1) as (done & EB).
  rewrite EB. cbn [obind]. cbn [chain_boosts].
  pose proof (boost_all_inv nan reg0 [0; 0] [q0; q1] d2 _ _ done N SH U2 G G1 EB) as (SP & SH' & _).
  cbn [boost_all] in EB. apply obind_Ok in EB. destruct EB as (y0 & B0 & EB). apply obind_Ok in EB. destruct EB as (zs & B1 & EB).
  apply obind_Ok in B1. destruct B1 as (y1 & B1 & E1). cbn in E1. injection E1 as <-. injection EB as <-.
  assert (X0 : 0 < energy (p_state y0)) by (exact (boost_moving nan reg0 q0 GammaDef d2 _ _ y0 N (Lk q0 T0) eq_refl O0 U2 G G1 B0)).
  assert (X1 : 0 < energy (p_state y1)) by (exact (boost_moving nan reg0 q1 GammaDef d2 _ _ y1 N (Lk q1 T1) eq_refl O1 U2 G G1 B1)).
  inversion SP as [|? x0 ? xs S0 SP']; subst. inversion SP' as [|? x1 ? ys S1 SP'']; subst. inversion SP''; subst.
  exists ([y0; y1] ++ [q2]). split; [reflexivity|]. split.
  - destruct S0 as (E0 & _), S1 as (E1 & _). cbn [map app]. rewrite E0, E1. cbn. rewrite T0, T1, T2. reflexivity.
  - eexists; eexists; eexists. split; [reflexivity|].
    assert (E2 : energy (p_state q2) = q') by (cbn; replace (q' * q' + 0 * 0) with (q' * q') by ring; apply sqrt_square; lra).
    split; [exact E2|]. repeat apply Forall_cons; try apply Forall_nil; auto. rewrite E2. assumption.
Qed.

Lemma photons_registered : Forall (registered reg0) photons.
Proof. repeat constructor; apply gamma_registered. Qed.
Lemma photons_masses : Forall (fun d => 0 <= pd_mass d) photons.
Proof. repeat constructor; cbn; lra. Qed.
Lemma photons_light : mass_sum (map pd_mass photons) <= pd_mass heavy.
Proof. cbn. lra. Qed.
Lemma photons_types c ps : Forall2 (made c) photons ps -> map p_type ps = [22; 22; 22]%Z.
Proof.
  intro F. inversion F as [|? ? ? ? (A & _) F1]; subst. inversion F1 as [|? ? ? ? (B & _) F2]; subst. inversion F2 as [|? ? ? ? (C & _) F3]; subst. inversion F3; subst.
  cbn. rewrite A, B, C. reflexivity.
Qed.
Lemma photon_event_at nan par c rnd k ps r : not_a_value nan -> (forall i, 0 <= rnd i <= 1) -> rnd k = r -> 0 < r < 1 -> Forall2 (made c) photons ps ->
  exists out, one_event nan reg0 photons par heavy rnd k ps =
    Ok (mkkin [0; 10 * r; 10] [5 * r; 5 * (1 - r * r)] (normalization par * (25 * r * (1 - r * r))), out) /\
    at_rest reg0 photons heavy c out /\ nth 2 (map (fun p => energy (p_state p)) out) 0 = 5 * (1 - r * r) /\
    Forall (fun p => 0 < energy (p_state p)) out.
Proof.
  intros N Rn Er L F. destruct (photon_event nan par rnd k ps r N Rn Er L (photons_types c ps F)) as (out & E & _ & p0 & p1 & p2 & -> & E2 & Po).
  exists [p0; p1; p2]. split; [exact E|]. split; [|split; [cbn; exact E2|exact Po]].
  apply (one_event_inv nan reg0 N photons par heavy c rnd) in E; auto; [cbn; lia|apply photons_registered|apply photons_masses|apply photons_light].
Qed.

Definition photon_norm : R := 2 * PI * PI.
Lemma photon_norm_positive : 0 < photon_norm.
Proof. unfold photon_norm. pose proof PI_RGT_0. nra. Qed.
Lemma photon_norm_ok nan : calculate_normalization nan (map pd_mass photons) (pd_mass heavy) = Ok photon_norm.
Proof.
  unfold calculate_normalization, quot. cbn [photons map pd_mass GammaDef length sum_masses fold_left heavy Nat.sub fact]. destruct (Reqb_spec (2 * 10) 0); [lra|].
  f_equal. unfold photon_norm. cbn. field.
Qed.

Section Halves.
Variables (nan : forall A, outcome A) (element : pstate -> list particle -> R) (v : R).
Hypothesis N : not_a_value nan.
Hypothesis V : forall out, total_energy out = 10 -> element (resting heavy) out = v.
Definition half_weight : R := photon_norm * (75 / 8) * v.
Lemma half_sample k ps : Forall2 (made blank) photons ps ->
  exists out, sample_event nan reg0 photons (Some element) photon_norm heavy halves k ps = Ok (half_weight, out) /\ Forall2 (made blank) photons out.
Proof.
  intro F. unfold sample_event.
  destruct (photon_event_at nan (mkparams photon_norm 0 0) blank halves k ps (1 / 2) N ltac:(intro; unfold halves; lra) eq_refl ltac:(lra) F) as (out & E & (A1 & _ & A3 & _) & _).
  rewrite E. cbn [obind element_of k_weight normalization]. exists out. split; [|exact A1]. rewrite (V out A3). unfold half_weight. do 2 f_equal. field.
Qed.
Lemma half_loop n : forall k ps, Forall2 (made blank) photons ps ->
  sample_loop nan reg0 photons (Some element) n photon_norm heavy halves k ps half_weight half_weight = Ok (mkparams photon_norm half_weight half_weight, (k + n * 5)%nat).
Proof.
  induction n as [|n IH]; intros k ps F; cbn [sample_loop]; [do 2 f_equal; lia|].
  destruct (half_sample k ps F) as (out & E & F'). rewrite E. cbn [obind]. destruct (Rltb_spec half_weight half_weight); [lra|].
  change (numbers_per_event photons) with 5%nat. rewrite (IH (k + 5)%nat out F'). do 2 f_equal. lia.
Qed.
Lemma half_params statistic k : exists k', get_params nan reg0 photons statistic (Some element) [] heavy halves k =
  Ok (mkparams photon_norm half_weight half_weight, [(heavy, mkparams photon_norm half_weight half_weight)], k').
Proof.
  unfold get_params. cbn [recall]. rewrite photon_norm_ok. cbn [obind]. unfold sample_estimate.
  destruct (half_sample k (map (fun d => mkparticle (pd_type d) blank) photons)) as (out & E & F); [repeat constructor|].
  rewrite E. cbn [obind]. rewrite (half_loop _ _ out F). cbn [obind]. eexists. reflexivity.
Qed.
End Halves.

(** ** Weights below the sampled ones *)
Definition tenth_first : nat -> R := fun i => match i with O => 1 / 10 | _ => 1 / 2 end.
Lemma tenth_range i : 0 <= tenth_first i <= 1.
Proof. destruct i; cbn; lra. Qed.
Definition plain_element : pstate -> list particle -> R := fun _ _ => 1.
Lemma lost_event nan : not_a_value nan -> exists par cache k w out,
  get_params nan reg0 photons 1000 (Some plain_element) [] heavy halves 0 = Ok (par, cache, k) /\
  weighted_event nan reg0 photons par plain_element heavy (flying 10) tenth_first 0
    (map (fun d => product d (flying 10) (direction (flying 10)) (energy (flying 10))) photons) = Ok (w, out) /\
  0 < w < weight_min par /\
  forall random, (forall i, 0 <= random i) -> forall fuel out',
    many_body_decay nan reg0 photons par plain_element heavy (flying 10) random true fuel 0 = Some (Ok out') ->
    exists i ps' w' rest, weighted_event nan reg0 photons par plain_element heavy (flying 10) random i ps' = Ok (w', rest) /\
      weight_min par <= w' /\ to_lab nan reg0 heavy (flying 10) rest = Ok out'.
Proof.
  intro N. destruct (half_params nan plain_element 1 N ltac:(reflexivity) 1000 0) as (k & G). set (par := mkparams _ _ _) in G.
  assert (F : Forall2 (made (flying 10)) photons (map (fun d => product d (flying 10) (direction (flying 10)) (energy (flying 10))) photons)) by (repeat constructor).
  destruct (photon_event_at nan par (flying 10) tenth_first 0 _ (1 / 10) N tenth_range eq_refl ltac:(lra) F) as (out & E & _).
  exists par, [(heavy, par)], k, (photon_norm * (25 * (1 / 10) * (1 - 1 / 10 * (1 / 10))) * 1), out. split; [exact G|]. pose proof photon_norm_positive as P. split; [|split].
  - unfold weighted_event. rewrite E. reflexivity.
  - cbn. unfold half_weight. nra.
  - intros random Rn fuel out' H. destruct (decay_between nan reg0 photons par plain_element heavy (flying 10) random fuel 0 out' H) as (ps & A & L).
    destruct (between_floor nan reg0 photons par plain_element heavy (flying 10) random (weight_min par) (weight_max par) 0 _ ps Rn (Rle_refl _) A) as (i & ps' & w & E' & W).
    exists i, ps', w, ps. auto.
Qed.

(** ** An invariant element *)
Definition four_product : pstate -> list particle -> R := invariant 10 [0; 0; 0].
Definition still : pstate := mkpstate (mkvec 1 2 3) (mkvec 0 0 1) 10 5 7.
Lemma four_product_at_rest c out : at_rest reg0 photons heavy c out -> forall s, four_product s out = energy s * 10.
Proof.
  intros (_ & _ & E & P) s. unfold four_product, invariant. rewrite E. cbn [map photons pd_mass GammaDef] in P. rewrite P. cbn [heavy pd_mass]. unfold dot. cbn. ring.
Qed.
Lemma still_sampled out : total_energy out = 10 -> four_product (resting heavy) out = 100.
Proof.
  intro E. unfold four_product, invariant, momentum_vec. rewrite E. cbn. unfold dot, scale. cbn.
  replace (10 * 10 - 10 * 10) with 0 by ring. rewrite sqrt_0. ring.
Qed.
Lemma photons_lab nan c out : not_a_value nan -> 10 <= energy c -> unit (direction c) -> at_rest reg0 photons heavy c out ->
  Forall (fun p => 0 < energy (p_state p)) out -> exists ps, to_lab nan reg0 heavy c out = Ok ps.
Proof.
  intros N Hc U (_ & S & _) Po. unfold to_lab, quot. change (pd_mass heavy) with 10. destruct (Reqb_spec 10 0); [lra|]. cbn [obind].
  destruct (gamma_facts (energy c) 10 ltac:(lra)) as (_ & G & G1). cbv zeta in *.
  apply (boost_all_defined nan reg0 [0; 0; 0] out); auto.
  - inversion Po as [|p0 ? A Po1]; subst; [inversion S|]. inversion Po1 as [|p1 ? B Po2]; subst; [inversion S as [|? ? ? ? _ S1]; inversion S1|].
    inversion S as [|? ? ? ? _ S1]; subst. inversion S1 as [|? ? ? ? _ S2]; subst. inversion S2 as [|? ? ? ? _ S3]; subst. inversion S3; subst.
    inversion Po2; subst. repeat apply Forall2_cons; try apply Forall2_nil; apply massless_ne; assumption.
  - apply unit_vneg. exact U.
Qed.
Lemma made_products c : Forall2 (made c) photons (map (fun d => product d c (direction c) (energy c)) photons).
Proof. repeat constructor. Qed.
Lemma third_rest nan c out ps : not_a_value nan -> 10 <= energy c -> unit (direction c) -> at_rest reg0 photons heavy c out -> to_lab nan reg0 heavy c out = Ok ps ->
  nth 2 (rest_energies 10 [0; 0; 0] c ps) 0 = nth 2 (map (fun p => energy (p_state p)) out) 0.
Proof. intros N Hc U (_ & S & _) L. f_equal. apply (to_lab_rest nan reg0 N heavy c [0; 0; 0] out ps); auto. cbn. lra. Qed.

Lemma moving_differs nan : not_a_value nan -> exists par cache k slow fast,
  get_params nan reg0 photons 1000 (Some four_product) [] heavy halves 0 = Ok (par, cache, k) /\
  many_body_decay nan reg0 photons par four_product heavy still tenth_first true 2 0 = Some (Ok slow) /\
  many_body_decay nan reg0 photons par four_product heavy (flying 10) tenth_first true 2 0 = Some (Ok fast) /\
  nth 2 (rest_energies 10 [0; 0; 0] still slow) 0 = 375 / 100 /\ nth 2 (rest_energies 10 [0; 0; 0] (flying 10) fast) 0 = 495 / 100.
Proof.
  intro N. destruct (half_params nan four_product 100 N still_sampled 1000 0) as (k & G). set (par := mkparams _ _ _) in G.
  pose proof photon_norm_positive as P.
  destruct (photon_event_at nan par still tenth_first 0 _ (1 / 10) N tenth_range eq_refl ltac:(lra) (made_products still)) as (o1 & E1 & A1 & _).
  destruct (photon_event_at nan par still tenth_first 6 o1 (1 / 2) N tenth_range eq_refl ltac:(lra) (proj1 A1)) as (o2 & E2 & A2 & N2 & P2).
  destruct (photon_event_at nan par (flying 10) tenth_first 0 _ (1 / 10) N tenth_range eq_refl ltac:(lra) (made_products (flying 10))) as (o3 & E3 & A3 & N3 & P3).
  assert (U : unit (direction still)) by (unfold unit, dot; cbn; ring). assert (U' : unit (direction (flying 10))) by (unfold unit, dot; cbn; ring).
  destruct (photons_lab nan still o2 N ltac:(cbn; lra) U A2 P2) as (slow & L2). destruct (photons_lab nan (flying 10) o3 N ltac:(cbn; lra) U' A3 P3) as (fast & L3).
  exists par, [(heavy, par)], k, slow, fast. split; [exact G|]. split; [|split; [|split]].
  - unfold many_body_decay. cbn [rejection]. rewrite E1. cbv zeta. rewrite (four_product_at_rest still o1 A1). cbn [k_weight weight_min weight_max normalization par].
    match goal with |- context [if ?b then _ else _] => replace b with true end.
    2: { symmetry. match goal with |- (?a <? ?b) = true => destruct (Rltb_spec a b) as [X|X]; [reflexivity|exfalso; apply X] end. unfold half_weight. cbn. nra. }
    change (S (0 + (length photons - 2) + 2 * (length photons - 1)))%nat with 6%nat. rewrite E2. rewrite (four_product_at_rest still o2 A2). cbn [k_weight weight_min weight_max normalization par].
    match goal with |- context [if ?b then _ else _] => replace b with false end.
    2: { symmetry. match goal with |- (?a <? ?b) = false => destruct (Rltb_spec a b) as [X|X]; [exfalso|reflexivity] end. unfold half_weight in X. cbn in X. nra. }
    cbn [obind]. rewrite L2. reflexivity.
  - unfold many_body_decay. cbn [rejection]. rewrite E3. cbv zeta. rewrite (four_product_at_rest (flying 10) o3 A3). cbn [k_weight weight_min weight_max normalization par].
    match goal with |- context [if ?b then _ else _] => replace b with false end.
    2: { symmetry. match goal with |- (?a <? ?b) = false => destruct (Rltb_spec a b) as [X|X]; [exfalso|reflexivity] end. unfold half_weight in X. cbn in X. nra. }
    cbn [obind]. rewrite L3. reflexivity.
  - rewrite (third_rest nan still o2 slow N ltac:(cbn; lra) U A2 L2), N2. lra.
  - rewrite (third_rest nan (flying 10) o3 fast N ltac:(cbn; lra) U' A3 L3), N3. lra.
Qed.
Lemma c86_motion_refuted nan : not_a_value nan -> exists element par cache k slow fast,
  (forall c out, 10 <= energy c -> unit (direction c) -> decay_products photons 10 c out -> element c out = 100) /\
  get_params nan reg0 photons 1000 (Some element) [] heavy halves 0 = Ok (par, cache, k) /\
  many_body_decay nan reg0 photons par element heavy still tenth_first true 2 0 = Some (Ok slow) /\
  many_body_decay nan reg0 photons par element heavy (flying 10) tenth_first true 2 0 = Some (Ok fast) /\
  nth 2 (rest_energies 10 [0; 0; 0] still slow) 0 <> nth 2 (rest_energies 10 [0; 0; 0] (flying 10) fast) 0.
Proof.
  intro N. destruct (moving_differs nan N) as (par & cache & k & slow & fast & G & S & F & E1 & E2).
  exists four_product, par, cache, k, slow, fast. split; [|split; [exact G|split; [exact S|split; [exact F|rewrite E1, E2; lra]]]].
  intros c out H U D. replace 100 with (10 * 10) by ring. apply (invariant_constant photons 10 c out); auto. lra.
Qed.
Lemma c86_proportional_refuted nan : not_a_value nan -> exists par cache k w out,
  get_params nan reg0 photons 1000 (Some (fun _ _ => 1)) [] heavy halves 0 = Ok (par, cache, k) /\
  weighted_event nan reg0 photons par (fun _ _ => 1) heavy (flying 10) tenth_first 0
    (map (fun d => product d (flying 10) (direction (flying 10)) (energy (flying 10))) photons) = Ok (w, out) /\ 0 < w /\
  forall rnd k ps, (forall i, 0 <= rnd i) ->
    ~ (w - weight_min par >= rnd (k + numbers_per_event photons)%nat * (weight_max par - weight_min par)) /\
    forall out', accepted_between (weighted_event nan reg0 photons par (fun _ _ => 1) heavy (flying 10) rnd) (numbers_per_event photons) rnd
        (weight_min par) (weight_max par) k ps out' ->
      exists i ps' w', weighted_event nan reg0 photons par (fun _ _ => 1) heavy (flying 10) rnd i ps' = Ok (w', out') /\ w < w'.
Proof.
  intro N. destruct (half_params nan plain_element 1 N ltac:(reflexivity) 1000 0) as (k & G). set (par := mkparams _ _ _) in G.
  destruct (photon_event_at nan par (flying 10) tenth_first 0 _ (1 / 10) N tenth_range eq_refl ltac:(lra) (made_products (flying 10))) as (out & E & _).
  set (w := photon_norm * (25 * (1 / 10) * (1 - 1 / 10 * (1 / 10)))). pose proof photon_norm_positive as P.
  assert (W : 0 < w < weight_min par) by (unfold w; cbn; unfold half_weight; nra).
  assert (M : weight_max par = weight_min par) by reflexivity.
  exists par, [(heavy, par)], k, w, out. split; [exact G|]. split; [unfold weighted_event; rewrite E; cbn [obind fst snd k_weight normalization par]; fold w; rewrite Rmult_1_r; reflexivity|].
  split; [apply W|]. intros rnd k0 ps Rn. split.
  - rewrite M. intro H. nra.
  - intros out' A. destruct (between_floor nan reg0 photons par plain_element heavy (flying 10) rnd (weight_min par) (weight_max par) k0 ps out' Rn ltac:(rewrite M; apply Rle_refl) A) as (i & ps' & w' & E' & L).
    exists i, ps', w'. split; [exact E'|lra].
Qed.
Lemma sampled_example nan : not_a_value nan -> exists par k, remembered nan reg0 photons 1000 (Some (fun _ _ => 1)) [(heavy, par)] /\
  get_params nan reg0 photons 1000 (Some (fun _ _ => 1)) [] heavy halves 0 = Ok (par, [(heavy, par)], k) /\
  get_params nan reg0 photons 1000 (Some (fun _ _ => 1)) [(heavy, par)] heavy halves k = Ok (par, [(heavy, par)], k) /\ 0 < weight_min par.
Proof.
  intro N. destruct (half_params nan plain_element 1 N ltac:(reflexivity) 1000 0) as (k & G). set (par := mkparams _ _ _) in G.
  exists par, k. split; [eapply remembered_more; [apply remembered_nothing|exact G]|]. split; [exact G|]. split; [exact (remembered_params _ _ _ _ _ _ _ _ _ _ _ _ _ k G)|].
  pose proof photon_norm_positive. cbn. unfold half_weight. nra.
Qed.
Lemma default_example nan : exists par, get_params nan reg0 photons 1000 None [] heavy halves 0 = Ok (par, [(heavy, par)], O).
Proof.
  unfold get_params. cbn [recall]. rewrite photon_norm_ok. cbn [obind].
  destruct (kinematics_weight nan 0 0 [0] photon_norm 10 [1 / 2] _ ltac:(repeat constructor; lra) ltac:(cbn; lra) ltac:(repeat constructor; lra) eq_refl
    (Rlt_le _ _ photon_norm_positive) (kinematics_of nan photon_norm (1 / 2) ltac:(lra))) as (W & E & _).
  cbn [photons map pd_mass GammaDef heavy]. rewrite E. cbn [obind]. eexists. reflexivity.
Qed.
Lemma in_flight_example nan : not_a_value nan -> exists par slow fast,
  many_body_decay nan reg0 photons par (fun _ _ => 1) heavy still tenth_first true 2 0 = Some (Ok slow) /\
  many_body_decay nan reg0 photons par (fun _ _ => 1) heavy (flying 10) tenth_first true 2 0 = Some (Ok fast).
Proof.
  intro N. exists (mkparams 1 1 0).
  destruct (photon_event_at nan (mkparams 1 1 0) still tenth_first 0 _ (1 / 10) N tenth_range eq_refl ltac:(lra) (made_products still)) as (o2 & E2 & A2 & N2 & P2).
  destruct (photon_event_at nan (mkparams 1 1 0) (flying 10) tenth_first 0 _ (1 / 10) N tenth_range eq_refl ltac:(lra) (made_products (flying 10))) as (o3 & E3 & A3 & N3 & P3).
  assert (U : unit (direction still)) by (unfold unit, dot; cbn; ring). assert (U' : unit (direction (flying 10))) by (unfold unit, dot; cbn; ring).
  destruct (photons_lab nan still o2 N ltac:(cbn; lra) U A2 P2) as (slow & L2). destruct (photons_lab nan (flying 10) o3 N ltac:(cbn; lra) U' A3 P3) as (fast & L3).
  exists slow, fast. unfold many_body_decay. cbn [rejection]. rewrite E2, E3. cbv zeta. cbn [k_weight weight_min weight_max normalization].
  match goal with |- context [if ?b then _ else _] => replace b with false end.
  2: { symmetry. match goal with |- (?a <? ?b) = false => destruct (Rltb_spec a b) as [X|X]; [exfalso|reflexivity] end. cbn in X. lra. }
  cbn [obind]. rewrite L2, L3. auto.
Qed.
