(** Proofs about sampling from Moliere's distribution. *)
From Coq Require Import String.
From Coquelicot Require Import Coquelicot.
From Verif Require Import Prelude PreludeFacts Particle_Model Limits_Model Vec_Model Cross_Model Photo_Model Integral_Model Utility_Model
  Decay_Spec Multiple_Model Multiple_Spec Log_Proofs Reduced_Proofs Multiple_Proofs Moliere_Proofs MoliereAngle_Proofs.
Notation length := List.length.

(** ** The two sides *)
Definition even_odd (t : series) : Prop := F1M t 0 = 0 /\ F2M t 0 = 0.
Lemma series_centered c1 c2 C1 c2l s2l : even_odd (moliere_series c1 c2 C1 c2l s2l).
Proof.
  assert (Z : sqrt (Rmax 0 0) = 0) by (unfold Rmax; destruct (Rle_dec 0 0); apply sqrt_0).
  split; cbn [F1M F2M moliere_series]; [unfold F1M_series|unfold F2M_series]; unfold Rltb.
  - destruct (Rlt_dec 12 0); [lra|]. rewrite Z. ring.
  - destruct (Rlt_dec (425 / 100 * (425 / 100)) 0); [lra|]. rewrite Z. ring.
Qed.
Section Mirror.
Variable nan : forall A, outcome A.
Hypothesis N : not_a_value nan.
Variable t : series.
Hypothesis T : even_odd t.
Lemma density_opposite c x : forall ws Bs y, density_terms nan t c (- x) ws Bs y = density_terms nan t c x ws Bs y.
Proof.
  induction ws as [|w ws IH]; intros [|B Bs] y; try reflexivity. cbn [density_terms]. replace (- x * - x) with (x * x) by ring.
  destruct (quotient nan (x * x) (c * B)); [cbn [obind]|reflexivity|reflexivity].
  destruct (Utility_Model.root nan (c * B * PI)); [cbn [obind]|reflexivity|reflexivity].
  destruct (quotient nan w a0); [cbn [obind]|reflexivity|reflexivity].
  destruct (quotient nan (f1M t a) B); [cbn [obind]|reflexivity|reflexivity].
  destruct (quotient nan (f2M t a) (B * B)); [cbn [obind]|reflexivity|reflexivity]. apply IH.
Qed.
Lemma angle_density_even s x : angle_density nan t s (- x) = angle_density nan t s x.
Proof. unfold angle_density. rewrite density_opposite. reflexivity. Qed.
Lemma share_opposite c x : forall ws Bs y, share_terms nan t c (- x) ws Bs y = share_terms nan t c x ws Bs y.
Proof.
  induction ws as [|w ws IH]; intros [|B Bs] y; try reflexivity. cbn [share_terms]. replace (- x * - x) with (x * x) by ring.
  destruct (quotient nan (x * x) (c * B)); [cbn [obind]|reflexivity|reflexivity].
  destruct (quotient nan (F1M t a) B); [cbn [obind]|reflexivity|reflexivity].
  destruct (quotient nan (F2M t a) (B * B)); [cbn [obind]|reflexivity|reflexivity]. apply IH.
Qed.
Lemma share_center c : forall ws Bs y z, share_terms nan t c 0 ws Bs y = Ok z -> z = y.
Proof.
  induction ws as [|w ws IH]; intros [|B Bs] y z H; try (injection H as <-; reflexivity). cbn [share_terms] in H.
  apply bind_ok in H. destruct H as (x & Hx & H). apply (divide_inv nan N) in Hx. destruct Hx as (NB & ->).
  apply bind_ok in H. destruct H as (b & Hb & H). apply (divide_inv nan N) in Hb. destruct Hb as (B0 & ->).
  apply bind_ok in H. destruct H as (d & Hd & H). apply (divide_inv nan N) in Hd. destruct Hd as (B2 & ->).
  apply IH in H. rewrite H. replace (0 * 0 / (c * B)) with 0 by (field; split; intros Q; apply NB; rewrite Q; ring).
  destruct T as (-> & ->). unfold Rmax. destruct (Rle_dec 0 0); rewrite sqrt_0, erf_0; field; lra.
Qed.
Lemma angle_share_odd s x y : angle_share nan t s x = Ok y -> angle_share nan t s (- x) = Ok (- y).
Proof.
  unfold angle_share. rewrite share_opposite. intros H. apply bind_ok in H. destruct H as (z & Hz & H). rewrite Hz. cbn [obind]. f_equal.
  injection H as <-. unfold Rltb. destruct (Rlt_dec x 0); destruct (Rlt_dec (- x) 0); try lra; try ring.
  assert (x = 0) by lra. subst x. apply share_center in Hz. rewrite Hz. ring.
Qed.
Lemma moved_opposite a b : moved (- a) (- b) = moved a b.
Proof.
  unfold moved, Reqb. destruct (Req_EM_T (- b) 0), (Req_EM_T b 0); try lra; [destruct (Req_EM_T (- a) 0), (Req_EM_T a 0); try lra; reflexivity|].
  replace ((- a - - b) / - b) with ((a - b) / b) by (field; lra). reflexivity.
Qed.
Lemma refine_opposite s : forall n r x z, refine nan t s n r x = Ok z -> refine nan t s n (- r) (- x) = Ok (- z).
Proof.
  induction n as [|n IH]; intros r x z H; [cbn in H |- *; injection H as <-; reflexivity|]. cbn [refine] in H |- *.
  apply bind_ok in H. destruct H as (y & Hy & H). rewrite (angle_share_odd s x y Hy). cbn [obind].
  rewrite angle_density_even. apply bind_ok in H. destruct H as (d & Hd & H). rewrite Hd. cbn [obind].
  apply bind_ok in H. destruct H as (q & Hq & H). apply (divide_inv nan N) in Hq. destruct Hq as (D & ->).
  rewrite divide_ok by exact D. cbn [obind]. replace (- x - (- y - - r) / d) with (- (x - (y - r) / d)) by (field; exact D).
  rewrite moved_opposite. destruct (Nat.eqb n 0); [injection H as <-; reflexivity|].
  destruct (moved x (x - (y - r) / d)); [now apply IH|injection H as <-; reflexivity].
Qed.
Lemma random_mirror s p r z : 0 < r < 1 -> get_random nan t s p r = Ok z -> get_random nan t s p (1 - r) = Ok (- z).
Proof.
  intros I H. unfold get_random in *. apply bind_ok in H. destruct H as (q & Hq & H).
  rewrite (quantile_mirror nan N r q I Hq). cbn [obind].
  replace (1 - r - 1 / 2) with (- (r - 1 / 2)) by field. replace (p * - q / SQRT2) with (- (p * q / SQRT2)) by (unfold Rdiv; ring).
  now apply refine_opposite.
Qed.
End Mirror.
Lemma c61_moliere_mirror nan c1 c2 C1 c2l s2l s g E r0 r1 r2 r3 o s' : not_a_value nan ->
  0 < r0 < 1 -> 0 < r1 < 1 -> 0 < r2 < 1 -> 0 < r3 < 1 ->
  moliere_offset nan (moliere_series c1 c2 C1 c2l s2l) s g E r0 r1 r2 r3 = Ok (o, s') ->
  moliere_offset nan (moliere_series c1 c2 C1 c2l s2l) s g E (1 - r0) (1 - r1) (1 - r2) (1 - r3) = Ok (mirror o, s').
Proof.
  intros N I0 I1 I2 I3 H. set (t := moliere_series c1 c2 C1 c2l s2l) in *.
  assert (T : even_odd t) by apply series_centered. unfold moliere_offset in *.
  apply bind_ok in H. destruct H as ((p & u) & Hp & H). rewrite Hp. cbn [obind]. destruct (p =? 0).
  - injection H as <- <-. unfold mirror. cbn [o_sx o_sy o_tx o_ty]. rewrite Ropp_0. reflexivity.
  - apply bind_ok in H. destruct H as (a & Ha & H). apply bind_ok in H. destruct H as (b & Hb & H).
    apply bind_ok in H. destruct H as (c & Hc & H). apply bind_ok in H. destruct H as (d & Hd & H). injection H as <- <-.
    rewrite (random_mirror nan N t T u p r0 a I0 Ha), (random_mirror nan N t T u p r1 b I1 Hb),
      (random_mirror nan N t T u p r2 c I2 Hc), (random_mirror nan N t T u p r3 d I3 Hd). cbn [obind].
    unfold mirror. cbn [o_sx o_sy o_tx o_ty]. f_equal. f_equal. assert (SQRT3 <> 0) by (unfold SQRT3; lra). f_equal; field; assumption.
Qed.

(** ** The iteration *)
Lemma moved_small a b : moved a b = false -> small_change a b.
Proof.
  unfold moved, Reqb, small_change. destruct (Req_EM_T b 0) as [->|B].
  - destruct (Req_EM_T a 0) as [->|]; [|discriminate]. intros _. replace (0 - 0) with 0 by ring. rewrite Rabs_R0. lra.
  - unfold Rltb. destruct (Rlt_dec (/ 10 ^ 4) (Rabs ((a - b) / b))) as [|H]; [discriminate|]. intros _.
    assert (0 < Rabs b) by now apply Rabs_pos_lt. apply Rnot_lt_le in H. unfold Rdiv in H. rewrite Rabs_mult, Rabs_inv in H.
    replace (Rabs (a - b)) with (Rabs (a - b) * / Rabs b * Rabs b) by (field; lra).
    replace (Rabs b / 10 ^ 4) with (/ 10 ^ 4 * Rabs b) by (unfold Rdiv; ring). apply Rmult_le_compat_r; lra.
Qed.
Lemma moved_large a b : moved a b = true -> ~ small_change a b.
Proof.
  unfold moved, Reqb, small_change. destruct (Req_EM_T b 0) as [->|B].
  - destruct (Req_EM_T a 0) as [->|A]; [discriminate|]. intros _ H. rewrite Rabs_R0 in H. replace (a - 0) with a in H by ring.
    pose proof (Rabs_pos_lt a A). lra.
  - unfold Rltb. destruct (Rlt_dec (/ 10 ^ 4) (Rabs ((a - b) / b))) as [H|]; [|discriminate]. intros _ K.
    assert (0 < Rabs b) by now apply Rabs_pos_lt. unfold Rdiv in H. rewrite Rabs_mult, Rabs_inv in H.
    assert (Rabs (a - b) * / Rabs b <= / 10 ^ 4); [|lra]. apply (proj2 (Rcomplements.Rle_div_l (Rabs (a - b)) (/ 10 ^ 4) (Rabs b) H0)). lra.
Qed.
Lemma refine_path nan t s target : not_a_value nan -> forall n a z, n <> 0%nat -> refine nan t s n target a = Ok z ->
  exists k y, (k <= n)%nat /\ iteration nan t s target k a y z /\ (k = n \/ small_change y z).
Proof.
  intros N. induction n as [|n IH]; intros a z NZ H; [contradiction|]. cbn [refine] in H.
  apply bind_ok in H. destruct H as (y & Hy & H). apply bind_ok in H. destruct H as (d & Hd & H).
  apply bind_ok in H. destruct H as (q & Hq & H). apply (divide_inv nan N) in Hq. destruct Hq as (D & ->).
  assert (A : angle_step nan t s target a (a - (y - target) / d)) by (exists y, d; auto).
  destruct (Nat.eqb n 0) eqn:E.
  - apply Nat.eqb_eq in E. subst n. injection H as <-. exists 1%nat, a. split; [lia|]. split; [now constructor|now left].
  - apply Nat.eqb_neq in E. destruct (moved a (a - (y - target) / d)) eqn:MV.
    + destruct (IH _ z E H) as (k & u & K & I & F). exists (S k), u. split; [lia|]. split; [|destruct F; [left; congruence|now right]].
      econstructor; [exact A|exact (moved_large _ _ MV)|exact I].
    + injection H as <-. exists 1%nat, a. split; [lia|]. split; [now constructor|]. right. now apply moved_small.
Qed.
Lemma c61_iteration nan t s p r z : not_a_value nan -> get_random nan t s p r = Ok z ->
  exists q n y, normalppf nan r = Ok q /\ (1 <= n <= 100)%nat /\ iteration nan t s (r - 1 / 2) n (p * q / SQRT2) y z /\ (n = 100%nat \/ small_change y z).
Proof.
  intros N H. unfold get_random in H. apply bind_ok in H. destruct H as (q & Hq & H).
  destruct (refine_path nan t s (r - 1 / 2) N 100 _ z ltac:(discriminate) H) as (k & y & K & I & F).
  exists q, k, y. split; [exact Hq|]. split; [|split; assumption]. split; [|exact K]. inversion I; lia.
Qed.

(** ** Comparison *)
Lemma list_eqb_refl l : list_eqb l l = true.
Proof. induction l as [|x l IH]; [reflexivity|]. cbn. unfold Reqb. destruct (Req_EM_T x x); [exact IH|contradiction]. Qed.
Lemma compare_self a : scatterer_equal (Moliere a) (Moliere a) = Ok true.
Proof.
  unfold scatterer_equal, moliere_compare, scatterer_mass, Reqb. rewrite !list_eqb_refl, !Nat.eqb_refl.
  repeat match goal with |- context [Req_EM_T ?x ?x] => destruct (Req_EM_T x x); [|contradiction] end. reflexivity.
Qed.
Lemma c61_equal_used nan mass m s0 E g : proper_medium m -> 0 <= mass < E -> 0 < g -> not_a_value nan ->
  new_moliere nan mass m = Ok s0 ->
  scatterer_equal (Moliere s0) (Moliere s0) = Ok true /\
  forall p s, prefactor nan s0 E g = Ok (p, s) -> scatterer_equal (Moliere s) (Moliere s0) = Ok false.
Proof.
  intros P M G N NW. split; [apply compare_self|]. intros p s H.
  rewrite (new_ok nan mass m P) in NW. injection NW as <-. destruct P as (NE & P).
  assert (X : mo_chi_c s = characteristic_angle2 mass E g (m_components m)).
  { rewrite (prefactor_value nan mass (m_components m) _ E g NE P M ltac:(repeat split)) in H.
    apply bind_ok in H. destruct H as ((b & B) & _ & H). cbn [fst snd] in H. destruct b; [|injection H as _ <-; reflexivity].
    destruct (nth_error B _); [|discriminate]. apply bind_ok in H. destruct H as (q & _ & H). injection H as _ <-. reflexivity. }
  destruct (characteristic_sign mass E g _ NE P M) as (C & _). specialize (C G).
  apply prefactor_fixed in H. destruct H as (HM & _). unfold scatterer_equal, scatterer_mass. rewrite HM. unfold Reqb at 1.
  destruct (Req_EM_T _ _); [|contradiction]. cbn [negb]. f_equal. unfold moliere_compare. rewrite X.
  cbn [fresh mo_chi_c]. unfold Reqb at 3. destruct (Req_EM_T _ 0); [lra|]. rewrite andb_false_r. reflexivity.
Qed.

(** ** The heaviest component *)
Lemma c61_heaviest nan mass m s0 : proper_medium m -> (length (m_components m) <= 2)%nat -> new_moliere nan mass m = Ok s0 ->
  largest (map (mass_share (m_components m)) (m_components m)) (mo_index s0).
Proof.
  intros P L NW. rewrite (new_ok nan mass m P) in NW. injection NW as <-. destruct P as (NE & P).
  destruct (m_components m) as [|a [|b [|c l]]]; [contradiction| | |cbn in L; lia].
  - cbn [fresh mo_index map weight_index]. eexists. split; [reflexivity|]. apply Forall_cons; [lra|apply Forall_nil].
  - cbn [fresh mo_index map weight_index]. unfold Rltb. destruct (Rlt_dec _ _); eexists; (split; [reflexivity|]); repeat (apply Forall_cons || apply Forall_nil); lra.
Qed.
Lemma index_scaled T : 0 < T -> forall l i k, weight_index i k (map (fun x => x / T) l) = weight_index i k l.
Proof.
  intros P. induction l as [|a [|b l] IH]; intros i k; [reflexivity|reflexivity|].
  change (weight_index i k (a :: b :: l)) with (weight_index (S i) (if a <? b then S i else k) (b :: l)).
  change (weight_index i k (map (fun x => x / T) (a :: b :: l)))
    with (weight_index (S i) (if a / T <? b / T then S i else k) (map (fun x => x / T) (b :: l))).
  rewrite IH. replace (a / T <? b / T) with (a <? b); [reflexivity|]. unfold Rltb. pose proof (Rinv_0_lt_compat T P).
  destruct (Rlt_dec a b), (Rlt_dec (a / T) (b / T)); try reflexivity; unfold Rdiv in *; nra.
Qed.
Lemma antares_proper : proper_medium antares_water.
Proof.
  split; [discriminate|]. cbn [m_components antares_water]. repeat (apply Forall_cons || apply Forall_nil); unfold proper_component; cbn; lra.
Qed.
Lemma c61_heaviest_antares nan mass : exists s0, new_moliere nan mass antares_water = Ok s0 /\ mo_index s0 = 6%nat /\
  ~ largest (map (mass_share (m_components antares_water)) (m_components antares_water)) (mo_index s0) /\
  largest (map (mass_share (m_components antares_water)) (m_components antares_water)) 1.
Proof.
  eexists. split; [apply new_ok; exact antares_proper|]. destruct antares_proper as (NE & P). pose proof (mass_positive _ NE P) as T.
  pose proof (Rinv_0_lt_compat _ T) as IT.
  assert (I : mo_index (fresh mass (m_components antares_water)) = 6%nat).
  { cbn [fresh mo_index]. set (t := total _ _) in T. clearbody t.
    replace (map (mass_share (m_components antares_water)) (m_components antares_water))
      with (map (fun x => x / total (fun c => c_atoms c * c_atomic c) (m_components antares_water))
                (map (fun c => c_atoms c * c_atomic c) (m_components antares_water))) by (rewrite map_map; reflexivity).
    rewrite index_scaled by (apply mass_positive; assumption). cbn [m_components antares_water map c_atoms c_atomic weight_index].
    unfold Rltb. repeat match goal with |- context [Rlt_dec ?a ?b] => destruct (Rlt_dec a b) as [?H|?H]; try (exfalso; lra) end. reflexivity. }
  split; [exact I|]. rewrite I. set (t := total (fun c => c_atoms c * c_atomic c) (m_components antares_water)) in T, IT.
  assert (MS : forall c, mass_share (m_components antares_water) c = c_atoms c * c_atomic c / t) by reflexivity.
  split.
  - intros (x & H & F). cbn [m_components antares_water map nth_error] in H. injection H as <-.
    cbn [m_components antares_water map] in F. inversion F as [|? ? _ F2]; subst. inversion F2 as [|? ? O _]; subst.
    fold antares_water in O. change (mkmedium 0 _) with antares_water in O.
    unfold mass_share in O. cbn [c_atoms c_atomic] in O.
    match type of O with ?a / ?u <= ?b / ?v => change (a / t <= b / t) in O end. unfold Rdiv in O. nra.
  - eexists. split; [reflexivity|]. cbn [m_components antares_water map].
    repeat (apply Forall_cons || apply Forall_nil); unfold mass_share; cbn [c_atoms c_atomic];
    match goal with |- ?a / ?u <= ?b / ?v => change (a / t <= b / t) end; apply Rmult_le_compat_r; lra.
Qed.
