(** Proofs about decays: C32, C33, C34. *)
From Coq Require Import Sorted Permutation.
From Verif Require Import Prelude PreludeFacts Vec_Model Vec_Proofs Propagator_Model Math_Model Particle_Model
  Particle_Spec Particle_Proofs Shapes_Spec Decay_Model Decay_Spec.

(** ** Vectors *)
Lemma vec_ext a b : vx a = vx b -> vy a = vy b -> vz a = vz b -> a = b.
Proof. destruct a, b. cbn. intros -> -> ->. reflexivity. Qed.
Ltac vec := repeat match goal with v : vec |- _ => destruct v end; unfold vadd, vneg, scale, dot; cbn; solve [ring | f_equal; ring].
Lemma dot_comm a b : dot a b = dot b a.
Proof. vec. Qed.
Lemma dot_vadd a b c : dot (vadd a b) c = dot a c + dot b c.
Proof. vec. Qed.
Lemma dot_scale k a b : dot (scale k a) b = k * dot a b.
Proof. vec. Qed.
Lemma dot_nonneg a : 0 <= dot a a.
Proof. destruct a. unfold dot. cbn. nra. Qed.
Lemma unit_vneg d : unit d -> unit (vneg d).
Proof. unfold unit. intros H. rewrite <- H. vec. Qed.
Lemma normalize_unit d : unit d -> normalize d = Some d.
Proof.
  intros H. unfold normalize. assert (magnitude d = 1) as ->.
  { apply Rsqr_inj; [apply magnitude_nonneg|lra|]. unfold Rsqr. rewrite magnitude_sq. rewrite H. ring. }
  destruct (Reqb_spec 1 0); [lra|]. f_equal. destruct d. cbn. f_equal; field.
Qed.
Lemma normalize_some v u : normalize v = Some u -> unit u /\ scale (magnitude v) u = v /\ 0 < magnitude v.
Proof.
  unfold normalize. destruct (Reqb_spec (magnitude v) 0) as [|N]; [discriminate|]. intros [= <-].
  pose proof (magnitude_nonneg v) as P. assert (0 < magnitude v) by lra.
  pose proof (magnitude_sq v) as Q. split.
  - unfold unit, dot. cbn. replace (vx v / magnitude v * (vx v / magnitude v) + vy v / magnitude v * (vy v / magnitude v) + vz v / magnitude v * (vz v / magnitude v))
      with (dot v v / (magnitude v * magnitude v)) by (unfold dot; field; auto).
    rewrite Q. unfold Rdiv. apply Rinv_r. rewrite <- Q. nra.
  - split; auto. destruct v. unfold scale. cbn. f_equal; field; auto.
Qed.
Lemma normalize_none v : normalize v = None -> v = mkvec 0 0 0.
Proof. unfold normalize. destruct (Reqb_spec (magnitude v) 0); [|discriminate]. intros _. apply magnitude_zero. auto. Qed.
(** Cauchy-Schwarz for a unit vector *)
Lemma dot_unit_bound v n : unit n -> dot v n * dot v n <= dot v v.
Proof.
  unfold unit, dot. destruct v as [a b c], n as [x y z]. cbn. intros H.
  assert (E : (a * a + b * b + c * c) * (x * x + y * y + z * z) - (a * x + b * y + c * z) * (a * x + b * y + c * z) =
    (a * y - b * x) * (a * y - b * x) + (a * z - c * x) * (a * z - c * x) + (b * z - c * y) * (b * z - c * y)) by ring.
  rewrite H in E. pose proof (Rle_0_sqr (a * y - b * x)). pose proof (Rle_0_sqr (a * z - c * x)).
  pose proof (Rle_0_sqr (b * z - c * y)). unfold Rsqr in *. lra.
Qed.
Lemma random_direction_unit r1 r2 : 0 <= r2 <= 1 -> unit (random_direction r1 r2).
Proof.
  intros H. unfold random_direction, unit, dot. cbn [vx vy vz].
  set (c := 2 * r2 - 1). assert (0 <= (1 - c) * (1 + c)) by (unfold c; nra).
  pose proof (sqrt_sqrt _ H0) as S. set (s := sqrt ((1 - c) * (1 + c))) in *.
  pose proof (sin2_cos2 (2 * PI * r1)) as T.
  replace (s * cos (2 * PI * r1) * (s * cos (2 * PI * r1)) + s * sin (2 * PI * r1) * (s * sin (2 * PI * r1)) + c * c)
    with (s * s * (sin (2 * PI * r1) * sin (2 * PI * r1) + cos (2 * PI * r1) * cos (2 * PI * r1)) + c * c) by ring.
  rewrite T, S. ring.
Qed.

(** ** States on the mass shell *)
Lemma momentum_vec_sq m s : on_shell m s -> dot (momentum_vec m s) (momentum_vec m s) = energy s * energy s - m * m.
Proof.
  intros [Hm U]. unfold momentum_vec. rewrite dot_scale, dot_comm, dot_scale, U.
  assert (0 <= energy s * energy s - m * m) by nra. pose proof (sqrt_sqrt _ H). nra.
Qed.
Lemma get_momentum_ok nan reg p d : lookup reg (p_type p) = Some d -> on_shell (pd_mass d) (p_state p) ->
  get_momentum nan reg p = Ok (sqrt (energy (p_state p) * energy (p_state p) - pd_mass d * pd_mass d)).
Proof.
  intros L [Hm _]. unfold get_momentum, mass_of. rewrite L. cbn [obind].
  destruct (Rltb_spec ((energy (p_state p) + pd_mass d) * (energy (p_state p) - pd_mass d)) 0); [nra|].
  f_equal. f_equal. ring.
Qed.
Lemma set_momentum_ok reg p d q : lookup reg (p_type p) = Some d ->
  set_momentum reg p q = Ok (with_energy p (sqrt (q * q + pd_mass d * pd_mass d))).
Proof. intros L. unfold set_momentum, mass_of. rewrite L. cbn [obind]. do 3 f_equal. ring. Qed.
Lemma set_on_shell p m q dir : 0 <= m -> 0 <= q -> unit dir ->
  let p' := with_energy (with_direction p dir) (sqrt (q * q + m * m)) in
  on_shell m (p_state p') /\ momentum_vec m (p_state p') = scale q dir.
Proof.
  intros Hm Hq U. cbn. assert (H : 0 <= q * q + m * m) by nra.
  pose proof (sqrt_sqrt _ H) as S. pose proof (sqrt_pos (q * q + m * m)).
  split.
  - split; cbn; auto. split; auto. apply Rsqr_incr_0_var; auto. unfold Rsqr. rewrite S. nra.
  - unfold momentum_vec. cbn. rewrite S. replace (q * q + m * m - m * m) with (q * q) by ring. rewrite sqrt_square; auto.
Qed.

(** Where and when a particle is, and what it is. *)
Definition same_place (p q : particle) : Prop :=
  p_type q = p_type p /\ position (p_state q) = position (p_state p) /\ time (p_state q) = time (p_state p).
Lemma same_place_refl p : same_place p p.
Proof. repeat split. Qed.
Lemma same_place_trans p q r : same_place p q -> same_place q r -> same_place p r.
Proof. unfold same_place. intuition congruence. Qed.

(** ** Boosts are Lorentz transformations *)
Definition boosted (n : vec) (g bg : R) (e : R) (v : vec) : R * vec :=
  (g * e - bg * dot v n, vadd v (scale ((g - 1) * dot v n - bg * e) n)).

Section Boost.
Variables (nan : forall A, outcome A) (reg : registry).

Lemma boost_energy n g bg e v m : unit n -> g * g - bg * bg = 1 -> 1 <= g -> 0 <= m <= e -> dot v v = e * e - m * m ->
  let '(e', v') := boosted n g bg e v in
  dot v' v' + m * m = e' * e' /\ m <= e'.
Proof.
  intros U G G1 Hm Hv. unfold boosted. set (a := dot v n).
  pose proof (dot_unit_bound v n U) as CS. fold a in CS.
  set (c := (g - 1) * a - bg * e).
  assert (D : dot (vadd v (scale c n)) (vadd v (scale c n)) = dot v v + 2 * c * a + c * c).
  { transitivity (dot v v + 2 * c * a + c * c * dot n n).
    - unfold a. generalize c. intros k. destruct v, n. unfold vadd, scale, dot. cbn. ring.
    - unfold unit in U. rewrite U. ring. }
  assert (E : dot (vadd v (scale c n)) (vadd v (scale c n)) + m * m = (g * e - bg * a) * (g * e - bg * a)).
  { rewrite D, Hv. assert (B : bg * bg = g * g - 1) by lra.
    unfold c. replace ((g * e - bg * a) * (g * e - bg * a)) with (g * g * (e * e) - 2 * g * bg * e * a + bg * bg * (a * a)) by ring.
    replace (e * e - m * m + 2 * ((g - 1) * a - bg * e) * a + ((g - 1) * a - bg * e) * ((g - 1) * a - bg * e) + m * m)
      with (e * e + (g * g - 1) * (a * a) - 2 * g * bg * e * a + bg * bg * (e * e)) by ring.
    rewrite B. ring. }
  split; auto.
  (* the new energy is not negative *)
  assert (P : 0 <= g * e - bg * a).
  { assert (A : Rabs a <= e). { apply Rsqr_incr_0_var; [|lra]. unfold Rsqr. rewrite <- Rabs_mult. rewrite Rabs_pos_eq by nra. nra. }
    assert (Bg : Rabs bg <= g). { apply Rsqr_incr_0_var; [|lra]. unfold Rsqr. rewrite <- Rabs_mult. rewrite Rabs_pos_eq by nra. nra. }
    assert (bg * a <= Rabs bg * Rabs a). { rewrite <- Rabs_mult. apply Rle_abs. }
    pose proof (Rabs_pos a). pose proof (Rabs_pos bg). nra. }
  pose proof (dot_nonneg (vadd v (scale c n))). apply Rsqr_incr_0_var; auto. unfold Rsqr. nra.
Qed.

Lemma boost_ok p d n g bg : lookup reg (p_type p) = Some d -> on_shell (pd_mass d) (p_state p) ->
  unit n -> g * g - bg * bg = 1 -> 1 <= g ->
  let m := pd_mass d in
  let '(e', v') := boosted n g bg (energy (p_state p)) (momentum_vec m (p_state p)) in
  match normalize v' with
  | Some u => boost nan reg p n g bg = Ok (with_direction (with_energy p e') u)
  | None => exists f, boost nan reg p n g bg = obind (nan vec) f
  end.
Proof.
  intros L OS U G G1 m. pose proof (momentum_vec_sq m (p_state p) OS) as Q.
  pose proof (boost_energy n g bg (energy (p_state p)) (momentum_vec m (p_state p)) m U G G1 (proj1 OS) Q) as E.
  unfold boosted in *. destruct E as [E P].
  unfold boost. rewrite (normalize_unit n U). cbn [or_nan obind].
  rewrite (get_momentum_ok _ _ _ _ L OS). cbn [obind].
  change (scale (sqrt (energy (p_state p) * energy (p_state p) - pd_mass d * pd_mass d)) (direction (p_state p))) with (momentum_vec m (p_state p)).
  set (v' := vadd (momentum_vec m (p_state p)) _) in *.
  rewrite (set_momentum_ok _ _ d) by auto. cbn [obind]. rewrite magnitude_sq. fold m. rewrite E.
  destruct OS as [Hm _]. fold m in Hm. rewrite sqrt_square by lra.
  destruct (normalize v'); [reflexivity|]. cbn [or_nan]. eexists. reflexivity.
Qed.
Lemma not_value_bind {A B} (f : A -> outcome B) b : not_a_value nan -> obind (nan A) f <> Ok b.
Proof. intros N H. destruct (nan A) eqn:E; cbn in H; try discriminate. exact (N _ _ E). Qed.

Lemma boost_inv p d n g bg q : not_a_value nan ->
  lookup reg (p_type p) = Some d -> on_shell (pd_mass d) (p_state p) ->
  unit n -> g * g - bg * bg = 1 -> 1 <= g -> boost nan reg p n g bg = Ok q ->
  same_place p q /\ on_shell (pd_mass d) (p_state q) /\
  (energy (p_state q), momentum_vec (pd_mass d) (p_state q)) =
    boosted n g bg (energy (p_state p)) (momentum_vec (pd_mass d) (p_state p)).
Proof.
  intros N L OS U G G1 H. pose proof (boost_ok p d n g bg L OS U G G1) as B. cbv zeta in B.
  pose proof (momentum_vec_sq _ _ OS) as Q.
  pose proof (boost_energy n g bg (energy (p_state p)) (momentum_vec (pd_mass d) (p_state p)) (pd_mass d) U G G1 (proj1 OS) Q) as E.
  destruct (boosted n g bg (energy (p_state p)) (momentum_vec (pd_mass d) (p_state p))) as [e' v'] eqn:EB.
  destruct E as [E P]. destruct (normalize v') as [u|] eqn:Eu.
  - rewrite B in H. injection H as <-. split; [repeat split|].
    destruct (normalize_some _ _ Eu) as (Uu & Sv & Pv). destruct OS as [Hm _].
    split; [split; cbn; auto; lra|]. cbn [p_state with_direction with_energy energy direction].
    unfold momentum_vec. cbn [p_state with_direction with_energy energy direction].
    f_equal. rewrite <- E. replace (dot v' v' + pd_mass d * pd_mass d - pd_mass d * pd_mass d) with (dot v' v') by ring.
    rewrite <- magnitude_sq, sqrt_square by apply magnitude_nonneg. exact Sv.
  - destruct B as [f B]. rewrite B in H. destruct (not_value_bind _ _ N H).
Qed.

(** A list of products, each with the definition registered for its type. *)
Definition known (m : R) (p : particle) : Prop := exists d, lookup reg (p_type p) = Some d /\ pd_mass d = m.
Definition shells (ms : list R) (ps : list particle) : Prop :=
  Forall2 (fun m p => known m p /\ on_shell m (p_state p)) ms ps.

Lemma boost_all_inv ms ps n g bg qs : not_a_value nan -> shells ms ps ->
  unit n -> g * g - bg * bg = 1 -> 1 <= g -> boost_all nan reg ps n g bg = Ok qs ->
  Forall2 same_place ps qs /\ shells ms qs /\
  (total_energy qs, total_momentum ms qs) = boosted n g bg (total_energy ps) (total_momentum ms ps).
Proof.
  intros N S U G G1. revert qs. induction S as [|m p ms ps [(d & L & Em) OS] S IH]; intros qs H; cbn [boost_all] in H.
  - injection H as <-. split; [constructor|]. split; [constructor|]. unfold boosted. cbn.
    f_equal; [unfold dot; cbn; ring|]. unfold vadd, scale, dot. cbn. f_equal; ring.
  - apply obind_Ok in H. destruct H as (q & Hq & H). apply obind_Ok in H. destruct H as (qs' & Hqs & H). injection H as <-.
    subst m. destruct (boost_inv p d n g bg q N L OS U G G1 Hq) as (SP & OS' & EB).
    destruct (IH _ Hqs) as (SPs & S' & EBs). split; [constructor; auto|]. split.
    { constructor; auto. split; auto. exists d. split; auto. destruct SP as (-> & _). auto. }
    cbn [total_energy fold_right total_momentum]. fold (total_energy qs') (total_energy ps).
    unfold boosted in *. pose proof (f_equal fst EB) as E1. pose proof (f_equal snd EB) as E2. pose proof (f_equal fst EBs) as E3.
    pose proof (f_equal snd EBs) as E4. cbn [fst snd] in E1, E2, E3, E4. rewrite E1, E2, E3, E4, dot_vadd.
    generalize (momentum_vec (pd_mass d) (p_state p)), (total_momentum ms ps), (total_energy ps), (energy (p_state p)).
    intros v w e e'. f_equal; [ring|]. destruct v, w, n. unfold vadd, scale, dot. cbn. f_equal; ring.
Qed.
End Boost.

(** ** Two-body kinematics *)
Lemma decay_momentum_ok nan M a b : 0 < M -> 0 <= a -> 0 <= b -> a + b <= M ->
  exists p, decay_momentum nan M a b = Ok p /\ 0 <= p /\ (a + b < M -> 0 < p) /\
    sqrt (p * p + a * a) = (M * M + a * a - b * b) / (2 * M) /\
    sqrt (p * p + b * b) = (M * M + b * b - a * a) / (2 * M).
Proof.
  intros HM Ha Hb Hab. unfold decay_momentum.
  set (K := (M - a - b) * (M + a + b) * (M - a + b) * (M + a - b)).
  assert (HK : 0 <= K). { unfold K. repeat apply Rmult_le_pos; lra. }
  assert (HK' : a + b < M -> 0 < K). { intros. unfold K. repeat apply Rmult_lt_0_compat; lra. }
  assert (S : forall q, q * q = K / (4 * (M * M)) ->
    sqrt (q * q + a * a) = (M * M + a * a - b * b) / (2 * M) /\
    sqrt (q * q + b * b) = (M * M + b * b - a * a) / (2 * M)).
  { intros q ->. split.
    - replace (K / (4 * (M * M)) + a * a) with ((M * M + a * a - b * b) / (2 * M) * ((M * M + a * a - b * b) / (2 * M))) by (unfold K; field; lra).
      apply sqrt_square. apply Rmult_le_pos; [nra|]. left. apply Rinv_0_lt_compat. lra.
    - replace (K / (4 * (M * M)) + b * b) with ((M * M + b * b - a * a) / (2 * M) * ((M * M + b * b - a * a) / (2 * M))) by (unfold K; field; lra).
      apply sqrt_square. apply Rmult_le_pos; [nra|]. left. apply Rinv_0_lt_compat. lra. }
  destruct (Rltb_spec 0 K) as [PK|NK].
  - unfold quot. destruct (Reqb_spec (2 * M) 0); [lra|]. exists (sqrt K / (2 * M)). split; auto.
    pose proof (sqrt_lt_R0 K PK) as SK. assert (0 < sqrt K / (2 * M)). { apply Rdiv_lt_0_compat; lra. }
    split; [lra|]. split; [auto|]. apply S. replace (sqrt K / (2 * M) * (sqrt K / (2 * M))) with (sqrt K * sqrt K / (4 * (M * M))) by (field; lra).
    rewrite sqrt_sqrt by auto. reflexivity.
  - exists 0. split; auto. split; [lra|]. split; [intros; lra|]. apply S.
    assert (K = 0) as -> by lra. field. lra.
Qed.
Lemma energies_sum M a b p : 0 < M ->
  sqrt (p * p + a * a) = (M * M + a * a - b * b) / (2 * M) ->
  sqrt (p * p + b * b) = (M * M + b * b - a * a) / (2 * M) ->
  sqrt (p * p + a * a) + sqrt (p * p + b * b) = M.
Proof. intros H -> ->. field. lra. Qed.

(** A product made for a daughter. *)
Definition made (c : pstate) (d : pdef) (p : particle) : Prop :=
  p_type p = pd_type d /\ position (p_state p) = position c /\ time (p_state p) = time c.
Lemma made_place c d p q : made c d p -> same_place p q -> made c d q.
Proof. unfold made, same_place. intuition congruence. Qed.
Lemma made_places c ds ps qs : Forall2 (made c) ds ps -> Forall2 same_place ps qs -> Forall2 (made c) ds qs.
Proof.
  intros H. revert qs. induction H; intros qs S; inversion S; subst; constructor; auto. eapply made_place; eauto.
Qed.
Lemma made_known reg c d p : registered reg d -> made c d p -> known reg (pd_mass d) p.
Proof. intros (d' & L & E) (T & _). exists d'. rewrite T. auto. Qed.
Lemma products_spec reg ds M c ps : Forall2 (made c) ds ps -> shells reg (map pd_mass ds) ps ->
  total_energy ps = energy c -> total_momentum (map pd_mass ds) ps = momentum_vec M c -> decay_products ds M c ps.
Proof.
  intros H S E P. repeat split; auto.
  - clear - H. induction H as [|d p ds ps (T & _)]; cbn; congruence.
  - clear - H. induction H as [|d p ds ps (T & Q & R)]; constructor; auto.
  - clear - H S. induction H as [|d p ds ps]; cbn in S; inversion S; subst; constructor; tauto.
Qed.

Section Lab.
Variables (nan : forall A, outcome A) (reg : registry).
Hypothesis N : not_a_value nan.

Lemma gamma_facts E M : 0 < M <= E -> let p := sqrt (Rmax ((E + M) * (E - M)) 0) in
  p = sqrt (E * E - M * M) /\ E / M * (E / M) - p / M * (p / M) = 1 /\ 1 <= E / M.
Proof.
  intros H p. assert (P : p = sqrt (E * E - M * M)).
  { unfold p. f_equal. rewrite Rmax_left by nra. ring. }
  split; auto. rewrite P. assert (H0 : 0 <= E * E - M * M) by nra. pose proof (sqrt_sqrt _ H0) as S.
  set (s := sqrt (E * E - M * M)) in *. split.
  - replace (E / M * (E / M) - s / M * (s / M)) with ((E * E - s * s) / (M * M)) by (field; lra). rewrite S. field. lra.
  - apply (Rmult_le_reg_r M); [lra|]. unfold Rdiv. rewrite Rmult_assoc, Rinv_l; lra.
Qed.
Lemma to_lab_inv parent c ms ps qs : 0 < pd_mass parent <= energy c -> unit (direction c) ->
  shells reg ms ps -> total_energy ps = pd_mass parent -> total_momentum ms ps = mkvec 0 0 0 ->
  to_lab nan reg parent c ps = Ok qs ->
  Forall2 same_place ps qs /\ shells reg ms qs /\ total_energy qs = energy c /\
  total_momentum ms qs = momentum_vec (pd_mass parent) c.
Proof.
  intros HM U S E P H. unfold to_lab, quot in H. set (M := pd_mass parent) in *.
  destruct (gamma_facts (energy c) M HM) as (Ep & G & G1). cbv zeta in *.
  destruct (Reqb_spec M 0); [lra|]. cbn [obind] in H.
  destruct (boost_all_inv nan reg ms ps _ _ _ qs N S (unit_vneg _ U) G G1 H) as (SP & S' & EB).
  split; auto. split; auto. rewrite E, P in EB. unfold boosted in EB.
  pose proof (f_equal fst EB) as E1. pose proof (f_equal snd EB) as E2. cbn [fst snd] in E1, E2. split.
  - rewrite E1. unfold dot, vneg. cbn. field. lra.
  - rewrite E2, Ep. unfold momentum_vec, vadd, scale, dot, vneg. cbn. f_equal; field; lra.
Qed.

(** C32: two-body decays *)
Lemma c32_conserved first second parent c r1 r2 ps :
  registered reg first -> registered reg second -> 0 <= pd_mass first -> 0 <= pd_mass second ->
  pd_mass first + pd_mass second <= pd_mass parent -> 0 < pd_mass parent <= energy c -> unit (direction c) -> 0 <= r2 <= 1 ->
  two_body_decay nan reg first second parent c r1 r2 = Ok ps ->
  decay_products [first; second] (pd_mass parent) c ps.
Proof.
  intros (d1 & L1 & E1) (d2 & L2 & E2) H1 H2 HS HM U Hr H. unfold two_body_decay in H.
  destruct (decay_momentum_ok nan (pd_mass parent) (pd_mass first) (pd_mass second)) as (p & Ep & P0 & _ & S1 & S2); try lra.
  rewrite Ep in H. cbn [obind] in H. pose proof (random_direction_unit r1 r2 Hr) as UD.
  set (dir := random_direction r1 r2) in *.
  rewrite (set_momentum_ok reg _ d1) in H by auto. rewrite (set_momentum_ok reg _ d2) in H by auto. cbn [obind] in H.
  rewrite E1, E2 in H. set (p1 := product first c (direction c) (energy c)) in *. set (p2 := product second c (direction c) (energy c)) in *.
  destruct (set_on_shell p1 (pd_mass first) p dir H1 P0 UD) as [O1 V1].
  destruct (set_on_shell p2 (pd_mass second) p (vneg dir) H2 P0 (unit_vneg _ UD)) as [O2 V2].
  set (q1 := with_energy (with_direction p1 dir) _) in *. set (q2 := with_energy (with_direction p2 (vneg dir)) _) in *.
  assert (SH : shells reg [pd_mass first; pd_mass second] [q1; q2]).
  { constructor; [split; auto; exists d1; auto|]. constructor; [split; auto; exists d2; auto|]. constructor. }
  destruct (to_lab_inv parent c [pd_mass first; pd_mass second] [q1; q2] ps HM U SH) as (SP & SH' & TE & TP); auto.
  { cbn. rewrite Rplus_0_r. apply energies_sum; auto. lra. }
  { cbn [total_momentum]. rewrite V1, V2. destruct dir. unfold vadd, scale, vneg. cbn. f_equal; ring. }
  apply (products_spec reg); auto.
  eapply made_places; [|exact SP]. repeat constructor.
Qed.
End Lab.

(** ** A boost fails only for a particle that is brought to rest *)
Section Defined.
Variables (nan : forall A, outcome A) (reg : registry).

Lemma boost_defined p d n g bg : lookup reg (p_type p) = Some d -> on_shell (pd_mass d) (p_state p) ->
  unit n -> g * g - bg * bg = 1 -> 1 <= g -> energy (p_state p) <> g * pd_mass d ->
  exists q, boost nan reg p n g bg = Ok q.
Proof.
  intros L OS U G G1 NE. pose proof (boost_ok nan reg p d n g bg L OS U G G1) as B. cbv zeta in B.
  pose proof (momentum_vec_sq _ _ OS) as Q.
  pose proof (boost_energy n g bg (energy (p_state p)) (momentum_vec (pd_mass d) (p_state p)) (pd_mass d) U G G1 (proj1 OS) Q) as E.
  unfold boosted in *. destruct E as [E P].
  set (v := momentum_vec (pd_mass d) (p_state p)) in *. set (e := energy (p_state p)) in *. set (m := pd_mass d) in *.
  set (k := (g - 1) * dot v n - bg * e) in *.
  destruct (normalize (vadd v (scale k n))) eqn:EN; [eauto|].
  exfalso. apply NE. apply normalize_none in EN. rewrite EN in E. 
  assert (E0 : m * m = (g * e - bg * dot v n) * (g * e - bg * dot v n)). { unfold dot at 1 in E. cbn in E. lra. }
  assert (A : dot v n = - k).
  { assert (X : dot (vadd v (scale k n)) n = 0). { rewrite EN. unfold dot. cbn. ring. }
    rewrite dot_vadd, dot_scale in X. unfold unit in U. rewrite U in X. lra. }
  assert (Em : g * e - bg * dot v n = m). { destruct OS as [Hm _]. fold m e in Hm. nra. }
  assert (Y : g * dot v n = bg * e). { unfold k in A. lra. }
  rewrite <- Em. replace (g * (g * e - bg * dot v n)) with (g * g * e - bg * (g * dot v n)) by ring. rewrite Y.
  replace (g * g * e - bg * (bg * e)) with ((g * g - bg * bg) * e) by ring. rewrite G. ring.
Qed.
Lemma boost_all_defined ms ps n g bg : shells reg ms ps -> Forall2 (fun m p => energy (p_state p) <> g * m) ms ps ->
  unit n -> g * g - bg * bg = 1 -> 1 <= g -> exists qs, boost_all nan reg ps n g bg = Ok qs.
Proof.
  intros S NE U G G1. revert NE. induction S as [|m p ms ps [(d & L & <-) OS] S IH]; intros NE; cbn; eauto.
  inversion NE; subst. destruct (boost_defined p d n g bg) as [q ->]; auto. cbn [obind].
  destruct IH as [qs ->]; auto. cbn. eauto.
Qed.

Lemma c32_answers first second parent c r1 r2 :
  registered reg first -> registered reg second -> 0 <= pd_mass first -> 0 <= pd_mass second ->
  pd_mass first + pd_mass second <= pd_mass parent -> 0 < pd_mass parent <= energy c -> unit (direction c) -> 0 <= r2 <= 1 ->
  rest_energy (pd_mass parent) (pd_mass first) (pd_mass second) * pd_mass parent <> energy c * pd_mass first ->
  rest_energy (pd_mass parent) (pd_mass second) (pd_mass first) * pd_mass parent <> energy c * pd_mass second ->
  exists ps, two_body_decay nan reg first second parent c r1 r2 = Ok ps.
Proof.
  intros (d1 & L1 & E1) (d2 & L2 & E2) H1 H2 HS HM U Hr N1 N2. unfold two_body_decay.
  destruct (decay_momentum_ok nan (pd_mass parent) (pd_mass first) (pd_mass second)) as (p & Ep & P0 & _ & S1 & S2); try lra.
  rewrite Ep. cbn [obind]. pose proof (random_direction_unit r1 r2 Hr) as UD.
  set (dir := random_direction r1 r2) in *.
  rewrite (set_momentum_ok reg _ d1) by auto. rewrite (set_momentum_ok reg _ d2) by auto. cbn [obind].
  rewrite E1, E2. set (p1 := product first c (direction c) (energy c)) in *. set (p2 := product second c (direction c) (energy c)) in *.
  destruct (set_on_shell p1 (pd_mass first) p dir H1 P0 UD) as [O1 _].
  destruct (set_on_shell p2 (pd_mass second) p (vneg dir) H2 P0 (unit_vneg _ UD)) as [O2 _].
  set (q1 := with_energy (with_direction p1 dir) _) in *. set (q2 := with_energy (with_direction p2 (vneg dir)) _) in *.
  assert (SH : shells reg [pd_mass first; pd_mass second] [q1; q2]).
  { constructor; [split; auto; exists d1; auto|]. constructor; [split; auto; exists d2; auto|]. constructor. }
  unfold to_lab, quot. destruct (gamma_facts (energy c) (pd_mass parent) HM) as (_ & G & G1). cbv zeta in *.
  destruct (Reqb_spec (pd_mass parent) 0); [lra|]. cbn [obind].
  apply (boost_all_defined [pd_mass first; pd_mass second]); auto; [|apply unit_vneg; auto].
  assert (X : forall m e, e * pd_mass parent <> energy c * m -> e <> energy c / pd_mass parent * m).
  { intros m e Ne Eq. apply Ne. rewrite Eq. field. lra. }
  constructor; [|constructor; [|constructor]]; apply X; unfold q1, q2; cbn [with_energy with_direction p_state energy]; [rewrite S1|rewrite S2]; auto.
Qed.

(** Below the threshold the momentum is set to zero and the energies add up to
    another sum. *)
Lemma c32_below_threshold first second parent c r1 r2 : not_a_value nan ->
  registered reg first -> registered reg second -> 0 < pd_mass first -> 0 < pd_mass second ->
  pd_mass parent < pd_mass first + pd_mass second -> Rabs (pd_mass first - pd_mass second) < pd_mass parent ->
  pd_mass parent < energy c -> unit (direction c) -> 0 <= r2 <= 1 ->
  exists ps, two_body_decay nan reg first second parent c r1 r2 = Ok ps /\
    total_energy ps = energy c * ((pd_mass first + pd_mass second) / pd_mass parent) /\ energy c < total_energy ps.
Proof.
  intros N (d1 & L1 & E1) (d2 & L2 & E2) H1 H2 HS HD HM U Hr. unfold two_body_decay, decay_momentum.
  set (M := pd_mass parent) in *. set (a := pd_mass first) in *. set (b := pd_mass second) in *.
  apply Rabs_def2 in HD.
  assert (K : (M - a - b) * (M + a + b) * (M - a + b) * (M + a - b) < 0).
  { assert (0 < (M + a + b) * (M - a + b) * (M + a - b)) by (repeat apply Rmult_lt_0_compat; lra).
    replace ((M - a - b) * (M + a + b) * (M - a + b) * (M + a - b)) with ((M - a - b) * ((M + a + b) * (M - a + b) * (M + a - b))) by ring. nra. }
  destruct (Rltb_spec 0 ((M - a - b) * (M + a + b) * (M - a + b) * (M + a - b))); [lra|]. cbn [obind].
  pose proof (random_direction_unit r1 r2 Hr) as UD.
  set (dir := random_direction r1 r2) in *.
  rewrite (set_momentum_ok reg _ d1) by auto. rewrite (set_momentum_ok reg _ d2) by auto. cbn [obind].
  rewrite E1, E2. fold a b. set (p1 := product first c (direction c) (energy c)) in *. set (p2 := product second c (direction c) (energy c)) in *.
  assert (Z : forall m, 0 < m -> sqrt (0 * 0 + m * m) = m). { intros m Hm. replace (0 * 0 + m * m) with (m * m) by ring. apply sqrt_square. lra. }
  destruct (set_on_shell p1 a 0 dir) as [O1 V1]; auto; try lra.
  destruct (set_on_shell p2 b 0 (vneg dir)) as [O2 V2]; auto; try lra; [apply unit_vneg; auto|].
  set (q1 := with_energy (with_direction p1 dir) _) in *. set (q2 := with_energy (with_direction p2 (vneg dir)) _) in *.
  assert (SH : shells reg [a; b] [q1; q2]).
  { constructor; [split; auto; exists d1; auto|]. constructor; [split; auto; exists d2; auto|]. constructor. }
  unfold to_lab, quot. assert (HM' : 0 < M <= energy c) by lra.
  destruct (gamma_facts (energy c) M HM') as (_ & G & G1). cbv zeta in *. fold M.
  destruct (Reqb_spec M 0); [lra|]. cbn [obind].
  assert (G2 : 1 < energy c / M). { apply (Rmult_lt_reg_r M); [lra|]. unfold Rdiv. rewrite Rmult_assoc, Rinv_l; lra. }
  destruct (boost_all_defined [a; b] [q1; q2] (vneg (direction c)) (energy c / M) (sqrt (Rmax ((energy c + M) * (energy c - M)) 0) / M) SH) as [qs Hqs]; auto.
  { constructor; [|constructor; [|constructor]]; unfold q1, q2; cbn [with_energy with_direction p_state energy]; rewrite Z by auto; nra. }
  { apply unit_vneg; auto. }
  exists qs. split; [exact Hqs|].
  destruct (boost_all_inv nan reg [a; b] [q1; q2] _ _ _ qs N SH (unit_vneg _ U) G G1 Hqs) as (_ & _ & EB).
  pose proof (f_equal fst EB) as E3. cbn [fst boosted] in E3.
  assert (T : total_momentum [a; b] [q1; q2] = mkvec 0 0 0).
  { cbn [total_momentum]. rewrite V1, V2. unfold vadd, scale. cbn. f_equal; ring. }
  rewrite T in E3. assert (TE : total_energy [q1; q2] = a + b).
  { unfold q1, q2. cbn. rewrite !Z by auto. ring. }
  rewrite TE in E3. assert (E4 : total_energy qs = energy c * ((a + b) / M)).
  { rewrite E3. unfold dot. cbn. field. lra. }
  split; auto. rewrite E4. assert (1 < (a + b) / M). { apply (Rmult_lt_reg_r M); [lra|]. unfold Rdiv. rewrite Rmult_assoc, Rinv_l; lra. }
  nra.
Qed.
End Defined.
