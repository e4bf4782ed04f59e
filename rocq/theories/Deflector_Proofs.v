(** Proofs about the ionization deflection within its limits and about the class
    that keeps the calculators. *)
From Coquelicot Require Rcomplements.
From Verif Require Import Prelude PreludeFacts Particle_Model Limits_Model Limits_Spec Math_Model Vec_Model Geometry_Model Propagator_Model
  Propagate_Proofs Deflection_Model Deflection_Spec Deflection_Proofs.

Section Deflector.
Variable nan : forall A, outcome A.

(** ** Ionization *)
Lemma left_energy m e_i e_f : 0 < m < e_i -> m <> ME -> (e_i - e_f) * (m ^ 2 + ME ^ 2 + 2 * ME * e_i) <= 2 * ME * (e_i ^ 2 - m ^ 2) -> m < e_f.
Proof.
  intros H N Q. pose proof ME_pos. apply Rnot_le_lt. intro L. assert (S : 0 < (m - ME) ^ 2) by (rewrite <- Rsqr_pow2; apply Rsqr_pos_lt; lra).
  assert ((e_i - m) * (m ^ 2 + ME ^ 2 + 2 * ME * e_i) <= 2 * ME * (e_i ^ 2 - m ^ 2)).
  { apply Rle_trans with (2 := Q). apply Rmult_le_compat_r; [|lra]. pose proof (pow2_ge_0 m). pose proof (pow2_ge_0 ME). nra. }
  assert (0 < (e_i - m) * (m - ME) ^ 2) by (apply Rmult_lt_0_compat; lra). nra.
Qed.
Lemma ionization_within m I E v r0 l : 0 < m < E -> m <> ME -> let lim := ionization_limits m I E in v_min lim < v_max lim -> 0 <= v <= v_max lim ->
  exists theta, ioniz_naive nan m E (E * (1 - v)) (r0 :: l) = Ok (theta, 2 * PI * r0) /\ 0 <= theta <= PI /\ hits_electron m E (E * (1 - v)) theta.
Proof.
  intros H N lim L V. pose proof (ionization_most m I E v H L (proj2 V)) as Q.
  assert (Q' : (E - E * (1 - v)) * (m ^ 2 + ME ^ 2 + 2 * ME * E) <= 2 * ME * (E ^ 2 - m ^ 2)) by (replace (E - E * (1 - v)) with (E * v) by ring; exact Q).
  apply ionization_value; [lra| |exact Q']. pose proof (left_energy m E (E * (1 - v)) H N Q'). split; [lra|]. nra.
Qed.
Lemma bhabha_within E v r0 l : ME < E -> 0 <= v < v_max (bhabha_limits ME E) ->
  exists theta, ioniz_naive nan ME E (E * (1 - v)) (r0 :: l) = Ok (theta, 2 * PI * r0) /\ 0 <= theta <= PI /\ hits_electron ME E (E * (1 - v)) theta.
Proof.
  intros H V. pose proof ME_pos. unfold bhabha_limits in V. cbn [v_max] in V.
  assert (v < 1 - ME / E) by (destruct (Rltb_spec (1 - ME / E) 0); lra).
  assert (E * v < E - ME). { replace (E - ME) with (E * (1 - ME / E)) by (field; lra). apply Rmult_lt_compat_l; lra. }
  assert (0 <= E * v) by (apply Rmult_le_pos; lra).
  apply ionization_value; [lra|lra|].
  replace ((E - E * (1 - v)) * (ME ^ 2 + ME ^ 2 + 2 * ME * E)) with (2 * ME * (E + ME) * (E * v)) by ring.
  replace (2 * ME * (E ^ 2 - ME ^ 2)) with (2 * ME * (E + ME) * (E - ME)) by ring.
  apply Rmult_le_compat_l; [apply Rmult_le_pos; lra|lra].
Qed.
Lemma moller_within E v r0 l : ME < E -> 0 <= v <= v_max (moller_limits ME E) ->
  exists theta, ioniz_naive nan ME E (E * (1 - v)) (r0 :: l) = Ok (theta, 2 * PI * r0) /\ 0 <= theta <= PI /\ hits_electron ME E (E * (1 - v)) theta.
Proof.
  intros H V. pose proof ME_pos. apply bhabha_within; [exact H|]. split; [lra|]. apply Rle_lt_trans with (1 := proj2 V).
  unfold moller_limits, bhabha_limits. cbn [v_max]. assert (0 < 1 - ME / E). { replace (1 - ME / E) with ((E - ME) / E) by (field; lra). apply Rdiv_lt_0_compat; lra. }
  rewrite !no_lt by lra. lra.
Qed.
(** At the largest loss the particle stops and has no direction. *)
Lemma bhabha_end E r : ME < E -> (forall A (a : A), nan A <> Ok a) -> forall a, ioniz_naive nan ME E (E * (1 - v_max (bhabha_limits ME E))) r <> Ok a.
Proof.
  intros H N a. pose proof ME_pos. assert (0 < 1 - ME / E). { replace (1 - ME / E) with ((E - ME) / E) by (field; lra). apply Rdiv_lt_0_compat; lra. }
  unfold bhabha_limits. cbn [v_max]. rewrite no_lt by lra. replace (E * (1 - (1 - ME / E))) with ME by (field; lra).
  unfold ioniz_naive. rewrite root_ok by nra. cbn [obind]. rewrite root_ok by nra. cbn [obind]. replace ((ME + ME) * (ME - ME)) with 0 by ring. rewrite sqrt_0, Rmult_0_r.
  unfold quotient. rewrite (proj2 (Reqb_true 0 0) eq_refl). destruct (nan R) as [x| |] eqn:Q; cbn [obind]; [|discriminate|discriminate]. destruct (N R x Q).
Qed.

(** ** The numbers a calculator needs *)
Lemma number_firstn rnd n i : (i < n)%nat -> number (firstn n rnd) i = number rnd i.
Proof.
  unfold number. revert n rnd. induction i as [|i IH]; intros n rnd L; destruct n as [|n]; try lia; destruct rnd as [|r rnd]; try reflexivity.
  cbn [firstn nth_error]. apply IH. lia.
Qed.
Lemma first_numbers charge m d e_i e_f rnd c : deflection nan charge m d e_i e_f (firstn (required d) rnd) c = deflection nan charge m d e_i e_f rnd c.
Proof.
  destruct d; cbn [deflection required]; unfold brems_tsai, brems_ginneken, epair_ginneken, ioniz_naive, photo_borog, photo_ginneken, around;
    rewrite !number_firstn by lia; reflexivity.
Qed.
Lemma around_ok t rnd i a : around t rnd i = Ok a -> (i < length rnd)%nat.
Proof. unfold around. intro H. apply bind_ok in H. destruct H as (r & H & _). unfold number in H. destruct (nth_error rnd i) eqn:E; [|discriminate]. apply nth_error_Some. congruence. Qed.
Lemma too_few charge m d e_i e_f rnd c a : deflection nan charge m d e_i e_f rnd c = Ok a -> (required d <= length rnd)%nat.
Proof.
  destruct d; cbn [deflection required]; unfold brems_tsai, brems_ginneken, epair_ginneken, ioniz_naive, photo_borog, photo_ginneken; intro H;
    repeat (cbv beta zeta in H; match type of H with obind _ _ = _ => apply bind_ok in H; destruct H as (? & _ & H) end); cbv beta zeta in H; apply around_ok in H; lia.
Qed.
Lemma number_not_ub rnd i : (i < length rnd)%nat -> exists r, number rnd i = Ok r.
Proof. intro L. unfold number. destruct (nth_error rnd i) eqn:E; [eexists; reflexivity|]. apply nth_error_None in E. lia. Qed.
Lemma defined_bind {A B} (x : outcome A) (f : A -> outcome B) : defined x -> (forall a, defined (f a)) -> defined (obind x f).
Proof. intros X F u. destruct x; cbn; [apply F|discriminate|]. intros [= ->]. apply (X u). reflexivity. Qed.
Lemma enough_numbers charge m d e_i e_f rnd c : (forall A, defined (nan A)) -> defined (charge c) -> (required d <= length rnd)%nat ->
  defined (deflection nan charge m d e_i e_f rnd c).
Proof.
  intros N C L. assert (OK : forall A (x : A), defined (Ok x)) by discriminate. assert (TH : forall A e, defined (Throw e : outcome A)) by discriminate.
  assert (Q : forall a b, defined (quotient nan a b)) by (intros; unfold quotient; destruct (_ =? _); auto).
  assert (Ro : forall a, defined (root nan a)) by (intros; unfold root; destruct (_ <? _); auto).
  assert (Po : forall a b, defined (power nan a b)) by (intros; unfold power; destruct (_ <? _); auto; destruct (_ && _); auto).
  assert (Lo : forall a, defined (logarithm nan a)) by (intros; unfold logarithm; destruct (_ <? _); auto).
  assert (AC : forall a, defined (arc_cosine nan a)) by (intros; unfold arc_cosine; destruct (_ <=? _); auto).
  assert (AS : forall a, defined (arc_sine nan a)) by (intros; unfold arc_sine; destruct (_ <=? _); auto).
  assert (EX : forall p r, defined (exponential_angle nan p r)) by (intros; unfold exponential_angle; destruct (_ <? _); auto; destruct (_ =? _); auto).
  assert (Nu : forall i, (i < length rnd)%nat -> defined (number rnd i)) by (intros i I; destruct (number_not_ub rnd i I) as (r & ->); auto).
  assert (Ar : forall t i, (i < length rnd)%nat -> defined (around t rnd i)) by (intros; unfold around; apply defined_bind; auto).
  assert (NG : forall n k, defined (get_nu_g n k)).
  { intros n k. unfold get_nu_g. cbv zeta. destruct (_ <? _); auto. apply defined_bind; auto. unfold bisection. destruct (_ <? _); auto. destruct (1 <? 1 / 2); auto. }
  destruct d; cbn [deflection required] in *; unfold brems_tsai, brems_ginneken, epair_ginneken, ioniz_naive, photo_borog, photo_ginneken, brems_rms, epair_rms, photo_rms;
    repeat (first [apply OK | apply TH | apply N | apply Q | apply Ro | apply Po | apply Lo | apply AC | apply AS | apply EX | apply NG | apply Nu; lia | apply Ar; lia | exact C
      | apply defined_bind; [|intro; cbv zeta] | match goal with |- defined (if ?b then _ else _) => destruct b end]).
Qed.

(** ** The calculator of a type *)
Lemma registered_last ds t d : registered ds t = Some d <-> last_for ds t d.
Proof.
  revert d. induction ds as [|x ds IH]; intro d; cbn [registered].
  - split; [discriminate|]. intros (b & a & E & _). destruct b; discriminate.
  - destruct (registered ds t) as [d'|] eqn:R.
    + split.
      * intros [= <-]. destruct (proj1 (IH d') eq_refl) as (b & a & E & T & U). exists (x :: b), a. rewrite E. split; [reflexivity|]. split; assumption.
      * intros (b & a & E & T & U). destruct b as [|y b]; cbn in E; injection E as E1 E2.
        -- subst. destruct (proj1 (IH d') eq_refl) as (b & a' & E & T & _). destruct (U d'); [|exact T]. rewrite E. apply in_or_app. right. left. reflexivity.
        -- apply (proj2 (IH d)). exists b, a. split; [exact E2|]. split; assumption.
    + destruct (itype_eqb_spec (type_of x) t) as [T|T].
      * split.
        -- intros [= <-]. exists [], ds. split; [reflexivity|]. split; [exact T|]. intros d' I T'.
           apply in_split in I. destruct I as (b & a & E). clear IH. revert R. rewrite E. clear E. induction b as [|y b IHb]; cbn [app registered].
           ++ destruct (registered a t); [discriminate|]. rewrite T'. destruct (itype_eqb_spec t t); congruence.
           ++ destruct (registered (b ++ d' :: a) t); [discriminate|]. intros _. apply IHb. reflexivity.
        -- intros (b & a & E & T' & U). destruct b as [|y b]; cbn in E; injection E as E1 E2; [congruence|].
           exfalso. assert (None = Some d) as X by (apply (proj2 (IH d)); exists b, a; split; [exact E2|split; assumption]). discriminate.
      * split; [discriminate|]. intros (b & a & E & T' & U). destruct b as [|y b]; cbn in E; injection E as E1 E2; [congruence|].
        apply (proj2 (IH d)). exists b, a. split; [exact E2|]. split; assumption.
Qed.
Lemma scale_factor l t z k : factor_for l t k -> scale_deflect l t z = z * k.
Proof.
  intro F. induction F; cbn [scale_deflect]; [ring| |].
  - destruct (itype_eqb_spec t t); congruence.
  - destruct (itype_eqb_spec t' t); congruence.
Qed.
Lemma stochastic_query multiple charge m ds k factors t n f : sc_stochastic (make_scattering nan multiple charge m ds k factors) t = Some (n, f) ->
  exists d, last_for ds t d /\ n = required d /\ forall e_i e_f rnd c q, factor_for factors t q ->
    f e_i e_f rnd c = (olet a := deflection nan charge m d e_i e_f rnd c in Ok (fst a * q, snd a)).
Proof.
  cbn [make_scattering sc_stochastic]. destruct (registered ds t) as [d|] eqn:R; [|discriminate]. intros [= <- <-]. exists d. apply registered_last in R.
  split; [exact R|]. split; [reflexivity|]. intros e_i e_f rnd c q F. destruct (deflection nan charge m d e_i e_f rnd c) as [a| |]; cbn [obind]; [|reflexivity|reflexivity].
  destruct R as (_ & _ & _ & T & _). rewrite T, (scale_factor factors t _ q F). reflexivity.
Qed.
Lemma stochastic_none multiple charge m ds k factors t : sc_stochastic (make_scattering nan multiple charge m ds k factors) t = None <-> forall d, In d ds -> type_of d <> t.
Proof.
  cbn [make_scattering sc_stochastic]. destruct (registered ds t) as [d|] eqn:R.
  - split; [discriminate|]. intro A. apply registered_last in R. destruct R as (b & a & E & T & _). exfalso. apply (A d); [|exact T]. rewrite E. apply in_or_app. right. left. reflexivity.
  - split; [|reflexivity]. intros _ d I T. enough (exists d, last_for ds t d) as (d' & L) by (apply registered_last in L; congruence).
    clear R. induction ds as [|x ds IH]; [destruct I|]. destruct (registered ds t) as [d'|] eqn:R.
    + apply registered_last in R. destruct R as (b & a & E & T' & U). exists d', (x :: b), a. rewrite E. split; [reflexivity|]. split; assumption.
    + destruct I as [->|I].
      * exists d. apply registered_last. cbn [registered]. rewrite R, T. destruct (itype_eqb_spec t t); congruence.
      * destruct (IH I) as (d' & L). apply registered_last in L. congruence.
Qed.
Lemma multiple_query f charge m ds k factors : exists g, sc_multiple (make_scattering nan (Some f) charge m ds k factors) = Some g /\
  forall grammage e_i e_f rnd, g grammage e_i e_f rnd = (olet o := f grammage e_i e_f rnd in Ok (mkoffset (o_sx o * k) (o_sy o * k) (o_tx o * k) (o_ty o * k))).
Proof. eexists. split; [reflexivity|]. reflexivity. Qed.

(** ** Angles beyond a half turn *)
Lemma exponential_any mean theta : mean <> 0 -> 0 <= theta -> exists r, 0 <= r < 1 /\ exponential_angle nan r mean = Ok theta.
Proof.
  intros M T. exists (share_below mean theta). assert (X : 0 <= (theta / mean) ^ 2) by apply pow2_ge_0.
  assert (R : 0 <= share_below mean theta < 1).
  { unfold share_below. pose proof (exp_pos (- (theta / mean) ^ 2)). split; [|lra]. rewrite <- exp_0. enough (exp (- (theta / mean) ^ 2) <= exp 0) by lra.
    destruct X as [X|X]; [left; apply exp_increasing; lra|right; f_equal; lra]. }
  split; [exact R|]. destruct (exponential_value nan (share_below mean theta) mean R) as (t & E & P & _ & S). rewrite E. f_equal.
  specialize (S M). unfold share_below in S. assert (Q : exp (- (t / mean) ^ 2) = exp (- (theta / mean) ^ 2)) by lra. apply exp_inv in Q.
  assert (t ^ 2 = theta ^ 2). { replace (t ^ 2) with ((t / mean) ^ 2 * mean ^ 2) by (field; exact M). replace (theta ^ 2) with ((theta / mean) ^ 2 * mean ^ 2) by (field; exact M). f_equal. lra. }
  rewrite <- (sqrt_pow2 t P), <- (sqrt_pow2 theta T). congruence.
Qed.
Lemma epair_any m e_i e_f theta r1 : 0 < m < e_f -> e_f < e_i -> epair_mean (e_i / 1000) (lost_part m e_i e_f) <> 0 -> 0 <= theta ->
  exists r0, 0 <= r0 < 1 /\ epair_ginneken nan m e_i e_f [r0; r1] = Ok (theta, 2 * PI * r1).
Proof.
  intros H L M T. destruct (exponential_any _ theta M T) as (r & R & E). exists r. split; [exact R|].
  unfold epair_ginneken. rewrite epair_rms_value by lra. rewrite GeV. cbn [obind number nth_error]. rewrite E. reflexivity.
Qed.
End Deflector.
