(** Proofs about Moliere's parametrization. *)
From Coq Require Import String.
From Coquelicot Require Import Coquelicot.
From Verif Require Import Prelude PreludeFacts Particle_Model Limits_Model Vec_Model Cross_Model Photo_Model Integral_Model Utility_Model
  Decay_Spec Multiple_Model Multiple_Spec Log_Proofs Reduced_Proofs Multiple_Proofs.
Notation length := List.length.

(** ** A new object *)
Lemma fold_sum l a : fold_left Rplus l a = a + fold_left Rplus l 0.
Proof.
  revert a. induction l as [|x l IH]; intros a; [cbn; ring|]. cbn [fold_left]. rewrite IH, (IH (0 + x)). ring.
Qed.
Lemma sum_total f cs : sum (map f cs) = total f cs.
Proof.
  unfold sum. induction cs as [|c cs IH]; [reflexivity|]. cbn [map fold_left total]. rewrite fold_sum, IH. ring.
Qed.
Lemma map2_map {A B} (f : R -> A -> B) (g : A -> R) l : map2 f (map g l) l = map (fun x => f (g x) x) l.
Proof. unfold map2. induction l as [|a l IH]; [reflexivity|]. cbn [map combine]. f_equal. exact IH. Qed.
Lemma total_pos f cs : cs <> [] -> Forall (fun c => 0 < f c) cs -> 0 < total f cs.
Proof.
  intros NE F. assert (P : forall l, Forall (fun c => 0 < f c) l -> 0 <= total f l).
  { intros l G. induction G as [|c l H G IH]; cbn; lra. }
  destruct F as [|c l H F]; [contradiction|]. cbn. specialize (P l F). lra.
Qed.
Lemma total_ext f g cs : (forall c, f c = g c) -> total f cs = total g cs.
Proof. intros E. induction cs as [|c cs IH]; [reflexivity|]. cbn. rewrite E, IH. reflexivity. Qed.
Lemma weights_ok nan S cs : S <> 0 -> weights nan S cs = Ok (map (fun c => c_atoms c * c_atomic c / S) cs).
Proof.
  intros P. induction cs as [|c cs IH]; [reflexivity|]. cbn [weights map]. rewrite divide_ok by exact P. cbn [obind]. rewrite IH. reflexivity.
Qed.
Definition fresh (mass : R) (cs : list component) : moliere :=
  mkmoliere mass (map c_charge cs) (mean_ZZ mass cs / mean_A cs)
    (map (fun c => mass_share cs c * c_charge c * c_charge c) cs)
    (1 / total (fun c => mass_share cs c * c_charge c * c_charge c) cs)
    (weight_index 0 0 (map (mass_share cs) cs)) 0 (map (fun _ => 0) cs).
Lemma mass_positive cs : cs <> [] -> Forall proper_component cs -> 0 < total (fun c => c_atoms c * c_atomic c) cs.
Proof.
  intros NE P. apply total_pos; [exact NE|]. eapply Forall_impl; [|exact P]. intros c (_ & A & K). now apply Rmult_lt_0_compat.
Qed.
Lemma share_positive cs c : 0 < total (fun c => c_atoms c * c_atomic c) cs -> proper_component c -> 0 < mass_share cs c.
Proof. intros T (_ & A & K). unfold mass_share. apply Rdiv_lt_0_compat; [now apply Rmult_lt_0_compat|exact T]. Qed.
Lemma means_positive mass cs : cs <> [] -> Forall proper_component cs ->
  0 < mean_ZZ mass cs /\ 0 < mean_A cs /\ 0 < total (fun c => mass_share cs c * c_charge c * c_charge c) cs.
Proof.
  intros NE P. pose proof (mass_positive cs NE P) as T. unfold mean_ZZ, mean_A.
  assert (Q : forall f, (forall c, proper_component c -> 0 < f c) -> 0 < total f cs).
  { intros f F. apply total_pos; [exact NE|]. eapply Forall_impl; [|exact P]. exact F. }
  repeat split; apply Q; intros c Pc; pose proof (share_positive cs c T Pc) as S; destruct Pc as (Z & A & K).
  - apply Rmult_lt_0_compat; [exact S|]. apply Rmult_lt_0_compat; [exact Z|]. destruct (Req_EM_T mass ME); lra.
  - now apply Rmult_lt_0_compat.
  - apply Rmult_lt_0_compat; [now apply Rmult_lt_0_compat|exact Z].
Qed.
Lemma new_ok nan mass m : proper_medium m -> new_moliere nan mass m = Ok (fresh mass (m_components m)).
Proof.
  intros (NE & P). unfold new_moliere. set (cs := m_components m) in *. rewrite sum_total.
  pose proof (mass_positive cs NE P) as T. rewrite weights_ok by lra. cbn [obind].
  change (map (fun c => c_atoms c * c_atomic c / total (fun x => c_atoms x * c_atomic x) cs) cs) with (map (mass_share cs) cs).
  rewrite !map2_map, !sum_total. destruct (means_positive mass cs NE P) as (MZ & MA & MW).
  rewrite divide_ok by lra. cbn [obind].
  change (total (fun c => mass_share cs c * c_atomic c) cs) with (mean_A cs). rewrite divide_ok by lra. cbn [obind].
  unfold fresh. f_equal. f_equal. unfold mean_ZZ, Reqb. destruct (Req_EM_T mass ME).
  - f_equal. apply total_ext. intros c. ring.
  - f_equal. apply total_ext. intros c. ring.
Qed.

(** ** The history of an object *)
Definition same_fixed (a b : moliere) : Prop :=
  mo_mass a = mo_mass b /\ mo_Z a = mo_Z b /\ mo_ZSq_A a = mo_ZSq_A b /\ mo_weight_ZZ a = mo_weight_ZZ b /\
  mo_weight_sum a = mo_weight_sum b /\ mo_index a = mo_index b /\ length (mo_B a) = length (mo_B b).
Lemma fill_length nan chi_c chi_a : forall B b B', fill nan chi_c chi_a B = Ok (b, B') -> length B' = length B.
Proof.
  induction chi_a as [|a chi_a IH]; intros [|x B] b B' H; cbn [fill] in H; try (injection H as _ <-; reflexivity).
  apply bind_ok in H. destruct H as ([y|] & _ & H); [|injection H as _ <-; reflexivity].
  apply bind_ok in H. destruct H as ((b1 & l) & H1 & H). injection H as _ <-. cbn. f_equal. now apply IH with b1.
Qed.
Lemma prefactor_fixed nan s E g p s' : prefactor nan s E g = Ok (p, s') -> same_fixed s' s.
Proof.
  intros H. unfold prefactor in H.
  apply bind_ok in H. destruct H as (r & _ & H). apply bind_ok in H. destruct H as (be & _ & H).
  apply bind_ok in H. destruct H as (bp & _ & H). apply bind_ok in H. destruct H as (ca & _ & H).
  apply bind_ok in H. destruct H as (q & _ & H). apply bind_ok in H. destruct H as ((b & B) & F & H). apply fill_length in F.
  destruct b.
  - cbn [mo_index] in H. destruct (nth_error B (mo_index s)); [|discriminate].
    apply bind_ok in H. destruct H as (z & _ & H). injection H as _ <-. repeat split; assumption.
  - injection H as _ <-. repeat split; assumption.
Qed.
Lemma used_fixed nan s0 s : used nan s0 s -> same_fixed s s0.
Proof.
  induction 1 as [|s E g p s' U IH H]; [repeat split|]. apply prefactor_fixed in H. unfold same_fixed in *.
  destruct IH as (? & ? & ? & ? & ? & ? & ?). destruct H as (? & ? & ? & ? & ? & ? & ?). repeat split; congruence.
Qed.
Lemma fill_history nan chi_c chi_a : forall B1 B2, length B1 = length B2 -> (length chi_a >= length B1)%nat ->
  (exists C1 C2, fill nan chi_c chi_a B1 = Ok (false, C1) /\ fill nan chi_c chi_a B2 = Ok (false, C2)) \/
  fill nan chi_c chi_a B1 = fill nan chi_c chi_a B2.
Proof.
  induction chi_a as [|a chi_a IH]; intros [|x B1] [|y B2] L G; try discriminate; try (right; reflexivity).
  - cbn in G. lia.
  - cbn [fill]. destruct (reduced_angle nan chi_c a) as [[z|]| |]; cbn [obind]; try (right; reflexivity).
    + cbn in L, G. destruct (IH B1 B2 ltac:(lia) ltac:(lia)) as [(C1 & C2 & E1 & E2)|E].
      * left. rewrite E1, E2. cbn [obind]. eauto.
      * right. rewrite E. reflexivity.
    + left. eauto.
Qed.
Lemma screenings_length nan m p b : forall Zs l, screenings nan m p b Zs = Ok l -> length l = length Zs.
Proof.
  induction Zs as [|Z Zs IH]; intros l H; cbn [screenings] in H; [injection H as <-; reflexivity|].
  apply bind_ok in H. destruct H as (a & _ & H). apply bind_ok in H. destruct H as (r & Hr & H). injection H as <-. cbn. f_equal. now apply IH.
Qed.
Lemma prefactor_history nan a b E g : same_fixed a b -> (length (mo_Z b) >= length (mo_B b))%nat ->
  (exists a' b', prefactor nan a E g = Ok (0, a') /\ prefactor nan b E g = Ok (0, b')) \/ prefactor nan a E g = prefactor nan b E g.
Proof.
  intros (M & Z & S & W & WS & I & L) G. unfold prefactor. rewrite M, Z, S, W, WS.
  destruct (quotient nan (mo_mass b * mo_mass b) ((E - mo_mass b) * (E + mo_mass b))) as [r| |]; cbn [obind]; try (right; reflexivity).
  destruct (quotient nan 1 (1 + r)) as [be| |]; cbn [obind]; try (right; reflexivity).
  destruct (quotient nan ((E - mo_mass b) * (E + mo_mass b)) E) as [bp| |]; cbn [obind]; try (right; reflexivity).
  destruct (screenings nan (mo_mass b) ((E - mo_mass b) * (E + mo_mass b)) be (mo_Z b)) as [ca| |] eqn:SC; cbn [obind]; try (right; reflexivity).
  apply screenings_length in SC.
  match goal with |- context [quotient nan ?x (bp * bp)] => destruct (quotient nan x (bp * bp)) as [q| |]; cbn [obind]; try (right; reflexivity) end.
  destruct (fill_history nan (q * mo_ZSq_A b) ca (mo_B a) (mo_B b) L ltac:(lia)) as [(C1 & C2 & E1 & E2)|E1].
  - rewrite E1, E2. cbn [obind]. left. eauto.
  - rewrite E1. destruct (fill nan (q * mo_ZSq_A b) ca (mo_B b)) as [(b0 & B)| |]; cbn [obind]; try (right; reflexivity).
    cbn [mo_index]. rewrite I. right. reflexivity.
Qed.
Lemma c61_history nan t mass m s0 s g E r0 r1 r2 r3 : proper_medium m -> new_moliere nan mass m = Ok s0 -> used nan s0 s ->
  returned (moliere_offset nan t s g E r0 r1 r2 r3) = returned (moliere_offset nan t s0 g E r0 r1 r2 r3) /\
  returned (moliere_angle nan t s g E r0) = returned (moliere_angle nan t s0 g E r0) /\
  returned (moliere_angle_2d nan t s g E r0 r1) = returned (moliere_angle_2d nan t s0 g E r0 r1).
Proof.
  intros P NW U. rewrite (new_ok nan mass m P) in NW. injection NW as <-.
  assert (G : (length (mo_Z (fresh mass (m_components m))) >= length (mo_B (fresh mass (m_components m))))%nat)
    by (cbn; rewrite !map_length; lia).
  unfold moliere_offset, moliere_angle, moliere_angle_2d.
  destruct (prefactor_history nan s _ E g (used_fixed nan _ s U) G) as [(a & b & E1 & E2)|E1].
  - rewrite E1, E2. cbn [obind]. unfold Reqb. destruct (Req_EM_T 0 0); [|contradiction]. repeat split.
  - rewrite E1. repeat split.
Qed.

(** ** The two angles and the reduced angle *)
Lemma screening_ok nan m E Z : 0 <= m < E -> 0 < Z ->
  screening nan m ((E - m) * (E + m)) (1 / (1 + m * m / ((E - m) * (E + m)))) Z = Ok (screening_angle2 m E Z).
Proof.
  intros M PZ. unfold screening. assert (PI2 : 0 < 9 * PI * PI) by (pose proof PI_RGT_0; nra).
  assert (X : 0 < Z * 128 / (9 * PI * PI)) by (apply Rdiv_lt_0_compat; lra).
  unfold Rltb. destruct (Rlt_dec 0 (Z * 128 / (9 * PI * PI))); [|lra]. cbn [obind].
  assert (P : 0 < (E - m) * (E + m)) by (apply Rmult_lt_0_compat; lra).
  rewrite divide_ok by lra. cbn [obind].
  assert (B : 0 < 1 + m * m / ((E - m) * (E + m))).
  { assert (0 <= m * m / ((E - m) * (E + m))); [|lra]. apply Rmult_le_pos; [nra|left; now apply Rinv_0_lt_compat]. }
  assert (B1 : 0 < 1 / (1 + m * m / ((E - m) * (E + m)))) by (apply Rdiv_lt_0_compat; lra).
  rewrite divide_ok by lra. cbn [obind]. f_equal. unfold screening_angle2.
  replace (1 + m * m / ((E - m) * (E + m))) with (E ^ 2 / (E ^ 2 - m ^ 2)) by (field; nra).
  field. repeat split; nra.
Qed.
Lemma screenings_ok nan m E Zs : 0 <= m < E -> Forall (fun Z => 0 < Z) Zs ->
  screenings nan m ((E - m) * (E + m)) (1 / (1 + m * m / ((E - m) * (E + m)))) Zs = Ok (map (screening_angle2 m E) Zs).
Proof.
  intros M F. induction F as [|Z Zs H F IH]; [reflexivity|]. cbn [screenings map]. rewrite screening_ok by assumption. cbn [obind].
  rewrite IH. reflexivity.
Qed.
Lemma screening_positive m E Z : 0 <= m < E -> 0 < Z -> 0 < screening_angle2 m E Z.
Proof.
  intros M PZ. unfold screening_angle2. assert (0 < E ^ 2 - m ^ 2) by nra. assert (0 < ME * ALPHA) by (unfold ME, ALPHA; lra).
  apply Rmult_lt_0_compat.
  - apply Rdiv_lt_0_compat; [|assumption]. apply pow_lt. apply Rmult_lt_0_compat; [assumption|apply exp_pos].
  - assert (0 <= 376 / 100 * (ALPHA * Z) ^ 2 * (E ^ 2 / (E ^ 2 - m ^ 2))); [|lra].
    apply Rmult_le_pos; [apply Rmult_le_pos; [lra|apply pow2_ge_0]|]. left. apply Rdiv_lt_0_compat; [nra|assumption].
Qed.
Lemma constant_positive : 0 < 4 * PI * NA * (ALPHA * HBAR * SPEED) ^ 2.
Proof.
  pose proof PI_RGT_0. assert (0 < NA) by (unfold NA; lra). assert (0 < ALPHA * HBAR * SPEED) by (unfold ALPHA, HBAR, SPEED; lra).
  apply Rmult_lt_0_compat; [apply Rmult_lt_0_compat; lra|now apply pow_lt].
Qed.
Lemma characteristic_sign m E g cs : cs <> [] -> Forall proper_component cs -> 0 <= m < E ->
  (0 < g -> 0 < characteristic_angle2 m E g cs) /\ (g = 0 -> characteristic_angle2 m E g cs = 0).
Proof.
  intros NE P M. destruct (means_positive m cs NE P) as (MZ & MA & _). unfold characteristic_angle2. split; [|intros ->; ring].
  intros G. assert (0 < E ^ 2 - m ^ 2) by nra. apply Rmult_lt_0_compat; [|apply Rdiv_lt_0_compat; lra].
  apply Rmult_lt_0_compat; [apply Rmult_lt_0_compat; [apply constant_positive|exact G]|]. apply pow_lt. apply Rdiv_lt_0_compat; lra.
Qed.
Definition filled (s : moliere) (chi_c : R) (B : list R) : moliere :=
  mkmoliere (mo_mass s) (mo_Z s) (mo_ZSq_A s) (mo_weight_ZZ s) (mo_weight_sum s) (mo_index s) chi_c B.
Lemma prefactor_value nan mass cs s E g : cs <> [] -> Forall proper_component cs -> 0 <= mass < E -> same_fixed s (fresh mass cs) ->
  prefactor nan s E g =
  obind (fill nan (characteristic_angle2 mass E g cs) (map (screening_angle2 mass E) (map c_charge cs)) (mo_B s)) (fun x =>
    let s' := filled s (characteristic_angle2 mass E g cs) (snd x) in
    if fst x then match nth_error (snd x) (mo_index s) with
                  | None => UB out_of_bounds
                  | Some b => obind (Utility_Model.root nan (characteristic_angle2 mass E g cs * b)) (fun p => Ok (p, s'))
                  end
    else Ok (0, s')).
Proof.
  intros NE P M (SM & SZ & SA & _). unfold prefactor. rewrite SM, SZ, SA. cbn [fresh mo_mass mo_Z mo_ZSq_A].
  assert (Q : 0 < (E - mass) * (E + mass)) by (apply Rmult_lt_0_compat; lra). rewrite divide_ok by lra. cbn [obind].
  assert (0 <= mass * mass / ((E - mass) * (E + mass))) by (apply Rmult_le_pos; [nra|left; now apply Rinv_0_lt_compat]).
  rewrite divide_ok by lra. cbn [obind]. rewrite divide_ok by lra. cbn [obind].
  rewrite screenings_ok; [cbn [obind]|lra|].
  - assert (0 < (E - mass) * (E + mass) / E) by (apply Rdiv_lt_0_compat; lra).
    rewrite divide_ok by (apply Rgt_not_eq; now apply Rmult_lt_0_compat). cbn [obind].
    match goal with |- context [fill nan ?x] => replace x with (characteristic_angle2 mass E g cs) end.
    + destruct (fill nan (characteristic_angle2 mass E g cs) (map (screening_angle2 mass E) (map c_charge cs)) (mo_B s)) as [(b & B)| |]; try reflexivity.
      cbn [obind fst snd]. unfold filled. rewrite SM, SZ, SA. destruct b; reflexivity.
    + unfold characteristic_angle2. destruct (means_positive mass cs NE P) as (_ & MA & _).
      replace ((E - mass) * (E + mass)) with (E ^ 2 - mass ^ 2) by ring. assert (0 < E ^ 2 - mass ^ 2) by nra.
      set (k := mean_ZZ mass cs / mean_A cs). field. split; lra.
  - rewrite Forall_map. eapply Forall_impl; [|exact P]. intros c (Z & _). exact Z.
Qed.

Lemma reduced_none nan chi_c chi_a : 0 < chi_a -> chi_c <= 0 -> reduced_angle nan chi_c chi_a = Ok None.
Proof.
  intros A C. unfold reduced_angle. rewrite divide_ok by lra. cbn [obind]. unfold Rleb.
  destruct (Rle_dec (chi_c / chi_a) 0) as [H|H]; [reflexivity|]. exfalso. apply H.
  assert (0 <= - chi_c / chi_a) by (apply Rmult_le_pos; [lra|left; now apply Rinv_0_lt_compat]). replace (chi_c / chi_a) with (- (- chi_c / chi_a)) by (field; lra). lra.
Qed.
(** The value of one component *)
Lemma reduced_cases nan chi_c chi_a : 0 < chi_c -> 0 < chi_a -> let b := ln (chi_c / chi_a) + 1 - 2 * EULER_MASCHERONI in 1 <= b ->
  (reduced_angle nan chi_c chi_a = Ok None /\ b < 3) \/
  exists x, reduced_angle nan chi_c chi_a = Ok (Some x) /\ 45 / 10 <= x /\ 26 / 10 < b /\
    forall B, moliere_root b B -> B <= x <= B * (1 + / 10 ^ 30).
Proof.
  intros C A b Hb. unfold reduced_angle. rewrite divide_ok by lra. cbn [obind].
  assert (0 < chi_c / chi_a) by now apply Rdiv_lt_0_compat. unfold Rleb. destruct (Rle_dec (chi_c / chi_a) 0); [lra|].
  destruct (six_steps nan (ln (chi_c / chi_a)) Hb) as (x & Hx & X1 & HB). rewrite Hx. cbn [obind]. fold b in HB.
  destruct (root_exists b Hb) as (B & B1 & E). destruct (HB B B1 E) as (L & U).
  unfold Rltb. destruct (Rlt_dec x (45 / 10)) as [S|S].
  - left. split; [reflexivity|]. destruct (Rlt_dec b 3) as [|T]; [assumption|]. exfalso.
    pose proof (threshold b B B1 E ltac:(lra)). destruct (U ltac:(lra)). lra.
  - right. exists x. assert (B4 : 4 <= B) by (destruct (Rle_dec 4 B); [assumption|]; specialize (L ltac:(lra)); lra).
    split; [reflexivity|]. split; [lra|]. split.
    + pose proof (sub_ln_mono 4 B ltac:(lra)). assert (ln 4 < 139 / 100); [|lra].
      replace 4 with (2 * 2) by ring. rewrite ln_mult by lra. pose proof ln_2. lra.
    + intros B' (P1 & P2). destruct (HB B' P1 P2) as (L' & U'). apply U'.
      destruct (Rle_dec 4 B'); [assumption|]. specialize (L' ltac:(lra)). lra.
Qed.
Lemma fill_complete nan chi_c : forall chi_a B B', length B = length chi_a -> fill nan chi_c chi_a B = Ok (true, B') ->
  Forall2 (fun a b => reduced_angle nan chi_c a = Ok (Some b)) chi_a B'.
Proof.
  induction chi_a as [|a chi_a IH]; intros [|x B] B' L H; try discriminate; cbn [fill] in H.
  - injection H as <-. constructor.
  - apply bind_ok in H. destruct H as ([y|] & E & H); [|discriminate]. apply bind_ok in H. destruct H as ((b & l) & F & H).
    injection H as -> <-. constructor; [exact E|]. apply IH with B; [cbn in L; lia|exact F].
Qed.
Lemma fill_accepts nan chi_c : forall chi_a B, length B = length chi_a -> Forall (fun a => exists x, reduced_angle nan chi_c a = Ok (Some x)) chi_a ->
  exists B', fill nan chi_c chi_a B = Ok (true, B').
Proof.
  induction chi_a as [|a chi_a IH]; intros [|y B] L F; try discriminate; [eexists; reflexivity|].
  inversion F as [|? ? (x & E) F']; subst. cbn [fill]. rewrite E. cbn [obind].
  destruct (IH B ltac:(cbn in L; lia) F') as (B' & ->). cbn [obind]. eauto.
Qed.
Lemma fill_stops nan chi_c : forall chi_a B, length B = length chi_a ->
  Forall (fun a => exists o, reduced_angle nan chi_c a = Ok o) chi_a -> Exists (fun a => reduced_angle nan chi_c a = Ok None) chi_a ->
  exists B', fill nan chi_c chi_a B = Ok (false, B').
Proof.
  induction chi_a as [|a chi_a IH]; intros [|y B] L F X; try discriminate; [inversion X|].
  inversion F as [|? ? (o & E) F']; subst. cbn [fill]. rewrite E. cbn [obind]. destruct o as [x|]; [|eauto].
  inversion X as [? ? E'|? ? X']; subst; [congruence|].
  destruct (IH B ltac:(cbn in L; lia) F' X') as (B' & ->). cbn [obind]. eauto.
Qed.
