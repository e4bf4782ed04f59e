(** Proofs about the random number generator. *)
From Verif Require Import Prelude PreludeFacts Vec_Model Secondaries_Model Particle_Model Products_Model Random_Model Random_Spec.

Lemma pigeonhole : forall N (f : nat -> nat), (forall i, (i <= N)%nat -> (f i < N)%nat) -> exists i j, (i < j <= N)%nat /\ f i = f j.
Proof.
  induction N as [|M IH]; intros f H; [specialize (H O); lia|].
  set (v := f (S M)). destruct (in_dec Nat.eq_dec v (map f (seq 0 (S M)))) as [I|I].
  - apply in_map_iff in I. destruct I as (i & E & Hi). apply in_seq in Hi. exists i, (S M). split; [lia|exact E].
  - assert (NE : forall i, (i <= M)%nat -> f i <> v).
    { intros i Hi E. apply I. apply in_map_iff. exists i. split; [exact E|]. apply in_seq. lia. }
    pose proof (H (S M) (le_n _)) as Hv. fold v in Hv.
    destruct (IH (fun i => if Nat.eq_dec (f i) M then v else f i)) as (i & j & Hij & E).
    + intros i Hi. pose proof (NE i Hi). pose proof (H i ltac:(lia)). destruct (Nat.eq_dec (f i) M); lia.
    + exists i, j. split; [lia|]. pose proof (NE i ltac:(lia)). pose proof (NE j ltac:(lia)).
      destruct (Nat.eq_dec (f i) M), (Nat.eq_dec (f j) M); congruence.
Qed.

Section Random.
Variable nan : forall A, outcome A.
Variables (engine text : Type) (seeded : Z -> engine) (uniform : engine -> R * engine)
  (write : engine -> text) (read : text -> engine -> engine).
Notation generator := (generator engine).
Notation perform := (perform nan engine text seeded uniform read).
Notation perform_all := (perform_all nan engine text seeded uniform read).
Notation numbers := (numbers engine uniform).
Notation koch_motz_directions := (koch_motz_directions nan engine seeded uniform).
Notation random_double := (random_double engine uniform).

Lemma generator_eq (g1 g2 : generator) : rng g1 = rng g2 -> random_function g1 = random_function g2 -> g1 = g2.
Proof. destruct g1, g2; cbn; congruence. Qed.

Lemma c84_reproducible fuel p s (g1 g2 : generator) : random_function g1 = DefaultRandom -> random_function g2 = DefaultRandom ->
  option_map fst (perform_all fuel (Seed s :: p) g1) = option_map fst (perform_all fuel (Seed s :: p) g2).
Proof. intros H1 H2. cbn [Random_Spec.perform_all Random_Spec.perform]. unfold set_seed. rewrite H1, H2. reflexivity. Qed.

Lemma c84_restored fuel p (g : generator) l g' : (forall e e', read (write e) e' = e) -> random_function g = DefaultRandom ->
  perform_all fuel p g = Some (l, g') ->
  perform_all fuel [Restore (serialize _ _ write g); UseDefault] g' = Some ([Nothing; Nothing], g).
Proof.
  intros W D _. cbn. unfold deserialize, set_default, serialize. cbn. rewrite W, <- D. destruct g; reflexivity.
Qed.

Lemma draws_stream fuel n : forall e : engine,
  option_map fst (perform_all fuel (repeat Draw n) (mkgenerator e DefaultRandom)) =
  Some (map Number (map (stream engine uniform e) (seq 0 n))).
Proof.
  induction n as [|n IH]; intro e; [reflexivity|].
  cbn [repeat Random_Spec.perform_all Random_Spec.perform]. unfold Random_Model.random_double. cbn [random_function rng].
  destruct (uniform e) as [r e'] eqn:U. specialize (IH e').
  destruct (Random_Spec.perform_all _ _ _ _ _ _ _ _ _) as [[l g]|]; [|discriminate]. cbn in IH |- *. injection IH as ->.
  rewrite U. cbn. rewrite <- seq_shift, !map_map. do 2 f_equal. apply map_ext. intro i. cbn. rewrite U. reflexivity.
Qed.
Lemma c84_seeded fuel n s (g : generator) : random_function g = DefaultRandom ->
  option_map fst (perform_all fuel (Seed s :: repeat Draw n) g) =
  Some (Nothing :: map Number (map (stream engine uniform (seeded s)) (seq 0 n))).
Proof.
  intro D. cbn [Random_Spec.perform_all Random_Spec.perform]. unfold set_seed. rewrite D.
  pose proof (draws_stream fuel n (seeded s)) as H.
  destruct (Random_Spec.perform_all _ _ _ _ _ _ _ _ _) as [[l g']|]; [|discriminate]. cbn in H |- *. injection H as ->. reflexivity.
Qed.

Lemma directions_shape fuel m d E k t rnd (g : generator) r0 : nth_error rnd 0 = Some r0 -> 0 <= r0 <= 1 ->
  exists s, (0 <= s < 2147483648)%Z /\ s = truncate (INT_MAX * r0) /\ forall g : generator, koch_motz_directions fuel m d E k t rnd g =
    match reseeded_phi nan engine uniform fuel (seeded s) ((E - k) / ME) (E / ME) (t_charge t) with
    | None => None
    | Some (phi, e) =>
      Some (olet phi := phi in olet r1 := at_index rnd 1 in recoil nan m d E k (cos phi) (r1 * 2 * PI), mkgenerator e (random_function g))
    end.
Proof.
  intros N H. unfold INT_MAX. exists (truncate (2147483647 * r0)). assert (B : (0 <= truncate (2147483647 * r0) < 2147483648)%Z).
  { unfold truncate. destruct (Rleb_spec 0 (2147483647 * r0)) as [_|L]; [|lra].
    destruct (base_Int_part (2147483647 * r0)) as [P Q]. split.
    - assert (-1 < Int_part (2147483647 * r0))%Z; [|lia]. apply lt_IZR. lra.
    - apply lt_IZR. lra. }
  split; [exact B|]. split; [reflexivity|]. intro g0. unfold Random_Model.koch_motz_directions, INT_MAX. unfold at_index at 1. rewrite N. cbn [obind].
  unfold to_int. rewrite (proj2 (andb_true_iff _ _)); [reflexivity|]. split; [apply Z.leb_le|apply Z.ltb_lt]; lia.
Qed.

(** What follows the calculation of directions depends on the random number they
    were calculated with, not on the generator. *)
Lemma c84_reseed fuel m d E k t rnd r0 (g1 : generator) a g1' : nth_error rnd 0 = Some r0 -> 0 <= r0 <= 1 ->
  perform fuel (Directions m d E k t rnd) g1 = Some (a, g1') ->
  random_function g1' = random_function g1 /\
  forall g2 : generator, perform fuel (Directions m d E k t rnd) g2 = Some (a, mkgenerator (rng g1') (random_function g2)).
Proof.
  intros N H. destruct (directions_shape fuel m d E k t rnd g1 r0 N H) as (s & _ & _ & K). cbn [Random_Spec.perform].
  rewrite K. destruct (reseeded_phi _ _ _ _ _ _ _ _) as [(phi & e)|]; [|discriminate].
  intro X. injection X as <- <-. split; [reflexivity|]. intro g2. rewrite K. reflexivity.
Qed.
Lemma c84_reseeded fuel m d E k t rnd r0 (g1 g2 : generator) a g1' n : nth_error rnd 0 = Some r0 -> 0 <= r0 <= 1 ->
  random_function g1 = DefaultRandom -> random_function g2 = DefaultRandom ->
  perform fuel (Directions m d E k t rnd) g1 = Some (a, g1') ->
  exists g2', perform fuel (Directions m d E k t rnd) g2 = Some (a, g2') /\ numbers n g2' = numbers n g1'.
Proof.
  intros N H D1 D2 P. destruct (c84_reseed _ _ _ _ _ _ _ _ _ _ _ N H P) as (F & Q).
  eexists. split; [apply Q|]. f_equal. apply generator_eq; cbn; [reflexivity|congruence].
Qed.
Lemma numbers_default (g : generator) e n : rng g = e -> random_function g = DefaultRandom -> numbers n g = numbers n (mkgenerator e DefaultRandom).
Proof. intros <- D. f_equal. apply generator_eq; auto. Qed.
Lemma c84_secondaries_refuted fuel m d E k t rnd r0 s1 s2 : nth_error rnd 0 = Some r0 -> 0 <= r0 <= 1 ->
  fst (uniform (seeded s1)) <> fst (uniform (seeded s2)) ->
  (forall g : generator, perform fuel (Directions m d E k t rnd) g <> None) ->
  exists s a g', let g := mkgenerator (seeded s) DefaultRandom in
    perform fuel (Directions m d E k t rnd) g = Some (a, g') /\ numbers 1 g' <> numbers 1 g.
Proof.
  intros N H NE F. destruct (perform fuel (Directions m d E k t rnd) (mkgenerator (seeded s1) DefaultRandom)) as [(a & g')|] eqn:P1; [|destruct (F _ P1)].
  destruct (c84_reseeded fuel m d E k t rnd r0 (mkgenerator (seeded s1) DefaultRandom) (mkgenerator (seeded s2) DefaultRandom) a g' 1%nat N H eq_refl eq_refl P1) as (g2' & P2 & EQ).
  destruct (Req_EM_T (fst (uniform (rng g'))) (fst (uniform (seeded s1)))) as [X|X].
  - exists s2, a, g2'. split; [exact P2|]. rewrite EQ. destruct (c84_reseed _ _ _ _ _ _ _ _ _ _ _ N H P1) as (Fn & _). cbn in Fn.
    intro Y. apply NE. rewrite <- X. cbn in Y. unfold Random_Model.random_double in Y. rewrite Fn in Y. cbn in Y.
    destruct (uniform (rng g')), (uniform (seeded s2)). cbn in *. congruence.
  - exists s1, a, g'. split; [exact P1|]. destruct (c84_reseed _ _ _ _ _ _ _ _ _ _ _ N H P1) as (Fn & _). cbn in Fn.
    intro Y. apply X. cbn in Y. unfold Random_Model.random_double in Y. rewrite Fn in Y. cbn in Y.
    destruct (uniform (rng g')), (uniform (seeded s1)). cbn in *. congruence.
Qed.

(** ** Generators of the user *)
Lemma numbers_custom f : forall n i (e : engine), numbers n (mkgenerator e (Custom f i)) = map f (seq i n).
Proof. induction n as [|n IH]; intros i e; [reflexivity|]. cbn. f_equal. apply IH. Qed.
Lemma directions_function fuel m d E k t rnd (g : generator) ds g' : koch_motz_directions fuel m d E k t rnd g = Some (ds, g') ->
  random_function g' = random_function g.
Proof.
  unfold Random_Model.koch_motz_directions. destruct (olet r0 := at_index rnd 0 in _).
  - destruct (reseeded_phi _ _ _ _ _ _ _ _) as [(phi & e)|]; [|discriminate]. intro X. injection X as _ <-. reflexivity.
  - intro X. injection X as _ <-. reflexivity.
  - intro X. injection X as _ <-. reflexivity.
Qed.
Lemma c84_secondaries_custom fuel m d E k t rnd (g : generator) f i a g' n : random_function g = Custom f i ->
  perform fuel (Directions m d E k t rnd) g = Some (a, g') -> numbers n g' = numbers n g.
Proof.
  intros F P. cbn in P. destruct (koch_motz_directions fuel m d E k t rnd g) as [(ds & g1)|] eqn:K; [|discriminate]. injection P as _ <-.
  apply directions_function in K. destruct g as [e s], g1 as [e1 s1]. cbn in *. subst. rewrite !numbers_custom. reflexivity.
Qed.
Lemma custom_program fuel f : forall p i (g : generator) l g', Forall keeps_generator p -> random_function g = Custom f i ->
  perform_all fuel p g = Some (l, g') -> drawn l = map f (seq i (length (drawn l))).
Proof.
  induction p as [|c p IH]; intros i g l g' K F P; cbn [Random_Spec.perform_all] in P.
  - injection P as <- _. reflexivity.
  - inversion K as [|? ? K1 K2]; subst. destruct (perform fuel c g) as [(a & g1)|] eqn:P1; [|discriminate].
    destruct (perform_all fuel p g1) as [(l1 & g2)|] eqn:P2; [|discriminate]. injection P as <- _.
    destruct c; cbn in P1, K1; try contradiction.
    + unfold Random_Model.random_double in P1. rewrite F in P1. injection P1 as <- <-. cbn. f_equal. eapply IH; [exact K2| |exact P2]. reflexivity.
    + injection P1 as <- <-. cbn. eapply IH; [exact K2| |exact P2]. exact F.
    + injection P1 as <- <-. cbn. eapply IH; [exact K2| |exact P2]. exact F.
    + destruct (koch_motz_directions _ _ _ _ _ _ _ _) as [(ds & g3)|] eqn:D; [|discriminate]. injection P1 as <- <-. cbn.
      eapply IH; [exact K2| |exact P2]. rewrite (directions_function _ _ _ _ _ _ _ _ _ _ D). exact F.
Qed.
Lemma c84_custom fuel f p (g : generator) l g' : Forall keeps_generator p -> perform_all fuel (Use f :: p) g = Some (l, g') ->
  drawn l = map f (seq 0 (length (drawn l))).
Proof.
  intros K P. cbn in P. destruct (perform_all fuel p _) as [(l1 & g1)|] eqn:P1; [|discriminate]. injection P as <- _. cbn.
  eapply custom_program; [exact K| |exact P1]. reflexivity.
Qed.
Lemma draws_custom fuel f : forall n i (e : engine),
  perform_all fuel (repeat Draw n ++ [UseDefault]) (mkgenerator e (Custom f i)) =
  Some (map Number (map f (seq i n)) ++ [Nothing], mkgenerator e DefaultRandom).
Proof. induction n as [|n IH]; intros i e; [reflexivity|]. cbn. rewrite IH. reflexivity. Qed.
Lemma c84_resumes fuel f n (g : generator) : random_function g = DefaultRandom ->
  perform_all fuel (Use f :: repeat Draw n ++ [UseDefault]) g = Some (Nothing :: map Number (map f (seq 0 n)) ++ [Nothing], g).
Proof.
  intro D. cbn. unfold set_random_number_generator. rewrite draws_custom. repeat f_equal. apply generator_eq; cbn; congruence.
Qed.

(** ** The directions are those of C38 *)
Notation stream := (stream engine uniform).
Lemma koch_motz_shift E E0 Z : forall fuel rs i j, koch_motz_phi nan fuel (fun n => rs (i + n)%nat) j E E0 Z = koch_motz_phi nan fuel rs (i + j) E E0 Z.
Proof.
  induction fuel as [|k IH]; intros rs i j; [reflexivity|]. cbn [koch_motz_phi].
  destruct (phi_candidate nan E0 (rs (i + j)%nat)); try reflexivity. destruct (koch_N nan E E0 Z); try reflexivity. cbv zeta.
  replace (i + S j)%nat with (S (i + j))%nat by lia. destruct (_ <? _); [|reflexivity].
  rewrite IH. f_equal. lia.
Qed.
Lemma reseeded_same E E0 Z : forall fuel e, option_map fst (reseeded_phi nan engine uniform fuel e E E0 Z) = koch_motz_phi nan fuel (stream e) 0 E E0 Z.
Proof.
  induction fuel as [|k IH]; intro e; [reflexivity|]. cbn [reseeded_phi koch_motz_phi].
  change (stream e 0) with (fst (uniform e)). change (stream e 1) with (fst (uniform (snd (uniform e)))).
  destruct (uniform e) as [r e1] eqn:U1. cbn [fst snd]. destruct (uniform e1) as [r' e2] eqn:U2. cbn [fst].
  destruct (phi_candidate nan E0 r) as [phi| |]; cbn [obind]; try reflexivity.
  destruct (koch_N nan E E0 Z) as [n0| |]; cbn [obind]; try reflexivity.
  destruct (_ <? _); [|reflexivity]. rewrite IH. change (koch_motz_phi nan k (stream e) 2 E E0 Z) with (koch_motz_phi nan k (stream e) (2 + 0) E E0 Z).
  rewrite <- (koch_motz_shift E E0 Z k (stream e) 2 0).
  assert (X : forall n, stream e (2 + n) = stream e2 n). { intro n. cbn. rewrite U1. cbn. rewrite U2. reflexivity. }
  clear - X. assert (Y : forall k j, koch_motz_phi nan k (stream e2) j E E0 Z = koch_motz_phi nan k (fun n => stream e (2 + n)) j E E0 Z).
  { clear k. induction k as [|k IH]; intro j; [reflexivity|]. cbn [koch_motz_phi]. rewrite !X.
    destruct (phi_candidate _ _ _); try reflexivity. destruct (koch_N _ _ _ _); try reflexivity. cbv zeta. destruct (_ <? _); [apply IH|reflexivity]. }
  apply Y.
Qed.
Lemma c84_same_directions fuel m d E k t rnd r0 (g : generator) : nth_error rnd 0 = Some r0 -> 0 <= r0 <= 1 ->
  option_map fst (koch_motz_directions fuel m d E k t rnd g) =
  brems_koch_motz nan fuel (fun r => stream (seeded (truncate (INT_MAX * r)))) m d E k t rnd.
Proof.
  intros N H. destruct (directions_shape fuel m d E k t rnd g r0 N H) as (s & _ & Es & K). rewrite K. unfold brems_koch_motz.
  replace (at_index rnd 0) with (Ok r0) by (unfold at_index; rewrite N; reflexivity). rewrite <- Es, <- reseeded_same. destruct (reseeded_phi _ _ _ _ _ _ _ _) as [(phi & e)|]; reflexivity.
Qed.

(** ** Rounds *)
Section Rounds.
Variables (fuel : nat) (m : R) (d : vec) (E k : R) (t : target).
Notation round := (round nan engine seeded uniform fuel m d E k t).
Notation after_rounds := (after_rounds nan engine seeded uniform fuel m d E k t).
Notation directions_of_round := (directions_of_round nan engine seeded uniform fuel m d E k t).
Hypothesis Unit : forall e, 0 <= fst (uniform e) <= 1.
Lemma round_default (g : generator) o g' : random_function g = DefaultRandom -> round g = Some (o, g') ->
  exists s, (0 <= s < 2147483648)%Z /\ s = truncate (INT_MAX * fst (uniform (rng g))) /\ random_function g' = DefaultRandom /\
    option_map snd (reseeded_phi nan engine uniform fuel (seeded s) ((E - k) / ME) (E / ME) (t_charge t)) = Some (rng g').
Proof.
  intros D H. unfold Random_Spec.round, Random_Model.random_double in H. rewrite D in H.
  pose proof (Unit (rng g)) as B. destruct (uniform (rng g)) as [r0 e1]. cbn [fst random_function rng] in *. destruct (uniform e1) as [r1 e2].
  destruct (directions_shape fuel m d E k t [r0; r1] g r0 eq_refl B) as (s & Hs & Es & K).
  rewrite K in H. exists s. split; [exact Hs|]. split; [exact Es|].
  destruct (reseeded_phi _ _ _ _ _ _ _ _) as [(phi & e)|]; [|discriminate]. injection H as _ <-. split; reflexivity.
Qed.
Lemma after_plus (g : generator) : forall i n, after_rounds (i + n) g = match after_rounds i g with Some g' => after_rounds n g' | None => None end.
Proof.
  intros i. revert g. induction i as [|i IH]; intros g n; [reflexivity|]. cbn [Nat.add Random_Spec.after_rounds].
  destruct (round g) as [(o & g')|]; [apply IH|reflexivity].
Qed.
Lemma after_default (g : generator) : forall n g', random_function g = DefaultRandom -> after_rounds n g = Some g' -> random_function g' = DefaultRandom.
Proof.
  intro n. revert g. induction n as [|n IH]; intros g g' D H; cbn in H; [injection H as <-; exact D|].
  destruct (round g) as [(o & g1)|] eqn:Rd; [|discriminate]. destruct (round_default _ _ _ D Rd) as (_ & _ & _ & D1 & _). eapply IH; eauto.
Qed.
Lemma c84_rounds (g : generator) : random_function g = DefaultRandom -> (forall n, after_rounds n g <> None) ->
  exists i j, (i < j)%nat /\ (Z.of_nat j <= 2147483649)%Z /\ forall n, directions_of_round (i + n) g = directions_of_round (j + n) g.
Proof.
  intros D F.
  set (state := fun n => match after_rounds n g with Some g' => g' | None => g end).
  assert (St : forall n, after_rounds n g = Some (state n)).
  { intro n. unfold state. specialize (F n). destruct (after_rounds n g); congruence. }
  assert (Sd : forall n, random_function (state n) = DefaultRandom). { intro n. eapply after_default; [exact D|apply St]. }
  set (seed := fun n => truncate (INT_MAX * fst (uniform (rng (state n))))).
  assert (Step : forall n, (0 <= seed n < 2147483648)%Z /\
    option_map snd (reseeded_phi nan engine uniform fuel (seeded (seed n)) ((E - k) / ME) (E / ME) (t_charge t)) = Some (rng (state (S n)))).
  { intro n. pose proof (St (S n)) as Q. replace (S n) with (n + 1)%nat in Q at 1 by lia. rewrite after_plus, St in Q. cbn in Q.
    destruct (round (state n)) as [(o & g1)|] eqn:Rd; [|discriminate]. injection Q as Q.
    destruct (round_default _ _ _ (Sd n) Rd) as (s & Hs & Es & _ & L). fold (seed n) in Es. subst s. rewrite <- Q. split; assumption. }
  assert (PH : exists i j, (i < j)%nat /\ (Z.of_nat j <= 2147483648)%Z /\ seed i = seed j).
  { remember (Z.to_nat 2147483648) as N eqn:EN. assert (BN : Z.of_nat N = 2147483648%Z) by (rewrite EN; apply Z2Nat.id; lia). clear EN.
    destruct (pigeonhole N (fun i => Z.to_nat (seed i))) as (i & j & Hij & Eq).
    - intros i _. destruct (Step i) as [B _]. lia.
    - exists i, j. split; [lia|]. split; [lia|]. destruct (Step i) as [B1 _]. destruct (Step j) as [B2 _]. lia. }
  destruct PH as (i & j & Hij & Bj & Eq). exists (S i), (S j). split; [lia|]. split; [lia|].
  assert (SE : state (S i) = state (S j)).
  { apply generator_eq; [|rewrite !Sd; reflexivity]. destruct (Step i) as [_ A]. destruct (Step j) as [_ B]. rewrite Eq in A. congruence. }
  intro n. unfold Random_Spec.directions_of_round. rewrite !after_plus, !St, SE. reflexivity.
Qed.
End Rounds.
End Random.
