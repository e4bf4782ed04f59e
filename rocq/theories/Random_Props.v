(** Property C84: random numbers. *)
From Verif Require Import Prelude Vec_Model Secondaries_Model Particle_Model Products_Model Random_Model Random_Spec Random_Proofs Random_Examples.

(** A program that sets the seed first sees the same numbers and the same
    directions of secondaries whenever it is run, whatever the generator did
    before. *)
Theorem C84_reproducible : forall nan engine text seeded uniform read fuel (p : list (call text)) s (g1 g2 : generator engine),
  random_function g1 = DefaultRandom -> random_function g2 = DefaultRandom ->
  option_map fst (perform_all nan engine text seeded uniform read fuel (Seed s :: p) g1) =
  option_map fst (perform_all nan engine text seeded uniform read fuel (Seed s :: p) g2).
Proof. exact c84_reproducible. Qed.
Print Assumptions C84_reproducible.

(** The numbers it draws are those of the engine with this seed. *)
Theorem C84_seeded : forall nan engine text seeded uniform read fuel n s (g : generator engine), random_function g = DefaultRandom ->
  option_map fst (perform_all nan engine text seeded uniform read fuel (Seed s :: repeat Draw n) g) =
  Some (Nothing :: map Number (map (stream engine uniform (seeded s)) (seq 0 n))).
Proof. exact c84_seeded. Qed.
Print Assumptions C84_seeded.

(** A saved state can be restored after any program. *)
Theorem C84_restored : forall nan engine text seeded uniform write read fuel p (g : generator engine) l g',
  (forall e e', read (write e) e' = e) -> random_function g = DefaultRandom ->
  perform_all nan engine text seeded uniform read fuel p g = Some (l, g') ->
  perform_all nan engine text seeded uniform read fuel [Restore (serialize engine text write g); UseDefault] g' = Some ([Nothing; Nothing], g).
Proof. exact c84_restored. Qed.
Print Assumptions C84_restored.

(** A generator of the user gives all numbers until another one is chosen, in
    order and without gaps, whatever else happens to the generator. *)
Theorem C84_custom : forall nan engine text seeded uniform read fuel f p (g : generator engine) l g',
  Forall (@keeps_generator text) p -> perform_all nan engine text seeded uniform read fuel (Use f :: p) g = Some (l, g') ->
  drawn l = map f (seq 0 (length (drawn l))).
Proof. exact c84_custom. Qed.
Print Assumptions C84_custom.
(** After it the default generator goes on where it was left. *)
Theorem C84_resumes : forall nan engine text seeded uniform read fuel f n (g : generator engine), random_function g = DefaultRandom ->
  perform_all nan engine text seeded uniform read fuel (Use f :: repeat Draw n ++ [UseDefault]) g =
  Some (Nothing :: map Number (map f (seq 0 n)) ++ [Nothing], g).
Proof. exact c84_resumes. Qed.
Print Assumptions C84_resumes.

(** The directions of Koch and Motz disturb the default generator: what follows
    them depends on the random number they were given only ... *)
Theorem C84_secondaries_reseed : forall nan engine text seeded uniform read fuel m d E k t rnd r0 (g1 g2 : generator engine) a g1' n,
  nth_error rnd 0 = Some r0 -> 0 <= r0 <= 1 -> random_function g1 = DefaultRandom -> random_function g2 = DefaultRandom ->
  perform nan engine text seeded uniform read fuel (Directions m d E k t rnd) g1 = Some (a, g1') ->
  exists g2', perform nan engine text seeded uniform read fuel (Directions m d E k t rnd) g2 = Some (a, g2') /\
    numbers engine uniform n g2' = numbers engine uniform n g1'.
Proof. exact c84_reseeded. Qed.
Print Assumptions C84_secondaries_reseed.
(** ... so that for some seed the program does not get its next number. *)
Theorem C84_secondaries_refuted : forall nan engine text seeded uniform read fuel m d E k t rnd r0 s1 s2,
  nth_error rnd 0 = Some r0 -> 0 <= r0 <= 1 -> fst (uniform (seeded s1)) <> fst (uniform (seeded s2)) ->
  (forall g : generator engine, perform nan engine text seeded uniform read fuel (Directions m d E k t rnd) g <> None) ->
  exists s a g', let g := mkgenerator (seeded s) DefaultRandom in
    perform nan engine text seeded uniform read fuel (Directions m d E k t rnd) g = Some (a, g') /\
    numbers engine uniform 1 g' <> numbers engine uniform 1 g.
Proof. exact c84_secondaries_refuted. Qed.
Print Assumptions C84_secondaries_refuted.
(** A program that takes the numbers for them from the default generator runs into
    a cycle: no more than 2^31 + 1 different pairs of directions. *)
Theorem C84_secondaries_cycle : forall nan engine seeded uniform fuel m d E k t, (forall e, 0 <= fst (uniform e) <= 1) ->
  forall g : generator engine, random_function g = DefaultRandom ->
  (forall n, after_rounds nan engine seeded uniform fuel m d E k t n g <> None) ->
  exists i j, (i < j)%nat /\ (Z.of_nat j <= 2 ^ 31 + 1)%Z /\
    forall n, directions_of_round nan engine seeded uniform fuel m d E k t (i + n) g = directions_of_round nan engine seeded uniform fuel m d E k t (j + n) g.
Proof. exact c84_rounds. Qed.
Print Assumptions C84_secondaries_cycle.
(** Generators of the user are not disturbed, and the directions are those of C38. *)
Theorem C84_secondaries_custom : forall nan engine text seeded uniform read fuel m d E k t rnd (g : generator engine) f i a g' n,
  random_function g = Custom f i -> perform nan engine text seeded uniform read fuel (Directions m d E k t rnd) g = Some (a, g') ->
  numbers engine uniform n g' = numbers engine uniform n g.
Proof. exact c84_secondaries_custom. Qed.
Print Assumptions C84_secondaries_custom.
Theorem C84_same_directions : forall nan engine seeded uniform fuel m d E k t rnd r0 (g : generator engine),
  nth_error rnd 0 = Some r0 -> 0 <= r0 <= 1 ->
  option_map fst (koch_motz_directions nan engine seeded uniform fuel m d E k t rnd g) =
  brems_koch_motz nan fuel (fun r => stream engine uniform (seeded (truncate (INT_MAX * r)))) m d E k t rnd.
Proof. exact c84_same_directions. Qed.
Print Assumptions C84_same_directions.

(** An electron with the energy 2 ME loses half of it. *)
Example C84_example : forall nan,
  (forall e e', toy_read (toy_write e) e' = e) /\ (forall e, 0 <= fst (toy_uniform e) <= 1) /\
  fst (toy_uniform (toy_seeded 0)) <> fst (toy_uniform (toy_seeded 1)) /\
  (forall g, perform nan Z Z toy_seeded toy_uniform toy_read 1 toy_directions g <> None) /\
  (forall n, after_rounds nan Z toy_seeded toy_uniform 1 ME (mkvec 1 0 0) (2 * ME) ME hydrogen_target n (mkgenerator 0%Z DefaultRandom) <> None).
Proof.
  intro nan. split; [reflexivity|]. split.
  - intro e. unfold toy_uniform. cbn. destruct (e =? 0)%Z; lra.
  - split; [cbn; lra|]. split; [intro; apply toy_performs|intro; apply toy_rounds].
Qed.
