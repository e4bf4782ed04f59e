(** The random number generator of the library and the secondaries that reseed it. *)
From Verif Require Import Prelude Vec_Model Secondaries_Model Particle_Model Products_Model.

Section Random.
Variable nan : forall A, outcome A.
(** std::mt19937: its states, seed(s), and one value of
    std::uniform_real_distribution<double>(0, 1) with the state after it;
    [write] and [read] are its operators << and >>.  The distribution has no
    state of its own.  These are functions of the C++ library; they stay open. *)
Variables (engine text : Type) (seeded : Z -> engine) (uniform : engine -> R * engine)
  (write : engine -> text) (read : text -> engine -> engine).

(** RandomGenerator::random_function, RandomGenerator.h:107: DefaultRandomDouble
    or a copy of a function of the user, whose i-th call gives [f i].
    Simplification: the user's function shares no state with the rest of the
    program and is not empty. *)
Inductive source :=
| DefaultRandom
| Custom (f : nat -> R) (calls : nat).
(** The static member rng_ (RandomGenerator.cxx:14, RandomGenerator.h:105), which
    all objects of the class share, and random_function of the object that
    Get() returns (RandomGenerator.h:52-56).  ICECUBE_PROJECT is not defined. *)
Record generator := mkgenerator { rng : engine; random_function : source }.

(** RandomDouble and DefaultRandomDouble, RandomGenerator.cxx:37-51, 86-90 *)
Definition random_double (g : generator) : R * generator :=
  match random_function g with
  | DefaultRandom => let (r, e) := uniform (rng g) in (r, mkgenerator e DefaultRandom)
  | Custom f n => (f n, mkgenerator (rng g) (Custom f (S n)))
  end.
(** SetSeed, Serialize, Deserialize, RandomGenerator.cxx:54-69 *)
Definition set_seed (s : Z) (g : generator) : generator := mkgenerator (seeded s) (random_function g).
Definition serialize (g : generator) : text := write (rng g).
Definition deserialize (t : text) (g : generator) : generator := mkgenerator (read t (rng g)) (random_function g).
(** SetRandomNumberGenerator, SetDefaultRandomNumberGenerator, RandomGenerator.cxx:72-84 *)
Definition set_random_number_generator (f : nat -> R) (g : generator) : generator := mkgenerator (rng g) (Custom f 0).
Definition set_default (g : generator) : generator := mkgenerator (rng g) DefaultRandom.

(** Conversion of a double to int: towards zero; a value that int cannot hold is
    undefined behaviour. *)
Definition to_int (x : R) : outcome Z :=
  let z := truncate x in
  if ((- 2 ^ 31 <=? z) && (z <? 2 ^ 31))%Z then Ok z else UB bad_conversion.
(** std::numeric_limits<int>::max() *)
Definition INT_MAX : R := 2147483647.
(** The rejection loop, BremsKochMotz.cxx:46-51, on the static engine: the object
    [internal_rnd_generator] has its own random_function, DefaultRandomDouble, but
    not its own engine.  [None] is out of fuel. *)
Fixpoint reseeded_phi (fuel : nat) (e : engine) (E E0 Z : R) : option (outcome R * engine) :=
  match fuel with
  | O => None
  | S k =>
    let (r, e1) := uniform e in
    let (r', e2) := uniform e1 in
    match (olet phi := phi_candidate nan E0 r in
           olet n := koch_N nan E E0 Z in
           Ok (phi, n * koch_g ((E0 * phi) ^ 2) E E0 Z)) with
    | Ok (phi, g_max) => if g_max <? r' then reseeded_phi k e2 E E0 Z else Some (Ok phi, e2)
    | Throw x => Some (Throw x, e2)
    | UB u => Some (UB u, e2)
    end
  end.
(** BremsKochMotz::CalculateDirections, BremsKochMotz.cxx:34-64, with the
    generator of the library before and after it. *)
Definition koch_motz_directions (fuel : nat) (mass : R) (d : vec) (energy photon : R) (c : target) (rnd : list R) (g : generator)
    : option (outcome (vec * vec) * generator) :=
  match (olet r0 := at_index rnd 0 in to_int (INT_MAX * r0)) with
  | Ok s =>
    match reseeded_phi fuel (seeded s) ((energy - photon) / ME) (energy / ME) (t_charge c) with
    | None => None
    | Some (phi, e) =>
      Some (olet phi := phi in olet r1 := at_index rnd 1 in recoil nan mass d energy photon (cos phi) (r1 * 2 * PI),
            mkgenerator e (random_function g))
    end
  | Throw x => Some (Throw x, g)
  | UB u => Some (UB u, g)
  end.
End Random.
Arguments mkgenerator {engine}. Arguments rng {engine}. Arguments random_function {engine}.
