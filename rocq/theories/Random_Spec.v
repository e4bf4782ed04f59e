(** Vocabulary of the properties of the random number generator. *)
From Verif Require Import Prelude Vec_Model Products_Model Random_Model.

Section Programs.
Variable nan : forall A, outcome A.
Variables (engine text : Type) (seeded : Z -> engine) (uniform : engine -> R * engine)
  (write : engine -> text) (read : text -> engine -> engine).
Notation generator := (generator engine).

(** What a program does with the generator of the library: it draws a number,
    sets the seed, restores a saved state, sets a generator, goes back to the
    default one, or asks for the directions after a bremsstrahlung loss. *)
Inductive call :=
| Draw
| Seed (s : Z)
| Restore (t : text)
| Use (f : nat -> R)
| UseDefault
| Directions (mass : R) (d : vec) (energy photon : R) (c : target) (rnd : list R).
(** What it gets back. *)
Inductive answer :=
| Number (r : R)
| Nothing
| Emitted (ds : outcome (vec * vec)).
(** The outcome of one call and of a program; [fuel] bounds the rejection loop. *)
Definition perform (fuel : nat) (c : call) (g : generator) : option (answer * generator) :=
  match c with
  | Draw => let (r, g') := random_double _ uniform g in Some (Number r, g')
  | Seed s => Some (Nothing, set_seed _ seeded s g)
  | Restore t => Some (Nothing, deserialize _ _ read t g)
  | Use f => Some (Nothing, set_random_number_generator _ f g)
  | UseDefault => Some (Nothing, set_default _ g)
  | Directions m d E k t rnd =>
    match koch_motz_directions nan _ seeded uniform fuel m d E k t rnd g with
    | Some (ds, g') => Some (Emitted ds, g')
    | None => None
    end
  end.
Fixpoint perform_all (fuel : nat) (p : list call) (g : generator) : option (list answer * generator) :=
  match p with
  | [] => Some ([], g)
  | c :: p =>
    match perform fuel c g with
    | Some (a, g') => match perform_all fuel p g' with Some (l, g'') => Some (a :: l, g'') | None => None end
    | None => None
    end
  end.
(** The next [n] numbers of a generator. *)
Fixpoint numbers (n : nat) (g : generator) : list R :=
  match n with
  | O => []
  | S k => let (r, g') := random_double _ uniform g in r :: numbers k g'
  end.
(** The numbers that follow a state of the engine. *)
Fixpoint stream (e : engine) (i : nat) : R :=
  match i with O => fst (uniform e) | S i => stream (snd (uniform e)) i end.
(** The numbers among the answers. *)
Fixpoint drawn (l : list answer) : list R :=
  match l with
  | [] => []
  | Number r :: l => r :: drawn l
  | _ :: l => drawn l
  end.
(** A call that does not choose another generator. *)
Definition keeps_generator (c : call) : Prop := match c with Use _ | UseDefault => False | _ => True end.

(** A program that draws two numbers, has the directions after a loss calculated
    with them and starts again: the generator after [k] rounds, and the directions
    of the next round. *)
Section Rounds.
Variables (fuel : nat) (m : R) (d : vec) (E k : R) (t : target).
Definition round (g : generator) : option (outcome (vec * vec) * generator) :=
  let (r0, g1) := random_double _ uniform g in
  let (r1, g2) := random_double _ uniform g1 in
  koch_motz_directions nan _ seeded uniform fuel m d E k t [r0; r1] g2.
Fixpoint after_rounds (n : nat) (g : generator) : option generator :=
  match n with
  | O => Some g
  | S n => match round g with Some (_, g') => after_rounds n g' | None => None end
  end.
Definition directions_of_round (n : nat) (g : generator) : option (outcome (vec * vec)) :=
  match after_rounds n g with
  | Some g' => match round g' with Some (ds, _) => Some ds | None => None end
  | None => None
  end.
End Rounds.
End Programs.
Arguments Draw {text}. Arguments Seed {text}. Arguments Restore {text}. Arguments Use {text}. Arguments UseDefault {text}. Arguments Directions {text}.
Arguments keeps_generator {text}.
