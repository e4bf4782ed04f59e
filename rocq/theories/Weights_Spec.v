(** Vocabulary of C86. *)
From Verif Require Import Prelude Vec_Model Propagator_Model Particle_Model Decay_Model Decay_Spec Weights_Model.

(** The weights of events one after the other, each from the products of the one
    before and the next [step] random numbers. *)
Inductive successive (event : nat -> list particle -> outcome (R * list particle)) (step : nat) : nat -> list particle -> list R -> Prop :=
| successive_none k ps : successive event step k ps []
| successive_one k ps w ps' ws : event k ps = Ok (w, ps') -> successive event step (k + step) ps' ws -> successive event step k ps (w :: ws).

(** What a channel remembers after any number of decays of any particles. *)
Inductive remembered (nan : forall A, outcome A) (reg : registry) (daughters : list pdef) (statistic : Z)
  (element : option (pstate -> list particle -> R)) : list (pdef * params) -> Prop :=
| remembered_nothing : remembered nan reg daughters statistic element []
| remembered_more cache parent rnd k par cache' k' : remembered nan reg daughters statistic element cache ->
    get_params nan reg daughters statistic element cache parent rnd k = Ok (par, cache', k') ->
    remembered nan reg daughters statistic element cache'.

(** Sampling by rejection between two limits: an event of weight [w] is accepted
    with the probability (w - [least]) / ([most] - [least]). *)
Inductive accepted_between (event : nat -> list particle -> outcome (R * list particle)) (step : nat) (rnd : nat -> R) (least most : R) :
  nat -> list particle -> list particle -> Prop :=
| between_now k ps w out : event k ps = Ok (w, out) -> rnd (k + step)%nat * (most - least) <= w - least ->
    accepted_between event step rnd least most k ps out
| between_later k ps w ps' out : event k ps = Ok (w, ps') -> w - least < rnd (k + step)%nat * (most - least) ->
    accepted_between event step rnd least most (k + step + 1) ps' out -> accepted_between event step rnd least most k ps out.

(** What of a product does not depend on the place and time of the decay. *)
Definition seen (p : particle) : Z * R * vec := (p_type p, energy (p_state p), direction (p_state p)).

(** The product of the four-momenta of a parent of mass [M] and of all its products. *)
Definition invariant (M : R) (ms : list R) (c : pstate) (ps : list particle) : R :=
  energy c * total_energy ps - dot (momentum_vec M c) (total_momentum ms ps).
(** The energy that a product of mass [m] has in the rest frame of a parent of mass
    [M] in state [c]. *)
Definition rest_energy (M m : R) (c : pstate) (p : particle) : R :=
  (energy c * energy (p_state p) - dot (momentum_vec M c) (momentum_vec m (p_state p))) / M.
Fixpoint rest_energies (M : R) (ms : list R) (c : pstate) (ps : list particle) : list R :=
  match ms, ps with
  | m :: ms, p :: ps => rest_energy M m c p :: rest_energies M ms c ps
  | _, _ => []
  end.
