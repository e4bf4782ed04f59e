(** Vocabulary of the decay properties: energy and momentum of a particle with a
    given mass, and their totals. *)
From Verif Require Import Prelude Vec_Model Propagator_Model Particle_Model Particle_Spec Shapes_Spec Decay_Model.

(** A physical state of a particle with mass [m]. *)
Definition on_shell (m : R) (s : pstate) : Prop := 0 <= m <= energy s /\ unit (direction s).
(** Its momentum. *)
Definition momentum_vec (m : R) (s : pstate) : vec := scale (sqrt (energy s * energy s - m * m)) (direction s).

Definition total_energy (ps : list particle) : R := fold_right (fun p e => energy (p_state p) + e) 0 ps.
Fixpoint total_momentum (ms : list R) (ps : list particle) : vec :=
  match ms, ps with
  | m :: ms, p :: ps => vadd (momentum_vec m (p_state p)) (total_momentum ms ps)
  | _, _ => mkvec 0 0 0
  end.

(** What the products of a decay into [daughters] of a particle with mass [M] in
    state [c] have to be. *)
Definition decay_products (daughters : list pdef) (M : R) (c : pstate) (ps : list particle) : Prop :=
  map p_type ps = map pd_type daughters /\
  Forall (fun p => position (p_state p) = position c /\ time (p_state p) = time c) ps /\
  Forall2 (fun d p => on_shell (pd_mass d) (p_state p)) daughters ps /\
  total_energy ps = energy c /\
  total_momentum (map pd_mass daughters) ps = momentum_vec M c.

(** No value stands for NaN. *)
Definition not_a_value (nan : forall A, outcome A) : Prop := forall A (a : A), nan A <> Ok a.

(** The sum of a list of masses. *)
Definition mass_sum (ms : list R) : R := fold_right Rplus 0 ms.

(** The energy of one product of a two-body decay in the rest frame of the
    parent; [a] is its mass, [b] the mass of the other one. *)
Definition rest_energy (M a b : R) : R := (M * M + a * a - b * b) / (2 * M).

(** The products of a channel. *)
Definition daughters_of (ch : channel) : list pdef :=
  match ch with
  | StableChannel => []
  | TwoBody a b => [a; b]
  | ManyBody ds _ _ _ => ds
  | LeptonicApprox l nu anti | Leptonic l nu anti => [l; nu; anti]
  end.
(** A channel through which a particle with mass [M] can decay: the products are
    known and light enough.  A leptonic channel has two massless neutrinos and a
    lepton that is light compared to [M]. *)
Definition open_channel (reg : registry) (M : R) (ch : channel) : Prop :=
  Forall (registered reg) (daughters_of ch) /\ Forall (fun d => 0 <= pd_mass d) (daughters_of ch) /\
  mass_sum (map pd_mass (daughters_of ch)) <= M /\
  match ch with
  | StableChannel => False
  | TwoBody _ _ => True
  | ManyBody ds _ _ _ => (2 <= length ds)%nat
  | LeptonicApprox l nu anti | Leptonic l nu anti =>
    pd_mass nu = 0 /\ pd_mass anti = 0 /\ 0 < pd_mass l < M /\ 4 * pd_mass l * M <= M * M + pd_mass l * pd_mass l
  end.
Definition total_charge (ds : list pdef) : R := fold_right (fun d s => pd_charge d + s) 0 ds.

(** NaN marked by an exception of its own. *)
Definition marked : forall A, outcome A := fun A => Throw bad_function_call.
(** A value or NaN *)
Definition fine {A} (x : outcome A) : Prop := (exists a, x = Ok a) \/ x = marked A.

(** Sampling by rejection.  [event k ps] makes an event, with its weight, from the
    random numbers from the [k]th on; the event after the [step]th of them is
    accepted with the probability weight / [most]. *)
Inductive accepted (event : nat -> list particle -> outcome (R * list particle)) (step : nat) (rnd : nat -> R) (most : R) :
  nat -> list particle -> list particle -> Prop :=
| accepted_now k ps w out : event k ps = Ok (w, out) -> rnd (k + step)%nat * most <= w -> accepted event step rnd most k ps out
| accepted_later k ps w ps' out : event k ps = Ok (w, ps') -> w < rnd (k + step)%nat * most ->
    accepted event step rnd most (k + step + 1) ps' out -> accepted event step rnd most k ps out.
(** An event of a many-body decay with its weight *)
Definition weighted_event (nan : forall A, outcome A) (reg : registry) (daughters : list pdef) (par : params) (element : pstate -> list particle -> R)
  (parent : pdef) (c : pstate) (rnd : nat -> R) (k : nat) (ps : list particle) : outcome (R * list particle) :=
  olet x := one_event nan reg daughters par parent rnd k ps in Ok (k_weight (fst x) * element c (snd x), snd x).
