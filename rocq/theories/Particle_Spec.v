(** Vocabulary of the properties about particle definitions and states. *)
From Coq Require Import String.
From Verif Require Import Prelude Vec_Model Propagator_Model Particle_Model Shapes_Spec.

(** The definitions a program constructs, in order. *)
Fixpoint constructed (ops : list registry_op) : list pdef :=
  match ops with
  | [] => []
  | Construct d :: ops => d :: constructed ops
  | Lookup _ :: ops => constructed ops
  end.
(** The first definition with a type: the predefined particles come before
    everything the program constructs. *)
Definition first_definition (ops : list registry_op) (t : Z) : option pdef :=
  find (fun d => (pd_type d =? t)%Z) (standard_particles ++ constructed ops).

(** Everything a definition says, except for what the decay channels are. *)
Definition plain_data (d : pdef) :=
  match d with
  | PDef name mass low lifetime charge table decays ptype weak =>
    (name, mass, low, lifetime, charge, table, map fst decays, ptype, weak)
  end.

(** A definition is registered with its mass. *)
Definition registered (reg : registry) (d : pdef) : Prop :=
  exists d', lookup reg (pd_type d) = Some d' /\ pd_mass d' = pd_mass d.

(** The sum of branching ratios. *)
Definition total_branching {A} (l : list (R * A)) : R := fold_right (fun x s => fst x + s) 0 l.
(** [c] is what [select] answers for a share [share] of the numbers in [0, 1). *)
Definition selected_with_share (select : R -> outcome channel) (c : channel) (share : R) : Prop :=
  exists a, 0 <= a /\ a + share <= 1 /\ forall r, a <= r < a + share -> select r = Ok c.
