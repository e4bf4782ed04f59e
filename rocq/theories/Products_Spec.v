(** Vocabulary of the properties of the secondaries of stochastic losses. *)
From Verif Require Import Prelude Vec_Model Propagator_Model Secondaries_Model Particle_Model Decay_Spec Shapes_Spec Products_Model.

(** All products start where and when the loss happened, with a normalised
    direction. *)
Definition emitted (l : sloss) (ps : list particle) : Prop :=
  Forall (fun p => position (p_state p) = sl_position l /\ time (p_state p) = sl_time l /\ unit (direction (p_state p))) ps.

(** The products, with the given types and masses, of a collision of a particle
    with mass [m], with the energy and direction of the loss, with an electron at
    rest: all on their mass shells, and energy and momentum are conserved. *)
Definition collision (types : list Z) (masses : list R) (m : R) (l : sloss) (ps : list particle) : Prop :=
  map p_type ps = types /\ emitted l ps /\
  Forall2 (fun m p => on_shell m (p_state p)) masses ps /\
  total_energy ps = sl_parent_energy l + ME /\
  total_momentum masses ps = scale (sqrt (sl_parent_energy l * sl_parent_energy l - m * m)) (sl_direction l).

(** The products, with the given types, of a loss, that together have energy [e]. *)
Definition energy_split (types : list Z) (l : sloss) (e : R) (ps : list particle) : Prop :=
  map p_type ps = types /\ emitted l ps /\ total_energy ps = e.
(** No product has less energy than its rest mass. *)
Definition above_masses (masses : list R) (ps : list particle) : Prop :=
  Forall2 (fun m p => m <= energy (p_state p)) masses ps.

(** What is drawn from the integral over the asymmetry of a pair lies between 0
    and the upper limit of the integral. *)
Definition draws (drawn : R -> R -> R * R) : Prop := forall rho_max r, 0 <= rho_max -> 0 <= snd (drawn rho_max r) <= rho_max.
(** Directions of the pair, for every parametrization. *)
Definition pair_directions_ok (directions : vec -> R -> R -> R -> R -> R -> outcome (vec * vec)) : Prop :=
  forall d E x r1 r2 r3, unit d -> 0 < E -> ME <= E * x -> ME <= E * (1 - x) -> 0 <= r1 <= 1 -> 0 <= r2 <= 1 -> 0 <= r3 <= 1 ->
  exists a b, directions d E x r1 r2 r3 = Ok (a, b) /\ unit a /\ unit b.
(** No undefined behaviour. *)
Definition defined {A} (o : outcome A) : Prop := forall u, o <> UB u.
(** The tables of a calculator. *)
Definition tables_defined (k : calculator) : Prop :=
  match k with
  | CPhotoPairForward t | CPhotoPairSauter t | CPhotoPairTsai t _ | CPhotoMuPair t | CWeak _ t =>
    forall c E r, defined (from_table t c E r)
  | _ => True
  end.
