(** Vocabulary of the properties of nuclear interactions with a momentum transfer. *)
From Verif Require Import Prelude Particle_Model Limits_Model Cross_Model Nuclear_Spec Transfer_Model.

(** The square of the four-momentum, with the opposite sign, that a particle with the
    mass [m] loses when its energy falls from [E] to [E'] and its direction changes by
    an angle with the cosine [u] *)
Definition momentum_transfer (m E E' u : R) : R :=
  2 * (E * E' - sqrt (E * E - m * m) * sqrt (E' * E' - m * m) * u - m * m).
(** A particle with the energy [E] that loses the share [v] can transfer [Q2]. *)
Definition possible (m E v Q2 : R) : Prop :=
  m <= E * (1 - v) /\ exists u, -1 <= u <= 1 /\ Q2 = momentum_transfer m E (E * (1 - v)) u.
(** A nucleon at rest that takes up the energy [v * E] and [Q2] has, in its own frame,
    the energy of a nucleon and a pion. *)
Definition inelastic (c : component) (E v Q2 : R) : Prop :=
  (mean_nucleon c + MPI) ^ 2 <= mean_nucleon c ^ 2 + 2 * mean_nucleon c * (v * E) - Q2.
(** Hydrogen, or at least as heavy as helium *)
Definition real_nucleus (c : component) : Prop := c_charge c = 1 \/ (c_charge c <> 1 /\ 7 / 2 <= c_atomic c).
(** The parametrizations for particles with the spin 1/2 with the structure function of
    Abramowicz, Levin, Levy and Maor *)
Definition of_abramowicz (t : transfer_kind) : Prop :=
  t = AbramowiczLevinLevyMaor91 \/ t = AbramowiczLevinLevyMaor97 \/ t = AbtFT.
