(** Vocabulary of the properties of pair production by photons. *)
From Verif Require Import Prelude Particle_Model Limits_Model Cross_Model Photo_Model.

(** Within the kinematic limits the cross section does not change when the two
    particles of the pair exchange their shares of the energy. *)
Definition exchangeable (lim : limits) (sigma : R -> outcome R) : Prop :=
  forall x, v_min lim <= x <= v_max lim -> sigma (1 - x) = sigma x.
(** The limits themselves are exchanged by it. *)
Definition exchangeable_limits (lim : limits) : Prop := v_min lim + v_max lim = 1.
