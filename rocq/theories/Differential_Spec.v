(** Vocabulary of the properties of differential cross sections. *)
From Verif Require Import Prelude Particle_Model Limits_Model Cross_Model Photo_Model.

(** Within the kinematic limits a differential cross section is a number, and not
    negative.  The lower limit is left out, because the cross sections of
    bremsstrahlung and ionization are infinite for a loss of zero. *)
Definition never_negative (lim : limits) (sigma : R -> outcome R) : Prop :=
  forall v, v_min lim < v <= v_max lim -> exists x, sigma v = Ok x /\ 0 <= x.
(** The charge and the mass number of an element *)
Definition element (c : component) : Prop := 1 <= c_charge c <= 100 /\ c_charge c <= c_atomic c <= 3 * c_charge c.
(** An electron or a particle that is much heavier *)
Definition lepton (mass : R) : Prop := mass = ME \/ 50 * ME <= mass.

(** Compton scattering of a photon with the energy [E] on an electron at rest: the
    cosine of the angle by which it is deflected when it loses the share [v] of its
    energy ... *)
Definition compton_angle (E v : R) : R := 1 - ME / E * (1 / (1 - v) - 1).
(** ... and the cross section of Klein and Nishina per gram, with r = (1 - v) the
    ratio of the energies after and before *)
Definition klein_nishina_formula (c : component) (E v : R) : R :=
  let r := 1 - v in
  let sin2 := 1 - compton_angle E v ^ 2 in
  NA * c_charge c / c_atomic c * (PI * RE ^ 2 * ME / E) * (1 / r + r - sin2).

(** Heitler: the distribution of the share [r] of the total energy that one of the two
    photons of an annihilation carries, and its limits *)
Definition annihilation_density (g r : R) : R := 1 / r * (1 + 2 * g / (g + 1) ^ 2 - r - 1 / ((g + 1) ^ 2 * r)).
Definition annihilation_limit (g : R) : R := sqrt ((g - 1) / (g + 1)).
