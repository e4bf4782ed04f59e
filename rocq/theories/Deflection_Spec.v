(** Vocabulary of the properties of deflections. *)
From Verif Require Import Prelude Particle_Model Limits_Model Propagator_Model Deflection_Model.

(** A direction: angle to the axis and angle around it *)
Definition proper (a : R * R) : Prop := 0 <= fst a <= PI /\ 0 <= snd a < 2 * PI.
(** The share of photons below the angle at which the particle is deflected by
    [theta], for the spectrum of angles u du / (1 + u^2)^2, u = angle * e_i / m *)
Definition tsai_share (m e_i e_f theta : R) : R :=
  let u := theta * (e_f / (e_i - e_f)) * (e_i / m) in u ^ 2 / (1 + u ^ 2).
(** A squared momentum *)
Definition momentum2 (m E : R) : R := E ^ 2 - m ^ 2.
(** A particle of mass [m] that goes from [e_i] to [e_f] under the angle [theta]
    leaves its energy and its momentum to an electron at rest. *)
Definition hits_electron (m e_i e_f theta : R) : Prop :=
  momentum2 ME (e_i - e_f + ME)
  = momentum2 m e_i + momentum2 m e_f - 2 * sqrt (momentum2 m e_i) * sqrt (momentum2 m e_f) * cos theta.
(** A squared momentum transfer in the approximation of the parametrization, and
    its limits *)
Definition least_transfer (m e_i e_f : R) : R := m ^ 2 * (e_i - e_f) ^ 2 / (e_i * e_f).
Definition transfer (m e_i e_f theta : R) : R :=
  least_transfer m e_i e_f + (4 * (e_i * e_f - m ^ 2) - 2 * least_transfer m e_i e_f) * sin (theta / 2) ^ 2.
(** The share of angles below [theta] if the squares of the angles are
    distributed exponentially with the mean [rms ^ 2] *)
Definition share_below (rms theta : R) : R := 1 - exp (- (theta / rms) ^ 2).
(** A result with this distribution and a uniform angle around the axis *)
Definition sampled_angle (result : outcome (R * R)) (mean r0 r1 : R) : Prop := exists theta, result = Ok (theta, 2 * PI * r1) /\ 0 <= theta /\
  (mean = 0 -> theta = 0) /\ (mean <> 0 -> share_below mean theta = r0).
(** The mean angles of A. Van Ginneken's parametrizations, energies in GeV;
    [nu] is the lost part of the kinetic energy. *)
Definition lost_part (m e_i e_f : R) : R := (e_i - e_f) / (e_i - m).
Definition epair_mean (E nu : R) : R :=
  (23 / 10 + ln E) / (1 - nu) / E * ((nu - 2 * (ME / 1000) / E) / nu) ^ 2
  * Rmin (89 / 100000 * Rpower nu (1 / 4) * (1 + 15 / 1000000 * E) + 32 / 1000 * (nu / (nu + 1))) (1 / 10).
Definition photo_mean (E nu : R) : R :=
  39 / 100 / (E * (1 - nu)) * Rpower (sqrt E * nu * (1 - nu)) (17 / 100) * (1 - 135 / 1000 / (E * nu)).
Definition brems_mean_low (E nu Z : R) : R :=
  Rmax (Rmin (92 / 1000 * Rpower E (- (1 / 3)) * sqrt nu) (52 / 1000 / E * Rpower Z (- (1 / 4)))) (22 / 100 * Rpower E (- (92 / 100)) * nu).
Definition brems_exponent (E : R) : R := 81 / 100 * sqrt E / (sqrt E + 18 / 10).
Definition brems_mean_high (E nu : R) : R :=
  26 / 100 * Rpower E (- (91 / 100)) * Rpower nu (1 + brems_exponent E) * Rpower (1 - nu) (- brems_exponent E).

(** The last calculator for a type *)
Definition last_for (ds : list deflector) (t : itype) (d : deflector) : Prop :=
  exists before after, ds = before ++ d :: after /\ type_of d = t /\ forall d', In d' after -> type_of d' <> t.
(** The first factor for a type, one if there is none *)
Inductive factor_for : list (itype * R) -> itype -> R -> Prop :=
| factor_none t : factor_for [] t 1
| factor_here t k l : factor_for ((t, k) :: l) t k
| factor_there t t' k k' l : t' <> t -> factor_for l t k -> factor_for ((t', k') :: l) t k.
(** The integral of the spectrum of transfers dt / (t (1 + t / t_1)) from [t] to the
    largest transfer *)
Definition most_transfer (e_i e_f : R) : R := 2 * MP * (e_i - e_f).
Definition borog_above (e_i e_f t : R) : R :=
  let t_1 := Rmin ((e_i - e_f) ^ 2) ((sqrt (4 / 10) * 1000) ^ 2) in
  ln (most_transfer e_i e_f * (t + t_1) / (t * (most_transfer e_i e_f + t_1))).
(** The behaviour is defined. *)
Definition defined {A} (x : outcome A) : Prop := forall u, x <> UB u.
