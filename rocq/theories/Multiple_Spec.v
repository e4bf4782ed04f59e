(** Vocabulary of the properties of multiple scattering. *)
From Coq Require Import String.
From Verif Require Import Prelude Particle_Model Limits_Model Vec_Model Cross_Model Photo_Model Integral_Model Utility_Model Multiple_Model.
Notation length := List.length.

(** The same scattering to the opposite side *)
Definition mirror (o : offset) : offset := mkoffset (- o_sx o) (- o_sy o) (- o_tx o) (- o_ty o).

(** Highland's width of the projected angle in the form of Lynch and Dahl: charge
    [z], mass [m], energy [E], [y] radiation lengths *)
Definition highland_width (z m E y : R) : R :=
  136 / 10 * Rabs z * (E / (E ^ 2 - m ^ 2)) * sqrt y * (1 + 88 / 1000 * (ln y / ln 10)).
(** The width from the integral [I] of the squared E / p^2 *)
Definition integrated_width (z I X0 y : R) : R :=
  136 / 10 * Rabs z * sqrt (I / X0) * (1 + 38 / 1000 * ln y).

(** A medium of components with positive charge, mass and number of atoms *)
Definition proper_component (c : component) : Prop := 0 < c_charge c /\ 0 < c_atomic c /\ 0 < c_atoms c.
Definition proper_medium (m : medium) : Prop := m_components m <> [] /\ Forall proper_component (m_components m).
Fixpoint total (f : component -> R) (cs : list component) : R :=
  match cs with [] => 0 | c :: cs => f c + total f cs end.
(** The share of a component in the mass *)
Definition mass_share (cs : list component) (c : component) : R :=
  c_atoms c * c_atomic c / total (fun c => c_atoms c * c_atomic c) cs.
(** The means of Z^2 (of Z (Z + 1) for electrons) and of A over the mass *)
Definition mean_ZZ (mass : R) (cs : list component) : R :=
  total (fun c => mass_share cs c * (c_charge c * (c_charge c + (if Req_EM_T mass ME then 1 else 0)))) cs.
Definition mean_A (cs : list component) : R := total (fun c => mass_share cs c * c_atomic c) cs.
(** Moliere's squared screening angle for a charge [Z] and his squared
    characteristic angle for the thickness [grammage] *)
Definition screening_angle2 (m E Z : R) : R :=
  (ME * ALPHA * Rpower (Z * 128 / (9 * PI * PI)) (1 / 3)) ^ 2 / (E ^ 2 - m ^ 2)
  * (113 / 100 + 376 / 100 * (ALPHA * Z) ^ 2 * (E ^ 2 / (E ^ 2 - m ^ 2))).
Definition characteristic_angle2 (m E grammage : R) (cs : list component) : R :=
  4 * PI * NA * (ALPHA * HBAR * SPEED) ^ 2 * grammage * (E / (E ^ 2 - m ^ 2)) ^ 2 * (mean_ZZ m cs / mean_A cs).
(** The right-hand side of Moliere's equation B - ln B = b *)
Definition moliere_b (m E grammage : R) (cs : list component) (Z : R) : R :=
  ln (characteristic_angle2 m E grammage cs / screening_angle2 m E Z) + 1 - 2 * EULER_MASCHERONI.
Definition moliere_root (b B : R) : Prop := 1 <= B /\ B - ln B = b.

(** The states of a Moliere object after some calls *)
Inductive used nan (s0 : moliere) : moliere -> Prop :=
| used_new : used nan s0 s0
| used_again s E grammage p s' : used nan s0 s -> prefactor nan s E grammage = Ok (p, s') -> used nan s0 s'.
(** What a function of an object returns, without the changed object *)
Definition returned {A S} (x : outcome (A * S)) : outcome A :=
  match x with Ok (a, _) => Ok a | Throw e => Throw e | UB u => UB u end.
(** The position of the largest entry *)
Definition largest (l : list R) (i : nat) : Prop := exists x, nth_error l i = Some x /\ Forall (fun y => y <= x) l.

(** One step of Newton's iteration for the angle below which the share [target] of
    the distribution lies *)
Definition angle_step nan t s (target a b : R) : Prop := exists y d, angle_share nan t s a = Ok y /\ angle_density nan t s a = Ok d /\
  d <> 0 /\ b = a - (y - target) / d.
(** The positions of the iteration: each is one step after the one before, and all
    but the last steps change the angle by more than a part in ten thousand. *)
Definition small_change (a b : R) : Prop := Rabs (a - b) <= Rabs b / 10 ^ 4.
Inductive iteration nan t s (target : R) : nat -> R -> R -> R -> Prop :=
| iteration_last a b : angle_step nan t s target a b -> iteration nan t s target 1 a a b
| iteration_more n a b y z : angle_step nan t s target a b -> ~ small_change a b -> iteration nan t s target n b y z ->
    iteration nan t s target (S n) a y z.
