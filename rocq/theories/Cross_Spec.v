(** What is said about energy cuts, cross sections and the sampling of
    interactions: vocabulary of the theorems. *)
From Verif Require Import Prelude Propagator_Model Limits_Model Cross_Model.

Definition rsum (l : list R) : R := fold_right Rplus 0 l.
(** The sum of the first [k] entries *)
Definition below (l : list R) (k : nat) : R := rsum (firstn k l).
(** [y] falls in the [k]-th of the adjacent half-open intervals whose lengths
    are the entries of [l]. *)
Definition in_slot (l : list R) (k : nat) (y : R) : Prop :=
  (k < length l)%nat /\ below l k <= y < below l (S k).

(** A loss of the fraction [v] of the energy [E] is small: neither its fraction
    nor its amount exceeds the cut. *)
Definition small (c : energy_cut) (E v : R) : Prop :=
  v <= vcut c /\ match ecut c with Fin e => v * E <= e | PInf => True end.
Definition valid_cut (e : ext) (v : R) : Prop :=
  match e with Fin x => 0 < x | PInf => True end /\ 0 < v <= 1.
Definition ext_le (a b : ext) : Prop :=
  match a, b with Fin x, Fin y => x <= y | _, PInf => True | PInf, Fin _ => False end.

(** The share of a component in the mass of its medium *)
Definition component_mass (c : component) : R := c_atoms c * c_atomic c.
Definition mass_share (m : medium) (c : component) : R :=
  component_mass c / rsum (map component_mass (m_components m)).
Definition sound_medium (m : medium) : Prop :=
  m_components m <> [] /\ (forall c, In c (m_components m) -> 0 < c_atoms c /\ 0 < c_atomic c).
Definition distinct_components (m : medium) : Prop := NoDup (map c_hash (m_components m)).

(** The limits between which the tables are spaced *)
Definition usable (s : spacing) (v_cut v_max : R) : Prop :=
  match s with
  | LogCompton => v_cut < v_max < 1
  | _ => 0 < v_cut < v_max
  end.

(** [upper] is the inverse of the strictly increasing function [cumulative] on
    [a, b], for rates up to [top]. *)
Definition inverts (upper cumulative : R -> outcome R) (a b top : R) : Prop :=
  (forall y, 0 < y <= top -> exists v, upper y = Ok v /\ a <= v <= b /\ cumulative v = Ok y) /\
  (forall v, a <= v <= b -> exists y, cumulative v = Ok y) /\
  (forall v w y z, a <= v -> v < w -> w <= b -> cumulative v = Ok y -> cumulative w = Ok z -> y < z).

(** The rates of a cross section per target add up to its total rate. *)
Definition additive (x : cross_base) (E : R) : Prop :=
  forall l, x_per_target x E = Ok l -> x_dNdx x E = Ok (rsum (map snd l)).

(** Every answer of [y] is the answer of [x] times [k], and [y] samples with
    the [k]-fold rate what [x] samples with the rate. *)
Definition scaled (k : R) (x y : cross_base) : Prop :=
  (forall E r, x_dEdx x E = Ok r -> x_dEdx y E = Ok (k * r)) /\
  (forall E r, x_dE2dx x E = Ok r -> x_dE2dx y E = Ok (k * r)) /\
  (forall E r, x_dNdx x E = Ok r -> x_dNdx y E = Ok (k * r)) /\
  (forall E h r, x_dNdx_target x E h = Ok r -> x_dNdx_target y E h = Ok (k * r)) /\
  (forall E h v r, x_cumulative x E h v = Ok r -> x_cumulative y E h v = Ok (k * r)) /\
  (forall E l, x_per_target x E = Ok l -> exists l', x_per_target y E = Ok l' /\
     map fst l' = map fst l /\ map snd l' = map (Rmult k) (map snd l)) /\
  (forall h E r, x_loss y h E (k * r) = x_loss x h E r) /\
  x_lower y = x_lower x /\ x_type y = x_type x /\ x_cut y = x_cut x.
