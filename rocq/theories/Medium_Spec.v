(** What is said about media: vocabulary of the theorems. *)
From Verif Require Import Prelude Cross_Model Differential_Spec Cross_Spec.

(** Two descriptions of the same substance: the elements are the same, and all
    numbers of atoms differ by the factor [k] (H2O and H4O2). *)
Definition same_element (c c' : component) : Prop := c_charge c' = c_charge c /\ c_atomic c' = c_atomic c.
Definition same_ratios (k : R) : list component -> list component -> Prop :=
  Forall2 (fun c c' => same_element c c' /\ c_atoms c' = k * c_atoms c).
(** The sum of a quantity over all atoms of a molecule *)
Definition molecule (f : component -> R) (cs : list component) : R := rsum (map (fun c => c_atoms c * f c) cs).
(** A substance: at least one element, each with a positive number of atoms *)
Definition substance (cs : list component) : Prop :=
  cs <> [] /\ forall c, In c cs -> element c /\ 0 < c_atoms c.
