(** Specification vocabulary for the propagation utilities. *)
From Verif Require Import Prelude Function_Spec Integral_Model Utility_Model.

(** The result is the value [v]. *)
Definition gives {S} (r : run (R * S)) (v : R) : Prop := exists s, r = Some (Ok (v, s)).
(** The second energy is lower by a millionth of the first or more. *)
Definition apart (E_i E_f : R) : Prop := E_i / 10 ^ 6 <= E_i - E_f.

(** The calculators one can have after calls of Calculate and GetUpperLimit *)
Inductive later nan qags find : calculator -> calculator -> Prop :=
| later_none c : later nan qags find c c
| later_calculate c d e E_i E_f v : later nan qags find c d ->
    calculate nan qags d E_i E_f = Some (Ok (v, e)) -> later nan qags find c e
| later_upper c d e E s v : later nan qags find c d ->
    get_upper nan qags find d E s = Some (Ok (v, e)) -> later nan qags find c e.

(** What is found lies in the range, and the value there differs from the wanted
    one by [eps] or less. *)
Definition finds_within (eps : R) (find : (R -> R) -> R -> R -> R -> R -> option R) : Prop :=
  forall table y a b guess x, find table y a b guess = Some x -> a <= x <= b /\ Rabs (table x - y) <= eps.

(** The value of the table minus or plus the wanted number *)
Definition table_difference (table : R -> R) (reverse : bool) (E_i E_f : R) : R :=
  if reverse then table E_f - table E_i else table E_i - table E_f.

(** The integrand is a polynomial in the logarithm of the energy, divided by the
    energy; [G] is an antiderivative of the polynomial, and the routine for
    difficult integrands integrates the polynomial exactly. *)
Record log_polynomial (qags : (R -> outcome R) -> R -> R -> outcome R) (f : R -> outcome R) (c : list R) (G : R -> R) : Prop := {
  lp_function : forall E, 0 < E -> f E = Ok (polynomial c (ln E) / E);
  lp_degree : (length c <= 10)%nat;
  lp_integral : forall t, derivable_pt_lim G t (polynomial c t);
  lp_qags : forall h lo hi, lo < hi -> (forall t, lo < t < hi -> h t = Ok (polynomial c t)) -> qags h lo hi = Ok (G hi - G lo)
}.
(** The logarithms differ by more than a part in ten thousand million. *)
Definition logs_apart (a b : R) : Prop := Rabs (ln b - ln a) > Rabs (ln (Rmin a b)) / 10 ^ 10.

(** The table differs from the computed integrals by [eps] or less. *)
Definition tabulates nan qags (eps : R) (f : R -> outcome R) (lower upper : R) (reverse : bool) (table : R -> R) : Prop :=
  forall E v, lower <= E <= upper -> node_value nan qags f lower upper reverse E = Some (Ok v) -> Rabs (table E - v) <= eps.
(** The energies are equal or their logarithms are apart. *)
Definition same_or_apart (a b : R) : Prop := a = b \/ logs_apart a b.
(** The function changes by [w] or less wherever the energy changes by [d] or less. *)
Definition steady (F : R -> R) (low high d w : R) : Prop :=
  forall x y, low <= x <= high -> low <= y <= high -> Rabs (x - y) <= d -> Rabs (F x - F y) <= w.

(** The quantile function of the normal distribution whose integral is
    (1 + erf (z / root of 2)) / 2; [s2] is the root. *)
Definition quantile (s2 : R) (erf : R -> R) (ppf : R -> outcome R) : Prop :=
  (forall x y, x <= y -> erf x <= erf y) /\
  (forall z, ppf (/ 2 + erf z / 2) = Ok (s2 * z)) /\
  (forall z1 z2 p, / 2 + erf z1 / 2 <= p <= / 2 + erf z2 / 2 -> exists q, ppf p = Ok q /\ s2 * z1 <= q <= s2 * z2).

(** The routine for difficult integrands finds the same for a mirrored one. *)
Definition mirrors (qags : (R -> outcome R) -> R -> R -> outcome R) : Prop :=
  forall h lo hi, qags (fun x => h (lo + hi - x)) lo hi = qags h lo hi.

(** The routine for difficult integrands integrates the constant [k] exactly. *)
Definition constants_exact (k : R) (qags : (R -> outcome R) -> R -> R -> outcome R) : Prop :=
  forall h lo hi, lo <= hi -> (forall t, h t = Ok k) -> qags h lo hi = Ok (k * (hi - lo)).
