(** Specification vocabulary for polynomials. *)
From Verif Require Import Prelude Geometry_Model.
From Verif Require Import Function_Model (* for the syntax of programs only *).

(** The polynomial with the coefficients [c], lowest power first:
    c_0 + c_1 x + c_2 x^2 + ... *)
Definition polynomial (c : list R) (x : R) : R :=
  fold_right Rplus 0 (map (fun i => nth i c 0 * x ^ i) (seq 0 (length c))).

(** ** Value semantics of Polynom objects *)
(** What a program of constructions, copies and shifts should do if every object
    is a value of its own: [vs] are the coefficients of the objects made so far. *)
Inductive value_step : list (list R) -> polynom_op -> list (list R) -> Prop :=
| value_construct vs c : value_step vs (Construct c) (vs ++ [c])
| value_copy vs i c : nth_error vs i = Some c -> value_step vs (Copy i) (vs ++ [c])
| value_shift vs vs' i x c c' :
    nth_error vs i = Some c -> nth_error vs' i = Some c' ->
    length c' = length c -> (forall y, polynomial c' y = polynomial c (y + x)) ->
    length vs' = length vs -> (forall j, j <> i -> nth_error vs' j = nth_error vs j) ->
    value_step vs (Shift i x) vs'.
Inductive value_run : list (list R) -> list polynom_op -> list (list R) -> Prop :=
| value_done vs : value_run vs [] vs
| value_next vs vs' vs'' o ops : value_step vs o vs' -> value_run vs' ops vs'' -> value_run vs (o :: ops) vs''.

(** A program that only uses objects it has made, of at least one coefficient,
    and shifts by 0 or by more than the precision. *)
Fixpoint meaningful (made : nat) (ops : list polynom_op) : Prop :=
  match ops with
  | [] => True
  | Construct c :: ops' => c <> [] /\ meaningful (S made) ops'
  | Copy i :: ops' => (i < made)%nat /\ meaningful (S made) ops'
  | Shift i x :: ops' => (i < made)%nat /\ (x = 0 \/ GEOMETRY_PRECISION < Rabs x) /\ meaningful made ops'
  end.
(** No object is ever copied. *)
Definition no_copies (ops : list polynom_op) : Prop := forall i, ~ In (Copy i) ops.
(** For every object the number of the construction it stems from. *)
Fixpoint origins (made : list nat) (constructed : nat) (ops : list polynom_op) : list nat :=
  match ops with
  | [] => made
  | Construct _ :: ops' => origins (made ++ [constructed]) (S constructed) ops'
  | Copy i :: ops' => origins (made ++ [nth i made constructed]) constructed ops'
  | Shift _ _ :: ops' => origins made constructed ops'
  end.
