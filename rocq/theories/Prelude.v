(** Common vocabulary of the model: outcomes with explicit exceptions and
    explicit undefined behaviour, [std::max_element], real comparisons. *)
From Coq Require Export Reals Lra Lia List ZArith NArith Bool Psatz.
Export ListNotations.
Open Scope R_scope.

(** The C++ exception classes that occur in the modelled code. *)
Inductive exn :=
| logic_error | invalid_argument | out_of_range | runtime_error
| density_exception | math_exception | bad_alloc | bad_function_call.

(** Kinds of undefined behaviour that occur in the modelled code. *)
Inductive ub :=
| deref_end        (* dereference of an end iterator *)
| null_deref       (* dereference of a null pointer *)
| out_of_bounds    (* access past the end of a buffer *)
| use_after_free   (* access to freed memory / dangling reference *)
| double_free
| uninitialised    (* read of an uninitialised value *)
| signed_overflow
| bad_conversion.  (* conversion of a real number to an integer type that cannot hold it *)

(** Result of running a C++ function.  Recursion on fuel returns
    [option (outcome A)]: [None] is the model's own "out of fuel" value and
    never stands for a C++ result. *)
Inductive outcome (A : Type) : Type :=
| Ok (a : A)
| Throw (e : exn)
| UB (u : ub).
Arguments Ok {A} a.
Arguments Throw {A} e.
Arguments UB {A} u.

Definition obind {A B} (x : outcome A) (f : A -> outcome B) : outcome B :=
  match x with
  | Ok a => f a
  | Throw e => Throw e
  | UB u => UB u
  end.
Notation "'olet' x := a 'in' b" := (obind a (fun x => b))
  (at level 200, x pattern, a at level 100, b at level 200, right associativity).

(** Boolean comparisons of reals. *)
Definition Rltb (a b : R) : bool := if Rlt_dec a b then true else false.
Definition Rleb (a b : R) : bool := if Rle_dec a b then true else false.
Definition Reqb (a b : R) : bool := if Req_EM_T a b then true else false.

Infix "<?" := Rltb : R_scope.
Infix "<=?" := Rleb : R_scope.
Infix "=?" := Reqb : R_scope.

(** [std::max_element(first, last, comp)]: the first element that is not
    smaller than any other one; [None] is the end iterator (empty range).
    C++ standard, [alg.min.max]: "the first iterator i such that for every j,
    comp( *i, *j) == false"; implementation: keep [largest], replace it when
    comp( *largest, *it). *)
Section MaxElement.
  Context {A : Type} (comp : A -> A -> bool).
  Fixpoint max_element_from (largest : A) (l : list A) : A :=
    match l with
    | [] => largest
    | x :: l' => max_element_from (if comp largest x then x else largest) l'
    end.
  Definition max_element (l : list A) : option A :=
    match l with
    | [] => None
    | x :: l' => Some (max_element_from x l')
    end.
End MaxElement.
