(** Saved splines (C89) and CalculateSpline (C26). *)
From Verif Require Import Prelude Geometry_Model Function_Model Function_Spec Spline_Model Spline_Spec Saved_Model Saved_Spec Saved_Proofs Saved_Examples.

(** Streams write six digits.  The loaded spline has the numbers that are read from them. *)
Theorem C89_loaded : forall shown s, complete s ->
  exists ws, save shown s = Ok ws /\ load ws = Ok (mkspline (map (map shown) (sp_polys s)) (map shown (sp_sub s)) (sp_n s)).
Proof. exact c89_loaded. Qed.
Print Assumptions C89_loaded.
(** Splines through given points are loaded as they were saved, if all of their numbers
    have at most six digits. *)
Theorem C89_round_trip_partial : forall shown nan nan' xs ys s, writes_six_digits shown -> nodes xs ys -> (N.of_nat (length xs) <= 4294967295)%N ->
  linear_spline nan xs ys = Ok s \/ (cubic_spline nan' xs ys = Ok s /\ forall i, (i + 1 < length xs)%nat -> node xs i = 0 \/ GEOMETRY_PRECISION < Rabs (node xs i)) ->
  each_number s short -> exists ws, save shown s = Ok ws /\ load ws = Ok s.
Proof. exact c89_round_trip. Qed.
Print Assumptions C89_round_trip_partial.
Example C89_round_trip_example : forall nan, nodes [0; 2; 4] [1; 25 / 10; 2] /\ exists s, linear_spline nan [0; 2; 4] [1; 25 / 10; 2] = Ok s /\ each_number s short.
Proof. exact short_example. Qed.
Example C89_six_digits_example : forall r, r <> 0 -> exists r', six_digits r r'.
Proof. exact six_digits_exist. Qed.
(** Missing: longer numbers.  A density that is one at the surface of the Earth (in
    metres from its centre) is zero there after it has been saved and loaded. *)
Theorem C89_round_trip_refuted : forall shown nan, writes_six_digits shown -> exists s s' ws,
  nodes [6371000; 6371001] [1; 2] /\ linear_spline nan [6371000; 6371001] [1; 2] = Ok s /\ save shown s = Ok ws /\ load ws = Ok s' /\
  spline_evaluate s 6371000 = Ok 1 /\ spline_evaluate s' 6371000 = Ok 0.
Proof. exact c89_surface. Qed.
Print Assumptions C89_round_trip_refuted.
(** A spline made from polynomials and intervals cannot be loaded. *)
Theorem C89_polynomials_refuted : forall shown ps sub, length sub = S (length ps) -> (N.of_nat (length sub) <= 4294967295)%N ->
  (forall p, In p ps -> p <> [] /\ (N.of_nat (length p) <= 4294967295)%N) ->
  exists ws, save shown (spline_from ps sub) = Ok ws /\ load ws = UB uninitialised.
Proof. exact c89_polynomials. Qed.
Print Assumptions C89_polynomials_refuted.

(** CalculateSpline returns the natural cubic spline, also where points are close to
    zero. *)
Theorem C26_calculate : forall nan xs ys, nodes xs ys -> exists cs, calculate_spline nan xs ys = Ok cs /\ length cs = (length xs - 1)%nat /\
  natural_pieces xs ys (fun i t => polynomial (fst (nth i cs ([], 0))) (t - snd (nth i cs ([], 0)))).
Proof. exact calculate_ok. Qed.
Print Assumptions C26_calculate.
Example C26_calculate_example : nodes [0; 2; 4] [1; 25 / 10; 2].
Proof. exact (proj1 (short_example (UB out_of_bounds))). Qed.

(** With fewer values than points CalculateSpline reads past the end of the values. *)
Theorem C26_calculate_short : forall nan xs ys, (length ys < length xs)%nat -> calculate_spline nan xs ys = UB out_of_bounds.
Proof. exact calculate_short. Qed.
Print Assumptions C26_calculate_short.
Example C26_calculate_short_example : (length [1; 25 / 10] < length [0; 2; 4])%nat.
Proof. cbn. lia. Qed.

