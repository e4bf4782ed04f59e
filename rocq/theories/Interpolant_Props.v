(** C71: what is read from a table. *)
From Verif Require Import Prelude Propagator_Model Particle_Model Cross_Model Integral_Model Ionization_Model Continuous_Model Nuclear_Model Keys_Model
  Differential_Spec Keys_Spec Keys_Proofs
  Function_Spec Integral_Spec Interpolant_Model Interpolant_Spec Interpolant_Proofs Table_Proofs Interpolant_Examples.

(** Points in order make a table, every reading succeeds and depends on the position
    alone, not on what was read before. *)
Theorem C71_reads : forall nan x y romberg rational, tabular x y -> (2 <= romberg)%Z ->
  exists t f, make x y romberg rational = Ok t /\ reads nan t f.
Proof. exact reads_made. Qed.
Print Assumptions C71_reads.
Example C71_reads_example : tabular [3; 2; 0] [1; 5; -2] /\ exists t, make [3; 2; 0] [1; 5; -2] 2 true = Ok t.
Proof. exact falling_example. Qed.
(** The points are read as they were given. *)
Theorem C71_nodes : forall nan x y romberg rational t f k, tabular x y -> (2 <= romberg)%Z -> make x y romberg rational = Ok t -> reads nan t f ->
  (k < length x)%nat -> f (nth k x 0) = nth k y 0.
Proof. exact table_nodes. Qed.
Print Assumptions C71_nodes.
(** Between and beyond them, the value is that of the polynomial through the points
    around the position. *)
Theorem C71_window : forall nan x y romberg t f q, tabular x y -> (2 <= romberg)%Z -> make x y romberg false = Ok t -> reads nan t f ->
  exists start, central x start (order romberg (length x)) q /\ extrapolates (points x y start (order romberg (length x))) q (f q).
Proof. exact table_window. Qed.
Print Assumptions C71_window.
(** A table of a polynomial gives it back everywhere. *)
Theorem C71_polynomial : forall nan x y romberg t f c q, tabular x y -> (2 <= romberg)%Z -> make x y romberg false = Ok t -> reads nan t f ->
  (length c <= order romberg (length x))%nat -> (forall k, (k < length x)%nat -> nth k y 0 = polynomial c (nth k x 0)) -> f q = polynomial c q.
Proof. exact table_polynomial. Qed.
Print Assumptions C71_polynomial.
Example C71_squares : forall nan, tabular [0; 1; 2] [0; 1; 4] /\ ordered [0; 1; 4] /\
  exists t f g, make [0; 1; 2] [0; 1; 4] 3 false = Ok t /\ reads nan t f /\ finds nan t g /\ f 3 = 9 /\ f 2 = 4 /\ g 4 = 2.
Proof. exact squares_example. Qed.
(** With two points at a time, the value is between those of the neighbours. *)
Theorem C71_line : forall nan x y t f q, tabular x y -> make x y 2 false = Ok t -> reads nan t f ->
  between (nth 0 x 0) (nth (length x - 1) x 0) q ->
  exists i, (i + 1 < length x)%nat /\ between (nth i x 0) (nth (i + 1) x 0) q /\
    f q = nth i y 0 + (nth (i + 1) y 0 - nth i y 0) * ((q - nth i x 0) / (nth (i + 1) x 0 - nth i x 0)) /\
    between (nth i y 0) (nth (i + 1) y 0) (f q).
Proof. exact table_line. Qed.
Print Assumptions C71_line.
(** With four it need not be: no entry is negative, the value is. *)
Theorem C71_sign_refuted : forall nan t f, tabular [0; 1; 2; 3] [0; 0; 0; 1] /\
  (make [0; 1; 2; 3] [0; 0; 0; 1] 4 false = Ok t -> reads nan t f -> f (3 / 2) < 0).
Proof. exact (fun nan t f => conj corner_tabular (corner_negative nan t f)). Qed.
Print Assumptions C71_sign_refuted.
(** An even number of points at a time, or all of them, give a continuous function. *)
Theorem C71_continuous : forall nan x y romberg t f, tabular x y -> (2 <= romberg)%Z -> make x y romberg false = Ok t -> reads nan t f ->
  Nat.Even (order romberg (length x)) \/ order romberg (length x) = length x -> continuity f.
Proof. exact table_continuous. Qed.
Print Assumptions C71_continuous.
Example C71_continuous_example : Nat.Even (order 4 (length hard_nodes)) /\ ~ Nat.Even (order 3 (length [0; 1; 2; 3])) /\
  order 3 (length [0; 1; 2; 3]) <> length [0; 1; 2; 3].
Proof. exact even_example. Qed.
(** Three points at a time leave a jump half way between two nodes. *)
Theorem C71_continuous_refuted : forall nan t f, tabular [0; 1; 2; 3] [0; 0; 0; 1] /\
  (make [0; 1; 2; 3] [0; 0; 0; 1] 3 false = Ok t -> reads nan t f -> ~ continuity_pt f (3 / 2)).
Proof. exact (fun nan t f => conj corner_tabular (corner_discontinuous nan t f)). Qed.
Print Assumptions C71_continuous_refuted.
(** One point at a time, which the constructor also takes 0 and -1 for: an exception near
    the last node. *)
Theorem C71_single_refuted : forall nan x y romberg rational t q, tabular x y -> (romberg <= 1)%Z -> make x y romberg rational = Ok t ->
  q <> nth (length x - 1) x 0 -> Rabs (q - nth (length x - 1) x 0) < Rabs (q - nth (length x - 2) x 0) ->
  array nan t q = Throw out_of_range.
Proof. exact single_throws. Qed.
Print Assumptions C71_single_refuted.
Example C71_single_example : 7 / 4 <> nth (length [0; 1; 2] - 1) [0; 1; 2] 0 /\
  Rabs (7 / 4 - nth (length [0; 1; 2] - 1) [0; 1; 2] 0) < Rabs (7 / 4 - nth (length [0; 1; 2] - 2) [0; 1; 2] 0).
Proof. exact near_end. Qed.
(** Vectors of different lengths are refused. *)
Theorem C71_mismatch : forall x y romberg rational, length x <> length y -> (2 <= length x)%nat -> make x y romberg rational = Throw out_of_range.
Proof. exact mismatch. Qed.
Print Assumptions C71_mismatch.

(** The search for the position of a value: it exists, is within the table, and finds
    the points. *)
Theorem C71_limit : forall nan x y romberg rational t, tabular x y -> ordered y -> (2 <= romberg)%Z -> make x y romberg rational = Ok t ->
  exists g, finds nan t g /\ (forall q, between (nth 0 x 0) (nth (length x - 1) x 0) (g q)) /\
    forall k, (k < length x)%nat -> g (nth k y 0) = nth k x 0.
Proof. exact limit_facts. Qed.
Print Assumptions C71_limit.
(** With two points at a time it is the inverse of the reading. *)
Theorem C71_inverse : forall nan x y t f g q, tabular x y -> ordered y -> make x y 2 false = Ok t -> reads nan t f -> finds nan t g ->
  between (nth 0 y 0) (nth (length y - 1) y 0) q -> f (g q) = q.
Proof. exact limit_inverse. Qed.
Print Assumptions C71_inverse.
(** With three it is not. *)
Theorem C71_inverse_refuted : forall nan t f g, make [0; 1; 2] [0; 1; 4] 3 false = Ok t -> reads nan t f -> finds nan t g -> f (g 2) = 25 / 9.
Proof. exact squares_inverse. Qed.
Print Assumptions C71_inverse_refuted.

(** Tables of two variables *)
Theorem C71_grid_reads : forall nan x1 x2 y romberg1 romberg2 rational2, tabular_grid x1 x2 y -> (2 <= romberg1)%Z -> (2 <= romberg2)%Z ->
  exists g f, make_grid x1 x2 y romberg1 false romberg2 rational2 = Ok g /\ reads_grid nan g f.
Proof. exact grid_reads_made. Qed.
Print Assumptions C71_grid_reads.
Theorem C71_grid_nodes : forall nan x1 x2 y romberg1 romberg2 rational2 g, tabular_grid x1 x2 y -> (2 <= romberg1)%Z -> (2 <= romberg2)%Z ->
  make_grid x1 x2 y romberg1 false romberg2 rational2 = Ok g -> forall f, reads_grid nan g f ->
  forall j k, (j < length x1)%nat -> (k < length x2)%nat -> f (nth j x1 0) (nth k x2 0) = nth k (nth j y []) 0.
Proof. exact grid_nodes. Qed.
Print Assumptions C71_grid_nodes.
(** The values that the tables of the rows have at the second position are interpolated at
    the first one. *)
Theorem C71_grid_window : forall nan x1 x2 y romberg1 romberg2 rational2 g, tabular_grid x1 x2 y -> (2 <= romberg1)%Z -> (2 <= romberg2)%Z ->
  make_grid x1 x2 y romberg1 false romberg2 rational2 = Ok g -> forall f, reads_grid nan g f ->
  forall q1 q2 rows, (forall j, (j < length y)%nat -> exists t, make x2 (nth j y []) romberg2 rational2 = Ok t /\ reads nan t (rows j)) ->
  exists start, central x1 start (order romberg1 (length x1)) q1 /\
    extrapolates (map (fun j => (nth j x1 0, rows j q2)) (seq start (order romberg1 (length x1)))) q1 (f q1 q2).
Proof. exact grid_window. Qed.
Print Assumptions C71_grid_window.
Theorem C71_grid_polynomial : forall nan x1 x2 y romberg1 romberg2 g f c, tabular_grid x1 x2 y -> (2 <= romberg1)%Z -> (2 <= romberg2)%Z ->
  make_grid x1 x2 y romberg1 false romberg2 false = Ok g -> reads_grid nan g f ->
  (length c <= order romberg1 (length x1))%nat -> Forall (fun d => (length d <= order romberg2 (length x2))%nat) c ->
  (forall j k, (j < length x1)%nat -> (k < length x2)%nat -> nth k (nth j y []) 0 = polynomial2 c (nth j x1 0) (nth k x2 0)) ->
  forall q1 q2, f q1 q2 = polynomial2 c q1 q2.
Proof. exact grid_polynomial. Qed.
Print Assumptions C71_grid_polynomial.
Example C71_grid_example : forall nan, tabular_grid [0; 1; 2] [0; 1] [[0; 0]; [0; 1]; [0; 2]] /\
  exists g f, make_grid [0; 1; 2] [0; 1] [[0; 0]; [0; 1]; [0; 2]] 2 false 2 false = Ok g /\ reads_grid nan g f /\ f (3 / 2) 5 = 15 / 2.
Proof. exact product_example. Qed.
(** With one row at a time, a value is returned that was never filled in: a table of ones
    gives zero. *)
Theorem C71_grid_single_refuted : forall nan, tabular_grid [0; 1; 2] [0; 1] [[1; 1]; [1; 1]; [1; 1]] /\
  exists g, make_grid [0; 1; 2] [0; 1] [[1; 1]; [1; 1]; [1; 1]] 1 false 2 false = Ok g /\
    exists g', grid_array nan g (3 / 4) (1 / 2) = Ok (0, g').
Proof. exact ones_read. Qed.
Print Assumptions C71_grid_single_refuted.

(** The tables of the hard component of photonuclear interactions, whose seven values
    belong to 10^3, 10^4, ..., 10^9 GeV: exact for cubic polynomials of the logarithm. *)
Theorem C71_hard : forall nan c y q, length y = 7%nat -> (length c <= 4)%nat ->
  (forall k, (k < 7)%nat -> nth k y 0 = polynomial c (3 + INR k)) -> hard_row nan y q = Ok (polynomial c q).
Proof. exact hard_exact. Qed.
Print Assumptions C71_hard.
Example C71_hard_example : forall nan x e, hard_row nan [x; x; x; x; x; x; x] e = Ok x.
Proof. exact hard_flat. Qed.
(** C70 for these tables: two particles that differ in the table have the same names. *)
Theorem C70_hard_tables_refuted : forall of_double of_text nan qags finished correction koch_motz_data koch_motz_total rhode_table weak_table
  contribution dilog d m c, element c -> 0 < pd_mass d -> pd_charge d <> 0 -> exists y1 y2,
  (forall k u z, file_name of_double of_text (mktable k (Photo Zeus true) (with_table d y1) m c u z) =
                 file_name of_double of_text (mktable k (Photo Zeus true) (with_table d y2) m c u z)) /\
  exists E v x1 x2,
    p_differential (fst (content nan qags finished correction koch_motz_data koch_motz_total rhode_table (hard_row nan) weak_table contribution dilog
                           (Photo Zeus true) (with_table d y1) m c)) E v = Ok x1 /\
    p_differential (fst (content nan qags finished correction koch_motz_data koch_motz_total rhode_table (hard_row nan) weak_table contribution dilog
                           (Photo Zeus true) (with_table d y2) m c)) E v = Ok x2 /\ x1 < x2.
Proof. exact (fun od ot nan qags fin corr kd kt rt wt co di => hard_missing nan qags fin corr kd kt rt (hard_row nan) wt co di (hard_flat nan) od ot). Qed.
Print Assumptions C70_hard_tables_refuted.
