(** C71, C87: tables with nodes of their own in every row, weak interactions. *)
From Verif Require Import Prelude Cross_Model Photo_Model Limits_Model Differential_Spec
  Interpolant_Model Interpolant_Spec Weak_Tables Weak_Model Weak_Spec Sheet_Proofs Weak_Proofs Weak_Examples.

(** A table whose rows have different nodes is read in every history as if it was the
    first time; its points are read as they were given. *)
Theorem C71_sheet_reads : forall nan x1 x2 y romberg1 romberg2 rational2, tabular_sheet x1 x2 y -> (2 <= romberg1)%Z -> (2 <= romberg2)%Z ->
  exists g f, make_sheet x1 x2 y romberg1 false romberg2 rational2 = Ok g /\ reads_grid nan g f.
Proof. exact sheet_reads_made. Qed.
Print Assumptions C71_sheet_reads.
Theorem C71_sheet_nodes : forall nan x1 x2 y romberg1 romberg2 rational2 g, tabular_sheet x1 x2 y -> (2 <= romberg1)%Z -> (2 <= romberg2)%Z ->
  make_sheet x1 x2 y romberg1 false romberg2 rational2 = Ok g -> forall f, reads_grid nan g f ->
  forall j k, (j < length x1)%nat -> (k < length (nth j x2 []))%nat -> f (nth j x1 0) (nth k (nth j x2 []) 0) = nth k (nth j y []) 0.
Proof. exact sheet_nodes. Qed.
Print Assumptions C71_sheet_nodes.
(** Elsewhere, the polynomials through the points around the position are used, in the
    rows and then across them. *)
Theorem C71_sheet_window : forall nan x1 x2 y r g f q1 q2, tabular_sheet x1 x2 y -> (2 <= r)%nat ->
  (r <= length x1)%nat -> (forall j, (j < length y)%nat -> (r <= length (nth j x2 []))%nat) ->
  make_sheet x1 x2 y (Z.of_nat r) false (Z.of_nat r) false = Ok g -> reads_grid nan g f -> interpolated r x1 x2 y q1 q2 (f q1 q2).
Proof. exact sheet_interpolated. Qed.
Print Assumptions C71_sheet_window.
Example C71_sheet_example : forall nan, tabular_sheet [0; 1] [[0; 1]; [1; 3]] [[0; 1]; [2; 6]] /\
  exists g f, make_sheet [0; 1] [[0; 1]; [1; 3]] [[0; 1]; [2; 6]] 2 false 2 false = Ok g /\ reads_grid nan g f /\ f 1 3 = 6 /\ f 0 1 = 1.
Proof. exact sheet_example. Qed.

(** The tables of the library can be made, and every history of questions for cross
    sections is answered, each question alone deciding the answer. *)
Theorem C87_answers : forall nan, exists w f, cooper_sarkar_mertsch = Ok w /\ answers_weak nan w f.
Proof. exact c87_answers. Qed.
Print Assumptions C87_answers.
(** The answer is the mean over the protons and neutrons of what is interpolated from the
    tables for the charge of the particle. *)
Theorem C87_mean : forall nan w f, cooper_sarkar_mertsch = Ok w -> answers_weak nan w f ->
  forall charge c E v, 0 < E -> element c -> exists p n,
  interpolated 5 energies (numbers y_proton) (proton_sigma charge) (log10 E) v p /\
  interpolated 5 energies (numbers y_neutron) (neutron_sigma charge) (log10 E) v n /\
  f charge c E v = mean_cross c p n.
Proof. exact c87_cross. Qed.
Print Assumptions C87_mean.
Theorem C87_sign : forall nan w f, cooper_sarkar_mertsch = Ok w -> answers_weak nan w f ->
  forall charge c E v, 0 < E -> element c -> 0 <= f charge c E v.
Proof. exact c87_sign. Qed.
Print Assumptions C87_sign.
(** At the energies of the tables, both parts go through the points of the tables. *)
Theorem C87_nodes : forall nan w f, cooper_sarkar_mertsch = Ok w -> answers_weak nan w f ->
  forall charge j, (j < 111)%nat -> exists p n : R -> R,
  (forall k, (k < 100)%nat -> p (nth k (nth j (numbers y_proton) []) 0) = nth k (nth j (proton_sigma charge) []) 0) /\
  (forall k, (k < 100)%nat -> n (nth k (nth j (numbers y_neutron) []) 0) = nth k (nth j (neutron_sigma charge) []) 0) /\
  forall c v, element c -> f charge c (Rpower 10 (nth j energies 0)) v = mean_cross c (p v) (n v).
Proof. exact c87_nodes. Qed.
Print Assumptions C87_nodes.
(** A particle with one of these energies can lose all of it. *)
Theorem C87_complete : forall nan w f, cooper_sarkar_mertsch = Ok w -> answers_weak nan w f ->
  forall charge c j, element c -> (j < 111)%nat ->
  f charge c (Rpower 10 (nth j energies 0)) 1 = mean_cross c (nth 99 (nth j (proton_sigma charge) []) 0) (nth 99 (nth j (neutron_sigma charge) []) 0) /\
  0 < f charge c (Rpower 10 (nth j energies 0)) 1.
Proof. exact c87_complete. Qed.
Print Assumptions C87_complete.
Example C87_example : forall nan, exists w f, cooper_sarkar_mertsch = Ok w /\ answers_weak nan w f /\ element weak_oxygen /\
  nth 99 (nth 0 (proton_sigma (-1)) []) 0 = 120469 / 10 ^ 7 /\ nth 99 (nth 0 (neutron_sigma (-1)) []) 0 = 94856 / 10 ^ 7 /\
  f (-1) weak_oxygen (Rpower 10 4) 1 = mean_cross weak_oxygen (120469 / 10 ^ 7) (94856 / 10 ^ 7).
Proof. exact muon_example. Qed.
(** The tables do not reach down to the smallest loss the limits allow: near it, the
    cross section of every element comes out as zero. *)
Theorem C87_zero_refuted : forall nan w f, cooper_sarkar_mertsch = Ok w -> answers_weak nan w f ->
  forall charge c, element c ->
  v_min (weak_limits (10 ^ 4)) < 51 / 1000 < v_max (weak_limits (10 ^ 4)) /\ f charge c (10 ^ 4) (51 / 1000) = 0.
Proof. exact c87_zero. Qed.
Print Assumptions C87_zero_refuted.
(** Nor do they reach down to the smallest energies the limits allow: at a hundredth of
    the energy, where all cross sections are smaller, it comes out seventeen times as
    large. *)
Theorem C87_rise_refuted : forall nan w f, cooper_sarkar_mertsch = Ok w -> answers_weak nan w f ->
  forall charge c, element c ->
  v_min (weak_limits (10 ^ 2)) < 1 /\ 0 < f charge c (10 ^ 4) 1 /\ 17 * f charge c (10 ^ 4) 1 < f charge c (10 ^ 2) 1.
Proof. exact c87_rise. Qed.
Print Assumptions C87_rise_refuted.
