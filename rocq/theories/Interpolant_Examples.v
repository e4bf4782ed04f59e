(** Concrete tables. *)
From Coq Require Import Arith.
From Verif Require Import Prelude PreludeFacts Function_Model Integral_Model Function_Spec Integral_Spec Function_Proofs Neville_Proofs
  Cross_Model Transform_Proofs Interpolant_Model Interpolant_Spec Interpolant_Proofs Table_Proofs.

Lemma increasing_steps l : (forall i, (S i < length l)%nat -> nth i l 0 < nth (S i) l 0) -> increasing l.
Proof.
  intros H i j (I & J). induction j as [|j IH]; [lia|]. destruct (Nat.eq_dec i j) as [->|]; [apply H; exact J|].
  apply (Rlt_trans _ (nth j l 0)); [apply IH; lia|apply H; exact J].
Qed.
Lemma decreasing_steps l : (forall i, (S i < length l)%nat -> nth (S i) l 0 < nth i l 0) -> decreasing l.
Proof.
  intros H i j (I & J). induction j as [|j IH]; [lia|]. destruct (Nat.eq_dec i j) as [->|]; [apply H; exact J|].
  apply (Rlt_trans _ (nth j l 0)); [apply H; exact J|apply IH; lia].
Qed.
Ltac steps := let k := fresh in let K := fresh in intros k K; cbn in K; do 8 (destruct k as [|k]; [first [lia|cbn; lra]|]); lia.

(** ** One node at a time *)
Lemma make_single x y r b : (r <= 1)%Z -> make x y r b = make x y 1 b.
Proof. intro R. unfold make, init_romberg. replace (Nat.max (Z.to_nat r) 1) with (Nat.max (Z.to_nat 1) 1) by lia. reflexivity. Qed.
Lemma single_throws nan x y r b t q : tabular x y -> (r <= 1)%Z -> make x y r b = Ok t ->
  q <> nth (length x - 1) x 0 -> Rabs (q - nth (length x - 1) x 0) < Rabs (q - nth (length x - 2) x 0) ->
  array nan t q = Throw out_of_range.
Proof.
  intros T R E Nq Near. rewrite (make_single x y r b R) in E.
  destruct (make_good x y 1 b T) as (t' & E' & G & _); [lia|]. assert (t' = t) as -> by congruence. clear E E'.
  pose proof T as (Lx & N & O). destruct (ordered_signed x O) as (s & Sg). pose proof Sg as (Ss & H).
  replace (order 1 (length x)) with 1%nat in G by (unfold order; lia).
  pose proof G as (E1 & E2 & E3 & E4 & E5 & E6 & L1 & L2).
  destruct (locate_spec s t q (length x) 1) as (i & aux & L & I & B & A); [rewrite E1; exact Sg|rewrite E1; reflexivity|exact E3|exact E4|lia|lia|].
  rewrite E1 in B, A. pose proof (H (length x - 2)%nat (length x - 1)%nat ltac:(lia)) as Hl.
  set (a := nth (length x - 2) x 0) in *. set (z := nth (length x - 1) x 0) in *.
  assert (Past : s * a < s * q).
  { unfold Rabs in Near. destruct (Rcase_abs (q - z)), (Rcase_abs (q - a)); destruct Ss as [->| ->]; lra. }
  assert (Ii : i = (length x - 2)%nat).
  { destruct (Nat.eq_dec i (length x - 2)) as [Z|Z]; [exact Z|]. destruct B as (_ & [Bu|Bu]); [lia|]. exfalso.
    assert (s * nth (i + 1) x 0 <= s * a); [|lra].
    destruct (Nat.eq_dec (i + 1) (length x - 2)) as [W|W]; [rewrite W; unfold a; lra|]. apply Rlt_le, H. lia. }
  assert (Ai : aux = 1%nat).
  { destruct A as [(-> & A)|(-> & _)]; [|reflexivity]. exfalso. rewrite Ii in A. replace (length x - 2 + 1)%nat with (length x - 1)%nat in A by lia.
    fold a z in A. unfold Rabs in Near. destruct (Rcase_abs (q - z)), (Rcase_abs (q - a)); destruct Ss as [->| ->]; lra. }
  subst aux. unfold array. rewrite L. cbn [obind].
  assert (St : start_of (length x) 1 i 1 = (length x - 2)%nat) by (unfold start_of; cbn; lia). rewrite St, Ii.
  replace (length x - 2 + 1)%nat with (length x - 1)%nat by lia.
  unfold interpolate_at. rewrite E1, E2, E4. replace (length x - 1 - (length x - 2))%nat with 1%nat by lia.
  rewrite (at_ok _ _ 0) by lia. cbn [obind]. fold z. rewrite (proj2 (Reqb_false _ _) Nq).
  pose proof (copies t (length x - 2) 1 E4 ltac:(rewrite E1; lia) ltac:(rewrite E2; lia) ltac:(lia)) as Cp.
  rewrite Cp; [|assumption..]. cbn [obind Nat.eqb Nat.sub]. rewrite (at_ok _ _ 0) by lia. cbn [obind].
  unfold at_. rewrite (proj2 (nth_error_None x (length x - 2 + 1 + 1))) by lia. reflexivity.
Qed.

(** A table of ones gives zero. *)
Definition ones : grid -> Prop := fun g => make_grid [0; 1; 2] [0; 1] [[1; 1]; [1; 1]; [1; 1]] 1 false 2 false = Ok g.
Lemma ones_tabular : tabular_grid [0; 1; 2] [0; 1] [[1; 1]; [1; 1]; [1; 1]].
Proof.
  split; [reflexivity|]. split; [cbn; lia|]. split; [left; apply increasing_steps; steps|].
  repeat constructor; cbn; try lia; apply increasing_steps; steps.
Qed.
Lemma ones_zero nan g : ones g -> exists g', grid_array nan g (3 / 4) (1 / 2) = Ok (0, g').
Proof.
  unfold ones. intro E. destruct (make_grid_good [0; 1; 2] [0; 1] [[1; 1]; [1; 1]; [1; 1]] 1 2 false ones_tabular) as (g1 & E1 & G); [lia|lia|].
  assert (g1 = g) as -> by congruence. clear E1.
  assert (Iy : i_y (g_table g) = [0; 0; 0]).
  { unfold make_grid in E. unfold at_ in E. cbn [nth_error obind length Nat.sub] in E. unfold init_max in E. cbn [Nat.min] in E.
    rewrite (proj2 (Reqb_false 0 2)) in E by lra.
    destruct (fill _ _); cbn [obind] in E; try discriminate. destruct (make_rows _ _ _ _ _); cbn [obind] in E; try discriminate.
    injection E as <-. reflexivity. }
  destruct G as (E1 & E2 & E3 & E4 & E5 & E6 & E7 & Gr). replace (order 1 (length [0; 1; 2])) with 1%nat in * by reflexivity. cbn [length] in *.
  assert (Sg : signed 1 [0; 1; 2]).
  { split; [left; reflexivity|]. intros i j H. pose proof (increasing_steps [0; 1; 2] ltac:(steps) i j H). lra. }
  assert (Sg2 : signed 1 [0; 1]).
  { split; [left; reflexivity|]. intros i j H. pose proof (increasing_steps [0; 1] ltac:(steps) i j H). lra. }
  destruct (locate_spec 1 (g_table g) (3 / 4) 3 1) as (i & aux & L & I & B & A); [rewrite E1; exact Sg|rewrite E1; reflexivity|exact E3|exact E4|lia|lia|].
  rewrite E1 in B, A.
  assert (i = 0%nat) as ->.
  { destruct i as [|[|i]]; [reflexivity| |lia]. exfalso. destruct B as ([|B] & _); [discriminate|]. cbn in B. lra. }
  assert (aux = 1%nat) as -> by (destruct A as [(-> & A)|(-> & _)]; [cbn in A; lra|reflexivity]).
  unfold grid_array. rewrite L. cbn [obind]. rewrite E4. change (start_of 3 1 0 1) with 0%nat. cbn [seq loop].
  destruct Gr as (Lr & Gr). cbn [length] in Lr. destruct (g_rows g) as [|row rows]; [discriminate|].
  unfold read_row at 1. unfold at_; cbn [nth_error obind].
  destruct (array_spec nan 1 [0; 1] [1; 1] 2 false (1 / 2) Sg2 eq_refl ltac:(cbn; lia)) as (v & _ & _ & _ & Ar & _).
  destruct (Ar row) as (row' & -> & _); [apply (Gr 0%nat row); cbn; lia|]. cbn [obind]. rewrite Iy. cbn [put obind loop Nat.add].
  set (tt := with_values (g_table g) [v; 0; 0]).
  assert (Ex : i_x tt = [0; 1; 2]) by exact E1. assert (Er : i_romberg tt = 1%nat) by exact E4.
  unfold interpolate_at. rewrite Ex, Er. unfold at_; cbn [nth_error obind]. rewrite (proj2 (Reqb_false _ _)) by lra.
  pose proof (copies tt 0 1 Er ltac:(rewrite Ex; cbn; lia) ltac:(cbn; lia) ltac:(lia) (i_c tt) (i_d tt) E6 E7) as Cp.
  rewrite Cp. cbn [obind Nat.sub Nat.eqb Nat.add nth_error seq loop].
  eexists. reflexivity.
Qed.

(** ** Three nodes at a time *)
Lemma corner_tabular : tabular [0; 1; 2; 3] [0; 0; 0; 1].
Proof. split; [reflexivity|]. split; [cbn; lia|]. left. apply increasing_steps. steps. Qed.
Lemma corner_signed : signed 1 [0; 1; 2; 3].
Proof. split; [left; reflexivity|]. intros i j H. pose proof (increasing_steps [0; 1; 2; 3] ltac:(steps) i j H). lra. Qed.
Lemma corner_jump nan t f : make [0; 1; 2; 3] [0; 0; 0; 1] 3 false = Ok t -> reads nan t f ->
  (forall q, 1 < q < 3 / 2 -> f q = 0) /\ (forall q, 3 / 2 < q < 2 -> f q = (q - 1) * (q - 2) / 2).
Proof.
  intros E F.
  assert (P : forall q, 1 < q < 2 -> forall i aux, place 1 [0; 1; 2; 3] q i aux -> i = 1%nat).
  { intros q Q i aux (I & (Bl & Bu) & _). cbn [length] in *. destruct i as [|[|[|i]]]; [exfalso|reflexivity|exfalso|lia].
    - destruct Bu as [|Bu]; [discriminate|]. cbn in Bu. lra.
    - destruct Bl as [|Bl]; [discriminate|]. cbn in Bl. lra. }
  split; intros q Q; destruct (read_value nan _ _ 3 false t f q corner_tabular ltac:(lia) E F 1 corner_signed) as (i & aux & Pl & _ & V);
    pose proof (P q ltac:(lra) i aux Pl) as ->; destruct Pl as (_ & _ & _ & A); rewrite (V eq_refl); clear V.
  - destruct A as [(-> & _)|(_ & A)]; [|cbn in A; lra]. change (order 3 (length [0; 1; 2; 3])) with 3%nat. change (start_of (length [0; 1; 2; 3]) 3 1 0) with 0%nat.
    cbn. field.
  - destruct A as [(_ & A)|(-> & _)]; [cbn in A; lra|]. change (order 3 (length [0; 1; 2; 3])) with 3%nat. change (start_of (length [0; 1; 2; 3]) 3 1 1) with 1%nat.
    cbn. field.
Qed.
Lemma corner_discontinuous nan t f : make [0; 1; 2; 3] [0; 0; 0; 1] 3 false = Ok t -> reads nan t f -> ~ continuity_pt f (3 / 2).
Proof.
  intros E F C. destruct (corner_jump nan t f E F) as (Lo & Hi). destruct (C (1 / 64) ltac:(lra)) as (d & D & H).
  set (h := Rmin (d / 2) (1 / 4)). assert (Hh : 0 < h <= 1 / 4 /\ h < d).
  { unfold h. split; [split; [apply Rmin_glb_lt; lra|apply Rmin_r]|]. apply (Rle_lt_trans _ (d / 2)); [apply Rmin_l|lra]. }
  assert (H1 : Rabs (f (3 / 2 - h) - f (3 / 2)) < 1 / 64).
  { apply H. split; [split; [exact I|lra]|]. cbn. unfold R_dist. replace (3 / 2 - h - 3 / 2) with (- h) by ring. rewrite Rabs_Ropp, Rabs_pos_eq; lra. }
  assert (H2 : Rabs (f (3 / 2 + h) - f (3 / 2)) < 1 / 64).
  { apply H. split; [split; [exact I|lra]|]. cbn. unfold R_dist. replace (3 / 2 + h - 3 / 2) with h by ring. rewrite Rabs_pos_eq; lra. }
  rewrite Lo in H1 by lra. rewrite Hi in H2 by lra. apply Rabs_def2 in H1, H2.
  assert ((3 / 2 + h - 1) * (3 / 2 + h - 2) / 2 <= - (3 / 32)) by nra. lra.
Qed.
(** Four at a time: a table without a negative entry gives a negative value. *)
Lemma corner_negative nan t f : make [0; 1; 2; 3] [0; 0; 0; 1] 4 false = Ok t -> reads nan t f -> f (3 / 2) < 0.
Proof.
  intros E F. destruct (read_value nan _ _ 4 false t f (3 / 2) corner_tabular ltac:(lia) E F 1 corner_signed) as (i & aux & _ & _ & V).
  rewrite (V eq_refl). change (order 4 (length [0; 1; 2; 3])) with 4%nat.
  replace (start_of (length [0; 1; 2; 3]) 4 i aux) with 0%nat by (unfold start_of; cbn; lia). cbn. lra.
Qed.

(** ** The squares *)
Lemma squares_tabular : tabular [0; 1; 2] [0; 1; 4].
Proof. split; [reflexivity|]. split; [cbn; lia|]. left. apply increasing_steps. steps. Qed.
Lemma squares_ordered : ordered [0; 1; 4].
Proof. left. apply increasing_steps. steps. Qed.
Lemma squares_made r b : (1 <= r)%Z -> exists t, make [0; 1; 2] [0; 1; 4] r b = Ok t.
Proof. intro R. destruct (make_good _ _ r b squares_tabular R) as (t & E & _). exists t. exact E. Qed.
Lemma squares_polynomial k : (k < length [0; 1; 2])%nat -> nth k [0; 1; 4] 0 = polynomial [0; 0; 1] (nth k [0; 1; 2] 0).
Proof. intro K. cbn in K. do 3 (destruct k as [|k]; [cbn; lra|]). lia. Qed.
Lemma squares_inverse nan t f g : make [0; 1; 2] [0; 1; 4] 3 false = Ok t -> reads nan t f -> finds nan t g -> f (g 2) = 25 / 9.
Proof.
  intros E F G. destruct (limit_reads nan _ _ 3 false t squares_tabular squares_ordered ltac:(lia) E) as (g' & h & u & F' & Eu & H & V).
  rewrite (finds_unique nan t g g' G F'), V.
  assert (T' : tabular [0; 1; 4] [0; 1; 2]) by (split; [reflexivity|split; [cbn; lia|exact squares_ordered]]).
  assert (Hh : h 2 = 5 / 3).
  { rewrite (table_polynomial nan _ _ 3 u h [0; 7 / 6; - (1 / 6)] 2 T' ltac:(lia) Eu H); [cbn; lra|cbn; lia|].
    intros k K. cbn in K. do 3 (destruct k as [|k]; [cbn; lra|]). lia. }
  rewrite Hh, clamp_inside.
  - rewrite (table_polynomial nan _ _ 3 t f [0; 0; 1] (5 / 3) squares_tabular ltac:(lia) E F); [cbn; lra|cbn; lia|exact squares_polynomial].
  - cbn. rewrite Rmin_left, Rmax_right by lra. lra.
Qed.
Lemma mismatch x y r b : length x <> length y -> (2 <= length x)%nat -> make x y r b = Throw out_of_range.
Proof.
  intros L N. unfold make. do 2 (rewrite (at_ok _ _ 0) by lia; cbn [obind]).
  set (max := init_max _ _ _). assert (M : (max <= Nat.max (Nat.min (length x) (length y)) 1)%nat).
  { unfold max, init_max. destruct (_ =? _); lia. }
  unfold fill at 1. destruct (Nat.leb_spec (length x) max) as [C|C]; [|reflexivity]. cbn [obind].
  unfold fill. destruct (Nat.leb_spec (length y) max) as [C2|C2]; [lia|reflexivity].
Qed.

(** ** The hard component *)
Lemma hard_tabular a b c d e f g : tabular hard_nodes [a; b; c; d; e; f; g].
Proof. split; [reflexivity|]. split; [cbn; lia|]. left. apply increasing_steps. unfold hard_nodes. steps. Qed.
Lemma hard_polynomial nan c y q : length y = 7%nat -> (length c <= 4)%nat -> (forall k, (k < 7)%nat -> nth k y 0 = polynomial c (nth k hard_nodes 0)) ->
  hard_row nan y q = Ok (polynomial c q).
Proof.
  intros L Lc H. do 8 (destruct y as [|? y]; [discriminate L || idtac|]); [|cbn in L; lia].
  unfold hard_row. destruct (make_good _ _ 4 false (hard_tabular r r0 r1 r2 r3 r4 r5)) as (t & E & _); [lia|]. rewrite E. cbn [obind].
  destruct (table_reads nan _ _ 4 false t (hard_tabular _ _ _ _ _ _ _) ltac:(lia) E) as (f & F).
  destruct (answers_first _ _ _ (q, 0) F) as (t' & Et). unfold table_call in Et. cbn [fst] in Et. rewrite Et. cbn [obind].
  f_equal. apply (table_polynomial nan _ _ 4 t f c q (hard_tabular _ _ _ _ _ _ _) ltac:(lia) E F); [exact Lc|exact H].
Qed.
Lemma hard_exact nan c y q : length y = 7%nat -> (length c <= 4)%nat -> (forall k, (k < 7)%nat -> nth k y 0 = polynomial c (3 + INR k)) ->
  hard_row nan y q = Ok (polynomial c q).
Proof.
  intros L Lc H. apply hard_polynomial; auto. intros k K. rewrite (H k K). f_equal. do 7 (destruct k as [|k]; [cbn; ring|]). lia.
Qed.
Lemma hard_flat nan x e : hard_row nan [x; x; x; x; x; x; x] e = Ok x.
Proof.
  rewrite (hard_polynomial nan [x]); [f_equal; cbn; ring|reflexivity|cbn; lia|].
  intros k K. do 7 (destruct k as [|k]; [cbn; ring|]). lia.
Qed.

(** ** Tables that meet what the theorems ask for *)
Lemma squares_example nan : tabular [0; 1; 2] [0; 1; 4] /\ ordered [0; 1; 4] /\
  exists t f g, make [0; 1; 2] [0; 1; 4] 3 false = Ok t /\ reads nan t f /\ finds nan t g /\ f 3 = 9 /\ f 2 = 4 /\ g 4 = 2.
Proof.
  split; [exact squares_tabular|]. split; [exact squares_ordered|]. destruct (squares_made 3 false ltac:(lia)) as (t & E).
  destruct (table_reads nan _ _ 3 false t squares_tabular ltac:(lia) E) as (f & F).
  destruct (limit_exists nan _ _ 3 false t squares_tabular squares_ordered ltac:(lia) E) as (g & G).
  exists t, f, g. split; [exact E|]. split; [exact F|]. split; [exact G|].
  split; [|split; [apply (table_nodes nan _ _ 3 false t f 2 squares_tabular ltac:(lia) E F); cbn; lia
                  |apply (limit_nodes nan _ _ 3 false t g 2 squares_tabular squares_ordered ltac:(lia) E G); cbn; lia]].
  rewrite (table_polynomial nan _ _ 3 t f [0; 0; 1] 3 squares_tabular ltac:(lia) E F); [cbn; lra|cbn; lia|exact squares_polynomial].
Qed.
Lemma falling_example : tabular [3; 2; 0] [1; 5; -2] /\ exists t, make [3; 2; 0] [1; 5; -2] 2 true = Ok t.
Proof.
  assert (T : tabular [3; 2; 0] [1; 5; -2]).
  { split; [reflexivity|]. split; [cbn; lia|]. right. apply decreasing_steps. steps. }
  split; [exact T|]. destruct (make_good _ _ 2 true T) as (t & E & _); [lia|]. exists t. exact E.
Qed.
Lemma even_example : Nat.Even (order 4 (length hard_nodes)) /\ ~ Nat.Even (order 3 (length [0; 1; 2; 3])) /\ order 3 (length [0; 1; 2; 3]) <> length [0; 1; 2; 3].
Proof.
  split; [exists 2%nat; reflexivity|]. split; [|cbn; lia]. change (order 3 (length [0; 1; 2; 3])) with 3%nat. intros (h & H). lia.
Qed.
(** x1 * x2 on a grid *)
Lemma product_example nan : tabular_grid [0; 1; 2] [0; 1] [[0; 0]; [0; 1]; [0; 2]] /\
  exists g f, make_grid [0; 1; 2] [0; 1] [[0; 0]; [0; 1]; [0; 2]] 2 false 2 false = Ok g /\ reads_grid nan g f /\ f (3 / 2) 5 = 15 / 2.
Proof.
  assert (T : tabular_grid [0; 1; 2] [0; 1] [[0; 0]; [0; 1]; [0; 2]]).
  { split; [reflexivity|]. split; [cbn; lia|]. split; [left; apply increasing_steps; steps|].
    repeat constructor; cbn; try lia; apply increasing_steps; steps. }
  split; [exact T|]. destruct (make_grid_good _ _ _ 2 2 false T) as (g & E & _); [lia|lia|].
  destruct (grid_reads nan _ _ _ 2 2 false g T ltac:(lia) ltac:(lia) E) as (f & F). exists g, f. split; [exact E|]. split; [exact F|].
  rewrite (grid_polynomial nan _ _ _ 2 2 g f [[]; [0; 1]] T ltac:(lia) ltac:(lia) E F).
  - unfold polynomial2. cbn. lra.
  - cbn; lia.
  - repeat constructor; cbn; lia.
  - intros j k J K. cbn in J, K. unfold polynomial2. do 3 (destruct j as [|j]; [do 2 (destruct k as [|k]; [cbn; lra|]); lia|]). lia.
Qed.
Lemma near_end : 7 / 4 <> nth (length [0; 1; 2] - 1) [0; 1; 2] 0 /\
  Rabs (7 / 4 - nth (length [0; 1; 2] - 1) [0; 1; 2] 0) < Rabs (7 / 4 - nth (length [0; 1; 2] - 2) [0; 1; 2] 0).
Proof. cbn. split; [lra|]. rewrite Rabs_left, Rabs_pos_eq by lra. lra. Qed.
Lemma ones_read nan : tabular_grid [0; 1; 2] [0; 1] [[1; 1]; [1; 1]; [1; 1]] /\
  exists g, make_grid [0; 1; 2] [0; 1] [[1; 1]; [1; 1]; [1; 1]] 1 false 2 false = Ok g /\
    exists g', grid_array nan g (3 / 4) (1 / 2) = Ok (0, g').
Proof.
  split; [exact ones_tabular|]. destruct (make_grid_good _ _ _ 1 2 false ones_tabular) as (g & E & _); [lia|lia|].
  exists g. split; [exact E|]. apply ones_zero. exact E.
Qed.
