(** Tables with nodes of their own in every row. *)
From Coq Require Import Arith.
From Verif Require Import Prelude PreludeFacts Function_Model Integral_Model Function_Spec Integral_Spec Function_Proofs Neville_Proofs
  Cross_Model Transform_Proofs Interpolant_Model Interpolant_Spec Interpolant_Proofs Table_Proofs Weak_Tables Weak_Model Weak_Spec.

Section Sheet.
Variables (nan : forall A, outcome A) (x1 : list R) (x2 y : list (list R)) (r1 r2 : Z) (b2 : bool).
Hypothesis T : tabular_sheet x1 x2 y.
Hypothesis R1 : (2 <= r1)%Z.
Hypothesis R2 : (2 <= r2)%Z.

Definition m1 := order r1 (length x1).
Definition m2 j := order r2 (length (nth j x2 [])).
Definition own_good (rows : list inter) : Prop :=
  length rows = length y /\ forall j d, (j < length y)%nat -> good (nth j x2 []) (nth j y []) (m2 j) b2 (nth j rows d).
Definition sheet_good (g : grid) : Prop :=
  i_x (g_table g) = x1 /\ length (i_y (g_table g)) = length x1 /\ i_max (g_table g) = length x1 /\ i_romberg (g_table g) = m1 /\
  i_rational (g_table g) = false /\ length (i_c (g_table g)) = m1 /\ length (i_d (g_table g)) = m1 /\ own_good (g_rows g).
Lemma m1_range : (2 <= m1 <= length x1)%nat.
Proof using All. destruct T as (_ & _ & N & _). unfold m1, order. lia. Qed.

Lemma own_rows_read q2 : exists fv : nat -> R,
  (forall j t, (j < length y)%nat -> good (nth j x2 []) (nth j y []) (m2 j) b2 t ->
     exists t', array nan t q2 = Ok (fv j, t') /\ good (nth j x2 []) (nth j y []) (m2 j) b2 t') /\
  (forall start yv rows, (start + m1 <= length x1)%nat -> length yv = length x1 -> own_good rows ->
    exists yv' rows', loop (read_row nan q2) (seq start m1) (yv, rows) = Ok (yv', rows') /\ length yv' = length x1 /\ own_good rows' /\
      forall j, (start <= j < start + m1)%nat -> nth j yv' 0 = fv j).
Proof using All.
  pose proof T as (Ly & Lx & N & O1 & F).
  set (w := fun j => repeat 0 (m2 j)).
  set (fv := fun j => match array nan (mkinter (nth j x2 []) (nth j y []) (w j) (w j) (length (nth j x2 [])) (m2 j) (m2 j) b2 0 0) q2 with Ok (v, _) => v | _ => 0 end).
  exists fv.
  assert (One : forall j t, (j < length y)%nat -> good (nth j x2 []) (nth j y []) (m2 j) b2 t ->
    exists t', array nan t q2 = Ok (fv j, t') /\ good (nth j x2 []) (nth j y []) (m2 j) b2 t').
  { intros j t J G. destruct (F j J) as (Lr & Nr & Or). destruct (ordered_signed _ Or) as (s2 & S2).
    destruct (array_spec nan s2 (nth j x2 []) (nth j y []) (m2 j) b2 q2 S2) as (v & i & aux & _ & A & _); [lia|unfold m2, order; lia|].
    destruct (A t G) as (t' & -> & G' & _). exists t'. split; [|exact G']. unfold fv.
    destruct (A (mkinter (nth j x2 []) (nth j y []) (w j) (w j) (length (nth j x2 [])) (m2 j) (m2 j) b2 0 0)) as (t0 & -> & _); [|reflexivity].
    repeat split; cbn; unfold w; rewrite ?repeat_length; reflexivity. }
  split; [exact One|]. intros start yv rows S Lv G.
  destruct (loop_seq (read_row nan q2)
    (fun b st => length (fst st) = length x1 /\ own_good (snd st) /\ forall j, (start <= j < b)%nat -> nth j (fst st) 0 = fv j) start m1 (yv, rows))
    as ((yv' & rows') & E & L' & G' & V).
  - cbn. split; [exact Lv|]. split; [exact G|]. intros; lia.
  - intros i (yv1 & rows1) Hi (L1 & (G1 & G2) & V). cbn [fst snd] in *. unfold read_row.
    set (d0 := mkinter [] [] [] [] 0 0 0 false 0 0).
    rewrite (at_ok _ _ d0) by lia. cbn [obind]. destruct (One i (nth i rows1 d0)) as (row & -> & Gr); [lia|apply G2; lia|]. cbn [obind].
    destruct (put_ok yv1 i (fv i) 0) as (yv2 & -> & L3 & V3); [lia|]. cbn [obind].
    destruct (put_ok rows1 i row d0) as (rows2 & -> & L4 & V4); [lia|]. cbn [obind].
    eexists. split; [reflexivity|]. cbn [fst snd]. split; [lia|]. split; [split; [lia|]|].
    + intros j d J. rewrite (nth_indep _ d d0) by lia. rewrite V4. destruct (Nat.eqb_spec j i) as [->|]; [exact Gr|apply G2; exact J].
    + intros j J. rewrite V3. destruct (Nat.eqb_spec j i) as [->|]; [reflexivity|]. apply V. lia.
  - exists yv', rows'. cbn [fst snd] in *. auto.
Qed.
Lemma sheet_spec s1 q1 q2 : signed s1 x1 -> exists v i aux fv, place s1 x1 q1 i aux /\
  (forall j t, (j < length y)%nat -> good (nth j x2 []) (nth j y []) (m2 j) b2 t -> exists t', array nan t q2 = Ok (fv j, t')) /\
  (forall g, sheet_good g -> exists g', grid_array nan g q1 q2 = Ok (v, g') /\ sheet_good g') /\
  (forall k, (k < length x1)%nat -> q1 = nth k x1 0 -> v = fv k) /\
  v = nev (slice x1 (start_of (length x1) m1 i aux)) (fun j => fv (start_of (length x1) m1 i aux + j)%nat) (m1 - 1) 0 q1.
Proof using All.
  intro sg1. pose proof m1_range as M1.
  destruct (own_rows_read q2) as (fv & One & Rows). set (w := repeat 0 m1).
  destruct (locate_spec s1 (mkinter x1 [] w w (length x1) m1 m1 false 0 0) q1 (length x1) m1) as (i & aux & L & I & B & A);
    [exact sg1|reflexivity|reflexivity|reflexivity|lia|lia|]. cbn [i_x] in B, A.
  assert (A1 : (aux <= 1)%nat) by (destruct A as [(-> & _)|(-> & _)]; lia).
  pose proof (start_facts (length x1) m1 i aux I M1 A1) as (S1 & S2 & S3). set (start := start_of (length x1) m1 i aux) in *.
  set (v := nev (slice x1 start) (fun j => fv (start + j)%nat) (m1 - 1) 0 q1).
  exists v, i, aux, fv. split; [exact (conj I (conj B (conj A1 A)))|]. split; [|split; [|split; [|reflexivity]]].
  - intros j t J G. destruct (One j t J G) as (t' & E & _). exists t'. exact E.
  - intros g (E1 & E2 & E3 & E4 & E5 & E6 & E7 & Gr). unfold grid_array.
    assert (Lg : locate (g_table g) q1 = Ok ((i + aux)%nat, start)) by (rewrite <- L; unfold locate; rewrite E1, E3, E4; reflexivity).
    rewrite Lg. cbn [obind]. rewrite E4.
    destruct (Rows start (i_y (g_table g)) (g_rows g) S3 E2 Gr) as (yv' & rows' & -> & L' & Gr' & V). cbn [obind].
    destruct (interpolates nan (with_values (g_table g) yv') start q1 m1) with (starti := (i + aux)%nat) as (v' & V1 & _ & V3);
      cbn [with_values i_x i_y i_romberg i_rational]; rewrite ?E1; try lia.
    { apply (slice_distinct s1 x1 start m1 sg1 S3). } { rewrite E5. discriminate. }
    cbn [with_values i_x i_y i_romberg i_rational] in V1, V3. rewrite ?E1, ?E5 in V3.
    destruct (V1 (with_values (g_table g) yv')) as (c & d & -> & Lc & Ld); try reflexivity; try assumption. cbn [obind].
    assert (v' = v) as ->.
    { rewrite (V3 eq_refl). apply nev_ext. intros j J. split; [reflexivity|]. apply V. lia. }
    eexists. split; [reflexivity|]. split; [exact E1|]. split; [exact L'|].
    exact (conj E3 (conj E4 (conj E5 (conj Lc (conj Ld Gr'))))).
  - intros k K E. unfold v. assert ((i + aux)%nat = k) as <- by (apply (bracket_node s1 x1 i k aux q1); assumption).
    replace q1 with (slice x1 start (i + aux - start)) by (unfold slice; rewrite E; f_equal; lia).
    rewrite (nev_through (slice x1 start) (fun j => fv (start + j)%nat) m1 (slice_distinct s1 x1 start m1 sg1 S3) (m1 - 1) 0 (i + aux - start)) by lia.
    f_equal. lia.
Qed.
End Sheet.
Lemma make_own_rows_good x1 : forall x2 y r2 b2, length x1 = length y -> length x2 = length y ->
  (forall j, (j < length y)%nat -> tabular (nth j x2 []) (nth j y [])) -> (1 <= r2)%Z ->
  exists rows, make_own_rows x1 x2 y r2 b2 = Ok rows /\ own_good x2 y r2 b2 rows.
Proof.
  induction x1 as [|a x1 IH]; intros x2 y r2 b2 L L2 F R.
  - destruct y; [|discriminate]. exists []. split; [reflexivity|]. split; [reflexivity|]. cbn. intros; lia.
  - destruct y as [|row y]; [discriminate|]. destruct x2 as [|nodes x2]; [discriminate|]. cbn [make_own_rows].
    destruct (make_good nodes row r2 b2 (F 0%nat ltac:(cbn; lia)) R) as (t & -> & G & _). cbn [obind].
    destruct (IH x2 y r2 b2) as (rows & -> & Lr & Gr); [cbn in L; lia|cbn in L2; lia| |exact R|].
    { intros j J. apply (F (S j)). cbn. lia. }
    cbn [obind]. eexists. split; [reflexivity|]. split; [cbn; lia|]. intros [|j] d J; [exact G|]. cbn in J. apply (Gr j d). lia.
Qed.
Lemma make_sheet_good x1 x2 y r1 r2 b2 : tabular_sheet x1 x2 y -> (1 <= r1)%Z -> (1 <= r2)%Z ->
  exists g, make_sheet x1 x2 y r1 false r2 b2 = Ok g /\ sheet_good x1 x2 y r1 r2 b2 g.
Proof.
  intros (L & L2 & N & O & F) R1 R2. destruct (ordered_signed x1 O) as (s & Sg). unfold make_sheet.
  do 2 (rewrite (at_ok _ _ 0) by lia; cbn [obind]).
  assert (Mx : init_max (Nat.min (length x1) (length y)) (nth 0 x1 0) (nth (length x1 - 1) x1 0) = length x1).
  { unfold init_max. rewrite (proj2 (Reqb_false _ _)) by (apply (signed_distinct s); [exact Sg|lia..]). lia. }
  rewrite Mx. assert (Rm : init_romberg (length x1) r1 = order r1 (length x1)) by (unfold init_romberg, order; lia).
  rewrite Rm. unfold fill. rewrite Nat.leb_refl, Nat.sub_diag. cbn [obind repeat]. rewrite app_nil_r.
  destruct (make_own_rows_good x1 x2 y r2 b2 L L2 F R2) as (rows & -> & G). cbn [obind].
  eexists. split; [reflexivity|]. split; [reflexivity|]. cbn. rewrite !repeat_length.
  repeat (split; [reflexivity|]). exact G.
Qed.
Section SheetReads.
Variables (nan : forall A, outcome A) (x1 : list R) (x2 y : list (list R)) (r1 r2 : Z) (b2 : bool) (g : grid).
Hypothesis T : tabular_sheet x1 x2 y.
Hypothesis R1 : (2 <= r1)%Z.
Hypothesis R2 : (2 <= r2)%Z.
Hypothesis made : make_sheet x1 x2 y r1 false r2 b2 = Ok g.

Lemma sheet_facts q1 q2 : exists s1 v i aux fv, signed s1 x1 /\ place s1 x1 q1 i aux /\
  (forall j t f, (j < length y)%nat -> make (nth j x2 []) (nth j y []) r2 b2 = Ok t -> reads nan t f -> fv j = f q2) /\
  (forall h, sheet_good x1 x2 y r1 r2 b2 h -> exists h', grid_array nan h q1 q2 = Ok (v, h') /\ sheet_good x1 x2 y r1 r2 b2 h') /\
  (forall k, (k < length x1)%nat -> q1 = nth k x1 0 -> v = fv k) /\
  v = nev (slice x1 (start_of (length x1) (order r1 (length x1)) i aux)) (fun j => fv (start_of (length x1) (order r1 (length x1)) i aux + j)%nat) (order r1 (length x1) - 1) 0 q1.
Proof using All.
  pose proof T as (L & L2 & N & O & F). destruct (ordered_signed x1 O) as (s1 & S1).
  destruct (sheet_spec nan x1 x2 y r1 r2 b2 T R1 R2 s1 q1 q2 S1) as (v & i & aux & fv & P & V1 & V2 & V3 & V4).
  exists s1, v, i, aux, fv. split; [exact S1|]. split; [exact P|]. split; [|auto].
  intros j t f J E Rd. pose proof (F j J) as Tj.
  destruct (make_good (nth j x2 []) (nth j y []) r2 b2 Tj) as (t' & E' & G & _); [lia|]. assert (t' = t) as -> by congruence.
  destruct (V1 j t J G) as (u & Eu). destruct (answers_first _ _ _ (q2, 0) Rd) as (w & Ew). unfold table_call in Ew. cbn [fst] in Ew. congruence.
Qed.
Lemma sheet_made : sheet_good x1 x2 y r1 r2 b2 g.
Proof using All.
  destruct (make_sheet_good x1 x2 y r1 r2 b2 T) as (g' & E & G); [lia|lia|]. assert (g' = g) as -> by congruence. exact G.
Qed.
Lemma sheet_reads : exists f, reads_grid nan g f.
Proof using All.
  exists (fun q1 q2 => match grid_array nan g q1 q2 with Ok (v, _) => v | _ => 0 end).
  apply (answers_invariant _ (sheet_good x1 x2 y r1 r2 b2)); [|exact sheet_made].
  intros o (q1 & q2) Go. unfold grid_call. cbn [fst snd].
  destruct (sheet_facts q1 q2) as (s1 & v & i & aux & fv & _ & _ & _ & A & _).
  destruct (A g sheet_made) as (g1 & -> & _). destruct (A o Go) as (g2 & E2 & G2). exists g2. split; assumption.
Qed.
Variable f : R -> R -> R.
Hypothesis F : reads_grid nan g f.
Lemma sheet_value q1 q2 : exists s1 i aux fv, signed s1 x1 /\ place s1 x1 q1 i aux /\
  (forall j t f, (j < length y)%nat -> make (nth j x2 []) (nth j y []) r2 b2 = Ok t -> reads nan t f -> fv j = f q2) /\
  (forall k, (k < length x1)%nat -> q1 = nth k x1 0 -> f q1 q2 = fv k) /\
  f q1 q2 = nev (slice x1 (start_of (length x1) (order r1 (length x1)) i aux)) (fun j => fv (start_of (length x1) (order r1 (length x1)) i aux + j)%nat) (order r1 (length x1) - 1) 0 q1.
Proof using All.
  destruct (sheet_facts q1 q2) as (s1 & v & i & aux & fv & S1 & P & Vf & A & Vk & V).
  destruct (A g sheet_made) as (g1 & E1 & _). destruct (answers_first _ _ _ (q1, q2) F) as (g2 & E2). unfold grid_call in E2. cbn [fst snd] in E2.
  assert (f q1 q2 = v) as -> by congruence. exists s1, i, aux, fv. auto.
Qed.
Lemma sheet_row j : (j < length y)%nat -> exists t h, make (nth j x2 []) (nth j y []) r2 b2 = Ok t /\ reads nan t h.
Proof using All.
  intro J. pose proof T as (_ & _ & _ & _ & Fr). apply (reads_made nan _ _ _ _ (Fr j J) R2).
Qed.
(** On a row of the table, what is read is what the row alone gives. *)
Lemma sheet_on_row j t h q2 : (j < length y)%nat -> make (nth j x2 []) (nth j y []) r2 b2 = Ok t -> reads nan t h -> f (nth j x1 0) q2 = h q2.
Proof using All.
  intros J E H. destruct (sheet_value (nth j x1 0) q2) as (s1 & i & aux & fv & _ & _ & Vf & Vk & _).
  pose proof T as (L & _). rewrite (Vk j ltac:(lia) eq_refl). apply (Vf j t h J E H).
Qed.
Lemma sheet_nodes j k : (j < length x1)%nat -> (k < length (nth j x2 []))%nat ->
  f (nth j x1 0) (nth k (nth j x2 []) 0) = nth k (nth j y []) 0.
Proof using All.
  intros J K. pose proof T as (L & _ & _ & _ & Fr). destruct (sheet_row j) as (t & h & Et & Ht); [lia|].
  rewrite (sheet_on_row j t h) by (lia || assumption). apply (table_nodes nan _ _ r2 b2 t h k (Fr j ltac:(lia)) R2 Et Ht K).
Qed.
Lemma sheet_rows_window q1 q2 (rows : nat -> R -> R) :
  (forall j, (j < length y)%nat -> exists t, make (nth j x2 []) (nth j y []) r2 b2 = Ok t /\ reads nan t (rows j)) ->
  exists start, central x1 start (order r1 (length x1)) q1 /\
    extrapolates (map (fun j => (nth j x1 0, rows j q2)) (seq start (order r1 (length x1)))) q1 (f q1 q2).
Proof using All.
  intro Rw. destruct (sheet_value q1 q2) as (s1 & i & aux & fv & S1 & P & Vf & _ & ->).
  pose proof T as (L & L2 & N & O & Fr). set (m := order r1 (length x1)) in *. assert (M : (2 <= m <= length x1)%nat) by (unfold m, order; lia).
  pose proof P as (I & _ & A1 & _). pose proof (start_facts (length x1) m i aux I M A1) as (S2 & S3 & S4).
  set (start := start_of (length x1) m i aux) in *. exists start.
  split; [apply (place_central s1 x1 q1 i aux m S1 P M)|].
  replace (map (fun j => (nth j x1 0, rows j q2)) (seq start m)) with (map (fun j => (slice x1 start j, fv (start + j)%nat)) (seq 0 (S (m - 1)))).
  - apply (nev_extrapolates (slice x1 start) (fun j => fv (start + j)%nat) m (slice_distinct s1 x1 start m S1 S4)). lia.
  - replace (S (m - 1)) with m by lia.
    replace (seq start m) with (map (fun j => start + j)%nat (seq 0 m)).
    + rewrite map_map. apply map_ext_in. intros j J. apply in_seq in J. unfold slice. f_equal.
      destruct (Rw (start + j)%nat) as (t & Et & Rt); [lia|]. apply (Vf _ t); [lia|exact Et|exact Rt].
    + assert (G : forall n b, map (fun j => start + j)%nat (seq b n) = seq (start + b) n).
      { induction n as [|n IH]; intro b; [reflexivity|]. cbn [seq map]. f_equal. rewrite IH. f_equal. lia. }
      rewrite G. f_equal. lia.
Qed.
End SheetReads.
Lemma finite_choice {A} (P : nat -> A -> Prop) (a : A) n : (forall j, (j < n)%nat -> exists v, P j v) -> exists h, forall j, (j < n)%nat -> P j (h j).
Proof.
  induction n as [|n IH]; intro H.
  - exists (fun _ => a). intros; lia.
  - destruct IH as (h & Hh); [intros; apply H; lia|]. destruct (H n) as (v & Hv); [lia|].
    exists (fun j => if Nat.eqb j n then v else h j). intros j J. destruct (Nat.eqb_spec j n) as [->|]; [exact Hv|apply Hh; lia].
Qed.
Lemma sheet_interpolated nan x1 x2 y r g f q1 q2 : tabular_sheet x1 x2 y -> (2 <= r)%nat ->
  (r <= length x1)%nat -> (forall j, (j < length y)%nat -> (r <= length (nth j x2 []))%nat) ->
  make_sheet x1 x2 y (Z.of_nat r) false (Z.of_nat r) false = Ok g -> reads_grid nan g f -> interpolated r x1 x2 y q1 q2 (f q1 q2).
Proof.
  intros T R Lr Fr E F. assert (R' : (2 <= Z.of_nat r)%Z) by lia. pose proof T as (L & L2 & N & O & Tr).
  destruct (finite_choice (fun j h => exists t, make (nth j x2 []) (nth j y []) (Z.of_nat r) false = Ok t /\ reads nan t h) (fun _ => 0) (length y))
    as (rows & Rw).
  { intros j J. destruct (sheet_row nan x1 x2 y _ _ _ g T R' R' E f F j J) as (t & h & Et & Ht). exists h, t. auto. }
  destruct (sheet_rows_window nan x1 x2 y _ _ _ g T R' R' E f F q1 q2 rows Rw) as (start & C & X).
  assert (Or : order (Z.of_nat r) (length x1) = r) by (unfold order; lia). rewrite Or in *.
  exists start, (fun j => rows j q2). split; [exact C|]. split; [|exact X].
  intros j J. destruct C as (C & _). destruct (Rw j) as (t & Et & Rt); [lia|].
  destruct (table_window nan _ _ _ t (rows j) q2 (Tr j ltac:(lia)) R' Et Rt) as (first & Cf & Xf).
  assert (Oj : order (Z.of_nat r) (length (nth j x2 [])) = r) by (specialize (Fr j ltac:(lia)); unfold order; lia).
  rewrite Oj in *. exists first. split; assumption.
Qed.
Lemma sheet_reads_made nan x1 x2 y r1 r2 b2 : tabular_sheet x1 x2 y -> (2 <= r1)%Z -> (2 <= r2)%Z ->
  exists g f, make_sheet x1 x2 y r1 false r2 b2 = Ok g /\ reads_grid nan g f.
Proof.
  intros T R1 R2. destruct (make_sheet_good x1 x2 y r1 r2 b2 T) as (g & E & _); [lia|lia|].
  destruct (sheet_reads nan x1 x2 y r1 r2 b2 g T R1 R2 E) as (f & F). eauto.
Qed.
