(** Tables of two variables that are read with two points at a time. *)
From Verif Require Import Prelude PreludeFacts Function_Spec Integral_Spec Interpolant_Model Interpolant_Spec Interpolant_Proofs Table_Proofs.

Lemma extrapolates_line x0 y0 x1 y1 q v : x0 <> x1 -> extrapolates [(x0, y0); (x1, y1)] q v -> v = line x0 y0 x1 y1 q.
Proof.
  intros D ((c & L & H & E) & _). cbn in L.
  assert (P : forall x, polynomial c x = nth 0 c 0 + nth 1 c 0 * x).
  { intro x. unfold polynomial. destruct c as [|c0 [|c1 [|]]]; cbn in *; try lia; ring. }
  assert (H0 := H (x0, y0) ltac:(cbn; tauto)). assert (H1 := H (x1, y1) ltac:(cbn; tauto)). cbn [fst snd] in *. rewrite P in H0, H1, E.
  subst. unfold line. field. lra.
Qed.
Lemma increasing_not_decreasing x : increasing x -> decreasing x -> (2 <= length x)%nat -> False.
Proof. intros I D L. specialize (I 0%nat 1%nat ltac:(lia)). specialize (D 0%nat 1%nat ltac:(lia)). lra. Qed.
Lemma increasing_le x i j : increasing x -> (i <= j < length x)%nat -> nth i x 0 <= nth j x 0.
Proof. intros I (A & B). destruct (Nat.eq_dec i j) as [->|N]; [lra|]. apply Rlt_le, I. lia. Qed.

(** The two points that are used are the neighbours, ... *)
Lemma central_neighbours x start q i : increasing x -> central x start 2 q -> (i + 1 < length x)%nat -> nth i x 0 <= q <= nth (i + 1) x 0 ->
  start = i \/ (start + 1 = i)%nat /\ q = nth i x 0 \/ start = (i + 1)%nat /\ q = nth (i + 1) x 0.
Proof.
  intros I (L & k & K & D & C1 & C2) Hi Q. destruct D as [(_ & D1 & D2)|(D & _)]; [|destruct (increasing_not_decreasing x I D); lia].
  destruct (lt_eq_lt_dec start i) as [[A| ->]|A]; [|now left|].
  - (* start < i: the window ends at i or before *)
    right; left. assert (B : (k <= start + 1)%nat) by (destruct C2 as [C2|C2]; lia).
    pose proof (D2 i ltac:(lia)). assert (q = nth i x 0) by lra. split; [|assumption].
    destruct (Nat.eq_dec (start + 1) i) as [|N]; [assumption|]. exfalso.
    specialize (D2 (start + 1)%nat ltac:(lia)). pose proof (I (start + 1)%nat i ltac:(lia)). lra.
  - right; right. assert (B : (start + 1 <= k)%nat) by (destruct C1 as [C1|C1]; lia).
    pose proof (D1 start ltac:(lia)). pose proof (increasing_le x (i + 1) start I ltac:(lia)) as Le. assert (q = nth (i + 1) x 0) by lra. split; [|assumption].
    destruct (Nat.eq_dec start (i + 1)) as [|N]; [assumption|]. exfalso. pose proof (I (i + 1)%nat start ltac:(lia)). lra.
Qed.
(** ... so that the value is on the line between them. *)
Lemma central_line x start q i (h : nat -> R) v : increasing x -> central x start 2 q -> (i + 1 < length x)%nat -> nth i x 0 <= q <= nth (i + 1) x 0 ->
  extrapolates (map (fun j => (nth j x 0, h j)) (seq start 2)) q v -> v = line (nth i x 0) (h i) (nth (i + 1) x 0) (h (i + 1)%nat) q.
Proof.
  intros I C Hi Q E. pose proof (I i (i + 1)%nat ltac:(lia)) as D. assert (L : (start + 2 <= length x)%nat) by apply C. cbn [map seq] in E.
  replace (S start) with (start + 1)%nat in E by lia.
  pose proof (I start (start + 1)%nat ltac:(lia)) as D'. apply extrapolates_line in E; [|lra]. subst v.
  destruct (central_neighbours x start q i I C Hi Q) as [-> |[(S & -> )|( -> & ->)]]; [reflexivity| |].
  - rewrite <- S in *. unfold line. field. lra.
  - unfold line. field. lra.
Qed.
(** Before the first node, the line through the first two is continued. *)
Lemma central_before x start q (h : nat -> R) v : increasing x -> central x start 2 q -> (2 <= length x)%nat -> q <= nth 1 x 0 ->
  extrapolates (map (fun j => (nth j x 0, h j)) (seq start 2)) q v -> v = line (nth 0 x 0) (h 0%nat) (nth 1 x 0) (h 1%nat) q.
Proof.
  intros I C L Q E. destruct (Rle_dec (nth 0 x 0) q) as [G|G]; [apply (central_line x start q 0 h v I C ltac:(lia) ltac:(cbn; lra) E)|].
  destruct C as (L' & k & K & D & C1 & C2). destruct D as [(_ & D1 & D2)|(D & _)]; [|destruct (increasing_not_decreasing x I D); lia].
  assert (k = 0%nat) as -> by (destruct k as [|k]; [reflexivity|]; specialize (D1 0%nat ltac:(lia)); lra).
  assert (start = 0%nat) as -> by lia. cbn [map seq] in E. pose proof (I 0%nat 1%nat ltac:(lia)). apply extrapolates_line in E; [exact E|lra].
Qed.

Section Grid.
Variables (nan : forall A, outcome A) (x1 x2 : list R) (y : list (list R)) (g : grid) (f : R -> R -> R).
Hypothesis tabulated : tabular_grid x1 x2 y.
Hypothesis up1 : increasing x1.
Hypothesis up2 : increasing x2.
Hypothesis made : make_grid x1 x2 y 2 false 2 false = Ok g.
Hypothesis read : reads_grid nan g f.

Lemma lengths : (2 <= length x1)%nat /\ length x1 = length y /\ (2 <= length x2)%nat /\ forall j, (j < length y)%nat -> tabular x2 (nth j y []).
Proof.
  destruct tabulated as (A & B & _ & F). destruct (tabular_ordered _ _ _ tabulated) as (_ & C & _). split; [exact B|]. split; [exact A|]. split; [exact C|].
  intros j J. rewrite Forall_forall in F. exact (F _ (nth_In _ _ J)).
Qed.
Lemma order_two n : (2 <= n)%nat -> order 2 n = 2%nat.
Proof. intro L. unfold order. change (Z.to_nat 2) with 2%nat. lia. Qed.
Lemma all_rows : exists rows : nat -> R -> R, forall j, (j < length y)%nat -> exists t, make x2 (nth j y []) 2 false = Ok t /\ reads nan t (rows j).
Proof.
  destruct lengths as (_ & _ & _ & T).
  assert (H : forall n, (n <= length y)%nat -> exists rows : nat -> R -> R, forall j, (j < n)%nat -> exists t, make x2 (nth j y []) 2 false = Ok t /\ reads nan t (rows j)).
  { induction n as [|n IH]; intro N; [exists (fun _ _ => 0); intros; lia|]. destruct (IH ltac:(lia)) as (rows & R).
    destruct (reads_made nan x2 (nth n y []) 2 false (T n ltac:(lia)) ltac:(lia)) as (t & h & M & H).
    exists (fun j => if Nat.eqb j n then h else rows j). intros j J. destruct (Nat.eqb_spec j n) as [-> |D]; [now exists t|]. apply R. lia. }
  exact (H (length y) ltac:(lia)).
Qed.
(** A row *)
Lemma row_line t h j k q : (j < length y)%nat -> make x2 (nth j y []) 2 false = Ok t -> reads nan t h -> (k + 1 < length x2)%nat ->
  nth k x2 0 <= q <= nth (k + 1) x2 0 -> h q = line (nth k x2 0) (nth k (nth j y []) 0) (nth (k + 1) x2 0) (nth (k + 1) (nth j y []) 0) q.
Proof.
  intros J M H K Q. destruct lengths as (_ & _ & L2 & T). destruct (table_window nan x2 (nth j y []) 2 t h q (T j J) ltac:(lia) M H) as (start & C & E).
  rewrite order_two in C, E by exact L2. exact (central_line x2 start q k (fun i => nth i (nth j y []) 0) (h q) up2 C K Q E).
Qed.
Lemma row_before t h j q : (j < length y)%nat -> make x2 (nth j y []) 2 false = Ok t -> reads nan t h -> q <= nth 1 x2 0 ->
  h q = line (nth 0 x2 0) (nth 0 (nth j y []) 0) (nth 1 x2 0) (nth 1 (nth j y []) 0) q.
Proof.
  intros J M H Q. destruct lengths as (_ & _ & L2 & T). destruct (table_window nan x2 (nth j y []) 2 t h q (T j J) ltac:(lia) M H) as (start & C & E).
  rewrite order_two in C, E by exact L2. exact (central_before x2 start q (fun i => nth i (nth j y []) 0) (h q) up2 C L2 Q E).
Qed.
(** Across the rows *)
Lemma across rows i q1 q2 : (forall j, (j < length y)%nat -> exists t, make x2 (nth j y []) 2 false = Ok t /\ reads nan t (rows j)) ->
  (i + 1 < length x1)%nat -> nth i x1 0 <= q1 <= nth (i + 1) x1 0 ->
  f q1 q2 = line (nth i x1 0) (rows i q2) (nth (i + 1) x1 0) (rows (i + 1)%nat q2) q1.
Proof.
  intros R Hi Q. destruct lengths as (L1 & _ & _ & _). destruct (grid_window nan x1 x2 y 2 2 false g tabulated ltac:(lia) ltac:(lia) made f read q1 q2 rows R) as (start & C & E).
  rewrite order_two in C, E by exact L1. exact (central_line x1 start q1 i (fun j => rows j q2) (f q1 q2) up1 C Hi Q E).
Qed.
Definition cell (i k : nat) (q1 q2 : R) : R :=
  line (nth i x1 0) (line (nth k x2 0) (nth k (nth i y []) 0) (nth (k + 1) x2 0) (nth (k + 1) (nth i y []) 0) q2)
    (nth (i + 1) x1 0) (line (nth k x2 0) (nth k (nth (i + 1) y []) 0) (nth (k + 1) x2 0) (nth (k + 1) (nth (i + 1) y []) 0) q2) q1.
Lemma grid_cell i k q1 q2 : (i + 1 < length x1)%nat -> nth i x1 0 <= q1 <= nth (i + 1) x1 0 -> (k + 1 < length x2)%nat -> nth k x2 0 <= q2 <= nth (k + 1) x2 0 ->
  f q1 q2 = cell i k q1 q2.
Proof.
  intros Hi Q1 Hk Q2. destruct lengths as (L1 & LY & _ & _). destruct all_rows as (rows & R). rewrite (across rows i q1 q2 R Hi Q1). unfold cell.
  destruct (R i ltac:(lia)) as (t & M & H). destruct (R (i + 1)%nat ltac:(lia)) as (t' & M' & H').
  now rewrite (row_line t (rows i) i k q2 ltac:(lia) M H Hk Q2), (row_line t' (rows (i + 1)%nat) (i + 1) k q2 ltac:(lia) M' H' Hk Q2).
Qed.
Lemma grid_before i q1 q2 : (i + 1 < length x1)%nat -> nth i x1 0 <= q1 <= nth (i + 1) x1 0 -> q2 <= nth 1 x2 0 -> f q1 q2 = cell i 0 q1 q2.
Proof.
  intros Hi Q1 Q2. destruct lengths as (L1 & LY & _ & _). destruct all_rows as (rows & R). rewrite (across rows i q1 q2 R Hi Q1). unfold cell.
  destruct (R i ltac:(lia)) as (t & M & H). destruct (R (i + 1)%nat ltac:(lia)) as (t' & M' & H').
  now rewrite (row_before t (rows i) i q2 ltac:(lia) M H Q2), (row_before t' (rows (i + 1)%nat) (i + 1) q2 ltac:(lia) M' H' Q2).
Qed.
Lemma line_weights a u b v q : a < b -> a <= q <= b -> exists s, 0 <= s <= 1 /\ q = (1 - s) * a + s * b /\ line a u b v q = (1 - s) * u + s * v.
Proof.
  intros D Q. exists ((q - a) / (b - a)). split; [|unfold line; split; field; lra].
  split; [apply Rmult_le_pos; [lra|apply Rlt_le, Rinv_0_lt_compat; lra]|]. apply (Rmult_le_reg_r (b - a)); [lra|]. replace ((q - a) / (b - a) * (b - a)) with (q - a) by (field; lra). lra.
Qed.
Lemma line_param a u b v q s : a < b -> q = (1 - s) * a + s * b -> line a u b v q = (1 - s) * u + s * v.
Proof. intros D ->. unfold line. field. lra. Qed.
Lemma grid_line i k q1 q2 : (i + 1 < length x1)%nat -> nth i x1 0 <= q1 <= nth (i + 1) x1 0 -> (k + 1 < length x2)%nat -> nth k x2 0 <= q2 <= nth (k + 1) x2 0 ->
  exists s t, 0 <= s <= 1 /\ 0 <= t <= 1 /\ q1 = (1 - s) * nth i x1 0 + s * nth (i + 1) x1 0 /\ q2 = (1 - t) * nth k x2 0 + t * nth (k + 1) x2 0 /\
    f q1 q2 = (1 - s) * ((1 - t) * nth k (nth i y []) 0 + t * nth (k + 1) (nth i y []) 0) +
              s * ((1 - t) * nth k (nth (i + 1) y []) 0 + t * nth (k + 1) (nth (i + 1) y []) 0).
Proof.
  intros Hi Q1 Hk Q2. rewrite (grid_cell i k q1 q2 Hi Q1 Hk Q2). unfold cell. pose proof (up1 i (i + 1)%nat ltac:(lia)) as D1. pose proof (up2 k (k + 1)%nat ltac:(lia)) as D2.
  destruct (line_weights _ 0 _ 0 q1 D1 Q1) as (s & S & E1 & _). destruct (line_weights _ 0 _ 0 q2 D2 Q2) as (t & T & E2 & _).
  exists s, t. repeat split; try (exact E1 || exact E2 || lra). rewrite (line_param _ _ _ _ q1 s D1 E1), !(line_param _ _ _ _ q2 t D2 E2). reflexivity.
Qed.
End Grid.

(** ** Functions that follow the lines between points *)
Definition polyline (x : list R) (h : nat -> R) (F : R -> R) : Prop :=
  forall i q, (i + 1 < length x)%nat -> nth i x 0 <= q <= nth (i + 1) x 0 -> F q = line (nth i x 0) (h i) (nth (i + 1) x 0) (h (i + 1)%nat) q.
Lemma interval_of x q : increasing x -> (2 <= length x)%nat -> nth 0 x 0 <= q < nth (length x - 1) x 0 ->
  exists i, (i + 1 < length x)%nat /\ nth i x 0 <= q < nth (i + 1) x 0.
Proof.
  intros I L (Q1 & Q2). assert (H : forall n, (n < length x)%nat -> q < nth n x 0 -> exists i, (i + 1 < length x)%nat /\ nth i x 0 <= q < nth (i + 1) x 0).
  { induction n as [|n IH]; intros N Q; [lra|]. destruct (Rle_dec (nth n x 0) q) as [G|G]; [|apply IH; [lia|lra]].
    exists n. replace (n + 1)%nat with (S n) by lia. split; [lia|lra]. }
  exact (H (length x - 1)%nat ltac:(lia) Q2).
Qed.
Lemma interval_closed x q : increasing x -> (2 <= length x)%nat -> nth 0 x 0 <= q <= nth (length x - 1) x 0 ->
  exists i, (i + 1 < length x)%nat /\ nth i x 0 <= q <= nth (i + 1) x 0.
Proof.
  intros I L (Q1 & [Q2| ->]).
  - destruct (interval_of x q I L (conj Q1 Q2)) as (i & Hi & A & B). exists i. split; [exact Hi|lra].
  - exists (length x - 2)%nat. replace (length x - 2 + 1)%nat with (length x - 1)%nat by lia. split; [lia|]. split; [|lra]. apply increasing_le; [exact I|lia].
Qed.
Lemma line_ends a u b v : a < b -> line a u b v a = u /\ line a u b v b = v.
Proof. intro D. unfold line. split; field; lra. Qed.
Lemma line_rises a u b v q q' : a < b -> u < v -> q < q' -> line a u b v q < line a u b v q'.
Proof.
  intros D U Q. unfold line. assert ((q - a) / (b - a) < (q' - a) / (b - a)).
  { apply Rmult_lt_compat_r; [apply Rinv_0_lt_compat; lra|lra]. }
  apply Rplus_lt_compat_l, Rmult_lt_compat_l; lra.
Qed.
Lemma polyline_rises x h F q q' : increasing x -> (2 <= length x)%nat -> polyline x h F -> (forall i, (i + 1 < length x)%nat -> h i < h (i + 1)%nat) ->
  nth 0 x 0 <= q -> q < q' -> q' <= nth (length x - 1) x 0 -> F q < F q'.
Proof.
  intros I L P Hh A B C. destruct (interval_of x q I L ltac:(lra)) as (i & Hi & Q). pose proof (I i (i + 1)%nat ltac:(lia)) as D.
  rewrite (P i q Hi ltac:(lra)). destruct (Rle_dec q' (nth (i + 1) x 0)) as [G|G].
  - rewrite (P i q' Hi ltac:(lra)). apply line_rises; auto; lra.
  - apply Rnot_le_lt in G. destruct (interval_closed x q' I L ltac:(lra)) as (j & Hj & Q'). rewrite (P j q' Hj Q').
    pose proof (I j (j + 1)%nat ltac:(lia)) as D'. destruct (line_ends (nth i x 0) (h i) (nth (i + 1) x 0) (h (i + 1)%nat) D) as (_ & E).
    destruct (line_ends (nth j x 0) (h j) (nth (j + 1) x 0) (h (j + 1)%nat) D') as (E' & _).
    pose proof (line_rises (nth i x 0) (h i) (nth (i + 1) x 0) (h (i + 1)%nat) q (nth (i + 1) x 0) D (Hh i Hi) ltac:(lra)) as S1.
    assert (S2 : h j <= line (nth j x 0) (h j) (nth (j + 1) x 0) (h (j + 1)%nat) q').
    { destruct (proj1 Q') as [G'|G']; [|rewrite <- G', E'; lra]. rewrite <- E' at 1. apply Rlt_le, line_rises; auto. }
    assert (J : (i + 1 <= j)%nat).
    { destruct (le_lt_dec (i + 1) j) as [|J]; [assumption|]. exfalso. pose proof (increasing_le x (j + 1) (i + 1) I ltac:(lia)). lra. }
    assert (M : forall n, (i + 1 + n < length x)%nat -> h (i + 1)%nat <= h (i + 1 + n)%nat).
    { induction n as [|n IH]; intro N; [rewrite Nat.add_0_r; lra|]. specialize (IH ltac:(lia)). pose proof (Hh (i + 1 + n)%nat ltac:(lia)) as G'.
      replace (i + 1 + n + 1)%nat with (i + 1 + S n)%nat in G' by lia. lra. }
    specialize (M (j - (i + 1))%nat ltac:(lia)). replace (i + 1 + (j - (i + 1)))%nat with j in M by lia. lra.
Qed.

Section Rises.
Variables (nan : forall A, outcome A) (x1 x2 : list R) (y : list (list R)) (g : grid) (f : R -> R -> R).
Hypothesis tabulated : tabular_grid x1 x2 y.
Hypothesis up1 : increasing x1.
Hypothesis up2 : increasing x2.
Hypothesis made : make_grid x1 x2 y 2 false 2 false = Ok g.
Hypothesis read : reads_grid nan g f.
Notation top1 := (nth (length x1 - 1) x1 0).
Notation top2 := (nth (length x2 - 1) x2 0).

Lemma grid_rises2 q1 q q' : (forall j k, (j < length x1)%nat -> (k + 1 < length x2)%nat -> nth k (nth j y []) 0 < nth (k + 1) (nth j y []) 0) ->
  nth 0 x1 0 <= q1 <= top1 -> nth 0 x2 0 <= q -> q < q' -> q' <= top2 -> f q1 q < f q1 q'.
Proof.
  intros H Q1 A B C. destruct (lengths x1 x2 y tabulated) as (L1 & LY & L2 & _). destruct (interval_closed x1 q1 up1 L1 Q1) as (i & Hi & I).
  pose proof (up1 i (i + 1)%nat ltac:(lia)) as D1. destruct (line_weights _ 0 _ 0 q1 D1 I) as (s & S & E1 & _).
  apply (polyline_rises x2 (fun k => (1 - s) * nth k (nth i y []) 0 + s * nth k (nth (i + 1) y []) 0) (f q1) q q' up2 L2); try assumption.
  - intros k q2 Hk K. pose proof (up2 k (k + 1)%nat ltac:(lia)) as D2. rewrite (grid_cell nan x1 x2 y g f tabulated up1 up2 made read i k q1 q2 Hi I Hk K).
    unfold cell. rewrite (line_param _ _ _ _ q1 s D1 E1). destruct (line_weights _ 0 _ 0 q2 D2 K) as (t & T & E2 & _).
    rewrite !(line_param _ _ _ _ q2 t D2 E2). ring.
  - intros k Hk. cbn beta. pose proof (H i k ltac:(lia) Hk). pose proof (H (i + 1)%nat k ltac:(lia) Hk). destruct (Rle_dec s 0) as [G|G]; nra.
Qed.
(** The first row may hold the same number everywhere. *)
Lemma grid_rises1 q q' q2 : (forall j, (j + 1 < length x1)%nat -> nth 0 (nth j y []) 0 <= nth 0 (nth (j + 1) y []) 0) ->
  (forall j k, (j + 1 < length x1)%nat -> (0 < k < length x2)%nat -> nth k (nth j y []) 0 < nth k (nth (j + 1) y []) 0) ->
  nth 0 x2 0 < q2 <= top2 -> nth 0 x1 0 <= q -> q < q' -> q' <= top1 -> f q q2 < f q' q2.
Proof.
  intros H0 H Q2 A B C. destruct (lengths x1 x2 y tabulated) as (L1 & LY & L2 & _). destruct (interval_closed x2 q2 up2 L2 ltac:(lra)) as (k & Hk & K).
  pose proof (up2 k (k + 1)%nat ltac:(lia)) as D2. destruct (line_weights _ 0 _ 0 q2 D2 K) as (t & T & E2 & _).
  apply (polyline_rises x1 (fun j => (1 - t) * nth k (nth j y []) 0 + t * nth (k + 1) (nth j y []) 0) (fun q1 => f q1 q2) q q' up1 L1); try assumption.
  - intros i q1 Hi I. rewrite (grid_cell nan x1 x2 y g f tabulated up1 up2 made read i k q1 q2 Hi I Hk K). unfold cell. now rewrite !(line_param _ _ _ _ q2 t D2 E2).
  - intros j Hj. cbn beta. pose proof (H j (k + 1)%nat Hj ltac:(lia)) as G1. destruct k as [|k].
    + pose proof (H0 j Hj). assert (0 < t) by nra. cbn [Nat.add] in *. nra.
    + pose proof (H j (S k) Hj ltac:(lia)). destruct (Rle_dec t 0); nra.
Qed.
End Rises.
