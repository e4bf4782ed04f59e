(** Continuity, straight lines, the inverse, tables of two variables. *)
From Coq Require Import Arith.
From Verif Require Import Prelude PreludeFacts Function_Model Integral_Model Function_Spec Integral_Spec Function_Proofs Neville_Proofs
  Cross_Model Transform_Proofs Interpolant_Model Interpolant_Spec Interpolant_Proofs.

(** ** Continuity *)
Lemma nev_continuous xs ys k : forall i, continuity (nev xs ys k i).
Proof.
  induction k as [|k IH]; intros i q; cbn [nev].
  - apply continuity_pt_const. intros u v. reflexivity.
  - change (continuity_pt (mult_real_fct (/ (xs (i + S k)%nat - xs i))
      (((fct_cte (xs (i + S k)%nat) - id) * nev xs ys k i + (id - fct_cte (xs i)) * nev xs ys k (S i))%F)) q) || idtac.
    apply (continuity_pt_locally_ext (fun q => / (xs (i + S k)%nat - xs i) * ((xs (i + S k)%nat - q) * nev xs ys k i q + (q - xs i) * nev xs ys k (S i) q)) _ 1);
      [lra|intros u _; unfold Rdiv; ring|].
    apply continuity_pt_mult; [apply continuity_pt_const; intros u v; reflexivity|].
    apply continuity_pt_plus; (apply continuity_pt_mult; [|apply IH]); apply continuity_pt_minus;
      solve [apply continuity_pt_const; intros u v; reflexivity|apply derivable_continuous_pt, derivable_pt_id].
Qed.
Lemma common_delta (G : nat -> R -> R) q0 N : (forall w, continuity_pt (G w) q0) -> forall e, 0 < e ->
  exists d, 0 < d /\ forall w q, (w < N)%nat -> Rabs (q - q0) < d -> Rabs (G w q - G w q0) < e.
Proof.
  intros C e E. induction N as [|N (d & D & H)].
  - exists 1. split; [lra|]. intros; lia.
  - destruct (C N e E) as (a & A & HA). exists (Rmin d a). split; [apply Rmin_glb_lt; lra|].
    intros w q W Q. destruct (Nat.eq_dec w N) as [->|].
    + destruct (Req_EM_T q q0) as [->|Nq]; [rewrite Rminus_diag_eq by reflexivity; rewrite Rabs_R0; exact E|].
      apply HA. split; [split; [exact I|congruence]|]. cbn. unfold R_dist. apply (Rlt_le_trans _ _ _ Q). apply Rmin_r.
    + apply H; [lia|]. apply (Rlt_le_trans _ _ _ Q). apply Rmin_l.
Qed.
Lemma continuity_pieces (f : R -> R) (G : nat -> R -> R) q0 N d0 : (forall w, continuity_pt (G w) q0) -> 0 < d0 ->
  (forall q, Rabs (q - q0) < d0 -> exists w, (w < N)%nat /\ f q = G w q /\ f q0 = G w q0) -> continuity_pt f q0.
Proof.
  intros C D H e E. destruct (common_delta G q0 N C e E) as (d & D1 & H1).
  exists (Rmin d d0). split; [apply Rmin_glb_lt; lra|]. intros q (_ & Q). cbn in *. unfold R_dist in *.
  destruct (H q) as (w & W & -> & ->); [apply (Rlt_le_trans _ _ _ Q), Rmin_r|].
  apply H1; [exact W|]. apply (Rlt_le_trans _ _ _ Q), Rmin_l.
Qed.
Lemma node_distance (x : list R) q0 n : exists d, 0 < d /\ forall k, (k < n)%nat -> nth k x 0 <> q0 -> d <= Rabs (nth k x 0 - q0).
Proof.
  induction n as [|n (d & D & H)].
  - exists 1. split; [lra|]. intros; lia.
  - destruct (Req_EM_T (nth n x 0) q0) as [E|E].
    + exists d. split; [exact D|]. intros k K N. destruct (Nat.eq_dec k n) as [->|]; [contradiction|]. apply H; [lia|exact N].
    + exists (Rmin d (Rabs (nth n x 0 - q0))). split; [apply Rmin_glb_lt; [exact D|apply Rabs_pos_lt; lra]|].
      intros k K N. destruct (Nat.eq_dec k n) as [->|]; [apply Rmin_r|]. apply (Rle_trans _ d); [apply Rmin_l|]. apply H; [lia|exact N].
Qed.
Lemma sides s a q q0 d : (s = 1 \/ s = -1) -> d <= Rabs (a - q0) -> Rabs (q - q0) < d ->
  (s * a < s * q0 -> s * a < s * q) /\ (s * q0 < s * a -> s * q < s * a).
Proof.
  intros S D Q. unfold Rabs in *. destruct (Rcase_abs (a - q0)), (Rcase_abs (q - q0)); destruct S as [->| ->]; split; lra.
Qed.
(** Near [q0] the interval is the one of [q0], or has [q0] as one of its ends. *)
Lemma place_near s x q0 : signed s x -> exists d, 0 < d /\ forall q i aux i0 aux0, Rabs (q - q0) < d -> place s x q i aux -> place s x q0 i0 aux0 ->
  i = i0 \/ (nth i x 0 = q0 \/ nth (i + 1) x 0 = q0).
Proof.
  intros Sg. pose proof Sg as (Ss & H). destruct (node_distance x q0 (length x)) as (d & D & HD). exists d. split; [exact D|].
  intros q i aux i0 aux0 Q (I & (Bl & Bu) & _) (I0 & (Bl0 & Bu0) & _).
  destruct (Req_EM_T (nth i x 0) q0) as [E|Ni]; [auto|]. destruct (Req_EM_T (nth (i + 1) x 0) q0) as [E|Ni1]; [auto|]. left.
  destruct (sides s (nth i x 0) q q0 d Ss (HD i ltac:(lia) Ni) Q) as (_ & Si).
  destruct (sides s (nth (i + 1) x 0) q q0 d Ss (HD (i + 1)%nat ltac:(lia) Ni1) Q) as (Si1 & _).
  assert (Xi : s * nth i x 0 <> s * q0) by (destruct Ss as [->| ->]; lra).
  assert (Xi1 : s * nth (i + 1) x 0 <> s * q0) by (destruct Ss as [->| ->]; lra).
  destruct (lt_eq_lt_dec i i0) as [[L|L]|L]; [exfalso|exact L|exfalso].
  - destruct Bu as [|Bu]; [lia|]. destruct Bl0 as [|Bl0]; [lia|].
    assert (s * nth (i + 1) x 0 <= s * nth i0 x 0).
    { destruct (Nat.eq_dec (i + 1) i0) as [->|]; [lra|]. apply Rlt_le, H. lia. }
    assert (s * nth (i + 1) x 0 < s * q0) by lra. specialize (Si1 H1). lra.
  - destruct Bl as [|Bl]; [lia|]. destruct Bu0 as [|Bu0]; [lia|].
    assert (s * nth (i0 + 1) x 0 <= s * nth i x 0).
    { destruct (Nat.eq_dec (i0 + 1) i) as [->|]; [lra|]. apply Rlt_le, H. lia. }
    assert (s * q0 < s * nth i x 0) by lra. specialize (Si H1). lra.
Qed.
Lemma start_even n m i aux aux' : (aux <= 1)%nat -> (aux' <= 1)%nat -> (2 <= m)%nat -> Nat.Even m \/ m = n ->
  start_of n m i aux = start_of n m i aux'.
Proof.
  intros A A' M [(h & ->)| ->]; unfold start_of; [|rewrite Nat.sub_diag, !Nat.min_0_r; reflexivity].
  assert (G : forall a, (a <= 1)%nat -> ((2 * h - 1 - a) / 2 = h - 1)%nat).
  { intros a Ha. symmetry. apply (Nat.div_unique _ 2 _ (1 - a)); lia. }
  rewrite !G by assumption. reflexivity.
Qed.
Lemma table_continuous nan x y r t f : tabular x y -> (2 <= r)%Z -> make x y r false = Ok t -> reads nan t f ->
  Nat.Even (order r (length x)) \/ order r (length x) = length x -> continuity f.
Proof.
  intros T R2 E F Ev q0. pose proof T as (Lx & N & O). destruct (ordered_signed x O) as (s & Sg).
  set (m := order r (length x)) in *. assert (M : (2 <= m <= length x)%nat) by (unfold m, order; lia).
  destruct (place_near s x q0 Sg) as (d & D & HD).
  apply (continuity_pieces f (fun w => nev (slice x w) (slice y w) (m - 1) 0) q0 (S (length x)) d);
    [intro w; apply nev_continuous|exact D|].
  intros q Q. destruct (read_value nan x y r false t f q T R2 E F s Sg) as (i & aux & P & _ & V). fold m in V.
  destruct (read_value nan x y r false t f q0 T R2 E F s Sg) as (i0 & aux0 & P0 & V0n & V0). fold m in V0.
  pose proof P as (I & _ & A1 & _). pose proof P0 as (I0 & _ & A2 & _).
  pose proof (start_facts (length x) m i aux I M A1) as (S1 & S2 & S3).
  exists (start_of (length x) m i aux). split; [lia|]. split; [apply V; reflexivity|].
  destruct (HD q i aux i0 aux0 Q P P0) as [<-|Nd].
  - rewrite (start_even _ m i aux aux0) by (assumption || lia). apply V0; reflexivity.
  - assert (G : forall k, (i <= k <= i + 1)%nat -> nth k x 0 = q0 ->
      f q0 = nev (slice x (start_of (length x) m i aux)) (slice y (start_of (length x) m i aux)) (m - 1) 0 q0).
    { intros k K Ek. rewrite (V0n k) by (lia || congruence). rewrite <- Ek.
      set (st := start_of (length x) m i aux) in *. replace k with (st + (k - st))%nat by lia. symmetry.
      apply (nev_through (slice x st) (slice y st) m (slice_distinct s x st m Sg S3)); lia. }
    destruct Nd as [Ek|Ek]; [apply (G i)|apply (G (i + 1)%nat)]; solve [lia|exact Ek].
Qed.

(** ** Straight lines *)
Lemma start_two n i aux : (i + 1 < n)%nat -> (aux <= 1)%nat -> start_of n 2 i aux = i.
Proof. intros I A. unfold start_of. destruct aux as [|[|]]; cbn; lia. Qed.
Definition line (x0 y0 x1 y1 q : R) : R := y0 + (y1 - y0) * ((q - x0) / (x1 - x0)).
Lemma read_line nan x y b t f q s : tabular x y -> signed s x -> make x y 2 b = Ok t -> reads nan t f -> b = false ->
  exists i aux, place s x q i aux /\ f q = line (nth i x 0) (nth i y 0) (nth (i + 1) x 0) (nth (i + 1) y 0) q.
Proof.
  intros T Sg E F ->. destruct (read_value nan x y 2 false t f q T ltac:(lia) E F s Sg) as (i & aux & P & _ & V).
  exists i, aux. split; [exact P|]. rewrite (V eq_refl). pose proof P as (I & _ & A1 & _). destruct T as (_ & N & _).
  replace (order 2 (length x)) with 2%nat by (unfold order; lia). rewrite start_two by assumption.
  assert (D : nth i x 0 <> nth (i + 1) x 0) by (apply (signed_distinct s); [exact Sg|lia..]).
  cbn [Nat.sub nev]. unfold slice, line. rewrite !Nat.add_0_l, Nat.add_0_r.
  field. lra.
Qed.
Lemma line_between x0 y0 x1 y1 q : x0 <> x1 -> between x0 x1 q -> between y0 y1 (line x0 y0 x1 y1 q).
Proof.
  unfold between, line. intros N B. set (u := (q - x0) / (x1 - x0)).
  assert (U : 0 <= u <= 1).
  { unfold u. destruct (Rle_lt_dec x0 x1) as [C|C].
    - rewrite Rmin_left, Rmax_right in B by lra. assert (0 < x1 - x0) by lra. split.
      + apply Rmult_le_pos; [lra|]. apply Rlt_le, Rinv_0_lt_compat. lra.
      + apply (Rmult_le_reg_r (x1 - x0)); [lra|]. unfold Rdiv. rewrite Rmult_assoc, Rinv_l by lra. lra.
    - rewrite Rmin_right, Rmax_left in B by lra. replace ((q - x0) / (x1 - x0)) with ((x0 - q) / (x0 - x1)) by (field; lra). split.
      + apply Rmult_le_pos; [lra|]. apply Rlt_le, Rinv_0_lt_compat. lra.
      + apply (Rmult_le_reg_r (x0 - x1)); [lra|]. unfold Rdiv. rewrite Rmult_assoc, Rinv_l by lra. lra. }
  clearbody u. destruct (Rle_lt_dec y0 y1).
  - rewrite Rmin_left, Rmax_right by lra. nra.
  - rewrite Rmin_right, Rmax_left by lra. nra.
Qed.
Lemma place_between s x q i aux : signed s x -> place s x q i aux -> between (nth 0 x 0) (nth (length x - 1) x 0) q ->
  between (nth i x 0) (nth (i + 1) x 0) q.
Proof.
  intros (Ss & H) (I & (Bl & Bu) & _) B.
  assert (Lo : s * nth 0 x 0 <= s * q).
  { specialize (H 0%nat (length x - 1)%nat ltac:(lia)). unfold between in B. destruct Ss as [->| ->];
      [rewrite Rmin_left in B by lra|rewrite Rmax_left in B by lra]; lra. }
  assert (Hi : s * q <= s * nth (length x - 1) x 0).
  { specialize (H 0%nat (length x - 1)%nat ltac:(lia)). unfold between in B. destruct Ss as [->| ->];
      [rewrite Rmax_right in B by lra|rewrite Rmin_right in B by lra]; lra. }
  assert (Bl' : s * nth i x 0 <= s * q) by (destruct Bl as [->|]; assumption).
  assert (Bu' : s * q <= s * nth (i + 1) x 0) by (destruct Bu as [->|]; assumption).
  unfold between. destruct Ss as [->| ->]; [rewrite Rmin_left, Rmax_right by lra|rewrite Rmin_right, Rmax_left by lra]; lra.
Qed.
Lemma table_line nan x y t f q : tabular x y -> make x y 2 false = Ok t -> reads nan t f ->
  between (nth 0 x 0) (nth (length x - 1) x 0) q ->
  exists i, (i + 1 < length x)%nat /\ between (nth i x 0) (nth (i + 1) x 0) q /\
    f q = nth i y 0 + (nth (i + 1) y 0 - nth i y 0) * ((q - nth i x 0) / (nth (i + 1) x 0 - nth i x 0)) /\
    between (nth i y 0) (nth (i + 1) y 0) (f q).
Proof.
  intros T E F B. pose proof T as (Lx & N & O). destruct (ordered_signed x O) as (s & Sg).
  destruct (read_line nan x y false t f q s T Sg E F eq_refl) as (i & aux & P & V). exists i. pose proof P as (I & _).
  pose proof (place_between s x q i aux Sg P B) as Bi.
  split; [exact I|]. split; [exact Bi|]. split; [exact V|]. rewrite V. apply line_between; [|exact Bi].
  apply (signed_distinct s); [exact Sg|lia..].
Qed.

(** ** The inverse *)
Lemma exchange_good x y m b t : length x = length y -> good x y m b t -> good y x m b (exchange t).
Proof. intros L (H1 & H2 & H3 & H4 & H5 & H6 & H7 & H8). repeat split; cbn; try assumption. lia. Qed.
Lemma exchange_exchange t : exchange (exchange t) = t.
Proof. destruct t. reflexivity. Qed.
Definition clamp (lo hi v : R) : R := if v <? lo then lo else if hi <? v then hi else v.
Lemma clamp_range lo hi v : lo <= hi -> lo <= clamp lo hi v <= hi.
Proof. intro H. unfold clamp. destruct (Rltb_spec v lo); [lra|]. destruct (Rltb_spec hi v); lra. Qed.
Lemma clamp_inside lo hi v : lo <= v <= hi -> clamp lo hi v = v.
Proof. intro H. unfold clamp. destruct (Rltb_spec v lo); [lra|]. destruct (Rltb_spec hi v); lra. Qed.

(** FindLimit is the reading of the table of exchanged points. *)
Lemma limit_reads nan x y r b t : tabular x y -> ordered y -> (2 <= r)%Z -> make x y r b = Ok t ->
  exists g h u, finds nan t g /\ make y x r b = Ok u /\ reads nan u h /\
    forall q, g q = clamp (Rmin (nth 0 x 0) (nth (length x - 1) x 0)) (Rmax (nth 0 x 0) (nth (length x - 1) x 0)) (h q).
Proof.
  intros T Oy R2 E. destruct (make_good x y r b T) as (t' & E' & G & Glo & Ghi); [lia|]. assert (t' = t) as -> by congruence.
  pose proof T as (Lx & N & O). assert (T' : tabular y x) by (split; [lia|split; [lia|exact Oy]]).
  destruct (make_good y x r b T') as (u & Eu & Gu & _); [lia|]. destruct (table_reads nan y x r b u T' R2 Eu) as (h & H).
  destruct (ordered_signed y Oy) as (s & Sg).
  set (lo := Rmin (nth 0 x 0) (nth (length x - 1) x 0)) in *. set (hi := Rmax (nth 0 x 0) (nth (length x - 1) x 0)) in *.
  exists (fun q => clamp lo hi (h q)), h, u. split; [|split; [exact Eu|split; [exact H|reflexivity]]].
  apply (answers_invariant _ (fun o => good x y (order r (length x)) b o /\ i_low o = lo /\ i_high o = hi)); [|auto].
  intros o (q & q') (Go & Lo & Hi). unfold limit_call. cbn [fst]. unfold find_limit.
  rewrite Lx in Go |- *.
  destruct (array_spec nan s y x (order r (length y)) b q) as (v & i & aux & P & A & V1 & V2); [exact Sg|lia|unfold order; lia|].
  destruct (A (exchange o) (exchange_good _ _ _ _ _ Lx Go)) as (o' & -> & Go' & Lo' & Hi'). cbn [obind].
  destruct (answers_first _ _ _ (q, 0) H) as (u' & Eh). unfold table_call in Eh. cbn [fst] in Eh.
  destruct (A u Gu) as (u1 & E1 & _). assert (h q = v) as -> by congruence.
  exists (exchange o'). rewrite Lo, Hi. split; [reflexivity|]. split; [apply exchange_good; [lia|exact Go']|].
  cbn in *. split; congruence.
Qed.
Lemma reads_unique nan t f g : reads nan t f -> reads nan t g -> forall q, f q = g q.
Proof.
  intros F G q. destruct (answers_first _ _ _ (q, 0) F) as (u & Eu). destruct (answers_first _ _ _ (q, 0) G) as (w & Ew).
  cbn [fst] in *. congruence.
Qed.
Lemma finds_unique nan t f g : finds nan t f -> finds nan t g -> forall q, f q = g q.
Proof.
  intros F G q. destruct (answers_first _ _ _ (q, 0) F) as (u & Eu). destruct (answers_first _ _ _ (q, 0) G) as (w & Ew).
  cbn [fst] in *. congruence.
Qed.
Lemma extremes s x k : signed s x -> (k < length x)%nat ->
  Rmin (nth 0 x 0) (nth (length x - 1) x 0) <= nth k x 0 <= Rmax (nth 0 x 0) (nth (length x - 1) x 0).
Proof.
  intros (Ss & H) K.
  assert (Lo : s * nth 0 x 0 <= s * nth k x 0) by (destruct (Nat.eq_dec k 0) as [->|]; [lra|apply Rlt_le, H; lia]).
  assert (Hi : s * nth k x 0 <= s * nth (length x - 1) x 0) by (destruct (Nat.eq_dec k (length x - 1)) as [->|]; [lra|apply Rlt_le, H; lia]).
  destruct Ss as [->| ->]; [rewrite Rmin_left, Rmax_right by lra|rewrite Rmin_right, Rmax_left by lra]; lra.
Qed.
Lemma limit_exists nan x y r b t : tabular x y -> ordered y -> (2 <= r)%Z -> make x y r b = Ok t -> exists g, finds nan t g.
Proof. intros T Oy R2 E. destruct (limit_reads nan x y r b t T Oy R2 E) as (g & _ & _ & F & _). exists g. exact F. Qed.
Lemma limit_nodes nan x y r b t g k : tabular x y -> ordered y -> (2 <= r)%Z -> make x y r b = Ok t -> finds nan t g -> (k < length x)%nat ->
  g (nth k y 0) = nth k x 0.
Proof.
  intros T Oy R2 E F K. destruct (limit_reads nan x y r b t T Oy R2 E) as (g' & h & u & F' & Eu & H & V).
  rewrite (finds_unique nan t g g' F F'), V. pose proof T as (Lx & N & O). destruct (ordered_signed x O) as (s & Sg).
  assert (T' : tabular y x) by (split; [lia|split; [lia|exact Oy]]).
  rewrite (table_nodes nan y x r b u h k T' R2 Eu H) by lia. apply clamp_inside, (extremes s); assumption.
Qed.
Lemma limit_range nan x y r b t g q : tabular x y -> ordered y -> (2 <= r)%Z -> make x y r b = Ok t -> finds nan t g ->
  between (nth 0 x 0) (nth (length x - 1) x 0) (g q).
Proof.
  intros T Oy R2 E F. destruct (limit_reads nan x y r b t T Oy R2 E) as (g' & h & u & F' & Eu & H & V).
  rewrite (finds_unique nan t g g' F F'), V. apply clamp_range. apply (Rle_trans _ (nth 0 x 0)); [apply Rmin_l|apply Rmax_l].
Qed.
Lemma bracket_unique s x i j q : signed s x -> (i + 1 < length x)%nat -> (j + 1 < length x)%nat -> bracket s x i q ->
  s * nth j x 0 < s * q < s * nth (j + 1) x 0 -> i = j.
Proof.
  intros (Ss & H) I J (Bl & Bu) (B1 & B2). destruct (lt_eq_lt_dec i j) as [[L|L]|L]; [exfalso|exact L|exfalso].
  - destruct Bu as [|Bu]; [lia|]. assert (s * nth (i + 1) x 0 <= s * nth j x 0); [|lra].
    destruct (Nat.eq_dec (i + 1) j) as [->|]; [lra|]. apply Rlt_le, H. lia.
  - destruct Bl as [|Bl]; [lia|]. assert (s * nth (j + 1) x 0 <= s * nth i x 0); [|lra].
    destruct (Nat.eq_dec (j + 1) i) as [->|]; [lra|]. apply Rlt_le, H. lia.
Qed.
(** With straight lines it is the inverse. *)
Lemma limit_inverse nan x y t f g q : tabular x y -> ordered y -> make x y 2 false = Ok t -> reads nan t f -> finds nan t g ->
  between (nth 0 y 0) (nth (length y - 1) y 0) q -> f (g q) = q.
Proof.
  intros T Oy E F G B. destruct (limit_reads nan x y 2 false t T Oy ltac:(lia) E) as (g' & h & u & F' & Eu & H & V).
  rewrite (finds_unique nan t g g' G F'), V. pose proof T as (Lx & N & O). destruct (ordered_signed x O) as (s & Sg).
  assert (T' : tabular y x) by (split; [lia|split; [lia|exact Oy]]).
  destruct (table_line nan y x u h q T' Eu H B) as (j & J & Bj & Vj & Bx).
  set (p := h q) in *.
  rewrite clamp_inside.
  2:{ pose proof (extremes s x j Sg ltac:(lia)). pose proof (extremes s x (j + 1) Sg ltac:(lia)). unfold between in Bx.
      split; [apply (Rle_trans _ (Rmin (nth j x 0) (nth (j + 1) x 0))); [apply Rmin_glb; lra|lra]
             |apply (Rle_trans _ (Rmax (nth j x 0) (nth (j + 1) x 0))); [lra|apply Rmax_lub; lra]]. }
  destruct (ordered_signed y Oy) as (s' & Sg').
  assert (Dy : nth j y 0 <> nth (j + 1) y 0) by (apply (signed_distinct s'); [exact Sg'|lia..]).
  assert (Dx : nth j x 0 <> nth (j + 1) x 0) by (apply (signed_distinct s); [exact Sg|lia..]).
  assert (Q : q = nth j y 0 + (nth (j + 1) y 0 - nth j y 0) * ((p - nth j x 0) / (nth (j + 1) x 0 - nth j x 0))).
  { rewrite Vj. field. lra. }
  destruct (Req_EM_T p (nth j x 0)) as [E1|N1].
  { rewrite E1, (table_nodes nan x y 2 false t f j T ltac:(lia) E F) by lia. rewrite Q, E1. field. lra. }
  destruct (Req_EM_T p (nth (j + 1) x 0)) as [E2|N2].
  { rewrite E2, (table_nodes nan x y 2 false t f (j + 1) T ltac:(lia) E F) by lia. rewrite Q, E2. field. lra. }
  destruct (read_line nan x y false t f p s T Sg E F eq_refl) as (i & aux & (I & Bi & _) & ->).
  assert (i = j) as ->.
  { apply (bracket_unique s x i j p Sg I ltac:(lia) Bi). destruct Sg as (Ss & Hs). specialize (Hs j (j + 1)%nat ltac:(lia)).
    unfold between in Bx. destruct Ss as [->| ->]; [rewrite Rmin_left, Rmax_right in Bx by lra|rewrite Rmin_right, Rmax_left in Bx by lra]; lra. }
  unfold line. symmetry. exact Q.
Qed.

(** ** Tables of two variables *)
Lemma nev_ext xs ys xs' ys' k : forall i q, (forall j, (i <= j <= i + k)%nat -> xs j = xs' j /\ ys j = ys' j) -> nev xs ys k i q = nev xs' ys' k i q.
Proof.
  induction k as [|k IH]; intros i q H; cbn [nev].
  - apply H. lia.
  - rewrite (IH i), (IH (S i)) by (intros; apply H; lia). destruct (H i) as (-> & _); [lia|]. destruct (H (i + S k)%nat) as (-> & _); [lia|]. reflexivity.
Qed.
Section Grid.
Variables (nan : forall A, outcome A) (x1 x2 : list R) (y : list (list R)) (m1 m2 : nat) (b2 : bool) (s1 s2 : R).
Hypothesis sg1 : signed s1 x1.
Hypothesis sg2 : signed s2 x2.
Hypothesis len1 : length x1 = length y.
Hypothesis len2 : Forall (fun row => length row = length x2) y.
Hypothesis M1 : (2 <= m1 <= length x1)%nat.
Hypothesis M2 : (2 <= m2 <= length x2)%nat.

Definition rows_good (rows : list inter) : Prop :=
  length rows = length y /\ forall j d, (j < length y)%nat -> good x2 (nth j y []) m2 b2 (nth j rows d).
Definition grid_good (g : grid) : Prop :=
  i_x (g_table g) = x1 /\ length (i_y (g_table g)) = length x1 /\ i_max (g_table g) = length x1 /\ i_romberg (g_table g) = m1 /\
  i_rational (g_table g) = false /\ length (i_c (g_table g)) = m1 /\ length (i_d (g_table g)) = m1 /\ rows_good (g_rows g).

Lemma rows_read q2 : exists fv : nat -> R, 
  (forall j t, (j < length y)%nat -> good x2 (nth j y []) m2 b2 t -> exists t', array nan t q2 = Ok (fv j, t') /\ good x2 (nth j y []) m2 b2 t') /\
  (forall start yv rows, (start + m1 <= length x1)%nat -> length yv = length x1 -> rows_good rows ->
    exists yv' rows', loop (read_row nan q2) (seq start m1) (yv, rows) = Ok (yv', rows') /\ length yv' = length x1 /\ rows_good rows' /\
      forall j, (start <= j < start + m1)%nat -> nth j yv' 0 = fv j).
Proof using All.
  set (w := repeat 0 m2).
  set (fv := fun j => match array nan (mkinter x2 (nth j y []) w w (length x2) m2 m2 b2 0 0) q2 with Ok (v, _) => v | _ => 0 end).
  exists fv.
  assert (One : forall j t, (j < length y)%nat -> good x2 (nth j y []) m2 b2 t -> exists t', array nan t q2 = Ok (fv j, t') /\ good x2 (nth j y []) m2 b2 t').
  { intros j t J G. assert (Lr : length (nth j y []) = length x2) by (rewrite Forall_forall in len2; apply len2, nth_In; exact J).
    destruct (array_spec nan s2 x2 (nth j y []) m2 b2 q2 sg2 Lr M2) as (v & i & aux & _ & A & _).
    destruct (A t G) as (t' & -> & G' & _). exists t'. split; [|exact G']. unfold fv.
    destruct (A (mkinter x2 (nth j y []) w w (length x2) m2 m2 b2 0 0)) as (t0 & -> & _); [|reflexivity].
    repeat split; cbn; unfold w; rewrite ?repeat_length; reflexivity. }
  split; [exact One|]. intros start yv rows S Lv G.
  destruct (loop_seq (read_row nan q2)
    (fun b st => length (fst st) = length x1 /\ rows_good (snd st) /\ forall j, (start <= j < b)%nat -> nth j (fst st) 0 = fv j) start m1 (yv, rows))
    as ((yv' & rows') & E & L' & G' & V).
  - cbn. split; [exact Lv|]. split; [exact G|]. intros; lia.
  - intros i (yv1 & rows1) Hi (L1 & (G1 & G2) & V). cbn [fst snd] in *. unfold read_row.
    set (d0 := mkinter [] [] [] [] 0 0 0 false 0 0).
    rewrite (at_ok _ _ d0) by lia. cbn [obind]. destruct (One i (nth i rows1 d0)) as (row & -> & Gr); [lia|apply G2; lia|]. cbn [obind].
    destruct (put_ok yv1 i (fv i) 0) as (yv2 & -> & L3 & V3); [lia|]. cbn [obind].
    destruct (put_ok rows1 i row d0) as (rows2 & -> & L4 & V4); [lia|]. cbn [obind].
    eexists. split; [reflexivity|]. cbn [fst snd]. split; [lia|]. split; [split; [lia|]|].
    + intros j d J. rewrite (nth_indep _ d d0) by lia. rewrite V4. destruct (Nat.eqb_spec j i) as [->|]; [exact Gr|apply G2; exact J].
    + intros j J. rewrite V3. destruct (Nat.eqb_spec j i) as [->|]; [reflexivity|]. apply V. lia.
  - exists yv', rows'. cbn [fst snd] in *. auto.
Qed.
Lemma grid_spec q1 q2 : exists v i aux fv, place s1 x1 q1 i aux /\
  (forall j t, (j < length y)%nat -> good x2 (nth j y []) m2 b2 t -> exists t', array nan t q2 = Ok (fv j, t')) /\
  (forall g, grid_good g -> exists g', grid_array nan g q1 q2 = Ok (v, g') /\ grid_good g') /\
  (forall k, (k < length x1)%nat -> q1 = nth k x1 0 -> v = fv k) /\
  v = nev (slice x1 (start_of (length x1) m1 i aux)) (fun j => fv (start_of (length x1) m1 i aux + j)%nat) (m1 - 1) 0 q1.
Proof using All.
  destruct (rows_read q2) as (fv & One & Rows). set (w := repeat 0 m1).
  destruct (locate_spec s1 (mkinter x1 [] w w (length x1) m1 m1 false 0 0) q1 (length x1) m1) as (i & aux & L & I & B & A);
    [exact sg1|reflexivity|reflexivity|reflexivity|lia|lia|]. cbn [i_x] in B, A.
  assert (A1 : (aux <= 1)%nat) by (destruct A as [(-> & _)|(-> & _)]; lia).
  pose proof (start_facts (length x1) m1 i aux I M1 A1) as (S1 & S2 & S3). set (start := start_of (length x1) m1 i aux) in *.
  set (v := nev (slice x1 start) (fun j => fv (start + j)%nat) (m1 - 1) 0 q1).
  exists v, i, aux, fv. split; [exact (conj I (conj B (conj A1 A)))|]. split; [|split; [|split; [|reflexivity]]].
  - intros j t J G. destruct (One j t J G) as (t' & E & _). exists t'. exact E.
  - intros g (E1 & E2 & E3 & E4 & E5 & E6 & E7 & Gr). unfold grid_array.
    assert (Lg : locate (g_table g) q1 = Ok ((i + aux)%nat, start)) by (rewrite <- L; unfold locate; rewrite E1, E3, E4; reflexivity).
    rewrite Lg. cbn [obind]. rewrite E4.
    destruct (Rows start (i_y (g_table g)) (g_rows g) S3 E2 Gr) as (yv' & rows' & -> & L' & Gr' & V). cbn [obind].
    destruct (interpolates nan (with_values (g_table g) yv') start q1 m1) with (starti := (i + aux)%nat) as (v' & V1 & _ & V3);
      cbn [with_values i_x i_y i_romberg i_rational]; rewrite ?E1; try lia.
    { apply (slice_distinct s1 x1 start m1 sg1 S3). } { rewrite E5. discriminate. }
    cbn [with_values i_x i_y i_romberg i_rational] in V1, V3. rewrite ?E1, ?E5 in V3.
    destruct (V1 (with_values (g_table g) yv')) as (c & d & -> & Lc & Ld); try reflexivity; try assumption. cbn [obind].
    assert (v' = v) as ->.
    { rewrite (V3 eq_refl). apply nev_ext. intros j J. split; [reflexivity|]. apply V. lia. }
    eexists. split; [reflexivity|]. split; [exact E1|]. split; [exact L'|].
    exact (conj E3 (conj E4 (conj E5 (conj Lc (conj Ld Gr'))))).
  - intros k K E. unfold v. assert ((i + aux)%nat = k) as <- by (apply (bracket_node s1 x1 i k aux q1); assumption).
    replace q1 with (slice x1 start (i + aux - start)) by (unfold slice; rewrite E; f_equal; lia).
    rewrite (nev_through (slice x1 start) (fun j => fv (start + j)%nat) m1 (slice_distinct s1 x1 start m1 sg1 S3) (m1 - 1) 0 (i + aux - start)) by lia.
    f_equal. lia.
Qed.
End Grid.

Lemma make_rows_good x1 : forall x2 y r2 b2, length x1 = length y -> Forall (tabular x2) y -> (1 <= r2)%Z ->
  exists rows, make_rows x1 x2 y r2 b2 = Ok rows /\ rows_good x2 y (order r2 (length x2)) b2 rows.
Proof.
  induction x1 as [|a x1 IH]; intros x2 y r2 b2 L F R.
  - destruct y; [|discriminate]. exists []. split; [reflexivity|]. split; [reflexivity|]. cbn. intros; lia.
  - destruct y as [|row y]; [discriminate|]. inversion_clear F. cbn [make_rows].
    destruct (make_good x2 row r2 b2 H R) as (t & -> & G & _). cbn [obind].
    destruct (IH x2 y r2 b2) as (rows & -> & Lr & Gr); [cbn in L; lia|assumption|exact R|]. cbn [obind].
    eexists. split; [reflexivity|]. split; [cbn; lia|]. intros [|j] d J; [exact G|]. cbn in *. apply Gr. lia.
Qed.
Lemma make_grid_good x1 x2 y r1 r2 b2 : tabular_grid x1 x2 y -> (1 <= r1)%Z -> (1 <= r2)%Z ->
  exists g, make_grid x1 x2 y r1 false r2 b2 = Ok g /\ grid_good x1 x2 y (order r1 (length x1)) (order r2 (length x2)) b2 g.
Proof.
  intros (L & N & O & F) R1 R2. destruct (ordered_signed x1 O) as (s & Sg). unfold make_grid.
  do 2 (rewrite (at_ok _ _ 0) by lia; cbn [obind]).
  assert (Mx : init_max (Nat.min (length x1) (length y)) (nth 0 x1 0) (nth (length x1 - 1) x1 0) = length x1).
  { unfold init_max. rewrite (proj2 (Reqb_false _ _)) by (apply (signed_distinct s); [exact Sg|lia..]). lia. }
  rewrite Mx. assert (Rm : init_romberg (length x1) r1 = order r1 (length x1)) by (unfold init_romberg, order; lia).
  rewrite Rm. destruct y as [|row0 y']; [cbn in L; lia|]. set (y := row0 :: y') in *.
  unfold fill. rewrite Nat.leb_refl, Nat.sub_diag. cbn [obind repeat]. rewrite app_nil_r.
  destruct (make_rows_good x1 x2 y r2 b2 L F R2) as (rows & -> & G). cbn [obind].
  eexists. split; [reflexivity|]. split; [reflexivity|]. cbn. rewrite !repeat_length.
  repeat (split; [reflexivity|]). exact G.
Qed.
Lemma tabular_ordered x1 x2 y : tabular_grid x1 x2 y -> ordered x2 /\ (2 <= length x2)%nat /\ Forall (fun row => length row = length x2) y.
Proof.
  intros (L & N & O & F). destruct y as [|row y]; [cbn in L; lia|]. inversion F as [|? ? (L1 & N1 & O1)]. split; [exact O1|]. split; [exact N1|].
  apply (Forall_impl _ (P := tabular x2)); [|exact F]. intros r (Lr & _). lia.
Qed.
Section GridReads.
Variables (nan : forall A, outcome A) (x1 x2 : list R) (y : list (list R)) (r1 r2 : Z) (b2 : bool) (g : grid).
Hypothesis T : tabular_grid x1 x2 y.
Hypothesis R1 : (2 <= r1)%Z.
Hypothesis R2 : (2 <= r2)%Z.
Hypothesis made : make_grid x1 x2 y r1 false r2 b2 = Ok g.

Lemma grid_facts q1 q2 : exists s1 v i aux fv, signed s1 x1 /\ place s1 x1 q1 i aux /\
  (forall j t f, (j < length y)%nat -> make x2 (nth j y []) r2 b2 = Ok t -> reads nan t f -> fv j = f q2) /\
  (forall h, grid_good x1 x2 y (order r1 (length x1)) (order r2 (length x2)) b2 h -> exists h', grid_array nan h q1 q2 = Ok (v, h') /\
     grid_good x1 x2 y (order r1 (length x1)) (order r2 (length x2)) b2 h') /\
  (forall k, (k < length x1)%nat -> q1 = nth k x1 0 -> v = fv k) /\
  v = nev (slice x1 (start_of (length x1) (order r1 (length x1)) i aux)) (fun j => fv (start_of (length x1) (order r1 (length x1)) i aux + j)%nat) (order r1 (length x1) - 1) 0 q1.
Proof using All.
  pose proof T as (L & N & O & F). destruct (tabular_ordered x1 x2 y T) as (O2 & N2 & F2).
  destruct (ordered_signed x1 O) as (s1 & S1). destruct (ordered_signed x2 O2) as (s2 & S2).
  destruct (grid_spec nan x1 x2 y (order r1 (length x1)) (order r2 (length x2)) b2 s1 s2 S1 S2 L F2 ltac:(unfold order; lia) ltac:(unfold order; lia) q1 q2)
    as (v & i & aux & fv & P & V1 & V2 & V3 & V4).
  exists s1, v, i, aux, fv. split; [exact S1|]. split; [exact P|]. split; [|auto].
  intros j t f J E Rd. assert (Tj : tabular x2 (nth j y [])) by (rewrite Forall_forall in F; apply F, nth_In; exact J).
  destruct (make_good x2 (nth j y []) r2 b2 Tj) as (t' & E' & G & _); [lia|]. assert (t' = t) as -> by congruence.
  destruct (V1 j t J G) as (u & Eu). destruct (answers_first _ _ _ (q2, 0) Rd) as (w & Ew). unfold table_call in Ew. cbn [fst] in Ew. congruence.
Qed.
Lemma grid_made : grid_good x1 x2 y (order r1 (length x1)) (order r2 (length x2)) b2 g.
Proof using All.
  destruct (make_grid_good x1 x2 y r1 r2 b2 T) as (g' & E & G); [lia|lia|]. assert (g' = g) as -> by congruence. exact G.
Qed.
Lemma grid_reads : exists f, reads_grid nan g f.
Proof using All.
  exists (fun q1 q2 => match grid_array nan g q1 q2 with Ok (v, _) => v | _ => 0 end).
  apply (answers_invariant _ (grid_good x1 x2 y (order r1 (length x1)) (order r2 (length x2)) b2)); [|exact grid_made].
  intros o (q1 & q2) Go. unfold grid_call. cbn [fst snd].
  destruct (grid_facts q1 q2) as (s1 & v & i & aux & fv & _ & _ & _ & A & _).
  destruct (A g grid_made) as (g1 & -> & _). destruct (A o Go) as (g2 & E2 & G2). exists g2. split; assumption.
Qed.
Variable f : R -> R -> R.
Hypothesis F : reads_grid nan g f.
Lemma grid_value q1 q2 : exists s1 i aux fv, signed s1 x1 /\ place s1 x1 q1 i aux /\
  (forall j t f, (j < length y)%nat -> make x2 (nth j y []) r2 b2 = Ok t -> reads nan t f -> fv j = f q2) /\
  (forall k, (k < length x1)%nat -> q1 = nth k x1 0 -> f q1 q2 = fv k) /\
  f q1 q2 = nev (slice x1 (start_of (length x1) (order r1 (length x1)) i aux)) (fun j => fv (start_of (length x1) (order r1 (length x1)) i aux + j)%nat) (order r1 (length x1) - 1) 0 q1.
Proof using All.
  destruct (grid_facts q1 q2) as (s1 & v & i & aux & fv & S1 & P & Vf & A & Vk & V).
  destruct (A g grid_made) as (g1 & E1 & _). destruct (answers_first _ _ _ (q1, q2) F) as (g2 & E2). unfold grid_call in E2. cbn [fst snd] in E2.
  assert (f q1 q2 = v) as -> by congruence. exists s1, i, aux, fv. auto.
Qed.
(** Along the first variable, the values read from the rows are interpolated. *)
Lemma grid_window q1 q2 (rows : nat -> R -> R) :
  (forall j, (j < length y)%nat -> exists t, make x2 (nth j y []) r2 b2 = Ok t /\ reads nan t (rows j)) ->
  exists start, central x1 start (order r1 (length x1)) q1 /\
    extrapolates (map (fun j => (nth j x1 0, rows j q2)) (seq start (order r1 (length x1)))) q1 (f q1 q2).
Proof using All.
  intro Rw. destruct (grid_value q1 q2) as (s1 & i & aux & fv & S1 & P & Vf & _ & ->).
  pose proof T as (L & N & O & Fr). set (m := order r1 (length x1)) in *. assert (M : (2 <= m <= length x1)%nat) by (unfold m, order; lia).
  pose proof P as (I & _ & A1 & _). pose proof (start_facts (length x1) m i aux I M A1) as (S2 & S3 & S4).
  set (start := start_of (length x1) m i aux) in *. exists start.
  split; [apply (place_central s1 x1 q1 i aux m S1 P M)|].
  replace (map (fun j => (nth j x1 0, rows j q2)) (seq start m)) with (map (fun j => (slice x1 start j, fv (start + j)%nat)) (seq 0 (S (m - 1)))).
  - apply (nev_extrapolates (slice x1 start) (fun j => fv (start + j)%nat) m (slice_distinct s1 x1 start m S1 S4)). lia.
  - replace (S (m - 1)) with m by lia.
    replace (seq start m) with (map (fun j => start + j)%nat (seq 0 m)).
    + rewrite map_map. apply map_ext_in. intros j J. apply in_seq in J. unfold slice. f_equal.
      destruct (Rw (start + j)%nat) as (t & Et & Rt); [lia|]. apply (Vf _ t); [lia|exact Et|exact Rt].
    + assert (G : forall n b, map (fun j => start + j)%nat (seq b n) = seq (start + b) n).
      { induction n as [|n IH]; intro b; [reflexivity|]. cbn [seq map]. f_equal. rewrite IH. f_equal. lia. }
      rewrite G. f_equal. lia.
Qed.
Lemma row_exists j : (j < length y)%nat -> exists t h, make x2 (nth j y []) r2 b2 = Ok t /\ reads nan t h.
Proof using All.
  intro J. pose proof T as (_ & _ & _ & Fr). assert (Tj : tabular x2 (nth j y [])) by (rewrite Forall_forall in Fr; apply Fr, nth_In; exact J).
  destruct (make_good x2 (nth j y []) r2 b2 Tj) as (t & E & _); [lia|]. destruct (table_reads nan _ _ _ _ _ Tj R2 E) as (h & H). eauto.
Qed.
Lemma grid_nodes j k : (j < length x1)%nat -> (k < length x2)%nat -> f (nth j x1 0) (nth k x2 0) = nth k (nth j y []) 0.
Proof using All.
  intros J K. destruct (grid_value (nth j x1 0) (nth k x2 0)) as (s1 & i & aux & fv & _ & _ & Vf & Vk & _).
  rewrite (Vk j J eq_refl). pose proof T as (L & _ & _ & Fr).
  assert (Tj : tabular x2 (nth j y [])) by (rewrite Forall_forall in Fr; apply Fr, nth_In; lia).
  destruct (row_exists j) as (t & h & Et & Ht); [lia|]. rewrite (Vf j t h) by (lia || assumption).
  apply (table_nodes nan x2 (nth j y []) r2 b2 t h k Tj R2 Et Ht K).
Qed.
End GridReads.
Lemma polynomial2_second c a m : Forall (fun d => (length d <= m)%nat) c -> exists d, (length d <= m)%nat /\ forall q, polynomial2 c a q = polynomial d q.
Proof.
  unfold polynomial2. induction c as [|e c IH]; intro F.
  - exists []. split; [cbn; lia|]. reflexivity.
  - inversion_clear F. destruct IH as (d & Ld & D); [assumption|].
    exists (poly_add e (poly_scale a d)). split; [apply poly_add_length; [assumption|rewrite poly_scale_length; exact Ld]|].
    intro q. cbn [map]. rewrite polynomial_cons, poly_add_spec, poly_scale_spec, <- D. reflexivity.
Qed.
Lemma grid_polynomial nan x1 x2 y r1 r2 g f c : tabular_grid x1 x2 y -> (2 <= r1)%Z -> (2 <= r2)%Z ->
  make_grid x1 x2 y r1 false r2 false = Ok g -> reads_grid nan g f ->
  (length c <= order r1 (length x1))%nat -> Forall (fun d => (length d <= order r2 (length x2))%nat) c ->
  (forall j k, (j < length x1)%nat -> (k < length x2)%nat -> nth k (nth j y []) 0 = polynomial2 c (nth j x1 0) (nth k x2 0)) ->
  forall q1 q2, f q1 q2 = polynomial2 c q1 q2.
Proof.
  intros T R1 R2 E F Lc Fc H q1 q2. pose proof T as (L & N & O & Fr).
  destruct (grid_window nan x1 x2 y r1 r2 false g T R1 R2 E f F q1 q2 (fun j q => polynomial2 c (nth j x1 0) q)) as (start & (S & _) & _ & U).
  - intros j J. destruct (row_exists nan x1 x2 y r1 r2 false g T R1 R2 E f F j J) as (t & h & Et & Ht). exists t. split; [exact Et|].
    assert (Tj : tabular x2 (nth j y [])) by (rewrite Forall_forall in Fr; apply Fr, nth_In; exact J).
    destruct (polynomial2_second c (nth j x1 0) _ Fc) as (d & Ld & D).
    assert (Eh : forall q, h q = polynomial2 c (nth j x1 0) q).
    { intro q. rewrite D. apply (table_polynomial nan x2 (nth j y []) r2 t h d q Tj R2 Et Ht Ld). intros k K. rewrite <- D. apply H; lia. }
    intros qs. destruct (Ht qs) as (o & Eo). exists o. rewrite Eo. do 2 f_equal. apply map_ext. intros (q & q'). apply Eh.
  - symmetry. apply (U (map (fun d => polynomial d q2) c)).
    + rewrite !map_length, seq_length. exact Lc.
    + intros p I. apply in_map_iff in I. destruct I as (j & <- & I). reflexivity.
Qed.

(** ** In one piece *)
Lemma reads_made nan x y r b : tabular x y -> (2 <= r)%Z -> exists t f, make x y r b = Ok t /\ reads nan t f.
Proof.
  intros T R. destruct (make_good x y r b T) as (t & E & _); [lia|]. destruct (table_reads nan x y r b t T R E) as (f & F). eauto.
Qed.
Lemma limit_facts nan x y r b t : tabular x y -> ordered y -> (2 <= r)%Z -> make x y r b = Ok t ->
  exists g, finds nan t g /\ (forall q, between (nth 0 x 0) (nth (length x - 1) x 0) (g q)) /\ forall k, (k < length x)%nat -> g (nth k y 0) = nth k x 0.
Proof.
  intros T O R E. destruct (limit_exists nan x y r b t T O R E) as (g & G). exists g. split; [exact G|]. split.
  - intro q. apply (limit_range nan x y r b t g q T O R E G).
  - intros k K. apply (limit_nodes nan x y r b t g k T O R E G K).
Qed.
Lemma grid_reads_made nan x1 x2 y r1 r2 b2 : tabular_grid x1 x2 y -> (2 <= r1)%Z -> (2 <= r2)%Z ->
  exists g f, make_grid x1 x2 y r1 false r2 b2 = Ok g /\ reads_grid nan g f.
Proof.
  intros T R1 R2. destruct (make_grid_good x1 x2 y r1 r2 b2 T) as (g & E & _); [lia|lia|].
  destruct (grid_reads nan x1 x2 y r1 r2 b2 g T R1 R2 E) as (f & F). eauto.
Qed.
