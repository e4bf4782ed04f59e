(** Tables give the values of the polynomials through neighbouring points. *)
From Coq Require Import Arith.
From Verif Require Import Prelude PreludeFacts Function_Model Integral_Model Function_Spec Integral_Spec Function_Proofs Neville_Proofs
  Cross_Model Transform_Proofs Interpolant_Model Interpolant_Spec.

Lemma at_ok {A} (l : list A) i d : (i < length l)%nat -> at_ l i = Ok (nth i l d).
Proof. intro H. unfold at_. rewrite (nth_error_nth' l d H). reflexivity. Qed.
Lemma put_ok {A} (l : list A) i v (e : A) : (i < length l)%nat ->
  exists l', put l i v = Ok l' /\ length l' = length l /\ forall k, nth k l' e = if Nat.eqb k i then v else nth k l e.
Proof.
  revert i. induction l as [|a l IH]; intros i H; [cbn in H; lia|]. destruct i as [|i]; cbn [put].
  - eexists. split; [reflexivity|]. split; [reflexivity|]. intros [|k]; reflexivity.
  - destruct (IH i) as (l' & -> & L & N); [cbn in H; lia|]. cbn [obind]. eexists. split; [reflexivity|].
    split; [cbn; lia|]. intros [|k]; [reflexivity|]. cbn. apply N.
Qed.

(** ** Neville's algorithm *)
Section Window.
Variables (nan : forall A, outcome A) (t : inter) (start : nat) (x : R) (m : nat).
Let xs i := nth (start + i) (i_x t) 0.
Let ys i := nth (start + i) (i_y t) 0.
Hypothesis the_m : i_romberg t = m.
Hypothesis room_x : (start + m <= length (i_x t))%nat.
Hypothesis room_y : (start + m <= length (i_y t))%nat.
Hypothesis some : (1 <= m)%nat.
Hypothesis distinct : forall i j, (i < j < m)%nat -> xs i <> xs j.
Hypothesis no_node : i_rational t = true -> forall i, (i < m)%nat -> xs i <> x.

Lemma copies c d : length c = m -> length d = m ->
  loop (copy_node t start) (seq 0 m) (c, d) = Ok (map ys (seq 0 m), map ys (seq 0 m)).
Proof using the_m some room_x room_y.
  clear distinct no_node. intros Lc Ld.
  destruct (loop_seq (copy_node t start) (fun b s => length (fst s) = m /\ length (snd s) = m /\
     forall i, (i < b)%nat -> nth i (fst s) 0 = ys i /\ nth i (snd s) 0 = ys i) 0 m (c, d)) as ((c' & d') & E & L1 & L2 & V).
  - cbn. split; [exact Lc|]. split; [exact Ld|]. intros; lia.
  - intros i (c1 & d1) Hi (L1 & L2 & V). cbn [fst snd] in *. unfold copy_node.
    rewrite (at_ok _ _ 0) by lia. cbn [obind].
    destruct (put_ok c1 i (ys i) 0) as (c2 & E2 & L3 & V3); [lia|]. unfold ys in E2 at 1. rewrite E2. cbn [obind].
    destruct (put_ok d1 i (ys i) 0) as (d2 & E4 & L4 & V4); [lia|]. unfold ys in E4 at 1. rewrite E4. cbn [obind].
    eexists. split; [reflexivity|]. cbn [fst snd]. split; [lia|]. split; [lia|].
    intros j J. rewrite V3, V4. destruct (Nat.eqb_spec j i) as [->|]; [split; reflexivity|]. apply V. lia.
  - cbn [fst snd] in *. rewrite E. rewrite Nat.add_0_l in V.
    assert (G : forall l : list R, length l = m -> (forall i, (i < m)%nat -> nth i l 0 = ys i) -> l = map ys (seq 0 m)).
    { intros l L H. apply (nth_ext _ _ 0 (ys 0)); [rewrite map_length, seq_length; exact L|].
      intros i Hi. rewrite map_nth, seq_nth by lia. apply H. lia. }
    rewrite (G c'), (G d'); [reflexivity|assumption| |assumption|]; intros i Hi; apply V; exact Hi.
Qed.

Lemma corrects k c d : (S k < m)%nat -> length c = m -> length d = m ->
  exists c' d', loop (correct nan t start x (S k)) (seq 0 (m - S k)) (c, d) = Ok (c', d') /\ length c' = m /\ length d' = m /\
  (i_rational t = false -> (forall i, (i + k < m)%nat -> nth i c 0 = C xs ys k i x /\ nth i d 0 = D xs ys k i x) ->
    forall i, (i + S k < m)%nat -> nth i c' 0 = C xs ys (S k) i x /\ nth i d' 0 = D xs ys (S k) i x).
Proof using All.
  intros K Lc Ld.
  destruct (loop_seq (correct nan t start x (S k))
    (fun b s => length (fst s) = m /\ length (snd s) = m /\
      (i_rational t = false -> (forall i, (i + k < m)%nat -> nth i c 0 = C xs ys k i x /\ nth i d 0 = D xs ys k i x) ->
       (forall i, (i < b)%nat -> nth i (fst s) 0 = C xs ys (S k) i x /\ nth i (snd s) 0 = D xs ys (S k) i x) /\
       (forall i, (b <= i)%nat -> (i + k < m)%nat -> nth i (fst s) 0 = C xs ys k i x /\ nth i (snd s) 0 = D xs ys k i x)))
    0 (m - S k) (c, d)) as ((c' & d') & E & I).
  - cbn [fst snd]. split; [exact Lc|]. split; [exact Ld|]. intros _ H. split; [intros; lia|]. intros i _. apply H.
  - intros i (c1 & d1) Hi (L1 & L2 & V). cbn [fst snd] in L1, L2, V. unfold correct.
    repeat (rewrite (at_ok _ _ 0) by lia; cbn [obind]).
    assert (P : exists u v, (if i_rational t then
       olet dx1 := quo nan (nth i d1 0 * (nth (start + i) (i_x t) 0 - x)) (nth (start + i + S k) (i_x t) 0 - x) in
       Ok (if dx1 - nth (i + 1) c1 0 =? 0 then (0, 0) else
         (dx1 * ((nth (i + 1) c1 0 - nth i d1 0) / (dx1 - nth (i + 1) c1 0)), nth (i + 1) c1 0 * ((nth (i + 1) c1 0 - nth i d1 0) / (dx1 - nth (i + 1) c1 0))))
     else Ok (if nth (start + i) (i_x t) 0 - x - (nth (start + i + S k) (i_x t) 0 - x) =? 0 then (0, 0) else
        ((nth (start + i) (i_x t) 0 - x) * ((nth (i + 1) c1 0 - nth i d1 0) / (nth (start + i) (i_x t) 0 - x - (nth (start + i + S k) (i_x t) 0 - x))),
         (nth (start + i + S k) (i_x t) 0 - x) * ((nth (i + 1) c1 0 - nth i d1 0) / (nth (start + i) (i_x t) 0 - x - (nth (start + i + S k) (i_x t) 0 - x)))))) = Ok (u, v) /\
       (i_rational t = false -> (forall i, (i + k < m)%nat -> nth i c 0 = C xs ys k i x /\ nth i d 0 = D xs ys k i x) ->
          u = C xs ys (S k) i x /\ v = D xs ys (S k) i x)).
    { destruct (i_rational t) eqn:Q.
      - specialize (no_node eq_refl (i + S k)%nat ltac:(lia)). unfold xs in no_node.
        replace (start + (i + S k))%nat with (start + i + S k)%nat in no_node by lia.
        rewrite quo_ok by lra. cbn [obind]. destruct (_ =? 0); do 2 eexists; (split; [reflexivity|discriminate]).
      - assert (N : xs i <> xs (i + S k)%nat) by (apply distinct; lia).
        replace (start + i + S k)%nat with (start + (i + S k))%nat by lia.
        change (nth (start + i) (i_x t) 0) with (xs i). change (nth (start + (i + S k)) (i_x t) 0) with (xs (i + S k)%nat).
        destruct (Reqb_spec (xs i - x - (xs (i + S k)%nat - x)) 0) as [Z|Z]; [lra|].
        do 2 eexists. split; [reflexivity|]. intros _ H. destruct (V eq_refl H) as (_ & Vb).
        destruct (Vb i) as (_ & Vi); [lia|lia|]. destruct (Vb (S i)) as (Vs & _); [lia|lia|].
        replace (i + 1)%nat with (S i) by lia. rewrite Vs, Vi, CD.
        split; [apply (C_step xs ys m distinct)|apply (D_step xs ys m distinct)]; lia. }
    destruct P as (u & v & -> & UV). cbn [obind].
    destruct (put_ok c1 i u 0) as (c2 & -> & L3 & V3); [lia|]. cbn [obind].
    destruct (put_ok d1 i v 0) as (d2 & -> & L4 & V4); [lia|]. cbn [obind].
    eexists. split; [reflexivity|]. cbn [fst snd]. split; [lia|]. split; [lia|]. intros Q H.
    destruct (V Q H) as (Va & Vb). destruct (UV Q H) as (-> & ->). split.
    + intros j J. rewrite V3, V4. destruct (Nat.eqb_spec j i) as [->|]; [split; reflexivity|]. apply Va. lia.
    + intros j J1 J2. rewrite V3, V4. destruct (Nat.eqb_spec j i) as [->|]; [lia|]. apply Vb; lia.
  - exists c', d'. destruct I as (L1 & L2 & V). cbn [fst snd] in *. split; [exact E|]. split; [exact L1|]. split; [exact L2|].
    intros Di H i Hi. apply (V Di H). lia.
Qed.

Lemma refines num dd : (num < m)%nat -> exists num' dd' c' d' v,
  loop (refine nan t start x) (seq 1 (m - 1)) (num, dd, map ys (seq 0 m), map ys (seq 0 m), ys num) = Ok (num', dd', c', d', v) /\
  length c' = m /\ length d' = m /\ (i_rational t = false -> v = nev xs ys (m - 1) 0 x).
Proof using All.
  intro N.
  destruct (loop_seq (refine nan t start x)
    (fun k s => let '(num, dd, c, d, result) := s in (num + k <= m)%nat /\ length c = m /\ length d = m /\
       (i_rational t = false -> result = nev xs ys (k - 1) num x /\
          forall i, (i + (k - 1) < m)%nat -> nth i c 0 = C xs ys (k - 1) i x /\ nth i d 0 = D xs ys (k - 1) i x)) 1 (m - 1)
    (num, dd, map ys (seq 0 m), map ys (seq 0 m), ys num)) as (((((num' & dd') & c') & d') & v) & E & I).
  - rewrite map_length, seq_length. split; [lia|]. split; [reflexivity|]. split; [reflexivity|]. intro Q. split; [reflexivity|].
    intros i Hi. cbn [Nat.sub C D nev] in *. rewrite (nth_indep _ 0 (ys 0)) by (rewrite map_length, seq_length; lia).
    rewrite map_nth, seq_nth by lia. split; reflexivity.
  - intros k ((((n1 & dd1) & c1) & d1) & r1) Hk (N1 & L1 & L2 & H). unfold refine. rewrite the_m.
    destruct k as [|k]; [lia|]. cbn [Nat.sub] in H. rewrite Nat.sub_0_r in H.
    destruct (corrects k c1 d1) as (c2 & d2 & -> & L3 & L4 & W); [lia|assumption..|]. cbn [obind].
    assert (Up : (n1 + S k < m)%nat -> exists s' : nat * bool * list R * list R * R,
      (olet (num, error) := (olet e := at_ c2 n1 in Ok (n1, e)) in Ok (num, negb true, c2, d2, r1 + error)) = Ok s' /\
      (let '(num, _, c, d, result) := s' in (num + S (S k) <= m)%nat /\ length c = m /\ length d = m /\
       (i_rational t = false -> result = nev xs ys (S (S k) - 1) num x /\
          forall i, (i + (S (S k) - 1) < m)%nat -> nth i c 0 = C xs ys (S (S k) - 1) i x /\ nth i d 0 = D xs ys (S (S k) - 1) i x))).
    { intro U. rewrite (at_ok _ _ 0) by lia. cbn [obind]. eexists. split; [reflexivity|]. split; [lia|]. split; [exact L3|]. split; [exact L4|].
      intro Q. destruct (H Q) as (-> & V1). specialize (W Q V1). cbn [Nat.sub]. split; [|exact W].
      rewrite (proj1 (W n1 ltac:(lia))). cbn [C]. lra. }
    assert (Down : (0 < n1)%nat -> exists s' : nat * bool * list R * list R * R,
      (olet (num, error) := match n1 with O => Throw out_of_range | S num => olet e := at_ d2 num in Ok (num, e) end in
       Ok (num, negb false, c2, d2, r1 + error)) = Ok s' /\
      (let '(num, _, c, d, result) := s' in (num + S (S k) <= m)%nat /\ length c = m /\ length d = m /\
       (i_rational t = false -> result = nev xs ys (S (S k) - 1) num x /\
          forall i, (i + (S (S k) - 1) < m)%nat -> nth i c 0 = C xs ys (S (S k) - 1) i x /\ nth i d 0 = D xs ys (S (S k) - 1) i x))).
    { intro U. destruct n1 as [|n1]; [lia|]. rewrite (at_ok _ _ 0) by lia. cbn [obind]. eexists. split; [reflexivity|].
      split; [lia|]. split; [exact L3|]. split; [exact L4|].
      intro Q. destruct (H Q) as (-> & V1). specialize (W Q V1). cbn [Nat.sub]. split; [|exact W].
      rewrite (proj2 (W n1 ltac:(lia))). cbn [D]. lra. }
    destruct (Nat.eqb_spec n1 0) as [Z|Z]; destruct (Nat.eqb_spec n1 (m - S k)) as [En|En].
    + lia.
    + apply Up. lia.
    + apply Down. lia.
    + destruct dd1; [apply Up|apply Down]; lia.
  - exists num', dd', c', d', v. rewrite E. split; [reflexivity|]. destruct I as (B & L1 & L2 & H). split; [exact L1|]. split; [exact L2|].
    intro Q. destruct (H Q) as (-> & _). replace (1 + (m - 1))%nat with m in * by lia. replace num' with 0%nat by lia. reflexivity.
Qed.

(** The value does not depend on what the buffers held. *)
Lemma interpolates starti : (start <= starti < start + m)%nat -> (2 <= m)%nat -> exists v, 
  (forall t', i_x t' = i_x t -> i_y t' = i_y t -> i_romberg t' = m -> i_rational t' = i_rational t -> length (i_c t') = m -> length (i_d t') = m ->
    exists c d, interpolate_at nan t' starti start x = Ok (v, with_work t' c d) /\ length c = m /\ length d = m) /\
  (x = nth starti (i_x t) 0 -> v = nth starti (i_y t) 0) /\
  (i_rational t = false -> v = nev xs ys (m - 1) 0 x).
Proof using All.
  intros S2 M2.
  assert (Eqs : forall t', i_x t' = i_x t -> i_y t' = i_y t -> i_romberg t' = m -> i_rational t' = i_rational t ->
     (forall s i, copy_node t' start s i = copy_node t start s i) /\ (forall s k, refine nan t' start x s k = refine nan t start x s k)).
  { intros t' E1 E2 E3 E4. split.
    - intros s i. unfold copy_node. rewrite E2. reflexivity.
    - intros s k. unfold refine. rewrite E3, the_m.
      assert (G : forall l s, loop (correct nan t' start x k) l s = loop (correct nan t start x k) l s).
      { induction l as [|i l IH]; intro s'; [reflexivity|]. cbn [loop].
        replace (correct nan t' start x k s' i) with (correct nan t start x k s' i) by (unfold correct; rewrite E1, E4; reflexivity).
        destruct (correct nan t start x k s' i); cbn [obind]; auto. }
      destruct s as ((((n1 & dd1) & c1) & d1) & r1). rewrite G. reflexivity. }
  assert (Loops : forall {S} (f g : S -> nat -> outcome S), (forall s i, f s i = g s i) -> forall l s, loop f l s = loop g l s).
  { intros S f g H l. induction l as [|i l IH]; intro s; [reflexivity|]. cbn [loop]. rewrite H. destruct (g s i); cbn [obind]; auto. }
  destruct (Req_EM_T x (nth starti (i_x t) 0)) as [Ex|Nx].
  - exists (nth starti (i_y t) 0). split; [|split; [reflexivity|]].
    + intros t' E1 E2 E3 E4 L1 L2. exists (i_c t'), (i_d t'). unfold interpolate_at. rewrite E1, E2.
      rewrite (at_ok _ _ 0) by lia. cbn [obind]. rewrite (proj2 (Reqb_true _ _) Ex). rewrite (at_ok _ _ 0) by lia. cbn [obind].
      split; [|auto]. destruct t'; reflexivity.
    + intro Q. rewrite Ex. replace starti with (start + (starti - start))%nat by lia. symmetry.
      apply (nev_through xs ys m distinct (m - 1) 0 (starti - start)); lia.
  - set (num := (starti - start)%nat).
    assert (DD : exists dd, (if Nat.eqb num 0 then Ok true else if Nat.eqb num (m - 1) then Ok false
       else olet a := at_ (i_x t) (start + num - 1) in olet b := at_ (i_x t) (start + num + 1) in
          Ok (Bool.eqb (b - x <? x - a) (a <? b))) = Ok dd).
    { destruct (Nat.eqb_spec num 0); [eexists; reflexivity|].
      destruct (Nat.eqb_spec num (m - 1)); [eexists; reflexivity|].
      unfold num in *. do 2 (rewrite (at_ok _ _ 0) by lia; cbn [obind]). eexists. reflexivity. }
    destruct DD as (dd & DD). destruct (refines num dd) as (num' & dd' & c' & d' & v & E & L1 & L2 & V); [unfold num; lia|].
    exists v. split; [|split; [intro; contradiction|exact V]].
    intros t' E1 E2 E3 E4 L3 L4. destruct (Eqs t' E1 E2 E3 E4) as (Q1 & Q2).
    exists c', d'. unfold interpolate_at. fold num. rewrite E1, E2, E3.
    rewrite (at_ok _ _ 0) by lia. cbn [obind]. rewrite (proj2 (Reqb_false _ _) Nx).
    rewrite (Loops _ _ _ Q1), copies by assumption. cbn [obind]. rewrite DD. cbn [obind].
    rewrite (at_ok _ _ 0) by (unfold num; lia). cbn [obind]. rewrite (Loops _ _ _ Q2).
    change (nth (start + num) (i_y t) 0) with (ys num). rewrite E. cbn [obind]. auto.
Qed.
End Window.

(** ** The place in the table *)
Definition signed (s : R) (x : list R) : Prop :=
  (s = 1 \/ s = -1) /\ forall i j, (i < j < length x)%nat -> s * nth i x 0 < s * nth j x 0.
Lemma ordered_signed x : ordered x -> exists s, signed s x.
Proof.
  intros [H|H].
  - exists 1. split; [left; reflexivity|]. intros i j L. specialize (H i j L). lra.
  - exists (-1). split; [right; reflexivity|]. intros i j L. specialize (H i j L). lra.
Qed.
Lemma signed_ordered s x : signed s x -> ordered x.
Proof.
  intros ([->| ->] & H); [left|right]; intros i j L; specialize (H i j L); lra.
Qed.
Lemma signed_distinct s x i j : signed s x -> (i < length x)%nat -> (j < length x)%nat -> i <> j -> nth i x 0 <> nth j x 0.
Proof.
  intros (_ & H) I J N E. destruct (Nat.lt_gt_cases i j) as (G & _). destruct (G N) as [L|L].
  - specialize (H i j ltac:(lia)). rewrite E in H. lra.
  - specialize (H j i ltac:(lia)). rewrite E in H. lra.
Qed.
(** [i] is the interval of the table that [q] belongs to *)
Definition bracket (s : R) (x : list R) (i : nat) (q : R) : Prop :=
  (i = 0%nat \/ s * nth i x 0 <= s * q) /\ ((i + 1)%nat = (length x - 1)%nat \/ s * q <= s * nth (i + 1) x 0).

Lemma search_spec s x q dir : signed s x -> dir = (nth 0 x 0 <? nth (length x - 1) x 0) -> (2 <= length x)%nat ->
  forall fuel i j, (i < j < length x)%nat -> (j - i <= fuel)%nat ->
  (i = 0%nat \/ s * nth i x 0 <= s * q) -> (j = (length x - 1)%nat \/ s * q <= s * nth j x 0) ->
  exists r, search q x dir fuel i j = Ok r /\ (r + 1 < length x)%nat /\ bracket s x r q.
Proof.
  intros Sg D N2.
  assert (DS : dir = true /\ s = 1 \/ dir = false /\ s = -1).
  { destruct Sg as (S1 & H). specialize (H 0%nat (length x - 1)%nat ltac:(lia)). subst dir.
    destruct S1 as [->| ->]; [left|right]; (split; [|reflexivity]).
    - apply Rltb_true. lra.
    - apply Rltb_false. lra. }
  induction fuel as [|fuel IH]; intros i j L F Bi Bj; cbn [search].
  - lia.
  - destruct (Nat.ltb_spec 1 (j - i)) as [G|G].
    + assert (M : (i < (i + j) / 2 < j)%nat).
      { split; [apply Nat.div_le_lower_bound; lia|apply Nat.div_lt_upper_bound; lia]. }
      rewrite (at_ok _ _ 0) by lia. cbn [obind]. set (k := ((i + j) / 2)%nat) in *.
      destruct (Bool.eqb (nth k x 0 <? q) dir) eqn:E.
      * apply IH; [lia|lia| |exact Bj]. right. apply Bool.eqb_prop in E.
        destruct DS as [(-> & ->)|(-> & ->)]; [apply Rltb_true in E|apply Rltb_false in E]; lra.
      * apply IH; [lia|lia|exact Bi|]. right. apply Bool.eqb_false_iff in E.
        destruct DS as [(-> & ->)|(-> & ->)]; [apply Bool.not_true_is_false in E; apply Rltb_false in E|apply Bool.not_false_is_true in E; apply Rltb_true in E]; lra.
    + exists i. assert (j = (i + 1)%nat) as -> by lia. split; [reflexivity|]. split; [lia|]. split; assumption.
Qed.
Lemma search_fuel_one q x dir : search q x dir 1 0 0 = Ok 0%nat.
Proof. reflexivity. Qed.

Definition start_of (n m i aux : nat) : nat := Nat.min (i - (m - 1 - aux) / 2) (n - m).
Lemma locate_spec s t q n m : signed s (i_x t) -> length (i_x t) = n -> i_max t = n -> i_romberg t = m -> (2 <= n)%nat -> (1 <= m <= n)%nat ->
  exists i aux, locate t q = Ok ((i + aux)%nat, start_of n m i aux) /\ (i + 1 < n)%nat /\ bracket s (i_x t) i q /\
    (aux = 0%nat /\ s * (q - nth i (i_x t) 0) <= s * (nth (i + 1) (i_x t) 0 - q) \/
     aux = 1%nat /\ s * (nth (i + 1) (i_x t) 0 - q) <= s * (q - nth i (i_x t) 0)).
Proof.
  intros Sg Ln En Em N2 M. unfold locate. rewrite En, Em. do 2 (rewrite (at_ok _ _ 0) by lia; cbn [obind]).
  destruct (search_spec s (i_x t) q (nth 0 (i_x t) 0 <? nth (n - 1) (i_x t) 0) Sg) with (fuel := n) (i := 0%nat) (j := (n - 1)%nat) as (i & -> & Li & B);
    [rewrite Ln; reflexivity|lia|lia|lia|left; reflexivity|left; lia|]. cbn [obind].
  destruct (Nat.ltb_spec (i + 1) n) as [_|]; [|lia]. do 2 (rewrite (at_ok _ _ 0) by lia; cbn [obind]).
  assert (G : forall aux, (if Nat.ltb n (i - (m - 1 - aux) / 2 + m) || Nat.ltb n (i - (m - 1 - aux) / 2) then n - m else i - (m - 1 - aux) / 2)%nat = start_of n m i aux).
  { intro aux. unfold start_of. destruct (Nat.ltb_spec n (i - (m - 1 - aux) / 2 + m)); destruct (Nat.ltb_spec n (i - (m - 1 - aux) / 2)); cbn [orb]; lia. }
  assert (DS : (nth 0 (i_x t) 0 <? nth (n - 1) (i_x t) 0) = true /\ s = 1 \/ (nth 0 (i_x t) 0 <? nth (n - 1) (i_x t) 0) = false /\ s = -1).
  { destruct Sg as (S1 & H). specialize (H 0%nat (n - 1)%nat ltac:(lia)).
    destruct S1 as [->| ->]; [left|right]; (split; [|reflexivity]).
    - apply Rltb_true. lra.
    - apply Rltb_false. lra. }
  destruct (Bool.eqb (q - nth i (i_x t) 0 <? nth (i + 1) (i_x t) 0 - q) _) eqn:E.
  - exists i, 0%nat. rewrite G. split; [reflexivity|]. split; [lia|]. split; [exact B|]. left. split; [reflexivity|].
    apply Bool.eqb_prop in E. destruct DS as [(D & ->)|(D & ->)]; rewrite D in E; [apply Rltb_true in E|apply Rltb_false in E]; lra.
  - exists i, 1%nat. rewrite G. split; [reflexivity|]. split; [lia|]. split; [exact B|]. right. split; [reflexivity|].
    apply Bool.eqb_false_iff in E. destruct DS as [(D & ->)|(D & ->)]; rewrite D in E;
      [apply Bool.not_true_is_false in E; apply Rltb_false in E|apply Bool.not_false_is_true in E; apply Rltb_true in E]; lra.
Qed.
Lemma start_facts n m i aux : (i + 1 < n)%nat -> (2 <= m <= n)%nat -> (aux <= 1)%nat ->
  (start_of n m i aux <= i /\ i + 1 < start_of n m i aux + m /\ start_of n m i aux + m <= n)%nat.
Proof.
  intros I M A. unfold start_of. set (h := ((m - 1 - aux) / 2)%nat).
  assert (H : (2 * h <= m - 1 - aux)%nat) by (unfold h; apply Nat.mul_div_le; lia).
  lia.
Qed.
(** A node is found again. *)
Lemma bracket_node s x i k aux q : signed s x -> (i + 1 < length x)%nat -> (k < length x)%nat -> q = nth k x 0 -> bracket s x i q ->
  (aux = 0%nat /\ s * (q - nth i x 0) <= s * (nth (i + 1) x 0 - q) \/
   aux = 1%nat /\ s * (nth (i + 1) x 0 - q) <= s * (q - nth i x 0)) -> (i + aux)%nat = k.
Proof.
  intros (Ss & H) I K -> (Bl & Bu) A.
  assert (Lo : (i <= k)%nat).
  { destruct Bl as [->|Bl]; [lia|]. destruct (le_lt_dec i k) as [|G]; [lia|]. specialize (H k i ltac:(lia)). lra. }
  assert (Up : (k <= i + 1)%nat).
  { destruct Bu as [E|Bu]; [lia|]. destruct (le_lt_dec k (i + 1)) as [|G]; [lia|]. specialize (H (i + 1)%nat k ltac:(lia)). lra. }
  assert (St : s * nth i x 0 < s * nth (i + 1) x 0) by (apply H; lia).
  assert (k = i \/ k = (i + 1)%nat) as [->| ->] by lia; destruct A as [(-> & A)|(-> & A)]; try lia; lra.
Qed.

(** ** Tables of one variable *)
Definition good (x y : list R) (m : nat) (b : bool) (t : inter) : Prop :=
  i_x t = x /\ i_y t = y /\ i_max t = length x /\ i_romberg t = m /\ i_romberg_y t = m /\ i_rational t = b /\
  length (i_c t) = m /\ length (i_d t) = m.
Lemma good_work x y m b t c d : good x y m b t -> length c = m -> length d = m -> good x y m b (with_work t c d).
Proof. intros (H1 & H2 & H3 & H4 & H5 & H6 & _ & _) Lc Ld. repeat split; assumption. Qed.

Lemma make_good x y r b : tabular x y -> (1 <= r)%Z ->
  exists t, make x y r b = Ok t /\ good x y (order r (length x)) b t /\
    i_low t = Rmin (nth 0 x 0) (nth (length x - 1) x 0) /\ i_high t = Rmax (nth 0 x 0) (nth (length x - 1) x 0).
Proof.
  intros (E & N & O) R1. destruct (ordered_signed x O) as (s & Sg). unfold make.
  do 2 (rewrite (at_ok _ _ 0) by lia; cbn [obind]).
  assert (Mx : init_max (Nat.min (length x) (length y)) (nth 0 x 0) (nth (length x - 1) x 0) = length x).
  { unfold init_max. rewrite (proj2 (Reqb_false _ _)) by (apply (signed_distinct s); [exact Sg|lia..]). lia. }
  rewrite Mx. assert (Rm : init_romberg (length x) r = order r (length x)) by (unfold init_romberg, order; lia).
  rewrite Rm. unfold fill. rewrite <- E. rewrite Nat.leb_refl, Nat.sub_diag. cbn [obind repeat]. rewrite !app_nil_r.
  eexists. split; [reflexivity|]. repeat split; cbn; try reflexivity; apply repeat_length.
Qed.

Definition place (s : R) (x : list R) (q : R) (i aux : nat) : Prop :=
  (i + 1 < length x)%nat /\ bracket s x i q /\ (aux <= 1)%nat /\
    (aux = 0%nat /\ s * (q - nth i x 0) <= s * (nth (i + 1) x 0 - q) \/
     aux = 1%nat /\ s * (nth (i + 1) x 0 - q) <= s * (q - nth i x 0)).
Definition slice (x : list R) (start i : nat) : R := nth (start + i) x 0.
Lemma array_spec nan s x y m b q : signed s x -> length y = length x -> (2 <= m <= length x)%nat ->
  exists v i aux, place s x q i aux /\
    (forall t, good x y m b t -> exists t', array nan t q = Ok (v, t') /\ good x y m b t' /\ i_low t' = i_low t /\ i_high t' = i_high t) /\
    (forall k, (k < length x)%nat -> q = nth k x 0 -> v = nth k y 0) /\
    (b = false -> v = nev (slice x (start_of (length x) m i aux)) (slice y (start_of (length x) m i aux)) (m - 1) 0 q).
Proof.
  intros Sg Ly M. set (w := repeat 0 m). set (t0 := mkinter x y w w (length x) m m b 0 0).
  destruct (locate_spec s t0 q (length x) m) as (i & aux & L & I & B & A); [exact Sg|reflexivity|reflexivity|reflexivity|lia|lia|].
  cbn [i_x t0] in B, A.
  assert (A1 : (aux <= 1)%nat) by (destruct A as [(-> & _)|(-> & _)]; lia).
  pose proof (start_facts (length x) m i aux I M A1) as (S1 & S2 & S3). set (start := start_of (length x) m i aux) in *.
  assert (Node : forall k, (k < length x)%nat -> q = nth k x 0 -> (i + aux)%nat = k).
  { intros k K E. apply (bracket_node s x i k aux q); assumption. }
  assert (Run : exists v, (forall t', i_x t' = x -> i_y t' = y -> i_romberg t' = m -> i_rational t' = b -> length (i_c t') = m -> length (i_d t') = m ->
    exists c d, interpolate_at nan t' (i + aux) start q = Ok (v, with_work t' c d) /\ length c = m /\ length d = m) /\
    (q = nth (i + aux) x 0 -> v = nth (i + aux) y 0) /\ (b = false -> v = nev (slice x start) (slice y start) (m - 1) 0 q)).
  { destruct (Req_EM_T q (nth (i + aux) x 0)) as [E|Nq].
    - exists (nth (i + aux) y 0). split; [|split; [reflexivity|]].
      + intros t' E1 E2 _ _ L1 L2. exists (i_c t'), (i_d t'). unfold interpolate_at. rewrite E1, E2, (at_ok _ _ 0) by lia. cbn [obind].
        rewrite (proj2 (Reqb_true _ _) E), (at_ok _ _ 0) by lia. cbn [obind]. split; [destruct t'; reflexivity|]. auto.
      + intros _. rewrite E. replace (i + aux)%nat with (start + (i + aux - start))%nat by lia. symmetry.
        apply (nev_through (slice x start) (slice y start) m); [|lia|lia].
        intros u w' Hu. apply (signed_distinct s); [exact Sg|lia..].
    - destruct (interpolates nan t0 start q m) with (starti := (i + aux)%nat) as (v & V1 & V2 & V3); cbn [t0 i_x i_y i_romberg i_rational] in *; [reflexivity|lia|lia|lia| | |lia|lia|].
      + intros u w' Hu. apply (signed_distinct s); [exact Sg|lia..].
      + intros _ u Hu E. symmetry in E. pose proof (Node (start + u)%nat ltac:(lia) E) as Z. apply Nq. rewrite Z. exact E.
      + exists v. split; [exact V1|]. split; [exact V2|exact V3]. }
  destruct Run as (v & V1 & V2 & V3). exists v, i, aux. split; [exact (conj I (conj B (conj A1 A)))|]. split; [|split; [|exact V3]].
  - intros t G. pose proof G as (E1 & E2 & E3 & E4 & E5 & E6 & L1 & L2).
    assert (Lt : locate t q = locate t0 q) by (unfold locate; rewrite E1, E3, E4; reflexivity).
    destruct (V1 t E1 E2 E4 E6 L1 L2) as (c & d & V & Lc & Ld). exists (with_work t c d). unfold array. rewrite Lt, L. cbn [obind]. split; [exact V|].
    split; [apply good_work; assumption|split; reflexivity].
  - intros k K E. pose proof (Node k K E) as <-. apply V2, E.
Qed.

Lemma answers_invariant {O} (call : O -> R * R -> outcome (R * O)) (P : O -> Prop) (f : R * R -> R) :
  (forall o q, P o -> exists o', call o q = Ok (f q, o') /\ P o') -> forall o, P o -> answers call o f.
Proof.
  intros H o Po qs. revert o Po. induction qs as [|q qs IH]; intros o Po; cbn [calls map].
  - exists o. reflexivity.
  - destruct (H o q Po) as (o1 & -> & P1). cbn [obind]. destruct (IH o1 P1) as (o2 & ->). cbn [obind]. exists o2. reflexivity.
Qed.
Lemma answers_first {O} (call : O -> R * R -> outcome (R * O)) (f : R * R -> R) o q :
  answers call o f -> exists o', call o q = Ok (f q, o').
Proof.
  intro H. destruct (H [q]) as (o' & E). cbn [calls map] in E. destruct (call o q) as [(v & o1)| |]; cbn [obind] in E; try discriminate.
  assert (v = f q) as -> by congruence. exists o1. reflexivity.
Qed.

(** What is read from a table *)
Lemma table_reads nan x y r b t : tabular x y -> (2 <= r)%Z -> make x y r b = Ok t -> exists f, reads nan t f.
Proof.
  intros T R2 E. destruct (make_good x y r b T) as (t' & E' & G & _); [lia|]. assert (t' = t) as -> by congruence.
  pose proof T as (Lx & N & O). destruct (ordered_signed x O) as (s & Sg).
  exists (fun q => match array nan t q with Ok (v, _) => v | _ => 0 end).
  apply (answers_invariant _ (good x y (order r (length x)) b)); [|exact G].
  intros o (q & q') Go. unfold table_call. cbn [fst].
  destruct (array_spec nan s x y (order r (length x)) b q) as (v & i & aux & _ & A & _);
    [exact Sg|lia|unfold order; lia|].
  destruct (A t G) as (t1 & -> & _). destruct (A o Go) as (t2 & E2 & G2 & _). exists t2. split; assumption.
Qed.
Lemma read_value nan x y r b t f q : tabular x y -> (2 <= r)%Z -> make x y r b = Ok t -> reads nan t f ->
  forall s, signed s x -> exists i aux, place s x q i aux /\
    (forall k, (k < length x)%nat -> q = nth k x 0 -> f q = nth k y 0) /\
    (b = false -> f q = nev (slice x (start_of (length x) (order r (length x)) i aux)) (slice y (start_of (length x) (order r (length x)) i aux)) (order r (length x) - 1) 0 q).
Proof.
  intros T R2 E F s Sg. destruct (make_good x y r b T) as (t' & E' & G & _); [lia|]. assert (t' = t) as -> by congruence.
  pose proof T as (Lx & N & O).
  destruct (array_spec nan s x y (order r (length x)) b q) as (v & i & aux & P & A & V1 & V2);
    [exact Sg|lia|unfold order; lia|].
  destruct (answers_first _ _ _ (q, 0) F) as (o & Eo). unfold table_call in Eo. cbn [fst] in Eo.
  destruct (A t G) as (t1 & E1 & _). assert (f q = v) as -> by congruence.
  exists i, aux. auto.
Qed.

Lemma table_nodes nan x y r b t f k : tabular x y -> (2 <= r)%Z -> make x y r b = Ok t -> reads nan t f -> (k < length x)%nat ->
  f (nth k x 0) = nth k y 0.
Proof.
  intros T R2 E F K. pose proof T as (_ & _ & O). destruct (ordered_signed x O) as (s & Sg).
  destruct (read_value nan x y r b t f (nth k x 0) T R2 E F s Sg) as (i & aux & _ & V & _). apply (V k K eq_refl).
Qed.

Lemma slice_distinct s x start m : signed s x -> (start + m <= length x)%nat ->
  forall i j, (i < j < m)%nat -> slice x start i <> slice x start j.
Proof. intros Sg L i j H. apply (signed_distinct s); [exact Sg|lia..]. Qed.
Lemma slice_points x y start m : points x y start m = map (fun j => (slice x start j, slice y start j)) (seq 0 m).
Proof.
  unfold points, slice. replace (seq start m) with (map (fun j => start + j)%nat (seq 0 m)); [rewrite map_map; reflexivity|].
  clear. assert (G : forall b, map (fun j => start + j)%nat (seq b m) = seq (start + b) m).
  { induction m as [|m IH]; intro b; [reflexivity|]. cbn [seq map]. f_equal. rewrite IH. f_equal. lia. }
  rewrite G. f_equal. lia.
Qed.
(** Far from the ends, [q] is in the middle of the window. *)
Lemma place_divides s x q i aux : signed s x -> place s x q i aux -> (0 < i)%nat -> (i + 1 < length x - 1)%nat -> divides x (i + 1) q.
Proof.
  intros (Ss & H) (I & (Bl & Bu) & _) I0 I1. destruct Bl as [|Bl]; [lia|]. destruct Bu as [|Bu]; [lia|].
  assert (Lo : forall j, (j <= i)%nat -> s * nth j x 0 <= s * q).
  { intros j J. destruct (Nat.eq_dec j i) as [->|]; [exact Bl|]. specialize (H j i ltac:(lia)). lra. }
  assert (Up : forall j, (i + 1 <= j < length x)%nat -> s * q <= s * nth j x 0).
  { intros j J. destruct (Nat.eq_dec j (i + 1)) as [->|]; [exact Bu|]. specialize (H (i + 1)%nat j ltac:(lia)). lra. }
  destruct Ss as [->| ->]; [left|right]; (split; [intros a b Q; specialize (H a b Q); lra|]; split; intros j J; [specialize (Lo j ltac:(lia))|specialize (Up j J)]; lra).
Qed.
Lemma place_central s x q i aux m : signed s x -> place s x q i aux -> (2 <= m <= length x)%nat ->
  central x (start_of (length x) m i aux) m q.
Proof.
  intros Sg P M. pose proof P as (I & _ & A1 & _). pose proof (start_facts (length x) m i aux I M A1) as (S1 & S2 & S3).
  split; [exact S3|].
  assert (D : exists k, ((k <= length x)%nat /\ (k = i + 1 \/ i = 0 /\ k = 0 \/ i + 2 = length x /\ k = length x)%nat) /\ divides x k q).
  { destruct (le_lt_dec i 0) as [Z|Z]; [|destruct (le_lt_dec (length x - 1) (i + 1)) as [Z2|Z2]].
    - assert (i = 0%nat) as -> by lia. destruct P as (_ & (_ & Bu) & _). destruct Sg as (Ss & H). cbn [Nat.add] in *.
      destruct (Rle_lt_dec (s * nth 0 x 0) (s * q)) as [C|C].
      + destruct Bu as [E|Bu].
        * destruct (Rle_lt_dec (s * nth 1 x 0) (s * q)) as [C2|C2].
          -- exists 2%nat. split; [lia|]. destruct Ss as [->| ->]; [left|right]; (split; [intros a b Q; specialize (H a b Q); lra|]; split; intros j J; [|lia]);
               assert (j = 0%nat \/ j = 1%nat) as [->| ->] by lia; lra.
          -- exists 1%nat. split; [lia|]. destruct Ss as [->| ->]; [left|right];
               (split; [intros a b Q; specialize (H a b Q); lra|]; split; intros j J; [assert (j = 0%nat) as -> by lia|assert (j = 1%nat) as -> by lia]; lra).
        * exists 1%nat. split; [lia|].
          assert (Up : forall j, (1 <= j < length x)%nat -> s * q <= s * nth j x 0).
          { intros j J. destruct (Nat.eq_dec j 1) as [->|]; [exact Bu|]. specialize (H 1%nat j ltac:(lia)). lra. }
          destruct Ss as [->| ->]; [left|right]; (split; [intros a b Q; specialize (H a b Q); lra|]; split; intros j J; [assert (j = 0%nat) as -> by lia|specialize (Up j J)]; lra).
      + exists 0%nat. split; [lia|].
        assert (Up : forall j, (j < length x)%nat -> s * q <= s * nth j x 0).
        { intros j J. destruct (Nat.eq_dec j 0) as [->|]; [lra|]. specialize (H 0%nat j ltac:(lia)). lra. }
        destruct Ss as [->| ->]; [left|right]; (split; [intros a b Q; specialize (H a b Q); lra|]; split; intros j J; [lia|specialize (Up j ltac:(lia)); lra]).
    - destruct P as (_ & (Bl & _) & _). destruct Bl as [|Bl]; [lia|]. destruct Sg as (Ss & H).
      assert (Lo : forall j, (j <= i)%nat -> s * nth j x 0 <= s * q).
      { intros j J. destruct (Nat.eq_dec j i) as [->|]; [exact Bl|]. specialize (H j i ltac:(lia)). lra. }
      destruct (Rle_lt_dec (s * nth (i + 1) x 0) (s * q)) as [C2|C2].
      + exists (length x). split; [lia|].
        assert (Lo' : forall j, (j < length x)%nat -> s * nth j x 0 <= s * q).
        { intros j J. destruct (Nat.eq_dec j (i + 1)) as [->|]; [exact C2|]. apply Lo. lia. }
        destruct Ss as [->| ->]; [left|right]; (split; [intros a b Q; specialize (H a b Q); lra|]; split; intros j J; [specialize (Lo' j J); lra|lia]).
      + exists (i + 1)%nat. split; [lia|].
        destruct Ss as [->| ->]; [left|right]; (split; [intros a b Q; specialize (H a b Q); lra|]; split; intros j J; [specialize (Lo j ltac:(lia))|assert (j = (i + 1)%nat) as -> by lia]; lra).
    - exists (i + 1)%nat. split; [lia|]. apply (place_divides s x q i aux Sg P); lia. }
  unfold start_of in *. set (h := ((m - 1 - aux) / 2)%nat) in *.
  assert (H1 : (2 * h <= m - 1 - aux)%nat) by (unfold h; apply Nat.mul_div_le; lia).
  assert (H2 : (m - 1 - aux < 2 * h + 2)%nat) by (unfold h; pose proof (Nat.mul_succ_div_gt (m - 1 - aux) 2); lia).
  destruct D as (k & (K & C) & D). exists k. split; [exact K|]. split; [exact D|]. clear - C H1 H2 A1 M I. lia.
Qed.

Lemma table_window nan x y r t f q : tabular x y -> (2 <= r)%Z -> make x y r false = Ok t -> reads nan t f ->
  exists start, central x start (order r (length x)) q /\ extrapolates (points x y start (order r (length x))) q (f q).
Proof.
  intros T R2 E F. pose proof T as (Lx & N & O). destruct (ordered_signed x O) as (s & Sg).
  assert (M : (2 <= order r (length x) <= length x)%nat) by (unfold order; lia).
  destruct (read_value nan x y r false t f q T R2 E F s Sg) as (i & aux & P & _ & V).
  exists (start_of (length x) (order r (length x)) i aux). split; [apply (place_central s); assumption|].
  rewrite (V eq_refl), slice_points. pose proof P as (I & _ & A1 & _).
  pose proof (start_facts (length x) (order r (length x)) i aux I M A1) as (S1 & S2 & S3).
  replace (seq 0 (order r (length x))) with (seq 0 (S (order r (length x) - 1))) by (f_equal; lia).
  apply (nev_extrapolates _ _ (order r (length x)) (slice_distinct s x _ _ Sg S3)). lia.
Qed.
Lemma table_polynomial nan x y r t f c q : tabular x y -> (2 <= r)%Z -> make x y r false = Ok t -> reads nan t f ->
  (length c <= order r (length x))%nat -> (forall k, (k < length x)%nat -> nth k y 0 = polynomial c (nth k x 0)) -> f q = polynomial c q.
Proof.
  intros T R2 E F Lc H. destruct (table_window nan x y r t f q T R2 E F) as (start & (L & _) & _ & U). symmetry. apply U.
  - unfold points. rewrite map_length, seq_length. exact Lc.
  - intros p I. apply in_map_iff in I. destruct I as (j & <- & I). apply in_seq in I. cbn [fst snd]. symmetry. apply H. lia.
Qed.
