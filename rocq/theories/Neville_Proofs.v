(** Integral::Interpolate is Neville's scheme: it stays inside its arrays and
    gives the value of the interpolating polynomial. *)
From Verif Require Import Prelude PreludeFacts Function_Model Integral_Model Function_Spec Integral_Spec Function_Proofs.

Lemma get_ok (l : list R) i : (i < length l)%nat -> arr_get l i = Ok (nth i l 0).
Proof. intro H. apply arr_get_ok. apply nth_error_nth_Some. exact H. Qed.
Lemma set_ok (l : list R) i v : (i < length l)%nat ->
  exists l', arr_set l i v = Ok l' /\ length l' = length l /\ forall k, nth k l' 0 = if Nat.eqb k i then v else nth k l 0.
Proof.
  intro H. destruct (arr_set_ok l i v H) as (l' & E & L & N). exists l'. split; [exact E|]. split; [exact L|].
  intro k. specialize (N k). destruct (Nat.eqb k i).
  - apply nth_error_nth. exact N.
  - destruct (nth_error l k) as [w|] eqn:W.
    + rewrite (nth_error_nth _ _ _ W). apply nth_error_nth. exact N.
    + apply nth_error_None in N. apply nth_error_None in W. rewrite !nth_overflow by assumption. reflexivity.
Qed.

(** ** Polynomials *)
Fixpoint quotient_by (c : list R) (a : R) : list R :=
  match c with
  | [] => []
  | _ :: c' => match c' with [] => [] | _ => polynomial c' a :: quotient_by c' a end
  end.
Lemma quotient_length c a : length (quotient_by c a) = (length c - 1)%nat.
Proof. induction c as [|u [|v c] IH]; [reflexivity..|]. cbn [quotient_by length] in *. rewrite IH. lia. Qed.
Lemma quotient_spec c a x : polynomial c x = polynomial c a + (x - a) * polynomial (quotient_by c a) x.
Proof.
  induction c as [|u [|v c] IH]; cbn [quotient_by].
  - rewrite !polynomial_nil. lra.
  - rewrite !polynomial_cons, !polynomial_nil. lra.
  - rewrite (polynomial_cons u (v :: c) x), (polynomial_cons u (v :: c) a), (polynomial_cons (polynomial (v :: c) a)).
    cbn [quotient_by] in IH. rewrite IH. lra.
Qed.
(** A polynomial with as many roots as coefficients vanishes. *)
Lemma too_many_roots : forall roots c, NoDup roots -> (length c <= length roots)%nat ->
  (forall r, In r roots -> polynomial c r = 0) -> forall x, polynomial c x = 0.
Proof.
  induction roots as [|a roots IH]; intros c N L H x.
  - destruct c; [apply polynomial_nil|cbn in L; lia].
  - rewrite (quotient_spec c a), H by (left; reflexivity).
    rewrite (IH (quotient_by c a)); [lra|inversion N; assumption|rewrite quotient_length; cbn in L; lia|].
    intros r R. pose proof (H r (or_intror R)) as Z. rewrite (quotient_spec c a), (H a) in Z by (left; reflexivity).
    assert (r <> a) by (inversion N; intros ->; contradiction).
    apply (Rmult_eq_reg_l (r - a)); lra.
Qed.

Fixpoint poly_add (c d : list R) : list R :=
  match c, d with
  | [], _ => d
  | _, [] => c
  | u :: c, v :: d => (u + v) :: poly_add c d
  end.
Lemma poly_add_spec c : forall d x, polynomial (poly_add c d) x = polynomial c x + polynomial d x.
Proof.
  induction c as [|u c IH]; intros [|v d] x; cbn [poly_add]; rewrite ?polynomial_nil; try lra.
  rewrite !polynomial_cons, IH. lra.
Qed.
Lemma poly_add_length c : forall d n, (length c <= n)%nat -> (length d <= n)%nat -> (length (poly_add c d) <= n)%nat.
Proof.
  induction c as [|u c IH]; intros [|v d] n; cbn [poly_add length]; try lia. intros A B.
  destruct n as [|n]; [lia|]. specialize (IH d n). lia.
Qed.
Definition poly_scale (k : R) (c : list R) : list R := map (Rmult k) c.
Lemma poly_scale_spec k c x : polynomial (poly_scale k c) x = k * polynomial c x.
Proof. unfold poly_scale. induction c as [|u c IH]; cbn [map]; [rewrite !polynomial_nil|rewrite !polynomial_cons, IH]; lra. Qed.
Lemma poly_scale_length k c : length (poly_scale k c) = length c.
Proof. apply map_length. Qed.
(** (x - a) times the polynomial *)
Definition poly_root (a : R) (c : list R) : list R := poly_add (0 :: c) (poly_scale (- a) c).
Lemma poly_root_spec a c x : polynomial (poly_root a c) x = (x - a) * polynomial c x.
Proof. unfold poly_root. rewrite poly_add_spec, polynomial_cons, poly_scale_spec. lra. Qed.
Lemma poly_root_length a c n : (length c <= n)%nat -> (length (poly_root a c) <= S n)%nat.
Proof. intro L. unfold poly_root. apply poly_add_length; cbn [length]; rewrite ?poly_scale_length; lia. Qed.

(** ** The scheme *)
Section Neville.
Variables (xs ys : nat -> R).
Fixpoint nev (k i : nat) (x : R) : R :=
  match k with
  | O => ys i
  | S k => ((xs (i + S k)%nat - x) * nev k i x + (x - xs i) * nev k (S i) x) / (xs (i + S k)%nat - xs i)
  end.
Variable m : nat.
Hypothesis distinct : forall i j, (i < j < m)%nat -> xs i <> xs j.

Lemma nev_polynomial k : forall i, (i + k < m)%nat -> exists c, (length c <= S k)%nat /\ forall x, polynomial c x = nev k i x.
Proof.
  induction k as [|k IH]; intros i L.
  - exists [ys i]. split; [reflexivity|]. intro x. rewrite polynomial_cons, polynomial_nil. cbn [nev]. lra.
  - destruct (IH i) as (c & Lc & C); [lia|]. destruct (IH (S i)) as (d & Ld & D); [lia|].
    exists (poly_scale (/ (xs (i + S k)%nat - xs i)) (poly_add (poly_scale (-1) (poly_root (xs (i + S k)%nat) c)) (poly_root (xs i) d))).
    split.
    + rewrite poly_scale_length. apply poly_add_length; [rewrite poly_scale_length|]; apply poly_root_length; lia.
    + intro x. rewrite poly_scale_spec, poly_add_spec, poly_scale_spec, !poly_root_spec, C, D. cbn [nev]. unfold Rdiv. ring.
Qed.
Lemma nev_through k : forall i j, (i + k < m)%nat -> (i <= j <= i + k)%nat -> nev k i (xs j) = ys j.
Proof.
  induction k as [|k IH]; intros i j L J; cbn [nev].
  - f_equal. lia.
  - assert (N : xs (i + S k)%nat - xs i <> 0) by (intro Z; apply (distinct i (i + S k)); [lia|lra]).
    destruct (Nat.eq_dec j i) as [->|Ni].
    + rewrite (IH i i) by lia. field. exact N.
    + destruct (Nat.eq_dec j (i + S k)) as [->|Nk].
      * rewrite (IH (S i) (i + S k)%nat) by lia. field. exact N.
      * rewrite (IH i j), (IH (S i) j) by lia. field. exact N.
Qed.
Lemma nev_unique c k i : (i + k < m)%nat -> (length c <= S k)%nat -> (forall j, (i <= j <= i + k)%nat -> polynomial c (xs j) = ys j) ->
  forall x, polynomial c x = nev k i x.
Proof.
  intros M L C x. destruct (nev_polynomial k i) as (d & Ld & D); [lia|].
  assert (Z : polynomial (poly_add c (poly_scale (-1) d)) x = 0).
  { apply (too_many_roots (map xs (seq i (S k)))).
    - clear -distinct M. assert (G : forall n b, (b + n <= m)%nat -> NoDup (map xs (seq b n))).
      { induction n as [|n IH]; intros b L; [constructor|]. cbn [seq map]. constructor; [|apply IH; lia].
        intro I. apply in_map_iff in I. destruct I as (j & E & I). apply in_seq in I. apply (distinct b j); [lia|congruence]. }
      apply G. lia.
    - rewrite map_length, seq_length. apply poly_add_length; [exact L|rewrite poly_scale_length; lia].
    - intros r I. apply in_map_iff in I. destruct I as (j & <- & I). apply in_seq in I.
      rewrite poly_add_spec, poly_scale_spec, D, C by lia. rewrite nev_through by lia. lra. }
  rewrite poly_add_spec, poly_scale_spec, D in Z. lra.
Qed.
Lemma nev_extrapolates k i x : (i + k < m)%nat ->
  extrapolates (map (fun j => (xs j, ys j)) (seq i (S k))) x (nev k i x).
Proof.
  intro M. split.
  - destruct (nev_polynomial k i) as (c & L & P); [lia|]. exists c. rewrite map_length, seq_length.
    split; [lia|]. split; [|apply P]. intros p I. apply in_map_iff in I. destruct I as (j & <- & I). apply in_seq in I.
    cbn [fst snd]. rewrite P. apply nev_through; lia.
  - intros c L P. rewrite map_length, seq_length in L. apply nev_unique; [lia|exact L|].
    intros j J. apply (P (xs j, ys j)). apply in_map_iff. exists j. split; [reflexivity|]. apply in_seq. lia.
Qed.

(** The columns of corrections *)
Definition C (k i : nat) (x : R) : R := match k with O => nev 0 i x | S k => nev (S k) i x - nev k i x end.
Definition D (k i : nat) (x : R) : R := match k with O => nev 0 i x | S k => nev (S k) i x - nev k (S i) x end.
Lemma CD k i x : C k (S i) x - D k i x = nev k (S i) x - nev k i x.
Proof. destruct k; cbn [C D]; lra. Qed.
Lemma C_step k i x : (i + S k < m)%nat ->
  (xs i - x) * ((nev k (S i) x - nev k i x) / ((xs i - x) - (xs (i + S k)%nat - x))) = C (S k) i x.
Proof.
  intro L. assert (N : xs i <> xs (i + S k)%nat) by (apply distinct; lia).
  cbn [C]. change (nev (S k) i x) with (((xs (i + S k)%nat - x) * nev k i x + (x - xs i) * nev k (S i) x) / (xs (i + S k)%nat - xs i)).
  field. split; lra.
Qed.
Lemma D_step k i x : (i + S k < m)%nat ->
  (xs (i + S k)%nat - x) * ((nev k (S i) x - nev k i x) / ((xs i - x) - (xs (i + S k)%nat - x))) = D (S k) i x.
Proof.
  intro L. assert (N : xs i <> xs (i + S k)%nat) by (apply distinct; lia).
  cbn [D]. change (nev (S k) i x) with (((xs (i + S k)%nat - x) * nev k i x + (x - xs i) * nev k (S i) x) / (xs (i + S k)%nat - xs i)).
  field. split; lra.
Qed.
End Neville.

(** ** The code *)
Section Code.
Variables (g : engine) (start : nat) (x : R).
Let m := e_romberg g.
Let xs i := nth (start + i) (e_ix g) 0.
Let ys i := nth (start + i) (e_iy g) 0.
Hypothesis room_x : (start + m <= length (e_ix g))%nat.
Hypothesis room_y : (start + m <= length (e_iy g))%nat.
Hypothesis room_c : (m <= e_work g)%nat.
Hypothesis some : (1 <= m)%nat.
Let distinct := forall i j, (i < j < m)%nat -> xs i <> xs j.

Lemma nearest_runs aux : exists num aux' c d,
  loop (nearest g start x) (seq 0 m) (0%nat, aux, repeat 0 (e_work g), repeat 0 (e_work g)) = Ok (num, aux', c, d) /\
  (num < m)%nat /\ length c = e_work g /\ length d = e_work g /\
  forall i, (i < m)%nat -> nth i c 0 = ys i /\ nth i d 0 = ys i.
Proof.
  destruct (loop_seq (nearest g start x)
    (fun b s => let '(num, _, c, d) := s in (num < m)%nat /\ length c = e_work g /\ length d = e_work g /\
       forall i, (i < b)%nat -> nth i c 0 = ys i /\ nth i d 0 = ys i) 0 m
    (0%nat, aux, repeat 0 (e_work g), repeat 0 (e_work g))) as ((((num & aux') & c) & d) & E & I).
  - rewrite !repeat_length. split; [lia|]. split; [reflexivity|]. split; [reflexivity|]. intros; lia.
  - intros i (((num & a) & c) & d) Hi (N & Lc & Ld & V). unfold nearest.
    rewrite get_ok by lia. cbn [obind].
    assert (G : forall num', (num' < m)%nat -> forall a' : R, exists s' : nat * R * list R * list R,
      (olet yi := arr_get (e_iy g) (start + i) in olet c := arr_set c i yi in olet d := arr_set d i yi in Ok (num', a', c, d)) = Ok s' /\
      (let '(num, _, c0, d0) := s' in (num < m)%nat /\ length c0 = e_work g /\ length d0 = e_work g /\
       forall i0, (i0 < S i)%nat -> nth i0 c0 0 = ys i0 /\ nth i0 d0 0 = ys i0)).
    { intros num' N' a'. rewrite get_ok by lia. cbn [obind].
      destruct (set_ok c i (nth (start + i) (e_iy g) 0)) as (c' & -> & Lc' & Vc); [lia|]. cbn [obind].
      destruct (set_ok d i (nth (start + i) (e_iy g) 0)) as (d' & -> & Ld' & Vd); [lia|]. cbn [obind].
      eexists. split; [reflexivity|]. split; [exact N'|]. split; [lia|]. split; [lia|].
      intros j J. rewrite Vc, Vd. destruct (Nat.eqb_spec j i) as [->|]; [split; reflexivity|]. apply V. lia. }
    destruct (_ <? a); apply G; lia.
  - exists num, aux', c, d. rewrite Nat.add_0_l in I. split; [exact E|]. exact I.
Qed.

Lemma column_runs k c d : (S k < m)%nat -> length c = e_work g -> length d = e_work g ->
  exists c' d', loop (column g start x (S k)) (seq 0 (m - S k)) (c, d) = Ok (c', d') /\ length c' = e_work g /\ length d' = e_work g /\
  (distinct -> (forall i, (i + k < m)%nat -> nth i c 0 = C xs ys k i x /\ nth i d 0 = D xs ys k i x) ->
    forall i, (i + S k < m)%nat -> nth i c' 0 = C xs ys (S k) i x /\ nth i d' 0 = D xs ys (S k) i x).
Proof.
  intros K Lc Ld.
  destruct (loop_seq (column g start x (S k))
    (fun b s => length (fst s) = e_work g /\ length (snd s) = e_work g /\
      (distinct -> (forall i, (i + k < m)%nat -> nth i c 0 = C xs ys k i x /\ nth i d 0 = D xs ys k i x) ->
       (forall i, (i < b)%nat -> nth i (fst s) 0 = C xs ys (S k) i x /\ nth i (snd s) 0 = D xs ys (S k) i x) /\
       (forall i, (b <= i)%nat -> (i + k < m)%nat -> nth i (fst s) 0 = C xs ys k i x /\ nth i (snd s) 0 = D xs ys k i x)))
    0 (m - S k) (c, d)) as ((c' & d') & E & I).
  - cbn [fst snd]. split; [exact Lc|]. split; [exact Ld|]. intros _ H. split; [intros; lia|]. intros i _. apply H.
  - intros i (c1 & d1) Hi (L1 & L2 & V). cbn [fst snd] in L1, L2, V. unfold column.
    rewrite !get_ok by lia. cbn [obind].
    destruct (if _ =? 0 then (0, 0) else _) as (u, v) eqn:W.
    destruct (set_ok c1 i u) as (c2 & -> & L3 & V3); [lia|]. cbn [obind].
    destruct (set_ok d1 i v) as (d2 & -> & L4 & V4); [lia|]. cbn [obind].
    eexists. split; [reflexivity|]. cbn [fst snd]. split; [lia|]. split; [lia|]. intros Di H.
    destruct (V Di H) as (Va & Vb).
    assert (N : xs i <> xs (i + S k)%nat) by (apply Di; lia).
    assert (UV : u = C xs ys (S k) i x /\ v = D xs ys (S k) i x).
    { destruct (Vb i) as (_ & Vi); [lia|lia|]. destruct (Vb (S i)) as (Vs & _); [lia|lia|].
      replace (i + 1)%nat with (S i) in W by lia. rewrite Vs, Vi, CD in W.
      replace (start + i + S k)%nat with (start + (i + S k))%nat in W by lia.
      change (nth (start + i) (e_ix g) 0) with (xs i) in W. change (nth (start + (i + S k)) (e_ix g) 0) with (xs (i + S k)%nat) in W.
      destruct (Reqb_spec (xs i - x - (xs (i + S k)%nat - x)) 0) as [Z|Z]; [lra|].
      injection W as <- <-. split; [apply (C_step xs ys m Di)|apply (D_step xs ys m Di)]; lia. }
    destruct UV as (-> & ->). split.
    + intros j J. rewrite V3, V4. destruct (Nat.eqb_spec j i) as [->|]; [split; reflexivity|]. apply Va. lia.
    + intros j J1 J2. rewrite V3, V4. destruct (Nat.eqb_spec j i) as [->|]; [lia|]. apply Vb; lia.
  - exists c', d'. destruct I as (L1 & L2 & V). cbn [fst snd] in *. split; [exact E|]. split; [exact L1|]. split; [exact L2|].
    intros Di H i Hi. apply (V Di H). lia.
Qed.

Lemma interpolate_runs : exists v e, interpolate g start x = Ok (v, e) /\ (distinct -> v = nev xs ys (m - 1) 0 x /\
  ((2 <= m)%nat -> exists j, (j <= 1)%nat /\ e = v - nev xs ys (m - 2) j x) /\ ((m < 2)%nat -> e = 0)).
Proof.
  unfold interpolate. rewrite get_ok by lia. cbn [obind]. fold m.
  destruct (nearest_runs (Rabs (x - nth (start + 0) (e_ix g) 0))) as (num & aux & c & d & -> & N & Lc & Ld & V). cbn [obind].
  assert (DD : exists dd, (if Nat.eqb num 0 then Ok true else if Nat.eqb num (m - 1) then Ok false
     else olet a := arr_get (e_ix g) (start + num - 1) in olet b := arr_get (e_ix g) (start + num + 1) in
          Ok (Rabs (x - b) <? Rabs (x - a))) = Ok dd).
  { destruct (Nat.eqb_spec num 0); [eexists; reflexivity|].
    destruct (Nat.eqb_spec num (m - 1)); [eexists; reflexivity|].
    rewrite !get_ok by lia. eexists. reflexivity. }
  destruct DD as (dd & ->). cbn [obind]. rewrite get_ok by lia. cbn [obind].
  destruct (loop_seq (stage g start x)
    (fun k s => let '(num, dd, c, d, result, error) := s in (num + k <= m)%nat /\ length c = e_work g /\ length d = e_work g /\
       (distinct -> result = nev xs ys (k - 1) num x /\
          ((2 <= k)%nat -> exists j, (j <= 1)%nat /\ error = result - nev xs ys (k - 2) (num + j) x) /\ ((k < 2)%nat -> error = 0) /\
          forall i, (i + (k - 1) < m)%nat -> nth i c 0 = C xs ys (k - 1) i x /\ nth i d 0 = D xs ys (k - 1) i x)) 1 (m - 1)
    (num, dd, c, d, nth (start + num) (e_iy g) 0, 0)) as ((((((num' & dd') & c') & d') & v) & e) & E & I).
  - split; [lia|]. split; [exact Lc|]. split; [exact Ld|]. intros Di. split; [reflexivity|]. split; [lia|]. split; [reflexivity|].
    intros i Hi. cbn [Nat.sub C D nev]. apply V. lia.
  - intros k (((((n1 & dd1) & c1) & d1) & r1) & e1) Hk (N1 & L1 & L2 & H). unfold stage. fold m.
    destruct k as [|k]; [lia|]. cbn [Nat.sub] in H. rewrite Nat.sub_0_r in H.
    destruct (column_runs k c1 d1) as (c2 & d2 & -> & L3 & L4 & W); [lia|assumption..|]. cbn [obind].
    destruct (Nat.eqb_spec n1 0) as [->|Nz].
    + destruct (Nat.eqb_spec 0 (m - S k)); [lia|]. rewrite get_ok by lia. cbn [obind].
      eexists. split; [reflexivity|]. cbn [negb]. split; [lia|]. split; [exact L3|]. split; [exact L4|].
      intro Di. destruct (H Di) as (-> & _ & _ & V1). specialize (W Di V1). cbn [Nat.sub].
      rewrite (proj1 (W 0%nat ltac:(lia))). cbn [C].
      split; [lra|]. split; [|split; [lia|exact W]]. intros _. exists 0%nat. split; [lia|]. rewrite Nat.sub_0_r, Nat.add_0_l. lra.
    + destruct (Nat.eqb_spec n1 (m - S k)) as [En|Nn]; [|destruct dd1].
      * destruct n1 as [|n1]; [lia|]. rewrite get_ok by lia. cbn [obind].
        eexists. split; [reflexivity|]. cbn [negb]. split; [lia|]. split; [exact L3|]. split; [exact L4|].
        intro Di. destruct (H Di) as (-> & _ & _ & V1). specialize (W Di V1). cbn [Nat.sub].
        rewrite (proj2 (W n1 ltac:(lia))). cbn [D].
        split; [lra|]. split; [|split; [lia|exact W]]. intros _. exists 1%nat. split; [lia|]. replace (n1 + 1)%nat with (S n1) by lia. rewrite Nat.sub_0_r. lra.
      * rewrite get_ok by lia. cbn [obind].
        eexists. split; [reflexivity|]. cbn [negb]. split; [lia|]. split; [exact L3|]. split; [exact L4|].
        intro Di. destruct (H Di) as (-> & _ & _ & V1). specialize (W Di V1). cbn [Nat.sub].
        rewrite (proj1 (W n1 ltac:(lia))). cbn [C].
        split; [lra|]. split; [|split; [lia|exact W]]. intros _. exists 0%nat. split; [lia|]. rewrite Nat.sub_0_r, Nat.add_0_r. lra.
      * destruct n1 as [|n1]; [lia|]. rewrite get_ok by lia. cbn [obind].
        eexists. split; [reflexivity|]. cbn [negb]. split; [lia|]. split; [exact L3|]. split; [exact L4|].
        intro Di. destruct (H Di) as (-> & _ & _ & V1). specialize (W Di V1). cbn [Nat.sub].
        rewrite (proj2 (W n1 ltac:(lia))). cbn [D].
        split; [lra|]. split; [|split; [lia|exact W]]. intros _. exists 1%nat. split; [lia|]. replace (n1 + 1)%nat with (S n1) by lia. rewrite Nat.sub_0_r. lra.
  - fold m. rewrite E. cbn [obind]. exists v, e. split; [reflexivity|]. intro Di.
    destruct I as (B & _ & _ & H). destruct (H Di) as (-> & H2 & H1 & _). clear H.
    replace (1 + (m - 1))%nat with m in * by lia. replace num' with 0%nat in * by lia.
    split; [reflexivity|]. split; assumption.
Qed.

(** The value is that of the polynomial through the points, the error the
    difference to that of all points but the first or the last. *)
Lemma interpolate_extrapolates : distinct -> exists v e, interpolate g start x = Ok (v, e) /\
  extrapolates (map (fun i => (xs i, ys i)) (seq 0 m)) x v /\
  ((2 <= m)%nat -> exists j w, (j <= 1)%nat /\ extrapolates (map (fun i => (xs i, ys i)) (seq j (m - 1))) x w /\ e = v - w) /\
  ((m < 2)%nat -> e = 0).
Proof.
  intro Di. destruct interpolate_runs as (v & e & E & V). destruct (V Di) as (V1 & V2 & V3). exists v, e. split; [exact E|].
  split; [|split; [|exact V3]].
  - rewrite V1. replace m with (S (m - 1)) at 1 by lia. apply (nev_extrapolates xs ys m Di). lia.
  - intro M. destruct (V2 M) as (j & J & ->). exists j, (nev xs ys (m - 2) j x). split; [exact J|]. split; [|reflexivity].
    replace (m - 1)%nat with (S (m - 2)) by lia. apply (nev_extrapolates xs ys m Di). lia.
Qed.
End Code.
