(** Photoproduction after Rhode sets in where pions can be made (C66). *)
From Verif Require Import Prelude PreludeFacts Propagator_Model Particle_Model Limits_Model Cross_Model Photo_Model Products_Model Nuclear_Model
  Function_Model Function_Spec Integral_Spec Interpolant_Model Interpolant_Spec Interpolant_Proofs Table_Proofs Cross_Spec Differential_Spec Nuclear_Spec Nuclear_Proofs Rhode_Model.

(** ** Cubic polynomials *)
Definition newton (x0 x1 x2 x3 y0 y1 y2 y3 q : R) : R :=
  let d01 := (y1 - y0) / (x1 - x0) in let d12 := (y2 - y1) / (x2 - x1) in let d23 := (y3 - y2) / (x3 - x2) in
  let e0 := (d12 - d01) / (x2 - x0) in let e1 := (d23 - d12) / (x3 - x1) in let g := (e1 - e0) / (x3 - x0) in
  y0 + d01 * (q - x0) + e0 * ((q - x0) * (q - x1)) + g * ((q - x0) * (q - x1) * (q - x2)).
Lemma newton_unique x0 x1 x2 x3 y0 y1 y2 y3 q v : x0 < x1 -> x1 < x2 -> x2 < x3 ->
  extrapolates [(x0, y0); (x1, y1); (x2, y2); (x3, y3)] q v -> v = newton x0 x1 x2 x3 y0 y1 y2 y3 q.
Proof.
  intros A B C ((c & L & H & E) & _). subst v. cbn in L.
  assert (H0 := H (x0, y0) ltac:(cbn; tauto)). assert (H1 := H (x1, y1) ltac:(cbn; tauto)). assert (H2 := H (x2, y2) ltac:(cbn; tauto)). assert (H3 := H (x3, y3) ltac:(cbn; tauto)).
  cbn [fst snd] in *. clear H. subst y0 y1 y2 y3. unfold newton.
  destruct c as [|c0 [|c1 [|c2 [|c3 [|]]]]]; cbn in L; try lia; cbn; field; repeat split; lra.
Qed.
(** A cubic polynomial on an interval lies between its Bernstein coefficients. *)
Lemma bernstein d0 d1 d2 d3 x0 x1 x2 a b q : a <= q <= b -> a < b ->
  let p := fun q => d0 + d1 * (q - x0) + d2 * ((q - x0) * (q - x1)) + d3 * ((q - x0) * (q - x1) * (q - x2)) in
  let s := fun q => d1 + d2 * ((q - x0) + (q - x1)) + d3 * ((q - x0) * (q - x1) + (q - x0) * (q - x2) + (q - x1) * (q - x2)) in
  0 < p a -> 0 < p a + s a * (b - a) / 3 -> 0 < p b - s b * (b - a) / 3 -> 0 < p b -> 0 < p q.
Proof.
  intros Q AB p s B0 B1 B2 B3.
  assert (E : (b - a) * (b - a) * (b - a) * p q = p a * ((b - q) * (b - q) * (b - q)) + 3 * (p a + s a * (b - a) / 3) * ((b - q) * (b - q) * (q - a)) +
    3 * (p b - s b * (b - a) / 3) * ((b - q) * (q - a) * (q - a)) + p b * ((q - a) * (q - a) * (q - a))) by (unfold p, s; field).
  set (b1 := p a + s a * (b - a) / 3) in *. set (b2 := p b - s b * (b - a) / 3) in *. set (b0 := p a) in *. set (b3 := p b) in *. set (v := p q) in *.
  clearbody b0 b1 b2 b3 v. set (u := q - a) in *. set (w := b - q) in *. replace (b - a) with (u + w) in * by (unfold u, w; ring).
  assert (U : 0 <= u) by (unfold u; lra). assert (W : 0 <= w) by (unfold w; lra). assert (UW : 0 < u + w) by (unfold u, w; lra). clearbody u w.
  assert (M : 0 < Rmin (Rmin b0 b1) (Rmin b2 b3)) by (repeat apply Rmin_glb_lt; assumption). set (m := Rmin (Rmin b0 b1) (Rmin b2 b3)) in *.
  assert (M0 : m <= b0) by (unfold m; eapply Rle_trans; [apply Rmin_l|apply Rmin_l]). assert (M1 : m <= b1) by (unfold m; eapply Rle_trans; [apply Rmin_l|apply Rmin_r]).
  assert (M2 : m <= b2) by (unfold m; eapply Rle_trans; [apply Rmin_r|apply Rmin_l]). assert (M3 : m <= b3) by (unfold m; eapply Rle_trans; [apply Rmin_r|apply Rmin_r]).
  clearbody m.
  assert (K : 0 < (u + w) * (u + w) * (u + w)) by (repeat apply Rmult_lt_0_compat; assumption).
  assert (T0 : 0 <= w * w * w) by (apply Rmult_le_pos; [apply Rmult_le_pos|]; assumption). assert (T1 : 0 <= w * w * u) by (apply Rmult_le_pos; [apply Rmult_le_pos|]; assumption).
  assert (T2 : 0 <= w * u * u) by (apply Rmult_le_pos; [apply Rmult_le_pos|]; assumption). assert (T3 : 0 <= u * u * u) by (apply Rmult_le_pos; [apply Rmult_le_pos|]; assumption).
  assert (S : (u + w) * (u + w) * (u + w) = w * w * w + 3 * (w * w * u) + 3 * (w * u * u) + u * u * u) by ring.
  set (t0 := w * w * w) in *. set (t1 := w * w * u) in *. set (t2 := w * u * u) in *. set (t3 := u * u * u) in *. set (k := (u + w) * (u + w) * (u + w)) in *. clearbody t0 t1 t2 t3 k.
  assert (m * k <= k * v) by (rewrite E, S; nra). nra.
Qed.
Lemma newton_positive x0 x1 x2 x3 y0 y1 y2 y3 a b q : a <= q <= b -> a < b ->
  let d01 := (y1 - y0) / (x1 - x0) in let d12 := (y2 - y1) / (x2 - x1) in let d23 := (y3 - y2) / (x3 - x2) in
  let e0 := (d12 - d01) / (x2 - x0) in let e1 := (d23 - d12) / (x3 - x1) in let g := (e1 - e0) / (x3 - x0) in
  let p := fun q => y0 + d01 * (q - x0) + e0 * ((q - x0) * (q - x1)) + g * ((q - x0) * (q - x1) * (q - x2)) in
  let s := fun q => d01 + e0 * ((q - x0) + (q - x1)) + g * ((q - x0) * (q - x1) + (q - x0) * (q - x2) + (q - x1) * (q - x2)) in
  0 < p a -> 0 < p a + s a * (b - a) / 3 -> 0 < p b - s b * (b - a) / 3 -> 0 < p b -> 0 < newton x0 x1 x2 x3 y0 y1 y2 y3 q.
Proof. intros Q AB d01 d12 d23 e0 e1 g p s B0 B1 B2 B3. exact (bernstein y0 d01 e0 g x0 x1 x2 a b q Q AB B0 B1 B2 B3). Qed.

(** ** The table *)
Lemma rhode_increasing : increasing rhode_nodes.
Proof.
  assert (S : forall i, (i + 1 < length rhode_nodes)%nat -> nth i rhode_nodes 0 < nth (i + 1) rhode_nodes 0).
  { intros i I. cbn [length rhode_nodes] in I. do 51 (destruct i as [|i]; [cbn [nth rhode_nodes Nat.add]; lra|]). lia. }
  intros i j [I J]. induction j as [|j IH]; [lia|]. specialize (S j ltac:(lia)). rewrite Nat.add_1_r in S.
  destruct (Nat.eq_dec i j) as [->|]; [exact S|]. specialize (IH ltac:(lia) ltac:(lia)). lra.
Qed.
Lemma rhode_tabular : tabular rhode_nodes rhode_values.
Proof. split; [reflexivity|]. split; [cbn; lia|]. left. exact rhode_increasing. Qed.

Ltac segment a b := match goal with V : extrapolates ?p _ _ |- _ => let l := eval cbv beta iota delta [points map seq nth rhode_nodes rhode_values Nat.sub] in p in change p with l in V end;
  match goal with V : extrapolates [(?x0, ?y0); (?x1, ?y1); (?x2, ?y2); (?x3, ?y3)] ?q ?v |- _ =>
    rewrite (newton_unique x0 x1 x2 x3 y0 y1 y2 y3 q v) by (lra || exact V);
    apply (newton_positive x0 x1 x2 x3 y0 y1 y2 y3 a b q); [lra|lra|cbv zeta; lra|cbv zeta; lra|cbv zeta; lra|cbv zeta; lra] end.

Lemma rhode_positive nan t f q : rhode_interpolant = Ok t -> reads nan t f -> 1499 / 10000 <= q <= 200 -> 0 < f q.
Proof.
  intros M F Q. destruct (table_window nan rhode_nodes rhode_values 4 t f q rhode_tabular ltac:(lia) M F) as (start & (L & k & K & D & C1 & C2) & V).
  unfold divides in D. change (order 4 (length rhode_nodes)) with 4%nat in *. change (length rhode_nodes) with 52%nat in *.
  assert (D' : (forall j, (j < k)%nat -> nth j rhode_nodes 0 <= q) /\ (forall j, (k <= j < 52)%nat -> q <= nth j rhode_nodes 0)).
  { destruct D as [(_ & D)|(_ & D1 & D2)]; [exact D|]. exfalso. destruct k as [|k].
    - specialize (D2 51%nat ltac:(lia)). cbn in D2. lra.
    - specialize (D1 O ltac:(lia)). cbn in D1. lra. }
  clear D. destruct D' as (D1 & D2).
  assert (K1 : (3 <= k)%nat). { destruct (le_lt_dec 3 k); [assumption|]. specialize (D2 2%nat ltac:(lia)). cbn in D2. lra. }
  assert (K2 : (k <= 22)%nat). { destruct (le_lt_dec k 22); [assumption|]. specialize (D1 22%nat ltac:(lia)). cbn in D1. lra. }
  assert (start = k - 2)%nat as -> by lia. specialize (D2 k ltac:(lia)). specialize (D1 (k - 1)%nat ltac:(lia)). clear C1 C2 L K M F.
  do 3 (destruct k as [|k]; [exfalso; lia|]). clear K1.
  destruct k as [|k]; [cbn in D1, D2; segment (1499 / 10000) (20893 / 100000)|].
  do 19 (destruct k as [|k]; [cbn in D1, D2; match goal with D1 : ?a <= q, D2 : q <= ?b |- _ => segment a b end|]). lia.
Qed.
Lemma c66_rhode nan : exists t f, rhode_interpolant = Ok t /\ reads nan t f /\
  forall c E, element c -> 0 < E -> has_threshold c E (rhode nan (fun q => Ok (f q)) c E).
Proof.
  destruct (reads_made nan rhode_nodes rhode_values 4 false rhode_tabular ltac:(lia)) as (t & f & M & F). exists t, f. split; [exact M|]. split; [exact F|].
  intros c E el EP. pose proof (nucleon_range c el) as Nr.
  assert (Cut : 1499 / 10 <= production_cutoff c).
  { unfold production_cutoff. set (w := nucleon_weight c) in *. clearbody w. assert (0 < MP) by (unfold MP; lra).
    assert (MPI * MPI / (2 * MN) <= MPI * MPI / (2 * w)). { unfold Rdiv. apply Rmult_le_compat_l; [unfold MPI; lra|]. apply Rinv_le_contravar; lra. }
    assert (1499 / 10 <= MPI + MPI * MPI / (2 * MN)) by (unfold MPI, MN; lra). lra. }
  apply wrap_threshold; [exact el| |].
  - intro L. unfold rhode. destruct (Rltb_spec E (production_cutoff c)); [reflexivity|lra].
  - intro L. unfold rhode. destruct (Rltb_spec E (production_cutoff c)); [lra|].
    destruct (Rleb_spec (E / 10 ^ 3) (1 / 10)) as [A|A]; [lra|].
    destruct (Rleb_spec (E / 10 ^ 3) 200) as [B|B].
    + cbn [obind]. eexists. split; [reflexivity|]. pose proof (rhode_positive nan t f (E / 10 ^ 3) M F ltac:(lra)). pose proof (Rmax_l (f (E / 10 ^ 3)) 0). lra.
    + apply caldwell_value; assumption || lra.
Qed.
