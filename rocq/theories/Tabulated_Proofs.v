(** Proofs about the tables for energies below 50 MeV. *)
From Coquelicot Require Import Coquelicot.
From Verif Require Import Prelude PreludeFacts Particle_Model Cross_Model Photo_Model Limits_Model Differential_Model Differential_Spec Photopair_Model
  Log_Proofs Function_Spec Integral_Spec Interpolant_Model Interpolant_Spec Interpolant_Proofs Table_Proofs Bilinear_Proofs
  Weak_Tables Tabulated_Tables Weak_Model Tabulated_Model Tabulated_Spec Weak_Proofs Photo_Proofs Transform_Proofs Differential_Proofs Light_Proofs Photopair_Proofs Crossing_Proofs.

(** ** The entries *)
Definition zs (l : list decimal) : list Z := map scaled l.
Definition entry_of (t : list (list Z)) (j k : nat) : Z := nth k (nth j t []) 0%Z.
Definition at2 (y : list (list decimal)) : nat -> nat -> Z := entry_of (map zs y).
Lemma decimal_nth l k : nth k (map decimal_number l) 0 = IZR (nth k (zs l) 0%Z) / 10 ^ 53.
Proof.
  revert k. induction l as [|d l IH]; intros [|k]; try exact (IH k); cbn.
  - unfold Rdiv. now rewrite Rmult_0_l.
  - unfold Rdiv. now rewrite Rmult_0_l.
  - reflexivity.
Qed.
Lemma decimal_nth2 y j k : nth k (nth j (map (map decimal_number) y) []) 0 = IZR (at2 y j k) / 10 ^ 53.
Proof.
  unfold at2, entry_of. replace (nth j (map (map decimal_number) y) []) with (map decimal_number (nth j y [])) by (symmetry; exact (map_nth (map decimal_number) y [] j)).
  replace (nth j (map zs y) []) with (zs (nth j y [])) by (symmetry; exact (map_nth zs y [] j)). apply decimal_nth.
Qed.
Lemma scaled_lt a b : (a < b)%Z -> IZR a / 10 ^ 53 < IZR b / 10 ^ 53.
Proof. intro H. apply Rmult_lt_compat_r; [apply Rinv_0_lt_compat, pow_lt; lra|now apply IZR_lt]. Qed.
Lemma scaled_le a b : (a <= b)%Z -> IZR a / 10 ^ 53 <= IZR b / 10 ^ 53.
Proof. intro H. apply Rmult_le_compat_r; [apply Rlt_le, Rinv_0_lt_compat, pow_lt; lra|now apply IZR_le]. Qed.

(** ** The shapes of the tables *)
Definition rectangle (n m : nat) (y : list (list decimal)) : bool := Nat.eqb (length y) n && forallb (fun r => Nat.eqb (length r) m) y.
Definition every (n : nat) (p : nat -> bool) : bool := forallb p (seq 0 n).
Lemma every_spec n p j : every n p = true -> (j < n)%nat -> p j = true.
Proof. unfold every. rewrite forallb_forall. intros H J. apply H, in_seq. lia. Qed.
Lemma rising_increasing l : rising (zs l) = true -> increasing (map decimal_number l).
Proof.
  intros H i j I. rewrite !decimal_nth. apply scaled_lt. apply (rising_spec _ H). unfold zs. rewrite !map_length in *. lia.
Qed.
Lemma rectangle_grid x1 x2 y n m : increasing x1 -> length x1 = n -> (2 <= n)%nat -> rising (zs x2) = true -> length x2 = m -> (2 <= m)%nat ->
  rectangle n m y = true -> tabular_grid x1 (map decimal_number x2) (map (map decimal_number) y).
Proof.
  intros I1 L1 N R2 L2 M H. apply andb_prop in H as (HL & HF). apply Nat.eqb_eq in HL. rewrite forallb_forall in HF.
  split; [rewrite map_length; congruence|]. split; [lia|]. split; [now left|].
  apply Forall_forall. intros r HR. apply in_map_iff in HR as (r0 & <- & HR). specialize (HF r0 HR). apply Nat.eqb_eq in HF.
  split; [rewrite !map_length; congruence|]. split; [rewrite map_length; lia|]. left. now apply rising_increasing.
Qed.

Lemma screening_nodes_increasing : increasing screening_nodes.
Proof.
  intros i j I. unfold screening_nodes in *. rewrite map_length in I.
  assert (E : forall k, nth k (map (fun z => IZR z / 10 ^ 8) screening_charges) 0 = IZR (nth k screening_charges 0%Z) / 10 ^ 8).
  { intro k. replace 0 with ((fun z => IZR z / 10 ^ 8) 0%Z) at 1 by (cbn beta; lra). exact (map_nth (fun z => IZR z / 10 ^ 8) screening_charges 0%Z k). }
  rewrite !E. apply Rmult_lt_compat_r; [lra|]. apply IZR_lt. assert (R : rising screening_charges = true) by (vm_compute; reflexivity). exact (rising_spec _ R i j I).
Qed.
Lemma pair_nodes_length : length pair_nodes = 100%nat.
Proof. unfold pair_nodes, pair_charges. now rewrite map_length, seq_length. Qed.
Lemma pair_nodes_nth j : (j < 100)%nat -> nth j pair_nodes 0 = INR (j + 1).
Proof.
  intro J. unfold pair_nodes, pair_charges. rewrite (nth_indep _ 0 (INR 0)) by (rewrite map_length, seq_length; lia).
  rewrite map_nth, seq_nth by lia. f_equal. lia.
Qed.
Lemma pair_nodes_increasing : increasing pair_nodes.
Proof. intros i j I. rewrite pair_nodes_length in I. rewrite !pair_nodes_nth by lia. apply lt_INR. lia. Qed.

Lemma screening_checked : rising (zs screening_energies) && rectangle 14 115 screening_corrections = true.
Proof. vm_compute. reflexivity. Qed.
Lemma pairs_checked : rising (zs pair_energies) && rectangle 100 17 pair_cross_sections = true.
Proof. vm_compute. reflexivity. Qed.
Lemma screening_grid : tabular_grid screening_nodes (map decimal_number screening_energies) (map (map decimal_number) screening_corrections).
Proof.
  destruct (andb_prop _ _ screening_checked) as (A & B).
  exact (rectangle_grid screening_nodes screening_energies screening_corrections 14 115 screening_nodes_increasing eq_refl ltac:(lia) A eq_refl ltac:(lia) B).
Qed.
Lemma pair_grid : tabular_grid pair_nodes (map decimal_number pair_energies) (map (map decimal_number) pair_cross_sections).
Proof.
  destruct (andb_prop _ _ pairs_checked) as (A & B).
  exact (rectangle_grid pair_nodes pair_energies pair_cross_sections 100 17 pair_nodes_increasing pair_nodes_length ltac:(lia) A eq_refl ltac:(lia) B).
Qed.
Lemma screening_up : increasing (map decimal_number screening_energies).
Proof. destruct (andb_prop _ _ screening_checked) as (A & B). now apply rising_increasing. Qed.
Lemma pair_up : increasing (map decimal_number pair_energies).
Proof. destruct (andb_prop _ _ pairs_checked) as (A & B). now apply rising_increasing. Qed.

(** ** Histories *)
Lemma used_reads nan g g' f : reads_grid nan g f -> used nan g g' -> reads_grid nan g' f.
Proof.
  intros H (qs & ys & E). revert g H ys E. induction qs as [|q qs IH]; cbn; intros g H ys E; [now injection E as <- <-|].
  destruct (grid_call nan g q) as [[v g1]| |] eqn:C; try discriminate. cbn in E. destruct (answers_next _ _ _ _ _ _ H C) as (_ & H1).
  destruct (calls (grid_call nan) g1 qs) as [[vs g2]| |] eqn:C2; try discriminate. cbn in E. injection E as <- <-. exact (IH g1 H1 vs C2).
Qed.
Lemma look_up_reads nan g f q1 q2 : reads_grid nan g f -> look_up nan g q1 q2 = Ok (f q1 q2).
Proof.
  intro H. destruct (H [(q1, q2)]) as (o & E). cbn in E. unfold look_up. unfold grid_call at 1 in E. cbn in E.
  destruct (grid_array nan g q1 q2) as [[v g1]| |]; try discriminate. cbn in *. injection E as -> _. reflexivity.
Qed.
Lemma screening_made nan : exists g f, screening_table = Ok g /\ reads_grid nan g f.
Proof. exact (grid_reads_made nan _ _ _ 2 2 false screening_grid ltac:(lia) ltac:(lia)). Qed.
Lemma pair_made nan : exists g f, pair_table = Ok g /\ reads_grid nan g f.
Proof. exact (grid_reads_made nan _ _ _ 2 2 false pair_grid ltac:(lia) ltac:(lia)). Qed.
Lemma made_reads {T} (t : outcome T) (P : T -> Prop) g : (exists g0, t = Ok g0 /\ P g0) -> t = Ok g -> P g.
Proof. intros (g0 & E & H) E'. rewrite E in E'. now injection E' as <-. Qed.
Lemma screening_reads nan g : screening_table = Ok g -> exists f, reads_grid nan g f.
Proof. apply (made_reads screening_table (fun g => exists f, reads_grid nan g f)). destruct (screening_made nan) as (g0 & f & E & H). exists g0. split; [exact E|now exists f]. Qed.
Lemma pair_reads nan g : pair_table = Ok g -> exists f, reads_grid nan g f.
Proof. apply (made_reads pair_table (fun g => exists f, reads_grid nan g f)). destruct (pair_made nan) as (g0 & f & E & H). exists g0. split; [exact E|now exists f]. Qed.

(** ** The correction of bremsstrahlung *)
Lemma ln_100_table : ln 100 <= 460517019 / 10 ^ 8.
Proof.
  replace 100 with ((4 / 3 * (4 / 3) * (9 / 8)) ^ 6 * (5 / 4) ^ 2) by field. rewrite ln_mult by (apply pow_lt; lra). rewrite !ln_pow by lra. rewrite !ln_mult by lra.
  pose proof (ln_bounds (4 / 3) ltac:(lra)) as A. pose proof (ln_bounds (9 / 8) ltac:(lra)) as B. pose proof (ln_bounds (5 / 4) ltac:(lra)) as C.
  unfold area in A, B, C. cbv zeta in A, B, C.
  replace ((4 / 3 - 1) / (4 / 3 + 1)) with (1 / 7) in A by field. replace ((9 / 8 - 1) / (9 / 8 + 1)) with (1 / 17) in B by field.
  replace ((5 / 4 - 1) / (5 / 4 + 1)) with (1 / 9) in C by field. cbn [INR]. lra.
Qed.
Lemma scaled_power z : IZR (z * 10 ^ 53) / 10 ^ 53 = IZR z.
Proof. rewrite mult_IZR. change (10 ^ 53)%Z with (10 ^ Z.of_nat 53)%Z. rewrite <- (pow_IZR 10 53). unfold Rdiv. rewrite Rmult_assoc, Rinv_r, Rmult_1_r; [reflexivity|]. apply pow_nonzero. lra. Qed.
Lemma scaled_tenth z : IZR (z * 10 ^ 52) / 10 ^ 53 = IZR z / 10.
Proof. rewrite mult_IZR. change (10 ^ 52)%Z with (10 ^ Z.of_nat 52)%Z. rewrite <- (pow_IZR 10 52), <- (tech_pow_Rmult 10 52). assert (H : 10 ^ 52 <> 0) by (apply pow_nonzero; lra). set (p := 10 ^ 52) in *. clearbody p. field. exact H. Qed.
Definition in_range (m M : Z) (r : list Z) : bool := forallb (fun z => Z.leb m z && Z.leb z M) r && Z.ltb (nth 1 r 0%Z) (nth 0 r 0%Z).
Definition corrections_check (m M : Z) (t : list (list Z)) : bool := forallb (in_range m M) t.
(** 0.7 and 81 *)
Definition lowest : Z := 70000000000000000000000000000000000000000000000000000.
Definition highest : Z := 8100000000000000000000000000000000000000000000000000000.
Lemma corrections_checked : corrections_check lowest highest (map zs screening_corrections) = true.
Proof. vm_compute. reflexivity. Qed.
Lemma correction_generic y n m L H : corrections_check L H (map zs y) = true -> rectangle n m y = true -> (2 <= m)%nat -> forall j, (j < n)%nat ->
  nth 1 (nth j (map (map decimal_number) y) []) 0 < nth 0 (nth j (map (map decimal_number) y) []) 0 /\
  forall k, (k < m)%nat -> IZR L / 10 ^ 53 <= nth k (nth j (map (map decimal_number) y) []) 0 <= IZR H / 10 ^ 53.
Proof.
  intros C S M j J. apply andb_prop in S as (S1 & S2). apply Nat.eqb_eq in S1. rewrite forallb_forall in S2.
  specialize (S2 (nth j y []) ltac:(apply nth_In; lia)). apply Nat.eqb_eq in S2.
  unfold corrections_check in C. rewrite forallb_forall in C. specialize (C (nth j (map zs y) []) ltac:(apply nth_In; rewrite map_length; lia)).
  apply andb_prop in C as (C & F). rewrite forallb_forall in C. apply Z.ltb_lt in F. split.
  - rewrite !decimal_nth2. now apply scaled_lt.
  - intros k K. rewrite decimal_nth2. assert (I : In (at2 y j k) (nth j (map zs y) [])).
    { unfold at2, entry_of. apply nth_In. replace (nth j (map zs y) []) with (zs (nth j y [])) by (symmetry; exact (map_nth zs y [] j)). unfold zs. rewrite map_length. lia. }
    specialize (C _ I). apply andb_prop in C as (A & B). apply Z.leb_le in A, B. split; apply scaled_le; assumption.
Qed.
Lemma lowest_value : IZR lowest / 10 ^ 53 = 7 / 10.
Proof. rewrite <- (scaled_tenth 7). reflexivity. Qed.
Lemma highest_value : IZR highest / 10 ^ 53 = 81.
Proof. rewrite <- (scaled_power 81). reflexivity. Qed.
Lemma corrections_all : forall j, (j < 14)%nat ->
  nth 1 (nth j (map (map decimal_number) screening_corrections) []) 0 < nth 0 (nth j (map (map decimal_number) screening_corrections) []) 0 /\
  forall k, (k < 115)%nat -> IZR lowest / 10 ^ 53 <= nth k (nth j (map (map decimal_number) screening_corrections) []) 0 <= IZR highest / 10 ^ 53.
Proof. exact (correction_generic screening_corrections 14 115 lowest highest corrections_checked (proj2 (andb_prop _ _ screening_checked)) ltac:(lia)). Qed.
Lemma correction_entry j k : (j < 14)%nat -> (k < 115)%nat -> 7 / 10 <= nth k (nth j (map (map decimal_number) screening_corrections) []) 0 <= 81.
Proof. intros J K. rewrite <- lowest_value, <- highest_value. exact (proj2 (corrections_all j J) k K). Qed.
Lemma correction_falls j : (j < 14)%nat ->
  nth 1 (nth j (map (map decimal_number) screening_corrections) []) 0 < nth 0 (nth j (map (map decimal_number) screening_corrections) []) 0.
Proof. intro J. exact (proj1 (corrections_all j J)). Qed.
Lemma line_range a u b v q m M : a < b -> a <= q <= b -> m <= u <= M -> m <= v <= M -> m <= line a u b v q <= M.
Proof. intros D Q U V. destruct (line_weights a u b v q D Q) as (s & S & _ & ->). nra. Qed.
Lemma line_above a u b v q : a < b -> q <= a -> v <= u -> u <= line a u b v q.
Proof.
  intros D Q V. unfold line. assert ((q - a) / (b - a) <= 0); [|nra]. apply (Rmult_le_reg_r (b - a)); [lra|].
  replace ((q - a) / (b - a) * (b - a)) with (q - a) by (field; lra). lra.
Qed.
Lemma screening_ends : length screening_nodes = 14%nat /\ nth 0 screening_nodes 0 = 0 /\ nth (14 - 1) screening_nodes 0 = 460517019 / 10 ^ 8 /\
  length (map decimal_number screening_energies) = 115%nat /\ nth 0 (map decimal_number screening_energies) 0 = 1 / 1000 /\
  nth (115 - 1) (map decimal_number screening_energies) 0 = 12500.
Proof.
  split; [reflexivity|]. split; [cbn; lra|]. split; [cbn; lra|]. split; [reflexivity|]. rewrite !decimal_nth. split.
  - replace (nth 0 (zs screening_energies) 0%Z) with (10 ^ Z.of_nat 50)%Z by (vm_compute; reflexivity). rewrite <- pow_IZR.
    change (10 ^ 53) with (10 ^ (50 + 3)). rewrite pow_add. assert (H : 10 ^ 50 <> 0) by (apply pow_nonzero; lra). set (p := 10 ^ 50) in *. clearbody p. field. exact H.
  - replace (nth (115 - 1) (zs screening_energies) 0%Z) with (12500 * 10 ^ 53)%Z by (vm_compute; reflexivity). apply scaled_power.
Qed.
Lemma screening_range nan g f q T : screening_table = Ok g -> reads_grid nan g f -> 0 <= q <= 460517019 / 10 ^ 8 -> T <= 12500 ->
  7 / 10 <= f q T /\ (1 / 1000 <= T -> f q T <= 81).
Proof.
  intros G F Q HT. destruct screening_ends as (L1 & A & B & L2 & C & D).
  destruct (interval_closed screening_nodes q screening_nodes_increasing ltac:(rewrite L1; lia) ltac:(rewrite L1, A, B; exact Q)) as (i & Hi & I).
  pose proof (screening_nodes_increasing i (i + 1)%nat ltac:(lia)) as D1. rewrite L1 in Hi.
  destruct (Rle_dec (1 / 1000) T) as [G1|G1].
  - destruct (interval_closed (map decimal_number screening_energies) T screening_up ltac:(rewrite L2; lia) ltac:(rewrite L2, C, D; lra)) as (k & Hk & K).
    pose proof (screening_up k (k + 1)%nat ltac:(lia)) as D2. 
    rewrite (grid_cell nan _ _ _ g f screening_grid screening_nodes_increasing screening_up G F i k q T ltac:(rewrite L1; exact Hi) I Hk K).
    rewrite L2 in Hk. unfold cell. enough (7 / 10 <= line (nth i screening_nodes 0)
      (line (nth k (map decimal_number screening_energies) 0) (nth k (nth i (map (map decimal_number) screening_corrections) []) 0)
        (nth (k + 1) (map decimal_number screening_energies) 0) (nth (k + 1) (nth i (map (map decimal_number) screening_corrections) []) 0) T)
      (nth (i + 1) screening_nodes 0)
      (line (nth k (map decimal_number screening_energies) 0) (nth k (nth (i + 1) (map (map decimal_number) screening_corrections) []) 0)
        (nth (k + 1) (map decimal_number screening_energies) 0) (nth (k + 1) (nth (i + 1) (map (map decimal_number) screening_corrections) []) 0) T) q <= 81) as (X & Y)
      by (split; [exact X|intros _; exact Y]).
    apply line_range; [exact D1|exact I| |]; (apply line_range; [exact D2|exact K| |]; apply correction_entry; lia).
  - split; [|intro; lra]. pose proof (screening_up 0%nat 1%nat ltac:(rewrite L2; lia)) as D2. rewrite C in D2.
    rewrite (grid_before nan _ _ _ g f screening_grid screening_nodes_increasing screening_up G F i q T ltac:(rewrite L1; exact Hi) I ltac:(lra)). unfold cell. cbn [Nat.add].
    rewrite C.
    assert (R : forall j, (j < 14)%nat -> 7 / 10 <= line (1 / 1000) (nth 0 (nth j (map (map decimal_number) screening_corrections) []) 0)
      (nth 1 (map decimal_number screening_energies) 0) (nth 1 (nth j (map (map decimal_number) screening_corrections) []) 0) T).
    { intros j J. eapply Rle_trans; [apply (correction_entry j 0 J); lia|]. apply line_above; [exact D2|lra|]. apply Rlt_le, correction_falls, J. }
    pose proof (R i ltac:(lia)) as R1. pose proof (R (i + 1)%nat ltac:(lia)) as R2.
    match goal with |- 7 / 10 <= line _ ?u _ ?v _ => set (u0 := u) in *; set (v0 := v) in * end. clearbody u0 v0.
    destruct (line_weights _ u0 _ v0 q D1 I) as (s & S & _ & ->). nra.
Qed.
Lemma charge_logarithm c : element c -> 0 <= ln (c_charge c) <= 460517019 / 10 ^ 8.
Proof.
  intros ((A & B) & _). split; [rewrite <- ln_1; apply ln_le; lra|]. eapply Rle_trans; [|exact ln_100_table]. apply ln_le; lra.
Qed.
Lemma screening_tabulated nan g g' charge c E : charge <> 0 -> element c -> screening_table = Ok g -> used nan g g' -> ME < E -> E < 50 \/ c_charge c <= 40 ->
  never_negative (brems_default_limits ME E) (bremsstrahlung nan true (electron_screening nan (look_up nan g') ME c) None ME charge c E).
Proof.
  intros Q el G U H L. destruct (screening_reads nan g G) as (f & F). pose proof (used_reads nan g g' f F U) as F'.
  apply screening_result; try assumption. intro E5. exists (f (ln (c_charge c)) (E - ME)). split; [now apply look_up_reads|].
  destruct (screening_range nan g f (ln (c_charge c)) (E - ME) G F (charge_logarithm c el) ltac:(pose proof Photo_Proofs.ME_pos; lra)) as (X & _). lra.
Qed.

(** ** The cross section of pair production *)
Definition pairs_check (t : list (list Z)) : bool :=
  every 100 (fun j => every 16 (fun k => Z.ltb (entry_of t j k) (entry_of t j (k + 1)))) &&
  every 99 (fun j => Z.leb (entry_of t j 0) (entry_of t (j + 1) 0) && every 16 (fun k => Z.ltb (entry_of t j (k + 1)) (entry_of t (j + 1) (k + 1)))) &&
  every 100 (fun j => every 17 (fun k => Z.ltb 0 (entry_of t j k))).
Lemma pairs_rising : pairs_check (map zs pair_cross_sections) = true.
Proof. vm_compute. reflexivity. Qed.
Notation pair_x := (map decimal_number pair_energies).
Notation pair_y := (map (map decimal_number) pair_cross_sections).
Lemma pair_rows_of y j k : pairs_check (map zs y) = true -> (j < 100)%nat -> (k + 1 < 17)%nat -> nth k (nth j (map (map decimal_number) y) []) 0 < nth (k + 1) (nth j (map (map decimal_number) y) []) 0.
Proof.
  intros H J K. rewrite !decimal_nth2. apply scaled_lt. unfold pairs_check in H. apply andb_prop in H as (H & _). apply andb_prop in H as (H & _).
  apply (fun e => every_spec _ _ j e J) in H. apply (fun e => every_spec 16 _ k e ltac:(lia)) in H. now apply Z.ltb_lt in H.
Qed.
Lemma pair_columns_of y j : pairs_check (map zs y) = true -> (j + 1 < 100)%nat -> nth 0 (nth j (map (map decimal_number) y) []) 0 <= nth 0 (nth (j + 1) (map (map decimal_number) y) []) 0 /\
  forall k, (0 < k < 17)%nat -> nth k (nth j (map (map decimal_number) y) []) 0 < nth k (nth (j + 1) (map (map decimal_number) y) []) 0.
Proof.
  intros H J. unfold pairs_check in H. apply andb_prop in H as (H & _). apply andb_prop in H as (_ & H).
  apply (fun e => every_spec 99 _ j e ltac:(lia)) in H. apply andb_prop in H as (A & B). split.
  - rewrite !decimal_nth2. apply scaled_le. now apply Z.leb_le in A.
  - intros [|k] K; [lia|]. apply (fun e => every_spec 16 _ k e ltac:(lia)) in B. apply Z.ltb_lt in B. replace (k + 1)%nat with (S k) in B by lia.
    rewrite !decimal_nth2. now apply scaled_lt.
Qed.
Lemma pair_entry_of y j k : pairs_check (map zs y) = true -> (j < 100)%nat -> (k < 17)%nat -> 0 < nth k (nth j (map (map decimal_number) y) []) 0.
Proof.
  intros H J K. rewrite decimal_nth2. unfold pairs_check in H. apply andb_prop in H as (_ & H).
  apply (fun e => every_spec _ _ j e J) in H. apply (fun e => every_spec _ _ k e K) in H. apply Z.ltb_lt in H. apply scaled_lt in H.
  replace (0 / 10 ^ 53) with 0 in H by (unfold Rdiv; ring). exact H.
Qed.
Lemma pair_rows j k : (j < 100)%nat -> (k + 1 < 17)%nat -> nth k (nth j pair_y []) 0 < nth (k + 1) (nth j pair_y []) 0.
Proof. exact (pair_rows_of pair_cross_sections j k pairs_rising). Qed.
Lemma pair_columns j : (j + 1 < 100)%nat -> nth 0 (nth j pair_y []) 0 <= nth 0 (nth (j + 1) pair_y []) 0 /\
  forall k, (0 < k < 17)%nat -> nth k (nth j pair_y []) 0 < nth k (nth (j + 1) pair_y []) 0.
Proof. exact (pair_columns_of pair_cross_sections j pairs_rising). Qed.
Lemma pair_entry j k : (j < 100)%nat -> (k < 17)%nat -> 0 < nth k (nth j pair_y []) 0.
Proof. exact (pair_entry_of pair_cross_sections j k pairs_rising). Qed.
Lemma pair_ends : length pair_x = 17%nat /\ nth 0 pair_nodes 0 = 1 /\ nth (100 - 1) pair_nodes 0 = 100 /\ nth 0 pair_x 0 = 2 * ME /\ nth (17 - 1) pair_x 0 = 999999814 / 10 ^ 7.
Proof.
  split; [reflexivity|]. rewrite !pair_nodes_nth by lia. split; [reflexivity|]. split; [rewrite INR_IZR_INZ; reflexivity|]. rewrite !decimal_nth. split.
  - replace (nth 0 (zs pair_energies) 0%Z) with (10219978922 * 10 ^ Z.of_nat 43)%Z by (vm_compute; reflexivity). rewrite mult_IZR, <- pow_IZR.
    change (10 ^ 53) with (10 ^ (43 + 10)). rewrite pow_add. assert (H : 10 ^ 43 <> 0) by (apply pow_nonzero; lra). set (p := 10 ^ 43) in *. clearbody p.
    unfold ME. field. exact H.
  - replace (nth (17 - 1) (zs pair_energies) 0%Z) with (999999814 * 10 ^ Z.of_nat 46)%Z by (vm_compute; reflexivity). rewrite mult_IZR, <- pow_IZR.
    change (10 ^ 53) with (10 ^ (46 + 7)). rewrite pow_add. assert (H : 10 ^ 46 <> 0) by (apply pow_nonzero; lra). set (p := 10 ^ 46) in *. clearbody p. field. exact H.
Qed.

Section Pairs.
Variables (nan : forall A, outcome A) (g : grid) (f : R -> R -> R).
Hypothesis made : pair_table = Ok g.
Hypothesis read : reads_grid nan g f.
Lemma pair_value j k : (j < 100)%nat -> (k < 17)%nat -> f (INR (j + 1)) (nth k pair_x 0) = nth k (nth j pair_y []) 0.
Proof.
  intros J K. rewrite <- pair_nodes_nth by exact J. destruct pair_ends as (L2 & _).
  exact (grid_nodes nan _ _ _ 2 2 false g pair_grid ltac:(lia) ltac:(lia) made f read j k ltac:(rewrite pair_nodes_length; exact J) ltac:(rewrite L2; exact K)).
Qed.
Lemma pair_rise Z E E' : 1 <= Z <= 100 -> 2 * ME <= E -> E < E' -> E' <= 99 -> f Z E < f Z E'.
Proof.
  intros HZ A B C. destruct pair_ends as (L2 & N0 & N1 & X0 & X1).
  apply (grid_rises2 nan pair_nodes pair_x pair_y g f pair_grid pair_nodes_increasing pair_up made read).
  - intros j k J K. rewrite pair_nodes_length in J. rewrite L2 in K. now apply pair_rows.
  - rewrite pair_nodes_length, N0, N1. exact HZ.
  - rewrite X0. exact A.
  - exact B.
  - rewrite L2, X1. lra.
Qed.
Lemma pair_charge Z Z' E : 1 <= Z -> Z < Z' -> Z' <= 100 -> 2 * ME < E <= 99 -> f Z E < f Z' E.
Proof.
  intros A B C H. destruct pair_ends as (L2 & N0 & N1 & X0 & X1).
  apply (grid_rises1 nan pair_nodes pair_x pair_y g f pair_grid pair_nodes_increasing pair_up made read).
  - intros j J. rewrite pair_nodes_length in J. apply (pair_columns j J).
  - intros j k J K. rewrite pair_nodes_length in J. rewrite L2 in K. now apply (pair_columns j J).
  - rewrite X0, L2, X1. lra.
  - rewrite N0. exact A.
  - exact B.
  - rewrite pair_nodes_length, N1. exact C.
Qed.
Lemma line_positive a u b v q : a < b -> a <= q <= b -> 0 < u -> 0 < v -> 0 < line a u b v q.
Proof. intros D Q U V. destruct (line_weights a u b v q D Q) as (s & S & _ & ->). destruct (Rle_dec s 0); nra. Qed.
Lemma pair_positive Z E : 1 <= Z <= 100 -> 2 * ME <= E <= 99 -> 0 < f Z E.
Proof.
  intros HZ H. destruct pair_ends as (L2 & N0 & N1 & X0 & X1). pose proof pair_nodes_length as L1.
  destruct (interval_closed pair_nodes Z pair_nodes_increasing ltac:(rewrite L1; lia) ltac:(rewrite L1, N0, N1; exact HZ)) as (i & Hi & I).
  destruct (interval_closed pair_x E pair_up ltac:(rewrite L2; lia) ltac:(rewrite L2, X0, X1; lra)) as (k & Hk & K).
  pose proof (pair_nodes_increasing i (i + 1)%nat ltac:(lia)) as D1. pose proof (pair_up k (k + 1)%nat ltac:(lia)) as D2.
  rewrite (grid_cell nan _ _ _ g f pair_grid pair_nodes_increasing pair_up made read i k Z E Hi I Hk K). rewrite L1 in Hi. rewrite L2 in Hk.
  unfold cell. apply line_positive; [exact D1|exact I| |]; (apply line_positive; [exact D2|exact K| |]; apply pair_entry; lia).
Qed.
End Pairs.

Lemma c88_answers nan : exists g f, pair_table = Ok g /\ reads_grid nan g f /\
  (forall j k, (j < 100)%nat -> (k < 17)%nat -> f (INR (j + 1)) (decimal_number (nth k pair_energies (D 1 0))) = decimal_number (nth k (nth j pair_cross_sections []) (D 1 0))) /\
  forall g' Z E, used nan g g' -> look_up nan g' Z E = Ok (f Z E).
Proof.
  destruct (pair_made nan) as (g & f & M & F). exists g, f. split; [exact M|]. split; [exact F|]. split.
  - intros j k J K. pose proof (pair_value nan g f M F j k J K) as V.
    assert (LX : length pair_energies = 17%nat) by reflexivity. destruct (andb_prop _ _ pairs_checked) as (_ & R). apply andb_prop in R as (RL & RF).
    apply Nat.eqb_eq in RL. rewrite forallb_forall in RF. assert (J' : (j < length pair_cross_sections)%nat) by (rewrite RL; exact J). specialize (RF _ (nth_In pair_cross_sections [] J')). apply Nat.eqb_eq in RF.
    rewrite (nth_indep (map decimal_number pair_energies) 0 (decimal_number (D 1 0))) in V by (rewrite map_length; lia). rewrite map_nth in V.
    assert (E : nth j (map (map decimal_number) pair_cross_sections) [] = map decimal_number (nth j pair_cross_sections [])) by exact (map_nth (map decimal_number) pair_cross_sections [] j).
    rewrite E in V. rewrite (nth_indep (map decimal_number _) 0 (decimal_number (D 1 0))) in V by (rewrite map_length; lia). rewrite map_nth in V. exact V.
  - intros g' Z E U. apply look_up_reads. exact (used_reads nan g g' f F U).
Qed.
Lemma koch_motz_tabulated nan c g g' total E n : element c -> pair_table = Ok g -> used nan g g' -> 20 * ME <= E -> E < 50 \/ c_charge c <= 26 ->
  total E = Ok n -> 0 < n -> never_negative (photo_pair_limits E) (koch_motz nan (look_up nan g' (c_charge c)) total None c E).
Proof.
  intros el G U H L T N. destruct (pair_reads nan g G) as (f & F). pose proof (used_reads nan g g' f F U) as F'.
  destruct (Rlt_dec 50 E) as [B|B].
  - pose proof (koch_motz_positive nan c el (fun _ => Ok 0) (fun _ => Ok 1) E 1 0 H L eq_refl eq_refl ltac:(lra) ltac:(lra)) as K.
    unfold koch_motz in *. rewrite (proj2 (Rltb_true _ _)) in * by exact B. exact K.
  - apply (koch_motz_positive nan c el _ _ E n (f (c_charge c) E) H L T); [now apply look_up_reads|exact N|].
    apply Rlt_le. apply (pair_positive nan g f G F); [apply el|]. pose proof Photo_Proofs.ME_pos. lra.
Qed.
Lemma c88_total nan c g g' f total E n : element c -> pair_table = Ok g -> reads_grid nan g f -> used nan g g' -> 2 * ME < E <= 50 ->
  total E = Ok n -> n <> 0 -> total_in_barn c (photo_pair_limits E) (koch_motz_raw nan None c E) n ->
  total_in_barn c (photo_pair_limits E) (koch_motz nan (look_up nan g' (c_charge c)) total None c E) (f (c_charge c) E).
Proof.
  intros el G F U H T N (s & S & I). pose proof (used_reads nan g g' f F U) as F'. set (d := f (c_charge c) E). exists (fun v => d / n * s v). split.
  - intros v V. unfold koch_motz. rewrite (proj2 (Rltb_false _ _)) by lra. rewrite T. cbn [obind]. rewrite (look_up_reads nan g' f _ _ F'). cbn [obind].
    rewrite quo_ok by exact N. cbn [obind]. rewrite (S v V). reflexivity.
  - apply (is_RInt_scal s _ _ (d / n)) in I. replace (NA / c_atomic c * (d / 10 ^ 24)) with (scal (d / n) (NA / c_atomic c * (n / 10 ^ 24))).
    + exact I.
    + unfold scal. cbn. unfold mult. cbn. field. destruct el as (A & B). split; lra.
Qed.
(** With the integral in place of [total], close to the threshold and far from it *)
Lemma koch_motz_exact nan c g g' total E n : element c -> pair_table = Ok g -> used nan g g' -> 2 * ME < E <= 5 / 2 * ME \/ 20 * ME <= E < 50 ->
  total E = Ok n -> total_in_barn c (photo_pair_limits E) (koch_motz_raw nan None c E) n ->
  never_negative (photo_pair_limits E) (koch_motz nan (look_up nan g' (c_charge c)) total None c E).
Proof.
  intros el G U H T I. destruct H as [H|H].
  - destruct (pair_reads nan g G) as (f & F). pose proof (used_reads nan g g' f F U) as F'. assert (ML : 51 / 100 < ME < 52 / 100) by (unfold ME; lra).
    pose proof (total_near nan c el E n H I) as N. destruct (limits_low E ltac:(lra)) as (L & R). rewrite L. intros v V. cbn [v_min v_max] in V.
    destruct (raw_form nan c el) as (k & K & W). unfold koch_motz. rewrite (proj2 (Rltb_false _ _)) by lra. rewrite T. cbn [obind]. rewrite (look_up_reads nan g' f _ _ F'). cbn [obind].
    rewrite quo_ok by lra. cbn [obind]. rewrite W by lra. cbn [obind]. eexists. split; [reflexivity|].
    pose proof (pair_positive nan g f G F (c_charge c) E ltac:(apply el) ltac:(lra)) as D. pose proof (near_negative c el E v H ltac:(lra)) as X.
    set (d := f (c_charge c) E) in *. assert (Q : 0 < d * / (- n)) by (apply Rmult_lt_0_compat; [exact D|apply Rinv_0_lt_compat; lra]).
    replace (d / n * (k * low_cross c E v)) with (d * / (- n) * (k * (- low_cross c E v))) by (field; lra).
    apply Rlt_le, Rmult_lt_0_compat; [exact Q|]. apply Rmult_lt_0_compat; lra.
  - apply (koch_motz_tabulated nan c g g' total E n el G U); [lra|left; lra|exact T|]. exact (total_far nan c el E n H I).
Qed.
