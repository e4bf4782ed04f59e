(** C87: weak interactions. *)
From Coq Require Import Arith.
From Verif Require Import Prelude PreludeFacts Function_Spec Integral_Spec Cross_Model Photo_Model Limits_Model Differential_Spec
  Interpolant_Model Interpolant_Spec Interpolant_Proofs Table_Proofs Weak_Tables Weak_Model Weak_Spec Sheet_Proofs.

(** ** The tables *)
Fixpoint rising (l : list Z) : bool := match l with a :: (b :: _) as t => (a <? b)%Z && rising t | _ => true end.
Lemma rising_spec l : rising l = true -> forall i j, (i < j < length l)%nat -> (nth i l 0 < nth j l 0)%Z.
Proof.
  intro H. assert (S : forall i, (S i < length l)%nat -> (nth i l 0 < nth (S i) l 0)%Z).
  { induction l as [|a [|b l] IH]; [cbn; lia|cbn; lia|]. cbn [rising] in H. apply andb_prop in H. destruct H as (H1 & H2).
    intros [|i] I; [cbn; apply Z.ltb_lt; exact H1|]. apply (IH H2). cbn [length] in *. lia. }
  intros i j (I & J). induction j as [|j IHj]; [lia|]. destruct (Nat.eq_dec i j) as [->|]; [apply S; lia|].
  specialize (S j ltac:(lia)). specialize (IHj ltac:(lia) ltac:(lia)). lia.
Qed.
Definition full (t : list (list decimal)) : bool := Nat.eqb (length t) 111 && forallb (fun r => Nat.eqb (length r) 100) t.
Definition rising_rows (t : list (list decimal)) : bool :=
  forallb (fun r => rising (map scaled r) && Z.eqb (scaled (nth 99 r (D 1 0))) (10 ^ 18)) t.
Lemma nodes_checked : full y_proton && full y_neutron && rising_rows y_proton && rising_rows y_neutron = true.
Proof. vm_compute. reflexivity. Qed.
Lemma values_checked : full sigma_nu_proton && full sigma_nubar_proton && full sigma_nu_neutron && full sigma_nubar_neutron = true.
Proof. vm_compute. reflexivity. Qed.

Lemma full_length t : full t = true -> length (numbers t) = 111%nat /\ forall j, (j < 111)%nat -> length (nth j (numbers t) []) = 100%nat.
Proof.
  intro H. apply andb_prop in H. destruct H as (H1 & H2). apply Nat.eqb_eq in H1. rewrite forallb_forall in H2.
  unfold numbers. rewrite map_length. split; [exact H1|]. intros j J.
  change (@nil R) with (map (fun d => unscaled (scaled d)) []). rewrite map_nth, map_length. apply Nat.eqb_eq, H2, nth_In. lia.
Qed.
Definition entry (t : list (list decimal)) (j k : nat) : Z := scaled (nth k (nth j t []) (D 1 0)).
Lemma numbers_entry t j k : full t = true -> (j < 111)%nat -> (k < 100)%nat -> nth k (nth j (numbers t) []) 0 = unscaled (entry t j k).
Proof.
  intros H J K. destruct (full_length t H) as (_ & L). specialize (L j J). unfold numbers, entry in *.
  change (@nil R) with (map (fun d => unscaled (scaled d)) []) in *. rewrite map_nth in *. rewrite map_length in L.
  rewrite (nth_indep _ 0 (unscaled (scaled (D 1 0)))) by (rewrite map_length; lia). rewrite (map_nth (fun d => unscaled (scaled d))). reflexivity.
Qed.
Lemma unscaled_lt a b : (a < b)%Z -> unscaled a < unscaled b.
Proof. intro H. unfold unscaled. apply Rmult_lt_compat_r; [lra|]. apply IZR_lt. exact H. Qed.
Lemma rising_row t j : full t = true -> rising_rows t = true -> (j < 111)%nat ->
  increasing (nth j (numbers t) []) /\ nth 99 (nth j (numbers t) []) 0 = 1.
Proof.
  intros H Ri J. destruct (full_length t H) as (_ & L). specialize (L j J). pose proof H as H0. apply andb_prop in H0. destruct H0 as (H1 & _).
  apply Nat.eqb_eq in H1. unfold rising_rows in Ri. rewrite forallb_forall in Ri. specialize (Ri (nth j t []) ltac:(apply nth_In; lia)).
  apply andb_prop in Ri. destruct Ri as (R1 & R2). apply Z.eqb_eq in R2. split.
  - intros a b (A & B). rewrite L in B. rewrite !numbers_entry by (assumption || lia). apply unscaled_lt.
    assert (Lt : length (nth j t []) = 100%nat).
    { unfold numbers in L. change (@nil R) with (map (fun d => unscaled (scaled d)) []) in L. rewrite map_nth, map_length in L. exact L. }
    pose proof (rising_spec _ R1 a b) as S. rewrite map_length, Lt in S. specialize (S ltac:(lia)).
    rewrite !(nth_indep _ 0%Z (scaled (D 1 0))) in S by (rewrite map_length; lia). rewrite !map_nth in S. exact S.
  - rewrite numbers_entry by (assumption || lia). unfold entry. rewrite R2. unfold unscaled. replace (IZR (10 ^ 18)) with (10 ^ 18) by (rewrite <- pow_IZR with (n := 18%nat); reflexivity). field.
Qed.
Lemma energies_length : length energies = 111%nat.
Proof. unfold energies. rewrite map_length, seq_length. reflexivity. Qed.
Lemma energies_nth j : (j < 111)%nat -> nth j energies 0 = IZR (40 + Z.of_nat j) / 10.
Proof.
  intro J. unfold energies. rewrite (nth_indep _ 0 ((fun j => IZR (40 + Z.of_nat j) / 10) 0%nat)) by (rewrite map_length, seq_length; lia).
  rewrite (map_nth (fun j => IZR (40 + Z.of_nat j) / 10)), seq_nth by lia. reflexivity.
Qed.
Lemma energies_increasing : increasing energies.
Proof.
  intros i j (I & J). rewrite energies_length in J. rewrite !energies_nth by lia.
  assert (IZR (40 + Z.of_nat i) < IZR (40 + Z.of_nat j)) by (apply IZR_lt; lia). lra.
Qed.
Lemma weak_sheet y s : full y = true -> full s = true -> rising_rows y = true -> tabular_sheet energies (numbers y) (numbers s).
Proof.
  intros Fy Fs Ry. destruct (full_length y Fy) as (Ly & Ry'). destruct (full_length s Fs) as (Ls & Rs).
  rewrite energies_length || idtac. split; [rewrite Ls; apply energies_length|]. split; [lia|]. split; [rewrite energies_length; lia|].
  split; [left; exact energies_increasing|]. intros j J. rewrite Ls in J. split; [rewrite Ry', Rs; lia|]. split; [rewrite Ry'; lia|].
  left. apply (rising_row y j Fy Ry J).
Qed.
Lemma checks : full y_proton = true /\ full y_neutron = true /\ rising_rows y_proton = true /\ rising_rows y_neutron = true /\
  full sigma_nu_proton = true /\ full sigma_nubar_proton = true /\ full sigma_nu_neutron = true /\ full sigma_nubar_neutron = true.
Proof.
  destruct (andb_prop _ _ nodes_checked) as (N1 & N2). destruct (andb_prop _ _ N1) as (N3 & N4). destruct (andb_prop _ _ N3) as (N5 & N6).
  destruct (andb_prop _ _ values_checked) as (V1 & V2). destruct (andb_prop _ _ V1) as (V3 & V4). destruct (andb_prop _ _ V3) as (V5 & V6).
  exact (conj N5 (conj N6 (conj N4 (conj N2 (conj V5 (conj V6 (conj V4 V2))))))).
Qed.

(** ** Reading them *)
Lemma answers_next {O} (call : O -> R * R -> outcome (R * O)) f o q v o' : answers call o f -> call o q = Ok (v, o') -> v = f q /\ answers call o' f.
Proof.
  intros A E. destruct (answers_first _ _ _ q A) as (o1 & E1). assert (v = f q /\ o1 = o') as (-> & ->) by (split; congruence).
  split; [reflexivity|]. intro qs. destruct (A (q :: qs)) as (o2 & E2). cbn [calls map] in E2. rewrite E in E2. cbn [obind] in E2.
  destruct (calls call o' qs) as [(vs & o3)| |]; cbn [obind] in E2; try discriminate. exists o3. congruence.
Qed.
Section Weak.
Variable nan : forall A, outcome A.
Variables fp fn ap an : R -> R -> R.
Definition weak_inv (w : weak_tables) : Prop :=
  reads_grid nan (fst (w_particle w)) fp /\ reads_grid nan (snd (w_particle w)) fn /\
  reads_grid nan (fst (w_antiparticle w)) ap /\ reads_grid nan (snd (w_antiparticle w)) an.
Definition weak_value (charge : R) (c : component) (E v : R) : R :=
  if Rlt_dec charge 0 then mean_cross c (fp (log10 E) v) (fn (log10 E) v) else mean_cross c (ap (log10 E) v) (an (log10 E) v).
Lemma weak_cross_value w charge c E v : weak_inv w -> 0 < E -> element c ->
  exists w', weak_cross nan w charge c E v = Ok (weak_value charge c E v, w') /\ weak_inv w'.
Proof.
  intros (H1 & H2 & H3 & H4) Ep ((Z1 & _) & (Z2 & _)). unfold weak_cross, weak_value, log, quo.
  destruct (Rleb_spec E 0) as [C|_]; [lra|]. cbn [obind]. fold (log10 E).
  rewrite (proj2 (Reqb_false (c_atomic c) 0)) by lra.
  destruct w as ((p & n) & (p' & n')). cbn [w_particle w_antiparticle fst snd] in *.
  assert (S : forall g f q1 q2, reads_grid nan g f -> exists g', grid_array nan g q1 q2 = Ok (f q1 q2, g') /\ reads_grid nan g' f).
  { intros g f q1 q2 Rg. destruct (answers_first _ _ _ (q1, q2) Rg) as (g' & Eg). exists g'. split; [exact Eg|].
    apply (answers_next _ _ _ _ _ _ Rg Eg). }
  destruct (Rltb_spec charge 0) as [C|C]; destruct (Rlt_dec charge 0) as [D|D]; try lra.
  - destruct (S p fp (log10 E) v H1) as (p1 & -> & G1). cbn [obind]. destruct (S n fn (log10 E) v H2) as (n1 & -> & G2). cbn [obind].
    eexists. split; [reflexivity|]. repeat split; assumption.
  - destruct (S p' ap (log10 E) v H3) as (p1 & -> & G1). cbn [obind]. destruct (S n' an (log10 E) v H4) as (n1 & -> & G2). cbn [obind].
    eexists. split; [reflexivity|]. repeat split; assumption.
Qed.
Lemma weak_answers w : weak_inv w -> answers_weak nan w weak_value.
Proof.
  intros H qs F. revert w H. induction F as [|(((charge & c) & E) & v) qs (Ep & Ec) F IH]; intros w H; cbn [weak_calls map].
  - exists w. reflexivity.
  - destruct (weak_cross_value w charge c E v H Ep Ec) as (w1 & -> & H1). cbn [obind]. destruct (IH w1 H1) as (w2 & ->). cbn [obind].
    exists w2. reflexivity.
Qed.
End Weak.
Lemma weak_first nan w f charge c E v : answers_weak nan w f -> 0 < E -> element c -> exists w', weak_cross nan w charge c E v = Ok (f charge c E v, w').
Proof.
  intros A Ep Ec. destruct (A [(charge, c, E, v)]) as (w' & E1); [constructor; [split; assumption|constructor]|].
  cbn [weak_calls map] in E1. destruct (weak_cross nan w charge c E v) as [(x & w1)| |]; cbn [obind] in E1; try discriminate.
  exists w1. congruence.
Qed.
(** One of the four tables, and what is read from it *)
Definition reads_sheet (nan : forall A, outcome A) (y s : list (list decimal)) (f : R -> R -> R) : Prop :=
  exists g, make_sheet energies (numbers y) (numbers s) 5 false 5 false = Ok g /\ reads_grid nan g f.
Lemma weak_made nan : exists w fp fn ap an, cooper_sarkar_mertsch = Ok w /\ weak_inv nan fp fn ap an w /\
  reads_sheet nan y_proton sigma_nubar_proton fp /\ reads_sheet nan y_neutron sigma_nubar_neutron fn /\
  reads_sheet nan y_proton sigma_nu_proton ap /\ reads_sheet nan y_neutron sigma_nu_neutron an.
Proof.
  destruct checks as (Y1 & Y2 & R1 & R2 & S1 & S2 & S3 & S4). unfold cooper_sarkar_mertsch.
  destruct (sheet_reads_made nan _ _ _ 5 5 false (weak_sheet _ _ Y1 S2 R1) ltac:(lia) ltac:(lia)) as (g1 & f1 & E1 & F1).
  destruct (sheet_reads_made nan _ _ _ 5 5 false (weak_sheet _ _ Y2 S4 R2) ltac:(lia) ltac:(lia)) as (g2 & f2 & E2 & F2).
  destruct (sheet_reads_made nan _ _ _ 5 5 false (weak_sheet _ _ Y1 S1 R1) ltac:(lia) ltac:(lia)) as (g3 & f3 & E3 & F3).
  destruct (sheet_reads_made nan _ _ _ 5 5 false (weak_sheet _ _ Y2 S3 R2) ltac:(lia) ltac:(lia)) as (g4 & f4 & E4 & F4).
  rewrite E1, E2, E3, E4. cbn [obind]. eexists _, f1, f2, f3, f4. split; [reflexivity|].
  split; [exact (conj F1 (conj F2 (conj F3 F4)))|].
  exact (conj (ex_intro _ g1 (conj E1 F1)) (conj (ex_intro _ g2 (conj E2 F2)) (conj (ex_intro _ g3 (conj E3 F3)) (ex_intro _ g4 (conj E4 F4))))).
Qed.
Lemma c87_answers nan : exists w f, cooper_sarkar_mertsch = Ok w /\ answers_weak nan w f.
Proof. destruct (weak_made nan) as (w & fp & fn & ap & an & E & I & _). exists w. eexists. split; [exact E|]. apply weak_answers. exact I. Qed.

Section Facts.
Variables (nan : forall A, outcome A) (w : weak_tables) (f : R -> component -> R -> R -> R).
Hypothesis made : cooper_sarkar_mertsch = Ok w.
Hypothesis ans : answers_weak nan w f.
(** What a particle of this charge meets *)
Lemma weak_facts charge : exists sp sn p n,
  full sp = true /\ full sn = true /\ proton_sigma charge = numbers sp /\ neutron_sigma charge = numbers sn /\
  (sp = sigma_nubar_proton /\ sn = sigma_nubar_neutron \/ sp = sigma_nu_proton /\ sn = sigma_nu_neutron) /\
  reads_sheet nan y_proton sp p /\ reads_sheet nan y_neutron sn n /\
  forall c E v, 0 < E -> element c -> f charge c E v = mean_cross c (p (log10 E) v) (n (log10 E) v).
Proof using All.
  destruct checks as (Y1 & Y2 & R1 & R2 & S1 & S2 & S3 & S4).
  destruct (weak_made nan) as (w' & fp & fn & ap & an & E & I & Q1 & Q2 & Q3 & Q4). assert (w' = w) as -> by congruence.
  assert (V : forall c E v, 0 < E -> element c -> f charge c E v = weak_value fp fn ap an charge c E v).
  { intros c e v Ep Ec. destruct (weak_cross_value nan fp fn ap an w charge c e v I Ep Ec) as (w1 & X & _).
    destruct (weak_first nan w f charge c e v ans Ep Ec) as (w2 & Y). congruence. }
  unfold proton_sigma, neutron_sigma, weak_value in *. destruct (Rlt_dec charge 0).
  - exists sigma_nubar_proton, sigma_nubar_neutron, fp, fn. tauto.
  - exists sigma_nu_proton, sigma_nu_neutron, ap, an. tauto.
Qed.
Lemma c87_cross charge c E v : 0 < E -> element c -> exists p n,
  interpolated 5 energies (numbers y_proton) (proton_sigma charge) (log10 E) v p /\
  interpolated 5 energies (numbers y_neutron) (neutron_sigma charge) (log10 E) v n /\
  f charge c E v = mean_cross c p n.
Proof using All.
  intros Ep Ec. destruct checks as (Y1 & Y2 & R1 & R2 & _).
  destruct (weak_facts charge) as (sp & sn & p & n & Fp & Fn & -> & -> & _ & (gp & Gp & Rp) & (gn & Gn & Rn) & V).
  exists (p (log10 E) v), (n (log10 E) v). rewrite (V c E v Ep Ec). 
  assert (G : forall y s g h, full y = true -> rising_rows y = true -> full s = true ->
    make_sheet energies (numbers y) (numbers s) 5 false 5 false = Ok g -> reads_grid nan g h ->
    interpolated 5 energies (numbers y) (numbers s) (log10 E) v (h (log10 E) v)).
  { intros y s g h Fy Ry Fs M Rd. apply (sheet_interpolated nan energies (numbers y) (numbers s) 5 g h); try assumption; try lia.
    - apply weak_sheet; assumption.
    - rewrite energies_length. lia.
    - intros j J. destruct (full_length s Fs) as (Ls & _). rewrite (proj2 (full_length y Fy)); lia. }
  exact (conj (G _ _ _ _ Y1 R1 Fp Gp Rp) (conj (G _ _ _ _ Y2 R2 Fn Gn Rn) eq_refl)).
Qed.
Lemma mean_nonneg c p n : element c -> 0 <= mean_cross c p n.
Proof using.
  intros ((Z1 & _) & (Z2 & _)). unfold mean_cross. apply Rmult_le_pos; [|apply Rmax_r].
  apply Rmult_le_pos; [|left; apply Rinv_0_lt_compat; lra]. apply Rmult_le_pos; [unfold NA; lra|]. left. apply Rinv_0_lt_compat. lra.
Qed.
Lemma c87_sign charge c E v : 0 < E -> element c -> 0 <= f charge c E v.
Proof using All. intros Ep Ec. destruct (c87_cross charge c E v Ep Ec) as (p & n & _ & _ & ->). apply mean_nonneg. exact Ec. Qed.
Lemma log10_power x : log10 (Rpower 10 x) = x.
Proof using. unfold log10, Rpower. rewrite ln_exp. field. pose proof (ln_increasing 1 10 ltac:(lra) ltac:(lra)). rewrite ln_1 in H. lra. Qed.
Lemma c87_nodes charge j : (j < 111)%nat -> exists p n : R -> R,
  (forall k, (k < 100)%nat -> p (nth k (nth j (numbers y_proton) []) 0) = nth k (nth j (proton_sigma charge) []) 0) /\
  (forall k, (k < 100)%nat -> n (nth k (nth j (numbers y_neutron) []) 0) = nth k (nth j (neutron_sigma charge) []) 0) /\
  forall c v, element c -> f charge c (Rpower 10 (nth j energies 0)) v = mean_cross c (p v) (n v).
Proof using All.
  intro J. destruct checks as (Y1 & Y2 & R1 & R2 & _).
  destruct (weak_facts charge) as (sp & sn & p & n & Fp & Fn & -> & -> & _ & (gp & Gp & Rp) & (gn & Gn & Rn) & V).
  exists (p (nth j energies 0)), (n (nth j energies 0)).
  split; [|split].
  - intros k K. apply (sheet_nodes nan energies (numbers y_proton) (numbers sp) 5 5 false gp (weak_sheet _ _ Y1 Fp R1) ltac:(lia) ltac:(lia) Gp p Rp).
    + rewrite energies_length. exact J.
    + rewrite (proj2 (full_length _ Y1)); assumption.
  - intros k K. apply (sheet_nodes nan energies (numbers y_neutron) (numbers sn) 5 5 false gn (weak_sheet _ _ Y2 Fn R2) ltac:(lia) ltac:(lia) Gn n Rn).
    + rewrite energies_length. exact J.
    + rewrite (proj2 (full_length _ Y2)); assumption.
  - intros c v Ec. rewrite V by (apply exp_pos || exact Ec). rewrite log10_power. reflexivity.
Qed.
End Facts.

(** ** Beyond the tables *)
Lemma central_first x start m q : increasing x -> (2 <= length x)%nat -> q < nth 0 x 0 -> central x start m q -> start = 0%nat.
Proof.
  intros I L Q (_ & k & K & D & C & _). destruct D as [(_ & D1 & _)|(D & _)].
  - destruct k as [|k]; [lia|]. specialize (D1 0%nat ltac:(lia)). lra.
  - specialize (I 0%nat 1%nat ltac:(lia)). specialize (D 0%nat 1%nat ltac:(lia)). lra.
Qed.
Definition quartic (c0 c1 c2 c3 c4 x : R) : R := c0 + c1 * x + c2 * (x * x) + c3 * (x * x * x) + c4 * (x * x * x * x).
Lemma extrapolates_quartic x0 x1 x2 x3 x4 y0 y1 y2 y3 y4 q v :
  extrapolates [(x0, y0); (x1, y1); (x2, y2); (x3, y3); (x4, y4)] q v -> exists c0 c1 c2 c3 c4,
    quartic c0 c1 c2 c3 c4 x0 = y0 /\ quartic c0 c1 c2 c3 c4 x1 = y1 /\ quartic c0 c1 c2 c3 c4 x2 = y2 /\
    quartic c0 c1 c2 c3 c4 x3 = y3 /\ quartic c0 c1 c2 c3 c4 x4 = y4 /\ quartic c0 c1 c2 c3 c4 q = v.
Proof.
  intros ((c & L & H & E) & _). cbn in L.
  assert (P : forall x, polynomial c x = quartic (nth 0 c 0) (nth 1 c 0) (nth 2 c 0) (nth 3 c 0) (nth 4 c 0) x).
  { intro x. unfold quartic, polynomial. destruct c as [|c0 [|c1 [|c2 [|c3 [|c4 [|]]]]]]; cbn in *; try lia; ring. }
  exists (nth 0 c 0), (nth 1 c 0), (nth 2 c 0), (nth 3 c 0), (nth 4 c 0). rewrite <- !P.
  assert (H0 := H (x0, y0) ltac:(cbn; tauto)). assert (H1 := H (x1, y1) ltac:(cbn; tauto)). assert (H2 := H (x2, y2) ltac:(cbn; tauto)).
  assert (H3 := H (x3, y3) ltac:(cbn; tauto)). assert (H4 := H (x4, y4) ltac:(cbn; tauto)). cbn [fst snd] in *. auto 8.
Qed.
Lemma quartic_points y s j q v : full y = true -> full s = true -> (j < 111)%nat ->
  extrapolates (points (nth j (numbers y) []) (nth j (numbers s) []) 0 5) q v -> exists c0 c1 c2 c3 c4,
    quartic c0 c1 c2 c3 c4 (unscaled (entry y j 0)) = unscaled (entry s j 0) /\ quartic c0 c1 c2 c3 c4 (unscaled (entry y j 1)) = unscaled (entry s j 1) /\
    quartic c0 c1 c2 c3 c4 (unscaled (entry y j 2)) = unscaled (entry s j 2) /\ quartic c0 c1 c2 c3 c4 (unscaled (entry y j 3)) = unscaled (entry s j 3) /\
    quartic c0 c1 c2 c3 c4 (unscaled (entry y j 4)) = unscaled (entry s j 4) /\ quartic c0 c1 c2 c3 c4 q = v.
Proof.
  intros Fy Fs J H. unfold points in H. cbn [map seq] in H. rewrite !numbers_entry in H by (assumption || lia).
  apply extrapolates_quartic. exact H.
Qed.
Section Sheets.
Variables (nan : forall A, outcome A) (y s : list (list decimal)) (f : R -> R -> R).
Hypothesis Fy : full y = true.
Hypothesis Ry : rising_rows y = true.
Hypothesis Fs : full s = true.
Hypothesis Rd : reads_sheet nan y s f.
(** In the first row, before its first node *)
Lemma before_row q : q < unscaled (entry y 0 0) -> extrapolates (points (nth 0 (numbers y) []) (nth 0 (numbers s) []) 0 5) q (f 4 q).
Proof using All.
  intro Q. destruct Rd as (g & G & Rg). pose proof (weak_sheet y s Fy Fs Ry) as T.
  destruct (full_length y Fy) as (Ly & Ly'). destruct (full_length s Fs) as (Ls & _).
  destruct (sheet_row nan energies (numbers y) (numbers s) 5 5 false g T ltac:(lia) ltac:(lia) G f Rg 0) as (t & h & Et & Ht); [rewrite Ls; lia|].
  assert (f 4 q = h q) as ->.
  { rewrite <- (sheet_on_row nan energies (numbers y) (numbers s) 5 5 false g T ltac:(lia) ltac:(lia) G f Rg 0 t h q ltac:(rewrite Ls; lia) Et Ht).
    f_equal. rewrite energies_nth by lia. change (40 + Z.of_nat 0)%Z with 40%Z. field. }
  assert (Tj : tabular (nth 0 (numbers y) []) (nth 0 (numbers s) [])) by (destruct T as (_ & _ & _ & _ & Tr); apply Tr; rewrite Ls; lia).
  destruct (table_window nan _ _ 5 t h q Tj ltac:(lia) Et Ht) as (start & C & X).
  assert (Or : order 5 (length (nth 0 (numbers y) [])) = 5%nat) by (rewrite Ly' by lia; reflexivity). rewrite Or in *.
  assert (start = 0%nat) as ->; [|exact X]. apply (central_first _ _ _ _ (proj1 (rising_row y 0 Fy Ry ltac:(lia))) ltac:(rewrite Ly'; lia)) in C; [exact C|].
  rewrite numbers_entry by (assumption || lia). exact Q.
Qed.
(** At v = 1, before the first energy *)
Lemma before_energies q : q < 4 -> exists c0 c1 c2 c3 c4,
  quartic c0 c1 c2 c3 c4 (40 / 10) = unscaled (entry s 0 99) /\ quartic c0 c1 c2 c3 c4 (41 / 10) = unscaled (entry s 1 99) /\
  quartic c0 c1 c2 c3 c4 (42 / 10) = unscaled (entry s 2 99) /\ quartic c0 c1 c2 c3 c4 (43 / 10) = unscaled (entry s 3 99) /\
  quartic c0 c1 c2 c3 c4 (44 / 10) = unscaled (entry s 4 99) /\ quartic c0 c1 c2 c3 c4 q = f q 1.
Proof using All.
  intro Q. destruct Rd as (g & G & Rg). pose proof (weak_sheet y s Fy Fs Ry) as T.
  destruct (full_length y Fy) as (Ly & Ly'). destruct (full_length s Fs) as (Ls & _).
  destruct (finite_choice (fun j h => exists t, make (nth j (numbers y) []) (nth j (numbers s) []) 5 false = Ok t /\ reads nan t h) (fun _ => 0) (length (numbers s)))
    as (rows & Rw).
  { intros j J. destruct (sheet_row nan _ _ _ 5 5 false g T ltac:(lia) ltac:(lia) G f Rg j J) as (t & h & Et & Ht). exists h, t. auto. }
  destruct (sheet_rows_window nan _ _ _ 5 5 false g T ltac:(lia) ltac:(lia) G f Rg q 1 rows Rw) as (start & C & X).
  assert (Or : order 5 (length energies) = 5%nat) by (rewrite energies_length; reflexivity). rewrite Or in *.
  assert (start = 0%nat) as ->.
  { apply (central_first _ _ _ _ energies_increasing ltac:(rewrite energies_length; lia)) in C; [exact C|]. rewrite energies_nth by lia.
    change (40 + Z.of_nat 0)%Z with 40%Z. lra. }
  assert (V : forall j, (j < 111)%nat -> rows j 1 = unscaled (entry s j 99)).
  { intros j J. destruct (Rw j) as (t & Et & Rt); [lia|]. destruct T as (_ & _ & _ & _ & Tr).
    pose proof (table_nodes nan _ _ 5 false t (rows j) 99 (Tr j ltac:(lia)) ltac:(lia) Et Rt) as N. rewrite Ly' in N by exact J. specialize (N ltac:(lia)).
    rewrite (proj2 (rising_row y j Fy Ry J)) in N. rewrite N. apply numbers_entry; assumption || lia. }
  cbn [map seq] in X. rewrite !V, !energies_nth in X by lia.
  change (40 + Z.of_nat 0)%Z with 40%Z in X. change (40 + Z.of_nat 1)%Z with 41%Z in X. change (40 + Z.of_nat 2)%Z with 42%Z in X.
  change (40 + Z.of_nat 3)%Z with 43%Z in X. change (40 + Z.of_nat 4)%Z with 44%Z in X.
  apply extrapolates_quartic. exact X.
Qed.
End Sheets.
Lemma head_y_proton : map (entry y_proton 0) (seq 0 5) = [52440000000000000; 54025100000000000; 55658100000000000; 57340500000000000; 59073700000000000]%Z.
Proof. vm_compute. reflexivity. Qed.
Lemma head_y_neutron : map (entry y_neutron 0) (seq 0 5) = [52365400000000000; 53949000000000000; 55580500000000000; 57261300000000000; 58992900000000000]%Z.
Proof. vm_compute. reflexivity. Qed.
Lemma head_sigma_nubar_proton : map (entry sigma_nubar_proton 0) (seq 0 5) = [561824000000; 4850300000000; 18104900000000; 55404200000000; 136737000000000]%Z.
Proof. vm_compute. reflexivity. Qed.
Lemma head_sigma_nubar_neutron : map (entry sigma_nubar_neutron 0) (seq 0 5) = [142776000000; 1456880000000; 5491900000000; 14453700000000; 31103300000000]%Z.
Proof. vm_compute. reflexivity. Qed.
Lemma head_sigma_nu_proton : map (entry sigma_nu_proton 0) (seq 0 5) = [149873000000; 1532540000000; 5787710000000; 15260300000000; 32907500000000]%Z.
Proof. vm_compute. reflexivity. Qed.
Lemma head_sigma_nu_neutron : map (entry sigma_nu_neutron 0) (seq 0 5) = [579350000000; 5005190000000; 18755900000000; 57915800000000; 144069000000000]%Z.
Proof. vm_compute. reflexivity. Qed.
Lemma last_sigma_nubar_proton : map (fun j => entry sigma_nubar_proton j 99) (seq 0 5) = [12046900000000000; 15657300000000000; 20298500000000000; 26267300000000000; 33939400000000000]%Z.
Proof. vm_compute. reflexivity. Qed.
Lemma last_sigma_nubar_neutron : map (fun j => entry sigma_nubar_neutron j 99) (seq 0 5) = [9485600000000000; 12485300000000000; 16375400000000000; 21417600000000000; 27945000000000000]%Z.
Proof. vm_compute. reflexivity. Qed.
Lemma last_sigma_nu_proton : map (fun j => entry sigma_nu_proton j 99) (seq 0 5) = [40496600000000000; 51273500000000000; 64742200000000000; 81618600000000000; 102804000000000000]%Z.
Proof. vm_compute. reflexivity. Qed.
Lemma last_sigma_nu_neutron : map (fun j => entry sigma_nu_neutron j 99) (seq 0 5) = [88225400000000000; 110331000000000000; 137854000000000000; 172209000000000000; 215138000000000000]%Z.
Proof. vm_compute. reflexivity. Qed.

Section Witness.
Variables (nan : forall A, outcome A) (y s : list (list decimal)) (f : R -> R -> R).
Hypothesis Fy : full y = true.
Hypothesis Ry : rising_rows y = true.
Hypothesis Fs : full s = true.
Hypothesis Rd : reads_sheet nan y s f.
Lemma negative_row x0 x1 x2 x3 x4 y0 y1 y2 y3 y4 : map (entry y 0) (seq 0 5) = [x0; x1; x2; x3; x4] -> map (entry s 0) (seq 0 5) = [y0; y1; y2; y3; y4] ->
  51 / 1000 < unscaled x0 ->
  (forall c0 c1 c2 c3 c4, quartic c0 c1 c2 c3 c4 (unscaled x0) = unscaled y0 -> quartic c0 c1 c2 c3 c4 (unscaled x1) = unscaled y1 ->
     quartic c0 c1 c2 c3 c4 (unscaled x2) = unscaled y2 -> quartic c0 c1 c2 c3 c4 (unscaled x3) = unscaled y3 ->
     quartic c0 c1 c2 c3 c4 (unscaled x4) = unscaled y4 -> quartic c0 c1 c2 c3 c4 (51 / 1000) < 0) -> f 4 (51 / 1000) < 0.
Proof using All.
  intros Hx Hy Q H. cbn [map seq] in Hx, Hy. injection Hx as <- <- <- <- <-. injection Hy as <- <- <- <- <-.
  destruct (quartic_points y s 0 _ _ Fy Fs ltac:(lia) (before_row nan y s f Fy Ry Fs Rd (51 / 1000) Q)) as (c0 & c1 & c2 & c3 & c4 & Q0 & Q1 & Q2 & Q3 & Q4 & <-).
  apply H; assumption.
Qed.
Lemma risen_row y0 y1 y2 y3 y4 : map (fun j => entry s j 99) (seq 0 5) = [y0; y1; y2; y3; y4] ->
  f 2 1 = 10626 * unscaled y0 - 40480 * unscaled y1 + 57960 * unscaled y2 - 36960 * unscaled y3 + 8855 * unscaled y4.
Proof using All.
  intro Hy. cbn [map seq] in Hy. injection Hy as <- <- <- <- <-.
  destruct (before_energies nan y s f Fy Ry Fs Rd 2 ltac:(lra)) as (c0 & c1 & c2 & c3 & c4 & <- & <- & <- & <- & <- & <-). unfold quartic. field.
Qed.
Lemma first_row y0 y1 y2 y3 y4 : map (fun j => entry s j 99) (seq 0 5) = [y0; y1; y2; y3; y4] -> f 4 1 = unscaled y0.
Proof using All.
  intro Hy. cbn [map seq] in Hy. injection Hy as <- _ _ _ _. destruct Rd as (g & G & Rg). pose proof (weak_sheet y s Fy Fs Ry) as T.
  destruct (full_length y Fy) as (Ly & Ly').
  pose proof (sheet_nodes nan energies (numbers y) (numbers s) 5 5 false g T ltac:(lia) ltac:(lia) G f Rg 0 99) as N.
  rewrite energies_length, Ly', energies_nth, (proj2 (rising_row y 0 Fy Ry ltac:(lia))), numbers_entry in N by (assumption || lia).
  rewrite <- N by lia. f_equal. change (40 + Z.of_nat 0)%Z with 40%Z. field.
Qed.
End Witness.
Lemma negative_before nan s f : reads_sheet nan y_proton s f /\ (s = sigma_nubar_proton \/ s = sigma_nu_proton) \/
  reads_sheet nan y_neutron s f /\ (s = sigma_nubar_neutron \/ s = sigma_nu_neutron) -> f 4 (51 / 1000) < 0.
Proof.
  destruct checks as (Y1 & Y2 & R1 & R2 & S1 & S2 & S3 & S4). intros [(Rd & [-> | ->])|(Rd & [-> | ->])].
  - apply (negative_row nan _ _ f Y1 R1 S2 Rd _ _ _ _ _ _ _ _ _ _ head_y_proton head_sigma_nubar_proton); unfold quartic, unscaled; [lra|]. intros. lra.
  - apply (negative_row nan _ _ f Y1 R1 S1 Rd _ _ _ _ _ _ _ _ _ _ head_y_proton head_sigma_nu_proton); unfold quartic, unscaled; [lra|]. intros. lra.
  - apply (negative_row nan _ _ f Y2 R2 S4 Rd _ _ _ _ _ _ _ _ _ _ head_y_neutron head_sigma_nubar_neutron); unfold quartic, unscaled; [lra|]. intros. lra.
  - apply (negative_row nan _ _ f Y2 R2 S3 Rd _ _ _ _ _ _ _ _ _ _ head_y_neutron head_sigma_nu_neutron); unfold quartic, unscaled; [lra|]. intros. lra.
Qed.
Lemma risen_before nan s f : reads_sheet nan y_proton s f /\ (s = sigma_nubar_proton \/ s = sigma_nu_proton) \/
  reads_sheet nan y_neutron s f /\ (s = sigma_nubar_neutron \/ s = sigma_nu_neutron) -> 0 < f 4 1 /\ 17 * f 4 1 < f 2 1.
Proof.
  destruct checks as (Y1 & Y2 & R1 & R2 & S1 & S2 & S3 & S4). intros [(Rd & [-> | ->])|(Rd & [-> | ->])].
  - rewrite (first_row nan _ _ f Y1 R1 S2 Rd _ _ _ _ _ last_sigma_nubar_proton), (risen_row nan _ _ f Y1 R1 S2 Rd _ _ _ _ _ last_sigma_nubar_proton).
    unfold unscaled. lra.
  - rewrite (first_row nan _ _ f Y1 R1 S1 Rd _ _ _ _ _ last_sigma_nu_proton), (risen_row nan _ _ f Y1 R1 S1 Rd _ _ _ _ _ last_sigma_nu_proton).
    unfold unscaled. lra.
  - rewrite (first_row nan _ _ f Y2 R2 S4 Rd _ _ _ _ _ last_sigma_nubar_neutron), (risen_row nan _ _ f Y2 R2 S4 Rd _ _ _ _ _ last_sigma_nubar_neutron).
    unfold unscaled. lra.
  - rewrite (first_row nan _ _ f Y2 R2 S3 Rd _ _ _ _ _ last_sigma_nu_neutron), (risen_row nan _ _ f Y2 R2 S3 Rd _ _ _ _ _ last_sigma_nu_neutron).
    unfold unscaled. lra.
Qed.
Lemma mean_zero c p n : element c -> p < 0 -> n < 0 -> mean_cross c p n = 0.
Proof.
  intros ((Z1 & _) & (Z2 & _)) P N. unfold mean_cross. rewrite Rmax_right; [ring|].
  assert (0 <= (c_charge c * - p + (c_atomic c - c_charge c) * - n) * / c_atomic c).
  { apply Rmult_le_pos; [nra|]. left. apply Rinv_0_lt_compat. lra. }
  unfold Rdiv. nra.
Qed.
Lemma mean_positive c p n : element c -> 0 < p -> 0 < n -> 0 < mean_cross c p n.
Proof.
  intros ((Z1 & _) & (Z2 & _)) P N. unfold mean_cross. 
  assert (I : 0 < / c_atomic c) by (apply Rinv_0_lt_compat; lra). apply Rmult_lt_0_compat.
  - apply Rmult_lt_0_compat; [apply Rmult_lt_0_compat; [unfold NA; lra|exact I]|apply Rinv_0_lt_compat; lra].
  - apply Rlt_le_trans with (2 := Rmax_l _ _). apply Rmult_lt_0_compat; [nra|exact I].
Qed.
Lemma mean_larger c k p n p' n' : element c -> 0 <= k -> k * p < p' -> k * n < n' -> 0 < p -> 0 < n -> k * mean_cross c p n < mean_cross c p' n'.
Proof.
  intros ((Z1 & _) & (Z2 & _)) K P N Pp Np. unfold mean_cross.
  assert (I : 0 < / c_atomic c) by (apply Rinv_0_lt_compat; lra).
  assert (I2 : 0 < NA / c_atomic c * / 10 ^ 36) by (apply Rmult_lt_0_compat; [apply Rmult_lt_0_compat; [unfold NA; lra|exact I]|apply Rinv_0_lt_compat; lra]).
  assert (A : 0 < (c_charge c * p + (c_atomic c - c_charge c) * n) / c_atomic c) by (apply Rmult_lt_0_compat; [nra|exact I]).
  rewrite Rmax_left by lra. apply Rlt_le_trans with (NA / c_atomic c * / 10 ^ 36 * ((c_charge c * p' + (c_atomic c - c_charge c) * n') / c_atomic c)).
  - replace (k * (NA / c_atomic c * / 10 ^ 36 * ((c_charge c * p + (c_atomic c - c_charge c) * n) / c_atomic c)))
      with (NA / c_atomic c * / 10 ^ 36 * ((k * (c_charge c * p + (c_atomic c - c_charge c) * n)) * / c_atomic c)) by (unfold Rdiv; ring).
    apply Rmult_lt_compat_l; [exact I2|]. apply Rmult_lt_compat_r; [exact I|]. nra.
  - apply Rmult_le_compat_l; [lra|]. apply Rmax_l.
Qed.
Lemma ln10_positive : 0 < ln 10.
Proof. rewrite <- ln_1. apply ln_increasing; lra. Qed.
Lemma log10_pow n : log10 (10 ^ n) = INR n.
Proof. unfold log10. rewrite ln_pow by lra. pose proof ln10_positive. field. lra. Qed.
Section Beyond.
Variables (nan : forall A, outcome A) (w : weak_tables) (f : R -> component -> R -> R -> R).
Hypothesis made : cooper_sarkar_mertsch = Ok w.
Hypothesis ans : answers_weak nan w f.
Lemma c87_complete charge c j : element c -> (j < 111)%nat ->
  f charge c (Rpower 10 (nth j energies 0)) 1 = mean_cross c (nth 99 (nth j (proton_sigma charge) []) 0) (nth 99 (nth j (neutron_sigma charge) []) 0) /\
  0 < f charge c (Rpower 10 (nth j energies 0)) 1.
Proof using All.
  intros Ec J. destruct checks as (Y1 & Y2 & R1 & R2 & _).
  destruct (c87_nodes nan w f made ans charge j J) as (p & n & P & N & V). specialize (P 99%nat ltac:(lia)). specialize (N 99%nat ltac:(lia)).
  rewrite (proj2 (rising_row _ j Y1 R1 J)) in P. rewrite (proj2 (rising_row _ j Y2 R2 J)) in N. rewrite V, <- P, <- N by exact Ec.
  split; [reflexivity|]. rewrite P, N.
  destruct (weak_facts nan w f made ans charge) as (sp & sn & _ & _ & Fp & Fn & -> & -> & _).
  rewrite !numbers_entry by (assumption || lia).
  assert (Pos : forall t k, 0 < unscaled (entry t j k)).
  { intros t k. unfold unscaled, entry. apply Rmult_lt_0_compat; [|apply Rinv_0_lt_compat; lra]. apply IZR_lt. unfold scaled.
    destruct (nth k (nth j t []) (D 1 0)) as [m e]. apply Z.mul_pos_pos; [lia|]. apply Z.pow_pos_nonneg; lia. }
  apply mean_positive; [exact Ec|apply Pos..].
Qed.
Lemma c87_zero charge c : element c ->
  v_min (weak_limits (10 ^ 4)) < 51 / 1000 < v_max (weak_limits (10 ^ 4)) /\ f charge c (10 ^ 4) (51 / 1000) = 0.
Proof using All.
  intro Ec. split.
  - unfold weak_limits. cbn [v_min v_max]. split; [|lra]. apply Rmult_lt_reg_r with (2 * 10 ^ 4 * ((MP + MN) / 2) + (MP + MN) / 2 * ((MP + MN) / 2)); [unfold MP, MN; lra|].
    unfold Rdiv at 1. rewrite Rmult_assoc, Rinv_l; unfold MP, MN; lra.
  - destruct (weak_facts nan w f made ans charge) as (sp & sn & p & n & Fp & Fn & _ & _ & S & Rp & Rn & V). rewrite V by (lra || exact Ec).
    rewrite log10_pow. replace (INR 4) with 4 by (cbn; lra).
    apply mean_zero; [exact Ec| |].
    + exact (negative_before nan sp p (or_introl (conj Rp (match S with or_introl (conj e _) => or_introl e | or_intror (conj e _) => or_intror e end)))).
    + exact (negative_before nan sn n (or_intror (conj Rn (match S with or_introl (conj _ e) => or_introl e | or_intror (conj _ e) => or_intror e end)))).
Qed.
Lemma c87_rise charge c : element c -> v_min (weak_limits (10 ^ 2)) < 1 /\ 0 < f charge c (10 ^ 4) 1 /\ 17 * f charge c (10 ^ 4) 1 < f charge c (10 ^ 2) 1.
Proof using All.
  intro Ec. split.
  - unfold weak_limits. cbn [v_min v_max]. apply Rmult_lt_reg_r with (2 * 10 ^ 2 * ((MP + MN) / 2) + (MP + MN) / 2 * ((MP + MN) / 2)); [unfold MP, MN; lra|].
    unfold Rdiv at 1. rewrite Rmult_assoc, Rinv_l; unfold MP, MN; lra.
  - destruct (weak_facts nan w f made ans charge) as (sp & sn & p & n & Fp & Fn & _ & _ & S & Rp & Rn & V). rewrite !V by (lra || exact Ec).
    rewrite !log10_pow. replace (INR 4) with 4 by (cbn; lra). replace (INR 2) with 2 by (cbn; lra).
    destruct (risen_before nan sp p (or_introl (conj Rp (match S with or_introl (conj e _) => or_introl e | or_intror (conj e _) => or_intror e end)))) as (P1 & P2).
    destruct (risen_before nan sn n (or_intror (conj Rn (match S with or_introl (conj _ e) => or_introl e | or_intror (conj _ e) => or_intror e end)))) as (N1 & N2).
    split; [apply mean_positive; assumption|]. apply mean_larger; assumption || lra.
Qed.
End Beyond.
