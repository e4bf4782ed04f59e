(** The numbers of a medium. *)
From Coq Require Import Lra Psatz Permutation.
From Coquelicot Require Import Coquelicot.
From Verif Require Import Prelude PreludeFacts Propagator_Model Particle_Model Limits_Model Cross_Model Photo_Model Products_Model
  Differential_Model Nuclear_Model Photopair_Model Multiple_Model Medium_Model.
From Verif Require Import Cross_Spec Differential_Spec Nuclear_Spec Medium_Spec Cross_Proofs Components_Proofs Transform_Proofs
  Differential_Proofs Brems_Proofs Screening_Proofs Nuclear_Proofs.

(** * Sums over the atoms of a molecule *)
Lemma molecule_nil f : molecule f [] = 0.
Proof. reflexivity. Qed.
Lemma molecule_cons f c cs : molecule f (c :: cs) = c_atoms c * f c + molecule f cs.
Proof. reflexivity. Qed.
Lemma molecule_app f l l' : molecule f (l ++ l') = molecule f l + molecule f l'.
Proof. unfold molecule. rewrite map_app. apply rsum_app. Qed.
Lemma molecule_perm f l l' : Permutation l l' -> molecule f l = molecule f l'.
Proof. intros H. unfold molecule. apply rsum_perm. now apply Permutation_map. Qed.
Lemma molecule_ext f g l : (forall c, In c l -> f c = g c) -> molecule f l = molecule g l.
Proof. induction l as [|c l IH]; intros H; [reflexivity|]. rewrite !molecule_cons, IH, (H c); auto; [now left|intros; apply H; now right]. Qed.
(** A quantity that depends on the element only *)
Definition elemental (f : component -> R) : Prop := forall c c', same_element c c' -> f c' = f c.
Lemma molecule_scale k f : elemental f -> forall l l', same_ratios k l l' -> molecule f l' = k * molecule f l.
Proof.
  intros E l l' H. induction H as [|c c' l l' [He Ha] _ IH]; [rewrite !molecule_nil; ring|].
  rewrite !molecule_cons, IH, Ha, (E c c' He). ring.
Qed.
Lemma molecule_pos f l : l <> [] -> (forall c, In c l -> 0 < c_atoms c /\ 0 < f c) -> 0 < molecule f l.
Proof.
  intros N H. assert (P : forall m, (forall c, In c m -> 0 < c_atoms c /\ 0 < f c) -> 0 <= molecule f m).
  { induction m as [|c m IH]; intros K; [rewrite molecule_nil; lra|]. rewrite molecule_cons. destruct (K c (or_introl eq_refl)).
    assert (0 <= molecule f m) by (apply IH; intros; apply K; now right). nra. }
  destruct l as [|c l]; [contradiction|]. rewrite molecule_cons. destruct (H c (or_introl eq_refl)).
  assert (0 <= molecule f l) by (apply P; intros; apply H; now right). nra.
Qed.
Lemma molecule_le f g l : (forall c, In c l -> 0 < c_atoms c /\ f c <= g c) -> molecule f l <= molecule g l.
Proof.
  induction l as [|c l IH]; intros H; [rewrite !molecule_nil; lra|]. rewrite !molecule_cons. destruct (H c (or_introl eq_refl)).
  assert (molecule f l <= molecule g l) by (apply IH; intros; apply H; now right). nra.
Qed.
Lemma molecule_const f k l : molecule (fun c => k * f c) l = k * molecule f l.
Proof. induction l as [|c l IH]; [rewrite !molecule_nil; ring|]. rewrite !molecule_cons, IH. ring. Qed.

(** * The inverse radiation length of an element *)
Lemma truncate_range x : 1 <= x <= 100 -> (1 <= truncate x <= 100)%Z.
Proof.
  intros H. unfold truncate. destruct (Rleb_spec 0 x); [|lra]. pose proof (base_Int_part x) as [A B].
  split.
  - assert (0 < IZR (Int_part x)) as K by lra. apply lt_IZR in K. lia.
  - assert (IZR (Int_part x) < 101) as K by lra. apply lt_IZR in K. lia.
Qed.
Lemma unsigned_ok x : 1 <= x <= 100 -> to_unsigned x = Ok (truncate x).
Proof.
  intros H. pose proof (truncate_range x H). unfold to_unsigned.
  destruct (Z.leb_spec 0 (truncate x)); [|lia]. destruct (Z.ltb_spec (truncate x) (2 ^ 32)); [reflexivity|lia].
Qed.
Lemma X0_value nan Z M : (1 <= Z <= 100)%Z -> 0 < M -> exists x, X0_inv nan Z M = Ok x /\ 0 < x /\ forall nan', X0_inv nan' Z M = Ok x.
Proof.
  intros HZ HM. assert (1 <= IZR Z <= 100) as Hz by (split; apply IZR_le; lia).
  pose proof (coulomb_range (IZR Z) Hz) as C. pose proof ALPHA_val as HA.
  assert (215 / 1000 <= inverse_cube_root (IZR Z)) as Q by (apply icr_ge; lra).
  assert (Rpower (IZR Z) (- (2 / 3)) = inverse_cube_root (IZR Z) * inverse_cube_root (IZR Z)) as Q2.
  { unfold inverse_cube_root. rewrite <- Rpower_plus. f_equal. lra. }
  assert (exists L : R * R, forall nn : forall A, outcome A, (if (4 <? Z)%Z then
       olet l := log nn (18415 / 100 * Rpower (IZR Z) (- (1 / 3))) in
       olet l' := log nn (1194 * Rpower (IZR Z) (- (2 / 3))) in
       Ok (l, l')
     else if (Z =? 1)%Z then Ok (531 / 100, 6144 / 1000)
     else if (Z =? 2)%Z then Ok (479 / 100, 5621 / 1000)
     else if (Z =? 3)%Z then Ok (474 / 100, 5805 / 1000)
     else if (Z =? 4)%Z then Ok (471 / 100, 5924 / 1000)
     else Ok (0, 0)) = Ok L /\ 1 <= fst L /\ 0 < snd L) as (L & HL).
  { destruct (Z.ltb_spec 4 Z).
    - rewrite Q2. fold (inverse_cube_root (IZR Z)). set (z := inverse_cube_root (IZR Z)) in *. clearbody z.
      assert (46 / 1000 <= z * z) by nra. exists (ln (18415 / 100 * z), ln (1194 * (z * z))). intros nn.
      rewrite !log_ok by lra. cbn [obind fst snd]. split; [reflexivity|].
      pose proof ln_32 as L32. split; [|rewrite <- ln_1; apply ln_increasing; lra].
      assert (ln 32 <= ln (18415 / 100 * z)) by (apply ln_le; lra). lra.
    - destruct (Z.eqb_spec Z 1); [exists (531 / 100, 6144 / 1000); cbn [fst snd]; intros; split; [reflexivity|lra]|].
      destruct (Z.eqb_spec Z 2); [exists (479 / 100, 5621 / 1000); cbn [fst snd]; intros; split; [reflexivity|lra]|].
      destruct (Z.eqb_spec Z 3); [exists (474 / 100, 5805 / 1000); cbn [fst snd]; intros; split; [reflexivity|lra]|].
      destruct (Z.eqb_spec Z 4); [exists (471 / 100, 5924 / 1000); cbn [fst snd]; intros; split; [reflexivity|lra]|lia]. }
  assert (0 < RE) as HR by (unfold RE; lra). assert (0 < NA) as HN by (unfold NA; lra).
  exists (4 * ALPHA * RE * RE * NA / M * (IZR Z * IZR Z * (fst L - coulomb (IZR Z)) + IZR Z * snd L)).
  assert (G : forall nn, X0_inv nn Z M = Ok (4 * ALPHA * RE * RE * NA / M * (IZR Z * IZR Z * (fst L - coulomb (IZR Z)) + IZR Z * snd L))).
  { intros nn. unfold X0_inv. rewrite (proj1 (HL nn)). cbn [obind]. rewrite quo_ok by lra. cbn [obind]. f_equal.
    rewrite Z.mod_small by nia. rewrite mult_IZR. f_equal. f_equal. f_equal. f_equal. unfold coulomb.
    set (z := IZR Z) in *. clearbody z. set (a := ALPHA * z) in *. replace (ALPHA * ALPHA * z * z) with (a * a) by (unfold a; ring). ring. }
  split; [apply G|]. split; [|exact G]. destruct (HL nan) as (_ & L1 & L2).
  assert (0 < IZR Z * IZR Z * (fst L - coulomb (IZR Z))) by (apply Rmult_lt_0_compat; nra).
  assert (0 < IZR Z * snd L) by nra.
  apply Rmult_lt_0_compat; [|lra]. apply Rdiv_lt_0_compat; auto.
  assert (0 < RE * RE) by nra. assert (0 < RE * RE * NA) by nra.
  replace (4 * ALPHA * RE * RE * NA) with (4 * ALPHA * (RE * RE * NA)) by ring. nra.
Qed.
(** The inverse length of a component; 0 stands for a failure, which does not
    occur for an element. *)
Definition inverse_length (c : component) : R :=
  match X0_inv (fun A => Throw logic_error) (truncate (c_charge c)) (c_atomic c) with Ok x => x | _ => 0 end.
Lemma inverse_length_spec nan c : element c -> X0_inv nan (truncate (c_charge c)) (c_atomic c) = Ok (inverse_length c) /\ 0 < inverse_length c.
Proof.
  intros [HZ HA]. destruct (X0_value nan (truncate (c_charge c)) (c_atomic c)) as (x & A & B & C); [now apply truncate_range|lra|].
  unfold inverse_length. rewrite (C (fun A => Throw logic_error)). auto.
Qed.
Lemma inverse_length_elemental : elemental inverse_length.
Proof. intros c c' [A B]. unfold inverse_length. now rewrite A, B. Qed.

(** * Medium::init *)
Definition x_atomic (c : component) : R := inverse_length c * c_atomic c.
Definition n_atomic (c : component) : R := c_atomic c * nucleon_weight c.
Lemma sums_value nan : forall cs a b, (forall c, In c cs -> element c) ->
  length_sums nan a b cs = Ok (a + molecule x_atomic cs, b + molecule c_atomic cs).
Proof.
  induction cs as [|c cs IH]; intros a b H; cbn [length_sums].
  - rewrite !molecule_nil. do 2 f_equal; ring.
  - assert (E : element c) by (apply H; now left). rewrite unsigned_ok by apply E. cbn [obind].
    rewrite (proj1 (inverse_length_spec nan c E)). cbn [obind]. rewrite IH by (intros; apply H; now right).
    rewrite !molecule_cons. unfold x_atomic at 2. do 2 f_equal; ring.
Qed.
Definition summary_of (rho : R) (cs : list component) : summary :=
  mksummary (molecule c_charge cs) (molecule c_atomic cs) (molecule c_charge cs / molecule c_atomic cs)
    (rho * NA / molecule c_atomic cs) (molecule n_atomic cs / molecule c_atomic cs) (molecule c_atomic cs / molecule x_atomic cs).
Lemma atomic_pos cs : substance cs -> 0 < molecule c_atomic cs.
Proof. intros [N H]. apply molecule_pos; auto. intros c Hc. destruct (H c Hc) as [[HZ HA] K]. lra. Qed.
Lemma x_atomic_pos cs : substance cs -> 0 < molecule x_atomic cs.
Proof.
  intros [N H]. apply molecule_pos; auto. intros c Hc. destruct (H c Hc) as [E K]. split; auto.
  destruct (inverse_length_spec (fun A => Throw logic_error) c E) as [_ P]. destruct E as [HZ HA]. unfold x_atomic. nra.
Qed.
Lemma init_value nan rho cs : substance cs -> medium_init nan rho cs = Ok (summary_of rho cs).
Proof.
  intros S. pose proof (atomic_pos cs S) as P. pose proof (x_atomic_pos cs S) as Q. unfold medium_init.
  rewrite (fold_rsum (fun c => c_atoms c * c_charge c)), (fold_rsum (fun c => c_atoms c * c_atomic c)), (fold_rsum (fun c => c_atoms c * c_atomic c * nucleon_weight c)).
  rewrite !Rplus_0_l. fold (molecule c_charge cs). fold (molecule c_atomic cs).
  replace (rsum (map (fun c => c_atoms c * c_atomic c * nucleon_weight c) cs)) with (molecule n_atomic cs).
  2:{ unfold molecule, n_atomic. f_equal. apply map_ext. intros; ring. }
  rewrite !quo_ok by lra. cbn [obind]. rewrite sums_value by (intros c Hc; now apply S). cbn [obind fst snd].
  rewrite !Rplus_0_l, quo_ok by lra. cbn [obind]. reflexivity.
Qed.
Lemma c67_summary nan rho cs : substance cs -> exists s, medium_init nan rho cs = Ok s /\
  su_charge s = molecule c_charge cs /\ su_nucleons s = molecule c_atomic cs /\
  su_ZA s * su_nucleons s = su_charge s /\ 1 / 3 <= su_ZA s <= 1 /\
  su_mol_density s * su_nucleons s = rho * NA /\ MP <= su_MM s <= MN.
Proof.
  intros S. pose proof (atomic_pos cs S) as P. exists (summary_of rho cs). split; [now apply init_value|]. cbn [su_charge su_nucleons su_ZA su_mol_density su_MM summary_of].
  split; [reflexivity|]. split; [reflexivity|]. split; [field; lra|]. destruct S as [N S].
  assert (molecule c_charge cs <= molecule c_atomic cs) by (apply molecule_le; intros c Hc; destruct (S c Hc) as [[HZ HA] K]; lra).
  assert (molecule (fun c => 1 / 3 * c_atomic c) cs <= molecule c_charge cs) as L by (apply molecule_le; intros c Hc; destruct (S c Hc) as [[HZ HA] K]; lra).
  rewrite molecule_const in L.
  assert (B : forall c, In c cs -> 0 < c_atoms c /\ MP * c_atomic c <= n_atomic c <= MN * c_atomic c).
  { intros c Hc. destruct (S c Hc) as [E K]. pose proof (nucleon_range c E). destruct E as [HZ HA]. unfold n_atomic. split; auto. nra. }
  assert (molecule (fun c => MP * c_atomic c) cs <= molecule n_atomic cs) as L1 by (apply molecule_le; intros c Hc; specialize (B c Hc); tauto).
  assert (molecule n_atomic cs <= molecule (fun c => MN * c_atomic c) cs) as L2 by (apply molecule_le; intros c Hc; specialize (B c Hc); tauto).
  rewrite molecule_const in L1, L2.
  clear B S N. set (A := molecule c_atomic cs) in *. set (C := molecule c_charge cs) in *. set (M := molecule n_atomic cs) in *. clearbody A C M.
  split; [split|split; [field; lra|split]].
  - apply (Rle_div_r (1 / 3) C A P). lra.
  - apply (Rle_div_l C 1 A P). lra.
  - apply (Rle_div_r MP M A P). lra.
  - apply (Rle_div_l M MN A P). lra.
Qed.
(** Bragg's rule *)
Lemma single_substance cs c : substance cs -> In c cs -> substance [c].
Proof. intros [_ S] Hc. split; [discriminate|]. intros c' [<-|[]]. now apply S. Qed.
Lemma single_length nan rho c : substance [c] -> exists s, medium_init nan rho [c] = Ok s /\ su_length s = / inverse_length c.
Proof.
  intros S. exists (summary_of rho [c]). split; [now apply init_value|]. cbn [su_length summary_of].
  destruct S as [_ S]. destruct (S c (or_introl eq_refl)) as [E K]. destruct (inverse_length_spec nan c E) as [_ P]. destruct E as [HZ HA].
  rewrite !molecule_cons, !molecule_nil. unfold x_atomic. field. repeat split; try lra.
Qed.
Lemma c67_bragg nan rho cs : substance cs -> exists s, medium_init nan rho cs = Ok s /\ 0 < su_length s /\
  forall X, (forall c, In c cs -> exists s1, medium_init nan rho [c] = Ok s1 /\ su_length s1 = X c) ->
  / su_length s = rsum (map (fun c => component_mass c / rsum (map component_mass cs) * / X c) cs).
Proof.
  intros S. pose proof (atomic_pos cs S) as P. pose proof (x_atomic_pos cs S) as Q. exists (summary_of rho cs). split; [now apply init_value|].
  cbn [su_length summary_of]. split; [now apply Rdiv_lt_0_compat|]. intros X HX.
  assert (HX' : forall c, In c cs -> / X c = inverse_length c).
  { intros c Hc. destruct (HX c Hc) as (s1 & A & B). pose proof (single_substance cs c S Hc) as S1. destruct (single_length nan rho c S1) as (s2 & A' & B').
    rewrite A' in A. injection A as <-. rewrite <- B, B'. apply Rinv_inv. }
  replace (/ (molecule c_atomic cs / molecule x_atomic cs)) with (/ molecule c_atomic cs * molecule x_atomic cs) by (field; lra).
  change (rsum (map component_mass cs)) with (molecule c_atomic cs). set (A := molecule c_atomic cs) in *. clearbody A.
  clear HX Q. assert (HX : forall c, In c cs -> element c /\ / X c = inverse_length c) by (intros c Hc; split; [now apply S|auto]). clear S HX'.
  induction cs as [|c cs IH]; [cbn; ring|]. rewrite molecule_cons. cbn [map rsum fold_right].
  change (fold_right Rplus 0 ?l) with (rsum l). rewrite <- IH by (intros; apply HX; now right).
  rewrite (proj2 (HX c (or_introl eq_refl))). unfold component_mass, x_atomic. field. lra.
Qed.

(** * Invariance *)
Lemma ratios_substance k cs cs' : 0 < k -> same_ratios k cs cs' -> substance cs -> substance cs'.
Proof.
  intros K H [N S]. split.
  - destruct H; [contradiction|discriminate].
  - clear N. induction H as [|c c' l l' [[A B] C] _ IH]; [intros ? []|]. intros d [<-|Hd].
    + destruct (S c (or_introl eq_refl)) as [E P]. unfold element in *. rewrite A, B, C. split; auto. nra.
    + apply IH; auto. intros; apply S; now right.
Qed.
Lemma charge_elemental : elemental c_charge. Proof. intros c c' [A B]. auto. Qed.
Lemma atomic_elemental : elemental c_atomic. Proof. intros c c' [A B]. auto. Qed.
Lemma x_elemental : elemental x_atomic.
Proof. intros c c' E. unfold x_atomic. now rewrite (inverse_length_elemental c c' E), (atomic_elemental c c' E). Qed.
Lemma n_elemental : elemental n_atomic.
Proof. intros c c' [A B]. unfold n_atomic, nucleon_weight. now rewrite A, B. Qed.
Lemma c67_scaling nan rho k cs cs' : 0 < k -> same_ratios k cs cs' -> substance cs -> exists s s',
  medium_init nan rho cs = Ok s /\ medium_init nan rho cs' = Ok s' /\
  su_ZA s' = su_ZA s /\ su_MM s' = su_MM s /\ su_length s' = su_length s /\
  su_charge s' = k * su_charge s /\ su_nucleons s' = k * su_nucleons s /\ su_mol_density s' = su_mol_density s / k.
Proof.
  intros K H S. pose proof (ratios_substance k cs cs' K H S) as S'. pose proof (atomic_pos cs S). pose proof (x_atomic_pos cs S).
  exists (summary_of rho cs), (summary_of rho cs'). split; [now apply init_value|]. split; [now apply init_value|].
  cbn [su_charge su_nucleons su_ZA su_mol_density su_MM su_length summary_of].
  rewrite !(molecule_scale k _ charge_elemental cs cs' H), !(molecule_scale k _ atomic_elemental cs cs' H), !(molecule_scale k _ x_elemental cs cs' H), !(molecule_scale k _ n_elemental cs cs' H).
  repeat split; try field; lra.
Qed.
Lemma c67_order nan rho cs cs' : Permutation cs cs' -> substance cs -> medium_init nan rho cs' = medium_init nan rho cs.
Proof.
  intros H S. assert (S' : substance cs').
  { destruct S as [N S]. split; [intros ->; apply Permutation_sym, Permutation_nil in H; auto|]. intros c Hc. apply S. apply Permutation_sym in H. eapply Permutation_in; eauto. }
  rewrite !init_value by auto. f_equal. unfold summary_of. now rewrite !(molecule_perm _ cs cs' H).
Qed.
Lemma molecule_merge f l1 c1 c2 c l2 : elemental f -> same_element c c1 -> same_element c c2 -> c_atoms c = c_atoms c1 + c_atoms c2 ->
  molecule f (l1 ++ c1 :: c2 :: l2) = molecule f (l1 ++ c :: l2).
Proof. intros E A B C. rewrite !molecule_app, !molecule_cons, C, (E c c1 A), (E c c2 B). ring. Qed.
Lemma c67_merge nan rho l1 c1 c2 c l2 : same_element c c1 -> same_element c c2 -> c_atoms c = c_atoms c1 + c_atoms c2 ->
  substance (l1 ++ c1 :: c2 :: l2) -> medium_init nan rho (l1 ++ c1 :: c2 :: l2) = medium_init nan rho (l1 ++ c :: l2).
Proof.
  intros A B C S. assert (S' : substance (l1 ++ c :: l2)).
  { destruct S as [_ S]. split; [destruct l1; discriminate|]. intros d Hd. apply in_app_or in Hd. destruct Hd as [Hd|[<-|Hd]].
    - apply S. apply in_or_app; now left.
    - destruct (S c1) as [E1 P1]; [apply in_or_app; right; now left|]. destruct (S c2) as [E2 P2]; [apply in_or_app; right; right; now left|].
      split; [|lra]. unfold element in *. destruct A as [A1 A2]. rewrite A1, A2 in E1. exact E1.
    - apply S. apply in_or_app; right; right; now right. }
  rewrite !init_value by auto. f_equal. unfold summary_of.
  rewrite !(molecule_merge _ l1 c1 c2 c l2 charge_elemental A B C), !(molecule_merge _ l1 c1 c2 c l2 atomic_elemental A B C),
    !(molecule_merge _ l1 c1 c2 c l2 x_elemental A B C), !(molecule_merge _ l1 c1 c2 c l2 n_elemental A B C). reflexivity.
Qed.

(** * Suppression *)
Lemma quo_scale nan k a b : k <> 0 -> quo nan (k * a) (k * b) = quo nan a b.
Proof.
  intros K. unfold quo. destruct (Reqb_spec b 0) as [->|B].
  - rewrite Rmult_0_r. now rewrite (proj2 (Reqb_true 0 0) eq_refl).
  - rewrite (proj2 (Reqb_false (k * b) 0)) by (apply Rmult_integral_contrapositive_currified; auto). f_equal. field. auto.
Qed.
Lemma lpm_sum_scale nan k n f cs cs' : k <> 0 -> (forall c c', same_element c c' -> f c' = f c) -> same_ratios k cs cs' ->
  forall a, lpm_sum nan (k * n) f a cs' = lpm_sum nan n f a cs.
Proof.
  intros K F H. induction H as [|c c' l l' [E A] _ IH]; intros a; [reflexivity|]. cbn [lpm_sum].
  rewrite (F c c' E), A, (proj2 E). destruct (f c); cbn [obind]; auto.
  replace (k * c_atoms c * c_atomic c) with (k * (c_atoms c * c_atomic c)) by ring. rewrite quo_scale by auto.
  destruct (quo nan n _); cbn [obind]; auto. destruct (quo nan a0 _); cbn [obind]; auto.
Qed.
Lemma c67_lpm nan mass factor rho f k cs cs' m : 0 < k -> same_ratios k cs cs' -> substance cs -> (forall c c', same_element c c' -> f c' = f c) ->
  new_lpm nan mass factor rho f cs = Ok m -> exists m', new_lpm nan mass factor rho f cs' = Ok m' /\
  (forall M density c E v, brems_suppression nan M m' density c E v = brems_suppression nan M m density c E v) /\
  (forall density c E x, pair_suppression nan m' density c E x = pair_suppression nan m density c E x).
Proof.
  intros K H S F. pose proof (ratios_substance k cs cs' K H S) as S'. pose proof (atomic_pos cs S) as P.
  unfold new_lpm. rewrite (init_value nan rho cs S), (init_value nan rho cs' S'). cbn [obind su_charge su_nucleons su_mol_density summary_of].
  rewrite !(molecule_scale k _ charge_elemental cs cs' H), !(molecule_scale k _ atomic_elemental cs cs' H).
  rewrite (lpm_sum_scale nan k _ f cs cs') by (auto; lra). destruct (lpm_sum _ _ _ _ _) as [sum| |]; cbn [obind]; try discriminate.
  destruct (quo nan _ _) as [q| |]; cbn [obind]; try discriminate. intros M. injection M as <-.
  eexists. split; [reflexivity|].
  set (C := molecule c_charge cs). set (A := molecule c_atomic cs) in *. clearbody A C.
  assert (G : forall g density, 4 * PI * (k * C) * RE * g * g * (rho * NA / (k * A)) * density = 4 * PI * C * RE * g * g * (rho * NA / A) * density).
  { intros. field. lra. }
  split; intros; [unfold brems_suppression|unfold pair_suppression]; cbn [l_mol_density l_sum_charge l_energy].
  - destruct (quo nan ME _); cbn [obind]; auto. destruct (quo nan (_ * v) _); cbn [obind]; auto. destruct (root nan _); cbn [obind]; auto.
    destruct (lpm_xi _ _ _); cbn [obind]; auto. destruct (quo nan (RE * ME) _); cbn [obind]; auto. rewrite G. reflexivity.
  - destruct (quo nan 1 _); cbn [obind]; auto. destruct (quo nan (ALPHA * mass * q) _); cbn [obind]; auto. destruct (root nan _); cbn [obind]; auto.
    destruct (lpm_xi _ _ _); cbn [obind]; auto. destruct (quo nan (RE * ME) _); cbn [obind]; auto. rewrite G. reflexivity.
Qed.

(** * Multiple scattering *)
Lemma moliere_sum f cs a : fold_left Rplus (map (fun c => c_atoms c * f c) cs) a = a + molecule f cs.
Proof. revert a; induction cs as [|c cs IH]; intros a; cbn [map fold_left]; [rewrite molecule_nil; ring|]. rewrite IH, molecule_cons. ring. Qed.
Lemma weights_scale nan k A cs cs' : k <> 0 -> same_ratios k cs cs' -> weights nan (k * A) cs' = weights nan A cs.
Proof.
  intros K H. induction H as [|c c' l l' [E At] _ IH]; [reflexivity|]. cbn [weights]. rewrite IH, At, (proj2 E).
  replace (k * c_atoms c * c_atomic c) with (k * (c_atoms c * c_atomic c)) by ring.
  change (Integral_Model.quotient nan) with (quo nan). now rewrite quo_scale.
Qed.
Lemma map2_same (g : R -> component -> R) : (forall w c c', same_element c c' -> g w c' = g w c) -> forall k cs cs' w, same_ratios k cs cs' ->
  Multiple_Model.map2 g w cs' = Multiple_Model.map2 g w cs.
Proof.
  intros G k cs cs' w H. revert w. unfold map2. induction H as [|c c' l l' [E _] _ IH]; intros [|x w]; cbn; auto.
  rewrite (G x c c' E). f_equal. apply IH.
Qed.
Lemma c67_moliere nan mass k h h' cs cs' : k <> 0 -> same_ratios k cs cs' -> new_moliere nan mass (mkmedium h' cs') = new_moliere nan mass (mkmedium h cs).
Proof.
  intros K H. unfold new_moliere, Multiple_Model.sum. cbn [m_components].
  rewrite !moliere_sum, !Rplus_0_l, (molecule_scale k _ atomic_elemental cs cs' H), (weights_scale nan k _ cs cs' K H).
  destruct (weights _ _ _) as [w| |]; cbn [obind]; auto.
  rewrite (map2_same (fun w c => w * c_atomic c) ltac:(intros ? ? ? [? ->]; reflexivity) k cs cs' w H),
    (map2_same (fun w c => w * c_charge c * c_charge c) ltac:(intros ? ? ? [-> ?]; reflexivity) k cs cs' w H),
    (map2_same (fun w c => w * c_charge c * (c_charge c + 1)) ltac:(intros ? ? ? [-> ?]; reflexivity) k cs cs' w H).
  assert (map c_charge cs' = map c_charge cs) as ->.
  { clear - H. induction H as [|c c' l l' [[E _] _] _ IH]; cbn; congruence. }
  assert (map (fun _ : component => 0) cs' = map (fun _ => 0) cs) as ->.
  { clear - H. induction H; cbn; congruence. }
  reflexivity.
Qed.

(** * Rates *)
Lemma shares_same k m m' : k <> 0 -> same_ratios k (m_components m) (m_components m') -> forall c c', same_element c c' -> c_atoms c' = k * c_atoms c ->
  mass_share m' c' = mass_share m c.
Proof.
  intros K H c c' [_ E] A. unfold mass_share. replace (component_mass c') with (k * c_atoms c * c_atomic c) by (unfold component_mass; now rewrite A, E).
  change (component_mass c) with (c_atoms c * c_atomic c).
  change (rsum (map component_mass (m_components m'))) with (molecule c_atomic (m_components m')).
  change (rsum (map component_mass (m_components m))) with (molecule c_atomic (m_components m)).
  rewrite (molecule_scale k _ atomic_elemental _ _ H). set (M := molecule c_atomic _). clearbody M.
  destruct (Req_dec M 0) as [->|]; [unfold Rdiv; rewrite Rmult_0_r, Rinv_0; ring|field; auto].
Qed.
Lemma shared_sum k m m' f : k <> 0 -> same_ratios k (m_components m) (m_components m') -> (forall c c', same_element c c' -> f c' = f c) ->
  rsum (map (fun c => f c * mass_share m' c) (m_components m')) = rsum (map (fun c => f c * mass_share m c) (m_components m)).
Proof.
  intros K H F. pose proof (shares_same k m m' K H) as Sh. induction H as [|c c' l l' [E A] _ IH]; [reflexivity|].
  cbn [map rsum fold_right]. rewrite (F c c' E), (Sh c c' E A). f_equal. exact IH.
Qed.
Lemma ratios_sound k m m' : 0 < k -> same_ratios k (m_components m) (m_components m') -> sound_medium m -> sound_medium m'.
Proof.
  intros K H [N S]. split.
  - destruct H; [contradiction|discriminate].
  - clear N. induction H as [|c c' l l' [[A B] C] _ IH]; [intros ? []|]. intros d [<-|Hd].
    + destruct (S c (or_introl eq_refl)) as [E P]. rewrite B, C. split; auto. nra.
    + apply IH; auto. intros; apply S; now right.
Qed.
Lemma c67_rates nan order make_n make_e make_e2 make_n' make_e' make_e2' k m m' cut only lower t x x' :
  (forall l, Permutation (order l) l) -> 0 < k -> same_ratios k (m_components m) (m_components m') -> sound_medium m ->
  new_cross_section nan order make_n make_e make_e2 m cut only lower t = Ok x ->
  new_cross_section nan order make_n' make_e' make_e2' m' cut only lower t = Ok x' ->
  forall E f, (forall c c', same_element c c' -> f c' = f c) ->
  (only_continuous cut = false -> distinct_components m -> distinct_components m' ->
   (forall c, In c (m_components m) -> exists calc, make_n c = Ok calc /\ dn_rate calc E = Ok (f c)) ->
   (forall c, In c (m_components m') -> exists calc, make_n' c = Ok calc /\ dn_rate calc E = Ok (f c)) ->
   exists r, x_dNdx (as_cross nan x) E = Ok r /\ x_dNdx (as_cross nan x') E = Ok r) /\
  (cut <> None ->
   (forall c, In c (m_components m) -> exists g, make_e c = Ok (Some g) /\ g E = Ok (f c)) ->
   (forall c, In c (m_components m') -> exists g, make_e' c = Ok (Some g) /\ g E = Ok (f c)) ->
   exists r, x_dEdx (as_cross nan x) E = Ok r /\ x_dEdx (as_cross nan x') E = Ok r).
Proof.
  intros O K H S B B' E f F. pose proof (ratios_sound k m m' K H S) as S'. split.
  - intros C D D' G G'. exists (rsum (map (fun c => f c * mass_share m c) (m_components m))). split; [eapply c14_rates; eauto|].
    erewrite <- (shared_sum k m m' f ltac:(lra) H F). eapply c14_rates; eauto.
  - intros C G G'. exists (rsum (map (fun c => f c * mass_share m c) (m_components m))). split; [eapply c14_continuous; eauto|].
    erewrite <- (shared_sum k m m' f ltac:(lra) H F). eapply c14_continuous; eauto.
Qed.
