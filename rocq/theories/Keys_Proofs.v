(** Proofs about the names of the tables. *)
From Coq Require Import String ClassicalEpsilon Lia.
From Verif Require Import Prelude PreludeFacts Propagator_Model Particle_Model Limits_Model Cross_Model Photo_Model Products_Model
  Differential_Model Integral_Model Utility_Model Ionization_Model Continuous_Model Photopair_Model Nuclear_Model
  Medium_Model Pairs_Model Multiple_Model Keys_Model Differential_Spec Nuclear_Spec Transform_Proofs Differential_Proofs Nuclear_Proofs Keys_Spec.

Lemma cons_same {A} (a b : A) l m : a :: l = b :: m -> a = b /\ l = m.
Proof. intros E. injection E. intros. split; assumption. Qed.
Lemma digest_same l m : Digest l = Digest m -> l = m.
Proof. intros E. injection E. intros. assumption. Qed.
(** ** The keys say what they are made from *)
Section Injective.
Variable of_double : ext -> Z.
Variable of_text : string -> Z.
Lemma component_same c1 c2 : registered of_double of_text c1 -> registered of_double of_text c2 ->
  component_key c1 = component_key c2 -> c1 = c2.
Proof.
  intros R1 R2 E. unfold registered in *. rewrite E, <- R2 in R1. injection E. intros _ _ _ _ A B C.
  destruct c1, c2. cbn in *. subst. reflexivity.
Qed.
Lemma components_same l1 : forall l2, Forall (registered of_double of_text) l1 -> Forall (registered of_double of_text) l2 ->
  map component_key l1 = map component_key l2 -> l1 = l2.
Proof.
  induction l1 as [|c1 l1 IH]; intros [|c2 l2] F1 F2 E; try discriminate; [reflexivity|].
  inversion F1; inversion F2; subst. cbn [map] in E.
  apply cons_same in E. destruct E as [E1 E2].
  f_equal; [apply component_same; assumption|apply IH; assumption].
Qed.
Lemma medium_same m1 m2 : Forall (registered of_double of_text) (md_components m1) ->
  Forall (registered of_double of_text) (md_components m2) -> medium_key m1 = medium_key m2 -> m1 = m2.
Proof.
  intros F1 F2 E. destruct m1 as [[l1 I1 C1 a1 n1 X1 Y1 d1] r1 [s1 s2 s3 s4 s5 s6]].
  destruct m2 as [[l2 I2 C2 a2 n2 X2 Y2 d2] r2 [u1 u2 u3 u4 u5 u6]]. cbn [md_material mat_components] in *.
  assert (map component_key l1 = map component_key l2) as L
    by (injection E; intros K; intros; exact K).
  apply components_same in L; [|assumption..]. subst l2. injection E. intros. subst. reflexivity.
Qed.
End Injective.
Lemma particle_same d1 d2 : particle_key d1 = particle_key d2 -> pd_mass d1 = pd_mass d2 /\ pd_charge d1 = pd_charge d2.
Proof. intros E. injection E. intros. split; assumption. Qed.
Lemma cut_same c1 c2 : cut_key c1 = cut_key c2 -> ecut c1 = ecut c2 /\ vcut c1 = vcut c2.
Proof. intros E. injection E. intros. split; assumption. Qed.
(** Equal up to the flag of the continuous randomization *)
Definition like (p1 p2 : process) : Prop :=
  match p1, p2 with
  | Ioniz k1 o1, Ioniz k2 o2 => k1 = k2 /\ ecut o1 = ecut o2 /\ vcut o1 = vcut o2
  | _, _ => p1 = p2
  end.
Lemma process_same p1 p2 d1 d2 m1 m2 : process_name p1 = process_name p2 -> process_id p1 = process_id p2 ->
  param_key p1 d1 m1 = param_key p2 d2 m2 -> like p1 p2.
Proof.
  intros N I K.
  destruct p1 as [k1 x1|k1 x1| |k1 h1|k1 o1| |k1 x1| |], p2 as [k2 x2|k2 x2| |k2 h2|k2 o2| |k2 x2| |]; try discriminate I; clear I; cbn [like].
  - assert (k1 = k2) as -> by (destruct k1, k2; try reflexivity; discriminate N).
    destruct x1, x2; try discriminate K; [|reflexivity]. injection K. intros. subst. reflexivity.
  - assert (k1 = k2) as -> by (destruct k1, k2; try reflexivity; discriminate N).
    destruct x1, x2; try discriminate K; [|reflexivity]. injection K. intros. subst. reflexivity.
  - reflexivity.
  - assert (k1 = k2) as -> by (destruct k1, k2; try reflexivity; discriminate N).
    injection K. intros. subst. reflexivity.
  - assert (k1 = k2) as -> by (destruct k1, k2; try reflexivity; discriminate N).
    assert (cut_key o1 = cut_key o2) as C by (destruct k2; injection K; intros A B; unfold cut_key; rewrite A, B; reflexivity).
    split; [reflexivity|apply cut_same; exact C].
  - reflexivity.
  - assert (k1 = k2) as -> by (destruct k1, k2; try reflexivity; discriminate N).
    destruct x1, x2; try discriminate K; [|reflexivity]. injection K. intros. subst. reflexivity.
  - reflexivity.
  - reflexivity.
Qed.

(** ** The contents *)
Section Content.
Variable nan : forall A, outcome A.
Variable qags : (R -> outcome R) -> R -> R -> outcome R.
Variable finished : run R -> outcome R.
Variable correction : R -> R -> outcome R.
Variable koch_motz_data koch_motz_total : component -> R -> outcome R.
Variable rhode_table : R -> outcome R.
Variable interpolate : list R -> R -> outcome R.
Variable weak_table : bool -> R -> R -> outcome (R * R).
Variable contribution : process -> R -> component -> outcome R.
Variable dilog : R -> R.
Notation content := (content nan qags finished correction koch_motz_data koch_motz_total rhode_table interpolate weak_table contribution dilog).
Notation table_value := (table_value nan qags finished correction koch_motz_data koch_motz_total rhode_table interpolate weak_table contribution dilog).
Lemma content_same p1 p2 d1 d2 m c1 c2 : like p1 p2 -> pd_mass d1 = pd_mass d2 -> pd_charge d1 = pd_charge d2 ->
  (hard p1 = true -> pd_table d1 = pd_table d2) -> (of_medium p1 = false -> c1 = c2) ->
  content p1 d1 m c1 = content p2 d2 m c2 /\ spacing_of p1 = spacing_of p2 /\
  rate_integral nan qags p1 = rate_integral nan qags p2.
Proof.
  intros L M Q H C.
  destruct p1 as [k1 x1|k1 x1| |k1 h1|k1 [o1 w1 b1]| |k1 x1| |], p2 as [k2 x2|k2 x2| |k2 h2|k2 [o2 w2 b2]| |k2 x2| |]; cbn [like] in L; try discriminate L;
  try (injection L; intros; subst); try (rewrite (C eq_refl)); unfold content; cbv zeta; rewrite ?M, ?Q.
  all: try (split; [reflexivity|split; intros; reflexivity]).
  - split; [|split; intros; reflexivity]. destruct h2; [|reflexivity]. rewrite (H eq_refl). reflexivity.
  - cbn in L. destruct L as (-> & -> & ->). split; [|split; intros; reflexivity]. destruct k2; reflexivity.
Qed.
Lemma within_same o w b1 b2 : get_cut_within (mkcut o w b1) = get_cut_within (mkcut o w b2).
Proof. reflexivity. Qed.
Lemma limits_same o w b1 b2 k E : integration_limits k (Some (mkcut o w b1)) E = integration_limits k (Some (mkcut o w b2)) E.
Proof. reflexivity. Qed.
Lemma loss_same o w b1 b2 s q E : continuous_loss nan qags s q (mkcut o w b1) E = continuous_loss nan qags s q (mkcut o w b2) E.
Proof. unfold continuous_loss, dedx_integral. rewrite (within_same o w b1 b2). reflexivity. Qed.
Lemma variance_same o w b1 b2 q E : continuous_variance nan qags q (mkcut o w b1) E = continuous_variance nan qags q (mkcut o w b2) E.
Proof. unfold continuous_variance. rewrite (within_same o w b1 b2). reflexivity. Qed.
Lemma low_same p1 p2 : like p1 p2 -> forall k1 k2 d1 d2 m1 m2 c1 c2 u1 u2 z1 z2, pd_mass d1 = pd_mass d2 ->
  table_low (mktable k1 p1 d1 m1 c1 u1 z1) = table_low (mktable k2 p2 d2 m2 c2 u2 z2).
Proof.
  intros L; intros. unfold table_low. cbn [t_particle t_process]. rewrite H.
  destruct p1, p2; cbn [like] in L; try discriminate L; reflexivity.
Qed.
Lemma key_same of_double of_text t1 t2 : built of_double of_text t1 -> built of_double of_text t2 ->
  prefix (t_kind t1) = prefix (t_kind t2) -> table_key t1 = table_key t2 ->
  like (t_process t1) (t_process t2) /\ pd_mass (t_particle t1) = pd_mass (t_particle t2) /\
  pd_charge (t_particle t1) = pd_charge (t_particle t2) /\ t_medium t1 = t_medium t2 /\
  (of_medium (t_process t1) = false -> t_component t1 = t_component t2) /\
  option_map cut_key (t_cut t1) = option_map cut_key (t_cut t2) /\ t_kind t1 = t_kind t2 /\ t_upper t1 = t_upper t2.
Proof.
  intros [R1 F1] [R2 F2] P K. destruct t1 as [k1 p1 d1 m1 c1 u1 z1], t2 as [k2 p2 d2 m2 c2 u2 z2].
  cbn [t_kind t_process t_particle t_medium t_component t_cut t_upper] in *.
  apply digest_same in K. cbn [app t_kind t_process t_particle t_medium t_component t_cut t_upper] in K.
  apply cons_same in K. destruct K as [N K]. apply cons_same in K. destruct K as [I K]. apply cons_same in K. destruct K as [Y K].
  apply cons_same in K. destruct K as [D K]. apply cons_same in K. destruct K as [M K].
  apply (medium_same of_double of_text) in M; [|assumption..]. apply particle_same in D. destruct D as [D1 D2].
  assert (process_name p1 = process_name p2) as N' by (injection N; intros; assumption).
  assert (process_id p1 = process_id p2) as I' by (injection I; intros; assumption).
  pose proof (process_same _ _ _ _ _ _ N' I' Y) as L. clear N I Y N' I'.
  assert (of_medium p1 = of_medium p2) as O by (destruct p1, p2; cbn [like] in L; try discriminate L; reflexivity).
  rewrite <- O in K.
  assert (match u1 with Some c => [cut_key c] | None => [] end = match u2 with Some c => [cut_key c] | None => [] end /\
    kind_key k1 z1 ++ (if of_medium p1 then [] else [component_key c1]) = kind_key k2 z2 ++ (if of_medium p1 then [] else [component_key c2])) as [K1 K2].
  { destruct u1, u2, k1, k2; cbn [app kind_key] in K |- *; try discriminate P; try (apply cons_same in K; destruct K as [K1 K2]); try discriminate K1;
    try (rewrite K1); try (split; [reflexivity|]; exact K2); try (split; [reflexivity|]; rewrite K2; reflexivity). }
  assert (k1 = k2 /\ z1 = z2 /\ (if of_medium p1 then [] else [component_key c1]) = (if of_medium p1 then [] else [component_key c2])) as (K3 & K4 & K5).
  { destruct k1, k2; try discriminate P; cbn [app kind_key] in K2.
    - apply cons_same in K2. destruct K2 as [A K2]. apply cons_same in K2. destruct K2 as [B K2]. apply cons_same in K2. destruct K2 as [C K2].
      injection A. injection B. injection C. intros. subst. auto.
    - apply cons_same in K2. destruct K2 as [A K2]. apply cons_same in K2. destruct K2 as [C K2].
      injection A. injection C. intros. subst. auto.
    - apply cons_same in K2. destruct K2 as [A K2]. apply cons_same in K2. destruct K2 as [C K2].
      injection A. injection C. intros. subst. auto. }
  split; [exact L|]. split; [exact D1|]. split; [exact D2|]. split; [exact M|]. split.
  { intros E. rewrite E in K5. apply cons_same in K5. destruct K5 as [K5 _]. apply (component_same of_double of_text); assumption. }
  split; [|split; assumption].
  destruct u1, u2; cbn [option_map]; try discriminate K1; [|reflexivity]. apply cons_same in K1. destruct K1 as [K1 _]. rewrite K1. reflexivity.
Qed.
Lemma value_same of_double of_text t1 t2 : built of_double of_text t1 -> built of_double of_text t2 ->
  (hard (t_process t1) = true -> pd_table (t_particle t1) = pd_table (t_particle t2)) ->
  prefix (t_kind t1) = prefix (t_kind t2) -> table_key t1 = table_key t2 -> interchangeable table_value t1 t2.
Proof.
  intros B1 B2 H P K. destruct (key_same _ _ _ _ B1 B2 P K) as (L & D1 & D2 & M & C & U & KK & Z).
  destruct t1 as [k1 p1 d1 m1 c1 u1 z1], t2 as [k2 p2 d2 m2 c2 u2 z2].
  cbn [t_kind t_process t_particle t_medium t_component t_cut t_upper] in *. subst k2 z2 m2.
  split; [reflexivity|]. split; [reflexivity|]. split; [apply low_same; assumption|].
  intros E w. unfold table_value. cbn [t_kind t_process t_particle t_medium t_component t_cut t_upper].
  destruct (content_same p1 p2 d1 d2 m1 c1 c2 L D1 D2 H C) as (E1 & E2 & E3). rewrite E1, E2.
  destruct (content p2 d2 m1 c2) as [q s].
  assert (match u1, u2 with Some a, Some b => ecut a = ecut b /\ vcut a = vcut b | None, None => True | _, _ => False end) as U'.
  { destruct u1, u2; cbn [option_map] in U; try discriminate U; [|exact I].
    assert (cut_key e = cut_key e0) as U1 by congruence. apply cut_same. exact U1. }
  destruct u1 as [[o1 w1 b1]|], u2 as [[o2 w2 b2]|]; cbn in U'; try contradiction; [destruct U' as [-> ->]|]; rewrite E3; destruct k1;
  [rewrite (limits_same o2 w2 b1 b2)|rewrite (loss_same o2 w2 b1 b2)|rewrite (variance_same o2 w2 b1 b2)| | |]; reflexivity.
Qed.
Lemma tables of_double of_text t1 t2 : built of_double of_text t1 -> built of_double of_text t2 ->
  (hard (t_process t1) = true -> pd_table (t_particle t1) = pd_table (t_particle t2)) ->
  file_name of_double of_text t1 = file_name of_double of_text t2 ->
  interchangeable table_value t1 t2 \/ collide of_double of_text (table_key t1) (table_key t2).
Proof.
  intros B1 B2 H F.
  pose proof (f_equal fst F) as P. pose proof (f_equal snd F) as K. unfold file_name in P, K. cbn [fst snd] in P, K. clear F.
  destruct (excluded_middle_informative (table_key t1 = table_key t2)) as [E|E]; [left|right; split; assumption].
  exact (value_same _ _ _ _ B1 B2 H P E).
Qed.
End Content.

(** ** One step of the combination *)
Definition size : Z := (2 ^ 64)%Z.
Lemma size_pos : (0 < size)%Z. Proof. reflexivity. Qed.
Lemma lxor_range a b : (0 <= a < size -> 0 <= b < size -> 0 <= Z.lxor a b < size)%Z.
Proof.
  intros A B. assert (Z.lxor a b = Z.lxor a b mod 2 ^ 64)%Z as ->; [|apply Z.mod_pos_bound, size_pos].
  apply Z.bits_inj'. intros n Hn. destruct (Z.lt_ge_cases n 64) as [L|L].
  - rewrite Z.mod_pow2_bits_low by exact L. reflexivity.
  - rewrite Z.mod_pow2_bits_high by lia. rewrite Z.lxor_spec.
    rewrite <- (Z.mod_small a size), <- (Z.mod_small b size) by assumption. unfold size. rewrite !Z.mod_pow2_bits_high by lia. reflexivity.
Qed.
Lemma mix_range s h : (0 <= s < size -> 0 <= mix s h < size)%Z.
Proof. intros S. unfold mix. apply lxor_range; [exact S|apply Z.mod_pos_bound, size_pos]. Qed.
Lemma lxor_cancel a b c : Z.lxor a b = Z.lxor a c -> b = c.
Proof.
  intros E. apply (f_equal (Z.lxor a)) in E. rewrite <- !Z.lxor_assoc, !Z.lxor_nilpotent, !Z.lxor_0_l in E. exact E.
Qed.
Lemma mix_inj s a b : (0 <= a < size -> 0 <= b < size -> mix s a = mix s b -> a = b)%Z.
Proof.
  intros A B E. unfold mix in E. apply lxor_cancel in E. fold size in E.
  set (k := (Z.shiftl s 6 mod size)%Z) in *. set (j := Z.shiftr s 2) in *. clearbody k j.
  assert ((a - b) mod size = 0)%Z as D.
  { replace (a - b)%Z with ((a + 2654435769 + k + j) - (b + 2654435769 + k + j))%Z by lia.
    rewrite Zminus_mod, E, Z.sub_diag. reflexivity. }
  apply Z.mod_divide in D; [|exact (Z.neq_sym _ _ (Z.lt_neq _ _ size_pos))]. destruct D as [q Q]. unfold size in *. lia.
Qed.
Section Digests.
Variable of_double : ext -> Z.
Variable of_text : string -> Z.
Notation hash := (hash of_double of_text).
Lemma fold_range l : forall s, (0 <= s < size)%Z -> (0 <= fold_left (fun seed w => mix seed (hash w)) l s < size)%Z.
Proof. induction l as [|w l IH]; intros s S; cbn [fold_left]; [exact S|]. apply IH, mix_range, S. Qed.
Lemma digest_range l : (0 <= hash (Digest l) < size)%Z.
Proof. apply fold_range. split; [apply Z.le_refl|exact size_pos]. Qed.
Lemma last_inj l a b : (0 <= hash a < size -> 0 <= hash b < size -> hash (Digest (l ++ [a])) = hash (Digest (l ++ [b])) -> hash a = hash b)%Z.
Proof.
  intros A B E. cbn [Keys_Model.hash] in E. rewrite !fold_left_app in E. cbn [fold_left] in E. apply mix_inj in E; assumption.
Qed.
Lemma components_apart t1 t2 : built of_double of_text t1 -> built of_double of_text t2 ->
  t_kind t1 = t_kind t2 -> t_process t1 = t_process t2 -> t_particle t1 = t_particle t2 -> t_medium t1 = t_medium t2 ->
  t_cut t1 = t_cut t2 -> t_upper t1 = t_upper t2 -> of_medium (t_process t1) = false ->
  file_name of_double of_text t1 = file_name of_double of_text t2 -> c_hash (t_component t1) = c_hash (t_component t2).
Proof.
  intros [B1 _] [B2 _] K P D M C U O F. apply (f_equal snd) in F. unfold file_name in F. cbn [snd] in F.
  unfold table_key in F. rewrite <- K, <- P, <- D, <- M, <- C, <- U, O in F. rewrite !app_assoc in F.
  apply last_inj in F; [|apply digest_range..]. unfold registered in *. rewrite B1, B2, F. reflexivity.
Qed.
(** More tables than names *)
Lemma map_distinct {A B} (f : A -> B) l : (forall x y, In x l -> In y l -> f x = f y -> x = y) -> NoDup l -> NoDup (map f l).
Proof.
  induction l as [|x l IH]; intros I D; cbn [map]; [constructor|]. inversion D as [|? ? D1 D2]; subst. constructor.
  - intros K. apply in_map_iff in K. destruct K as (y & E & Y). rewrite (I y x (or_intror Y) (or_introl eq_refl) E) in Y. exact (D1 Y).
  - apply IH; [|exact D2]. intros a b Ia Ib. apply I; right; assumption.
Qed.
Lemma pigeon (n : Z) (f : Z -> Z) : (0 < n)%Z -> (forall i, 0 <= i <= n -> 0 <= f i < n)%Z ->
  exists i j, (0 <= i < j)%Z /\ (j <= n)%Z /\ f i = f j.
Proof.
  intros N R. destruct (excluded_middle_informative (exists i j, (0 <= i < j)%Z /\ (j <= n)%Z /\ f i = f j)) as [E|E]; [exact E|exfalso].
  assert (forall i j, (0 <= i <= n)%Z -> (0 <= j <= n)%Z -> f i = f j -> i = j) as Inj.
  { intros i j I J F. destruct (Z.lt_trichotomy i j) as [L|[L|L]]; [|exact L|].
    - exfalso. apply E. exists i, j. split; [lia|]. split; [lia|exact F].
    - exfalso. apply E. exists j, i. split; [lia|]. split; [lia|symmetry; exact F]. }
  assert (List.length (map (fun i => Z.to_nat (f (Z.of_nat i))) (seq 0 (Datatypes.S (Z.to_nat n)))) <= List.length (seq 0 (Z.to_nat n)))%nat as L.
  { apply NoDup_incl_length.
    - apply map_distinct; [|apply seq_NoDup].
      intros x y X Y F. apply in_seq in X. apply in_seq in Y.
      assert (0 <= Z.of_nat x <= n)%Z by lia. assert (0 <= Z.of_nat y <= n)%Z by lia.
      pose proof (R _ H). pose proof (R _ H0). apply Nat2Z.inj. apply Inj; [assumption..|]. apply Z2Nat.inj; lia.
    - intros y Y. apply in_map_iff in Y. destruct Y as (x & <- & X). apply in_seq in X. apply in_seq.
      assert (0 <= Z.of_nat x <= n)%Z by lia. pose proof (R _ H). lia. }
  rewrite map_length, !seq_length in L. lia.
Qed.
(** Tables of the same medium and cut for differently chosen axes *)
Lemma crowded p d m c u : exists t1 t2,
  (exists a1 b1, t1 = mktable (DNDX a1 b1) p d m c u (t_upper t1) /\ (1 <= a1 <= 2 ^ 31)%Z /\ (1 <= b1 <= 2 ^ 31)%Z) /\
  (exists a2 b2, t2 = mktable (DNDX a2 b2) p d m c u (t_upper t2) /\ (1 <= a2 <= 2 ^ 31)%Z /\ (1 <= b2 <= 2 ^ 31)%Z) /\
  10 ^ 9 <= t_upper t1 <= 10 ^ 10 /\ 10 ^ 9 <= t_upper t2 <= 10 ^ 10 /\
  file_name of_double of_text t1 = file_name of_double of_text t2 /\ (t_kind t1 <> t_kind t2 \/ t_upper t1 <> t_upper t2).
Proof.
  set (f := fun n : Z => mktable (DNDX (1 + n mod 2 ^ 31) (1 + n / 2 ^ 31 mod 2 ^ 31)) p d m c u (10 ^ 9 + IZR (n / 2 ^ 62))).
  destruct (pigeon size (fun n => hash (table_key (f n))) size_pos (fun n _ => digest_range _)) as (i & j & I & J & F).
  exists (f i), (f j).
  assert (forall n, (0 <= n <= size)%Z -> (exists a1 b1, f n = mktable (DNDX a1 b1) p d m c u (t_upper (f n)) /\ (1 <= a1 <= 2 ^ 31)%Z /\ (1 <= b1 <= 2 ^ 31)%Z) /\
    10 ^ 9 <= t_upper (f n) <= 10 ^ 10) as W.
  { intros n N. split.
    - eexists _, _. split; [reflexivity|]. pose proof (Z.mod_pos_bound n (2 ^ 31) eq_refl). pose proof (Z.mod_pos_bound (n / 2 ^ 31) (2 ^ 31) eq_refl). lia.
    - cbn [t_upper f]. assert (0 <= n / 2 ^ 62 <= 4)%Z as [A B]
        by (split; [apply Z.div_pos; lia|apply Z.div_le_upper_bound; [reflexivity|exact (proj2 N)]]).
      apply IZR_le in A. apply IZR_le in B. lra. }
  destruct (W i ltac:(lia)) as [W1 W2]. destruct (W j ltac:(lia)) as [W3 W4].
  split; [exact W1|]. split; [exact W3|]. split; [exact W2|]. split; [exact W4|]. split.
  - unfold file_name. rewrite F. reflexivity.
  - destruct (excluded_middle_informative (t_kind (f i) = t_kind (f j))) as [K|K]; [right|left; exact K].
    intros U. cbn [t_kind t_upper f] in K, U. injection K. intros K2 K1. apply Rplus_eq_reg_l in U. apply eq_IZR in U.
    pose proof (Z.div_mod i (2 ^ 31) ltac:(discriminate)) as D1. pose proof (Z.div_mod j (2 ^ 31) ltac:(discriminate)) as D2.
    pose proof (Z.div_mod (i / 2 ^ 31) (2 ^ 31) ltac:(discriminate)) as D3. pose proof (Z.div_mod (j / 2 ^ 31) (2 ^ 31) ltac:(discriminate)) as D4.
    rewrite Z.div_div in D3, D4 by (try discriminate; reflexivity). change (2 ^ 31 * 2 ^ 31)%Z with (2 ^ 62)%Z in *. rewrite U in D3.
    assert (i / 2 ^ 31 = j / 2 ^ 31)%Z as D5 by (rewrite D3, D4; f_equal; apply (Z.add_reg_l 1); exact K2).
    assert (i mod 2 ^ 31 = j mod 2 ^ 31)%Z as D6 by (apply (Z.add_reg_l 1); exact K1). rewrite D5, D6, <- D2 in D1. lia.
Qed.
End Digests.

(** ** What the names leave out *)
Lemma table_dropped of_double of_text k p d y m c u z :
  hard p = true -> file_name of_double of_text (mktable k p (with_table d y) m c u z) = file_name of_double of_text (mktable k p d m c u z).
Proof. destruct p; try discriminate. intros _. destruct d. reflexivity. Qed.
Section Hard.
Variable nan : forall A, outcome A.
Variable qags : (R -> outcome R) -> R -> R -> outcome R.
Variable finished : run R -> outcome R.
Variable correction : R -> R -> outcome R.
Variable koch_motz_data koch_motz_total : component -> R -> outcome R.
Variable rhode_table : R -> outcome R.
Variable interpolate : list R -> R -> outcome R.
Variable weak_table : bool -> R -> R -> outcome (R * R).
Variable contribution : process -> R -> component -> outcome R.
Variable dilog : R -> R.
Hypothesis flat : forall x e, interpolate [x; x; x; x; x; x; x] e = Ok x.
Notation content := (content nan qags finished correction koch_motz_data koch_motz_total rhode_table interpolate weak_table contribution dilog).
Lemma hard_flat y E v : 10 ^ 5 <= E -> / 10 ^ 7 <= v -> hard_component nan interpolate [[y; y; y; y; y; y; y]] E v = Ok (y / v).
Proof.
  intros HE HV. assert (0 < / 10 ^ 7) by (apply Rinv_0_lt_compat; lra). unfold hard_component.
  rewrite (proj2 (Rltb_false _ _)) by lra. rewrite (proj2 (Rltb_false _ _)) by lra. cbn [orb].
  rewrite log_ok by lra. cbn [obind]. rewrite log_ok by lra. cbn [obind hard_sum]. rewrite flat. cbn [obind]. rewrite quo_ok by lra. f_equal. field. lra.
Qed.
Lemma hard_value m c d v : element c -> 0 < pd_mass d -> pd_charge d <> 0 -> / 10 ^ 7 <= v < 1 -> makes_pion c (v * 10 ^ 6) -> exists b,
  forall y, p_differential (fst (content (Photo Zeus true) (with_table d [[y; y; y; y; y; y; y]]) m c)) (10 ^ 6) v =
    Ok (b + NA * pd_charge d ^ 2 / 10 ^ 30 * (y / v)).
Proof.
  intros EL M Q V P. assert (0 < / 10 ^ 7) by (apply Rinv_0_lt_compat; lra).
  destruct (zeus_threshold c (v * 10 ^ 6) EL) as (x & X & X1 & _). specialize (X1 P).
  set (q := pd_charge d) in *. set (mu := pd_mass d) in *.
  destruct (real_photon_value nan zeus soft mu q c (10 ^ 6) v x 0 EL M Q ltac:(lra) X X1 eq_refl) as (G & k & _ & _ & _ & B).
  revert B. match goal with |- _ = Ok ?r -> _ => generalize r end. intros b B.
  exists b. intros y. transitivity (real_photon nan zeus (hard_component nan interpolate [[y; y; y; y; y; y; y]]) mu q c (10 ^ 6) v); [destruct d; reflexivity|].
  revert B. unfold real_photon.
  repeat match goal with |- obind ?o ?f = Ok _ -> _ => lazymatch o with soft _ _ => fail | _ => destruct o; cbn [obind]; [|intros; discriminate..] end end.
  rewrite hard_flat by lra. unfold soft. cbn [obind].
  destruct EL as [EL1 EL2]. rewrite quo_ok by lra. cbn [obind]. intros B. injection B as <-. f_equal. pose proof PI_RGT_0. field. repeat split; lra.
Qed.
Lemma hard_missing of_double of_text d m c : element c -> 0 < pd_mass d -> pd_charge d <> 0 -> exists y1 y2,
  (forall k u z, file_name of_double of_text (mktable k (Photo Zeus true) (with_table d y1) m c u z) =
                 file_name of_double of_text (mktable k (Photo Zeus true) (with_table d y2) m c u z)) /\
  exists E v x1 x2, p_differential (fst (content (Photo Zeus true) (with_table d y1) m c)) E v = Ok x1 /\
    p_differential (fst (content (Photo Zeus true) (with_table d y2) m c)) E v = Ok x2 /\ x1 < x2.
Proof.
  intros EL M Q. exists [[/ 10 ^ 3; / 10 ^ 3; / 10 ^ 3; / 10 ^ 3; / 10 ^ 3; / 10 ^ 3; / 10 ^ 3]], [[/ 10 ^ 2; / 10 ^ 2; / 10 ^ 2; / 10 ^ 2; / 10 ^ 2; / 10 ^ 2; / 10 ^ 2]].
  split; [intros; rewrite !table_dropped by reflexivity; reflexivity|].
  assert (makes_pion c (1 / 2 * 10 ^ 6)) as P.
  { apply threshold_iff; [exact EL|]. unfold production_cutoff. pose proof (nucleon_range c EL) as [N1 N2]. unfold MP, MN in *.
    assert (MPI * MPI / (2 * nucleon_weight c) <= MPI * MPI) as L 
      by (rewrite <- (Rmult_1_r (MPI * MPI)) at 2; apply Rmult_le_compat_l; [unfold MPI; lra|]; rewrite <- Rinv_1; apply Rinv_le_contravar; lra). unfold MPI in *. lra. }
  destruct (hard_value m c d (1 / 2) EL M Q ltac:(lra) P) as [b B]. exists (10 ^ 6), (1 / 2). eexists _, _. split; [apply B|]. split; [apply B|].
  apply Rplus_lt_compat_l. assert (0 < pd_charge d ^ 2) by (pose proof (Rsqr_pos_lt _ Q); unfold Rsqr in *; nra). assert (0 < NA) by (unfold NA; lra).
  apply Rmult_lt_compat_l; [|lra]. apply Rdiv_lt_0_compat; [apply Rmult_lt_0_compat; assumption|lra].
Qed.
End Hard.

(** ** Utilities *)
Lemma words_same l1 : forall l2 r, told_apart (l1 ++ r) -> (forall x, In x l2 -> In x r) -> words l1 = words l2 -> map k_cross l1 = map k_cross l2.
Proof.
  induction l1 as [|x l1 IH]; intros [|y l2] r T S E; try discriminate; [reflexivity|]. apply cons_same in E. destruct E as [E1 E2].
  cbn [map]. f_equal.
  - apply T; [left; reflexivity|right; apply in_or_app; right; apply S; left; reflexivity|]. injection E1; intros; assumption.
  - apply (IH l2 r); [|intros z Z; apply S; right; exact Z|exact E2]. intros a b A B. apply T; right; assumption.
Qed.
Section Utilities.
Variable nan : forall A, outcome A.
Lemma utility_same u1 u2 n1 n2 b1 b2 z1 z2 : utility_prefix u1 = utility_prefix u2 ->
  told_apart (utility_cross u1 ++ utility_cross u2) -> one_list u1 -> one_list u2 -> unnamed_mass u1 = unnamed_mass u2 ->
  utility_key u1 n1 b1 z1 = utility_key u2 n2 b2 z2 ->
  n1 = n2 /\ b1 = b2 /\ z1 = z2 /\ forall E, utility_function nan u1 E = utility_function nan u2 E.
Proof.
  intros P T O1 O2 M K. apply digest_same in K.
  assert (utility_values u1 = utility_values u2 /\ [Word n1; Flag b1; Real z1] = [Word n2; Flag b2; Real z2]) as [V W].
  { change [Word n1; Flag b1; Real z1] with ([Word n1] ++ [Flag b1] ++ [Real z1]) in K.
    change [Word n2; Flag b2; Real z2] with ([Word n2] ++ [Flag b2] ++ [Real z2]) in K. rewrite !app_assoc in K.
    apply app_inj_tail in K. destruct K as [K ->]. apply app_inj_tail in K. destruct K as [K ->]. apply app_inj_tail in K. destruct K as [K ->].
    split; [exact K|reflexivity]. }
  injection W. intros -> -> ->. split; [reflexivity|]. split; [reflexivity|]. split; [reflexivity|]. intros E.
  assert (map k_cross (utility_cross u1) = map k_cross (utility_cross u2)) as C.
  { apply (words_same _ _ _ T); [auto|]. destruct u1, u2; try discriminate P; cbn [utility_values utility_cross one_list] in *; subst; try exact V.
    - apply cons_same in V. destruct V as [V _]. apply digest_same in V. exact V.
    - apply cons_same in V. destruct V as [V _]. apply digest_same in V. exact V. }
  destruct u1, u2; try discriminate P; cbn [utility_function utility_values utility_cross one_list unnamed_mass] in *; subst; cbv zeta; rewrite C; try reflexivity.
  - apply cons_same in V. destruct V as [_ V]. injection V. intros. subst. reflexivity.
  - injection M as ->. reflexivity.
  - injection M as ->. reflexivity.
Qed.
End Utilities.
(** Cross sections with constant losses, variances and rates *)
Definition constant (a b n : R) : cross_base :=
  mkcross (fun _ => Ok a) (fun _ => Ok b) (fun _ => Ok n) (fun _ _ => Ok n) (fun _ _ _ => Ok n) (fun _ => Ok [(1%N, n)]) (fun _ _ _ => Ok a)
    1 Propagator_Model.Brems None.
Lemma apart1 x y : k_hash x <> k_hash y -> told_apart [x; y].
Proof. intros N a b [<-|[<-|[]]] [<-|[<-|[]]] E; try reflexivity; [contradiction|symmetry in E; contradiction]. Qed.
Section Confused.
Variable nan : forall A, outcome A.
Lemma disp_constant h a b n E : 0 < a -> displacement_function nan (map k_cross [mkkeyed h (constant a b n)]) E = Ok (-1 / a).
Proof.
  intros A. unfold displacement_function, dEdx_loop. cbn [map k_cross constant x_dEdx obind]. rewrite Rplus_0_l.
  rewrite (proj2 (Rltb_true _ _)) by lra. rewrite quo_ok by lra. reflexivity.
Qed.
Lemma interaction_confused : confused nan (Interaction [mkkeyed 1 (constant 1 1 1)] [mkkeyed 3 (constant 1 1 1)])
  (Interaction [mkkeyed 2 (constant 2 1 1)] [mkkeyed 3 (constant 1 1 1)]).
Proof.
  split; [reflexivity|]. split; [apply apart1; discriminate|]. split; [intros; reflexivity|]. exists 1, (-1 / 1 * 1), (-1 / 2 * 1).
  split; [|split; [|lra]]; cbn [utility_function]; unfold interaction_function; rewrite disp_constant by lra;
    unfold total_rate; cbn [map k_cross total_rate_loop constant x_dNdx obind]; rewrite (proj2 (Rltb_true _ _)) by lra; cbn [obind]; f_equal; lra.
Qed.
Lemma cont_rand_confused : confused nan (ContRand [mkkeyed 1 (constant 1 1 1)] [mkkeyed 2 (constant 1 1 1)])
  (ContRand [mkkeyed 1 (constant 1 1 1)] [mkkeyed 3 (constant 1 2 1)]).
Proof.
  split; [reflexivity|]. split; [intros a b [<-|[<-|[]]] [<-|[<-|[]]] _; reflexivity|]. split; [intros; reflexivity|]. exists 1, (-1 / 1 * 1), (-1 / 1 * 2).
  split; [|split; [|lra]]; cbn [utility_function]; unfold cont_rand_function; rewrite disp_constant by lra;
    cbn [map k_cross dE2dx_loop constant x_dE2dx obind]; f_equal; lra.
Qed.
Lemma time_confused : confused nan (Time [mkkeyed 1 (constant 1 1 1)] 1) (Time [mkkeyed 1 (constant 1 1 1)] 2).
Proof.
  split; [reflexivity|]. split; [intros a b [<-|[<-|[]]] [<-|[<-|[]]] _; reflexivity|]. split; [intros; reflexivity|].
  exists 3, (-1 / 1 * 3 / (sqrt 8 * SPEED)), (-1 / 1 * 3 / (sqrt 5 * SPEED)).
  assert (0 < sqrt 8) by (apply sqrt_lt_R0; lra). assert (0 < sqrt 5) by (apply sqrt_lt_R0; lra).
  assert (sqrt 5 < sqrt 8) by (apply sqrt_lt_1; lra).
  split; [|split].
  - cbn [utility_function]. unfold time_function. rewrite disp_constant by lra. cbn [obind]. rewrite (proj2 (Reqb_false _ _)) by lra.
    replace ((3 - 1) * (3 + 1)) with 8 by ring. rewrite Rmax_left by lra. unfold quotient. rewrite (proj2 (Reqb_false _ _)) by (unfold SPEED; nra). reflexivity.
  - cbn [utility_function]. unfold time_function. rewrite disp_constant by lra. cbn [obind]. rewrite (proj2 (Reqb_false _ _)) by lra.
    replace ((3 - 2) * (3 + 2)) with 5 by ring. rewrite Rmax_left by lra. unfold quotient. rewrite (proj2 (Reqb_false _ _)) by (unfold SPEED; nra). reflexivity.
  - assert (0 < SPEED) by (unfold SPEED; lra). assert (sqrt 5 * SPEED < sqrt 8 * SPEED) by nra. assert (0 < sqrt 5 * SPEED) by nra.
    assert (/ (sqrt 8 * SPEED) < / (sqrt 5 * SPEED)) by (apply Rinv_lt_contravar; nra). unfold Rdiv. lra.
Qed.
Lemma highland_confused : confused nan (Highland [mkkeyed 1 (constant 1 1 1)] 1) (Highland [mkkeyed 1 (constant 1 1 1)] 2).
Proof.
  split; [reflexivity|]. split; [intros a b [<-|[<-|[]]] [<-|[<-|[]]] _; reflexivity|]. split; [intros; reflexivity|].
  exists 3, (-1 / 1 * (3 / 8) * (3 / 8)), (-1 / 1 * (3 / 5) * (3 / 5)).
  split; [|split; [|lra]]; cbn [utility_function]; unfold highland_integrand, quotient; rewrite disp_constant by lra;
    rewrite (proj2 (Reqb_false _ _)) by lra; cbn [obind]; do 2 f_equal; lra.
Qed.
End Confused.

(** ** Statements *)
Lemma c70_components of_double of_text t1 t2 : built of_double of_text t1 -> built of_double of_text t2 ->
  t_kind t1 = t_kind t2 -> t_process t1 = t_process t2 -> t_particle t1 = t_particle t2 -> t_medium t1 = t_medium t2 ->
  t_cut t1 = t_cut t2 -> t_upper t1 = t_upper t2 -> of_medium (t_process t1) = false ->
  c_hash (t_component t1) <> c_hash (t_component t2) -> file_name of_double of_text t1 <> file_name of_double of_text t2.
Proof. intros B1 B2 K P D M C U O N F. apply N. apply (components_apart of_double of_text); assumption. Qed.
Lemma c70_crowded of_double of_text value p d m c u :
  registered of_double of_text c -> Forall (registered of_double of_text) (mat_components (md_material m)) -> exists a1 b1 z1 a2 b2 z2,
  let t1 := mktable (DNDX a1 b1) p d m c u z1 in let t2 := mktable (DNDX a2 b2) p d m c u z2 in
  (1 <= a1 <= 2 ^ 31)%Z /\ (1 <= b1 <= 2 ^ 31)%Z /\ (1 <= a2 <= 2 ^ 31)%Z /\ (1 <= b2 <= 2 ^ 31)%Z /\ 10 ^ 9 <= z1 <= 10 ^ 10 /\ 10 ^ 9 <= z2 <= 10 ^ 10 /\
  built of_double of_text t1 /\ built of_double of_text t2 /\
  file_name of_double of_text t1 = file_name of_double of_text t2 /\ ~ interchangeable value t1 t2.
Proof.
  intros C F. destruct (crowded of_double of_text p d m c u) as (t1 & t2 & (a1 & b1 & E1 & A1 & B1) & (a2 & b2 & E2 & A2 & B2) & U1 & U2 & N & K).
  exists a1, b1, (t_upper t1), a2, b2, (t_upper t2). cbv zeta. rewrite <- E1, <- E2. split; [exact A1|]. split; [exact B1|]. split; [exact A2|].
  split; [exact B2|]. split; [exact U1|]. split; [exact U2|]. 
  split; [rewrite E1; split; assumption|]. split; [rewrite E2; split; assumption|].
  split; [exact N|]. intros (I1 & I2 & _). destruct K as [K|K]; contradiction.
Qed.
Lemma c70_utilities_refuted nan : (exists d1 d2 l, confused nan (Interaction d1 l) (Interaction d2 l)) /\
  (exists d l1 l2, confused nan (ContRand d l1) (ContRand d l2)) /\ (exists d m1 m2, confused nan (Time d m1) (Time d m2)) /\
  (exists d m1 m2, confused nan (Highland d m1) (Highland d m2)).
Proof.
  split; [eexists _, _, _; exact (interaction_confused nan)|]. split; [eexists _, _, _; exact (cont_rand_confused nan)|].
  split; [eexists _, _, _; exact (time_confused nan)|eexists _, _, _; exact (highland_confused nan)].
Qed.
