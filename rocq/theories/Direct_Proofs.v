(** The calculators without tables. *)
From Coquelicot Require Rcomplements.
From Verif Require Import Prelude PreludeFacts Function_Model Integral_Model Function_Spec Integral_Spec Math_Model
  Function_Proofs Trapezoid_Proofs Neville_Proofs Expansion_Proofs Romberg_Proofs Integral_Proofs Values_Proofs Safety_Proofs Upper_Proofs Overrun_Proofs
  Vec_Model Geometry_Model Propagator_Model Cross_Model Utility_Model Utility_Spec Utility_Proofs.

Section Direct.
Variable nan : forall A, outcome A.
Variable qags : (R -> outcome R) -> R -> R -> outcome R.
Variable find : (R -> R) -> R -> R -> R -> R -> option R.

(** ** The settings of the engine are kept. *)
Definition settings (g : engine) := (e_steps g, e_refine_steps g, e_romberg g, e_romberg_refine g, e_precision g, e_work g, length (e_ix g), length (e_iy g)).
Lemma arr_set_length {A} (l : list A) : forall i v l', arr_set l i v = Ok l' -> length l' = length l.
Proof.
  induction l as [|a l IH]; intros i v l'; [discriminate|]. destruct i as [|i]; cbn.
  - intro H. injection H as <-. reflexivity.
  - destruct (arr_set l i v) eqn:E; cbn; try discriminate. intro H. injection H as <-. cbn. f_equal. apply (IH _ _ _ E).
Qed.
Lemma like_settings g g' : like g g' -> settings g' = settings g.
Proof. intro L. destruct (like_fields _ _ L) as (A & B & C & D & E & F & G & H & _). unfold settings. congruence. Qed.
Lemma trapezoid3s_like g n old i v g' : trapezoid3s nan g n old i = Some (Ok (v, g')) -> like g g'.
Proof.
  unfold trapezoid3s. destruct (n =? 1)%Z.
  - destruct (evaluate _ _ _); cbn; intro H; inversion H. first [apply like_refl|apply like_x, like_refl].
  - intro H. apply fbind_inv in H. destruct H as (small & _ & H). apply fbind_inv in H. destruct H as ((sum & found) & _ & H).
    apply done_inv in H. injection H as _ H. subst g'. destruct (Nat.leb _ _); first [apply like_refl|apply like_x, like_refl].
Qed.
Lemma opened_loop_like big : forall steps g i k n result v g', opened_loop nan qags steps big g i k n result = Some (Ok (v, g')) -> like g g'.
Proof.
  induction steps as [|steps IH]; intros g i k n result v g'; cbn [opened_loop].
  - intro H. apply done_inv in H. destruct (qags _ _ _); cbn in H; try discriminate. inversion H. apply like_refl.
  - intro H. apply fbind_inv in H. destruct H as ((r & g1) & E1 & H).
    assert (L1 : like g g1).
    { destruct big as [bg|].
      - apply fbind_inv in E1. destruct E1 as (r1 & _ & E1). apply done_inv in E1. injection E1 as _ E1. subst g1. apply like_refl.
      - destruct (_ || _).
        + apply fbind_inv in E1. destruct E1 as (r1 & _ & E1). apply done_inv in E1. injection E1 as _ E1. subst g1. apply like_x, like_refl.
        + apply (trapezoid3s_like _ _ _ _ _ _ E1). }
    apply fbind_inv in H. destruct H as (ix & Ex & H). apply fbind_inv in H. destruct H as (iy & Ey & H).
    apply done_inv in Ex, Ey. apply arr_set_length in Ex, Ey.
    set (g2 := with_buffers g1 ix iy) in H. assert (L2 : like g g2) by (apply like_buffers; assumption).
    assert (Next : (flet k := done (times k 3) in opened_loop nan qags steps big g2 (S i) k (n / 9) r) = Some (Ok (v, g')) -> like g g').
    { intro N. apply fbind_inv in N. destruct N as (k1 & _ & N). apply (like_trans _ _ _ L2 (IH _ _ _ _ _ _ _ N)). }
    destruct (Nat.leb _ _); [|exact (Next H)].
    apply fbind_inv in H. destruct H as ((value & error) & _ & H). apply fbind_inv in H. destruct H as (error' & _ & H).
    destruct (_ <? _); [|exact (Next H)]. apply done_inv in H. injection H as _ <-. exact L2.
Qed.
Lemma opened_settings big g v g' : romberg_opened nan qags big g = Some (Ok (v, g')) -> settings g' = settings g.
Proof. intro H. apply like_settings. apply (opened_loop_like _ _ _ _ _ _ _ _ _ H). Qed.
Lemma integrate_settings g a b f v g' : integrate nan qags g a b f 4 0 = Some (Ok (v, g')) -> settings g' = settings g.
Proof.
  unfold integrate. destruct (_ && _); [intro H; apply done_inv in H; injection H as _ <-; reflexivity|].
  destruct (_ || _); [intro H; apply done_inv in H; injection H as _ <-; reflexivity|].
  unfold integrate_log. intro H. apply fbind_inv in H. destruct H as (lo & _ & H). apply fbind_inv in H. destruct H as (hi & _ & H).
  cbv zeta in H. destruct (negligible _ _); [apply done_inv in H; injection H as _ <-; reflexivity|].
  unfold finish in H. apply fbind_inv in H. destruct H as ((w & g1) & O & H). apply done_inv in H. injection H as _ <-.
  apply (opened_settings _ _ _ _ O).
Qed.
Lemma ratio_settings g a b f ratio v g' : integrate_ratio nan qags g a b f 4 ratio 0 = Some (Ok (v, g')) -> settings g' = settings g.
Proof.
  unfold integrate_ratio. destruct (_ && _); [intro H; apply done_inv in H; injection H as _ <-; reflexivity|].
  destruct (_ || _); [intro H; discriminate H|]. unfold integrate_log_ratio.
  destruct (negligible _ _); [intro H; apply done_inv in H; injection H as _ <-; reflexivity|].
  intro H. apply fbind_inv in H. destruct H as (lo & _ & H). apply fbind_inv in H. destruct H as (hi & _ & H). cbv zeta in H.
  apply fbind_inv in H. destruct H as ((w & g1) & O & H). apply fbind_inv in H. destruct H as (rd & _ & H).
  apply done_inv in H. injection H as _ <-. exact (opened_settings _ _ _ _ O).
Qed.
Lemma refine_loop_settings : forall steps g result value x f df xlow xhi delta delta_old v g',
  refine_loop nan qags steps g result value x f df xlow xhi delta delta_old = Some (Ok (v, g')) -> settings g' = settings g.
Proof.
  induction steps as [|steps IH]; intros g result value x f df xlow xhi delta delta_old v g'; cbn [refine_loop].
  - intro H. apply done_inv in H. injection H as _ <-. reflexivity.
  - destruct (if f <? 0 then _ else _) as (xl & xh). intro H. apply fbind_inv in H. destruct H as (((x' & d') & stop) & _ & H).
    destruct (_ || _) in H; [apply done_inv in H; injection H as _ <-; reflexivity|]. cbv zeta in H.
    apply fbind_inv in H. destruct H as ((w & g1) & O & H). apply fbind_inv in H. destruct H as (df' & _ & H).
    apply IH in H. rewrite H. exact (opened_settings _ _ _ _ O).
Qed.
Lemma romberg_back g g1 m : settings g1 = settings (with_romberg g m) -> settings (with_romberg g1 (e_romberg g)) = settings g.
Proof. unfold settings. cbn. intro H. injection H as A B C D E F G I. congruence. Qed.
Lemma upper_settings g v g' : get_upper_limit nan qags g = Some (Ok (v, g')) -> settings g' = settings g.
Proof.
  unfold get_upper_limit. destruct (e_random_do g); [|intro H; apply done_inv in H; injection H as _ <-; reflexivity].
  destruct (negligible _ _); [intro H; apply done_inv in H; injection H as _ <-; reflexivity|].
  intro H. apply fbind_inv in H. destruct H as (g1 & Rf & H). cbv zeta in H. apply fbind_inv in H. destruct H as (x & _ & H).
  apply done_inv in H. injection H as _ <-. change (settings g1 = settings g).
  revert Rf. unfold refine_upper_limit. destruct (_ || _); [intro H; apply done_inv in H; injection H as <-; reflexivity|]. cbv zeta.
  destruct (0 <? _); [intro H; apply done_inv in H; injection H as <-; reflexivity|].
  destruct (if 0 <? _ then _ else _) as (xl & xh). set (g2 := if (_ <? _) || _ then _ else g).
  assert (S2 : settings g2 = settings g) by (unfold g2; destruct (_ || _); reflexivity).
  intro H. apply fbind_inv in H. destruct H as ((w & g3) & O & H). apply fbind_inv in H. destruct H as (df & _ & H).
  apply fbind_inv in H. destruct H as ((y & g4) & Lo & H). apply done_inv in H. injection H as <-.
  apply opened_settings in O. apply refine_loop_settings in Lo.
  assert (S3 : settings g3 = settings g2) by exact O.
  change (settings (with_romberg g4 (e_romberg g2)) = settings g).
  replace (e_romberg g2) with (e_romberg g3) by (unfold settings in S3; injection S3; auto).
  rewrite (romberg_back g3 g4 (e_romberg_refine g3) Lo). congruence.
Qed.

(** ** Histories *)
Definition new_settings := settings (new_integral 5 40 IPREC2).
Lemma later_direct f lower c : later nan qags find (new_direct f lower) c -> exists g, c = Direct f lower g /\ settings g = new_settings.
Proof.
  intro H. remember (new_direct f lower) as c0 eqn:E0. induction H as [c|c d e E_i E_f v H IH C|c d e E s v H IH C].
  - subst c. eexists. split; reflexivity.
  - destruct (IH E0) as (g & -> & S). cbn [calculate] in C. apply fbind_inv in C. destruct C as ((w & g1) & I & C).
    apply done_inv in C. injection C as _ <-. exists g1. split; [reflexivity|]. rewrite (integrate_settings _ _ _ _ _ _ I). exact S.
  - destruct (IH E0) as (g & -> & S). cbn [get_upper] in C. apply fbind_inv in C. destruct C as ((w & g1) & I & C).
    destruct (w <? s); [discriminate|]. apply fbind_inv in C. destruct C as ((y & g2) & U & C).
    apply done_inv in C. injection C as _ <-. exists g2. split; [reflexivity|].
    rewrite (upper_settings _ _ _ U), (ratio_settings _ _ _ _ _ _ _ I). exact S.
Qed.
Lemma settings_fields g : settings g = new_settings -> roomy g /\ e_romberg g = 5%nat /\ e_steps g = 12%nat.
Proof.
  intro S. assert (N : suited (new_integral 5 40 IPREC2)) by (apply new_suited; lia). destruct N as (N & _).
  unfold new_settings, settings in S. destruct N as ([A B C D] & M).
  injection S as S1 S2 S3 S4 S5 S6 S7 S8. split; [split; [split|]|split; assumption].
  - rewrite S3. exact A.
  - rewrite S3, S6. exact B.
  - rewrite S1, S7. exact C.
  - rewrite S1, S8. exact D.
  - rewrite S1. exact M.
Qed.

(** ** Values *)
Lemma logs_negligible a b : 0 < a < b -> logs_apart b a -> negligible (ln a) (ln b) = false.
Proof.
  intros L H. unfold logs_apart in H. rewrite Rmin_right in H by lra. unfold negligible, COMPUTER_PRECISION. apply leb_no.
  rewrite Rabs_minus_sym. unfold Rdiv in H. lra.
Qed.
Lemma direct_value f lower c0 G c E_i E_f : log_polynomial qags f c0 G -> later nan qags find (new_direct f lower) c ->
  0 < E_f < E_i -> logs_apart E_i E_f -> gives (calculate nan qags c E_i E_f) (G (ln E_f) - G (ln E_i)).
Proof.
  intros [F D I Q] La L A. destruct (later_direct _ _ _ La) as (g & -> & S). destruct (settings_fields g S) as (Ro & Rm & St).
  cbn [calculate]. pose proof (logs_negligible E_f E_i L A) as N.
  assert (V : computed_exactly qags (fun t => exp t * (polynomial c0 (ln (exp t)) / exp t)) (ln E_f) (ln E_i) (G (ln E_i) - G (ln E_f))
    (integrate nan qags g E_f E_i f 4 0)).
  { apply (computed_exact _ _ _ _ 3 (midpoint_sum (fun t => exp t * (polynomial c0 (ln (exp t)) / exp t)) (ln E_f) (ln E_i))
      (e_steps g) (e_romberg g) (e_precision g) (e_romberg g - 1)); [lia|lia| |].
    - apply (expands_ext (midpoint_sum (polynomial c0) (ln E_f) (ln E_i))); [|apply midpoint_expansion; [lia|exact I]].
      intros n _. apply midpoint_linear. intro t. rewrite ln_exp. field. apply Rgt_not_eq, exp_pos.
    - apply (value_log nan qags g E_f E_i f 0 (fun x => polynomial c0 (ln x) / x)); try assumption. intros x Hx. apply F. lra. }
  assert (W : gives (integrate nan qags g E_f E_i f 4 0) (G (ln E_i) - G (ln E_f))).
  { destruct V as [(g' & V)|(h & g' & Hh & V)]; [exists g'; exact V|].
    rewrite (Q h (ln E_f) (ln E_i)) in V.
    - exists g'. exact V.
    - apply ln_increasing; lra.
    - intros t Ht. rewrite Hh by exact Ht. f_equal. rewrite ln_exp. field. apply Rgt_not_eq, exp_pos. }
  destruct W as (g' & W). pose proof (c39_antisymmetric nan qags g E_f E_i f 4 0) as O. rewrite W in O.
  destruct (integrate nan qags g E_i E_f f 4 0) as [[(w & g2)| |]|]; cbn in O; try contradiction.
  destruct O as (-> & ->). eexists. cbn [fbind done].
  replace (- (G (ln E_i) - G (ln E_f))) with (G (ln E_f) - G (ln E_i)) by ring. reflexivity.
Qed.
Lemma direct_equal f lower c E : later nan qags find (new_direct f lower) c -> gives (calculate nan qags c E E) 0.
Proof.
  intro La. destruct (later_direct _ _ _ La) as (g & -> & S). cbn [calculate].
  destruct (c39_equal nan qags g E f 4 0) as (g' & ->); try (intro X; discriminate X). eexists. reflexivity.
Qed.
End Direct.
