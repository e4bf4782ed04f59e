(** Moliere's density is the derivative of the share. *)
From Coq Require Import String.
From Coquelicot Require Import Coquelicot.
From Verif Require Import Prelude PreludeFacts Particle_Model Limits_Model Vec_Model Cross_Model Photo_Model Integral_Model Utility_Model
  Decay_Spec Multiple_Model Multiple_Spec Log_Proofs Reduced_Proofs Multiple_Proofs Moliere_Proofs MoliereAngle_Proofs.
Notation length := List.length.

(** ** Horner's scheme *)
Lemma horner_sum c x : forall n a, horner c (S n) x a = a * x ^ S n + sum_f_R0 (fun k => c k * x ^ k) n.
Proof.
  induction n as [|n IH]; intros a; [cbn; ring|].
  change (horner c (S (S n)) x a) with (horner c (S n) x (a * x + c (S n))). rewrite IH. cbn [sum_f_R0]. cbn [pow]. ring.
Qed.
Lemma horner_poly c x n : horner c (S n) x (c (S n)) = sum_f_R0 (fun k => c k * x ^ k) (S n).
Proof. rewrite horner_sum. cbn [sum_f_R0]. ring. Qed.
Definition odd_poly (c : nat -> R) (n : nat) (u : R) : R := u * sum_f_R0 (fun k => halved c k * (u * u) ^ k) n.
Lemma odd_derive c n u : is_derive (odd_poly c n) u (sum_f_R0 (fun k => c k * (u * u) ^ k) n).
Proof.
  apply (is_derive_ext (fun u => sum_f_R0 (fun k => halved c k * u ^ (2 * k + 1)) n)).
  { intros x. unfold odd_poly. rewrite scal_sum. apply sum_eq. intros k _. rewrite pow_add, pow_mult. cbn [pow]. rewrite !Rmult_1_r. ring. }
  assert (D : forall k, is_derive (fun u => halved c k * u ^ (2 * k + 1)) u (c k * (u * u) ^ k)).
  { intros k. assert (H : is_derive (fun u => u ^ (2 * k + 1)) u (INR (2 * k + 1) * u ^ (2 * k))).
    { rewrite Nat.add_1_r. apply is_derive_Reals. exact (derivable_pt_lim_pow u (S (2 * k))). }
    apply (is_derive_scal _ _ (halved c k)) in H. replace (c k * (u * u) ^ k) with (halved c k * (INR (2 * k + 1) * u ^ (2 * k))); [exact H|].
    unfold halved. rewrite pow_mult. cbn [pow]. rewrite Rmult_1_r. rewrite plus_INR, mult_INR. change (INR 2) with 2. change (INR 1) with 1.
    pose proof (pos_INR k). field. lra. }
  induction n as [|n IH]; [apply D|]. cbn [sum_f_R0]. apply (is_derive_plus _ _ u _ _ IH (D (S n))).
Qed.

Section Density.
Variable nan : forall A, outcome A.
Variables c1 c2 C1 c2l s2l : nat -> R.
Notation t := (moliere_series c1 c2 C1 c2l s2l).
Variable chi : R.
Hypothesis CP : 0 < chi.
Definition share_term (theta w B : R) : R :=
  let x := theta * theta / (chi * B) in
  w * (1 / 2 * erf (sqrt (Rmax x 0)) + sqrt (1 / PI) * (F1M t x / B + F2M t x / (B * B))).
Definition density_term (theta w B : R) : R :=
  let x := theta * theta / (chi * B) in
  w / sqrt (chi * B * PI) * (exp (- x) + f1M t x / B + f2M t x / (B * B)).
Fixpoint terms (f : R -> R -> R) (ws Bs : list R) : R :=
  match ws, Bs with w :: ws, B :: Bs => f w B + terms f ws Bs | _, _ => 0 end.
Lemma share_sum theta : forall ws Bs y, Forall (fun B => 0 < B) Bs -> share_terms nan t chi theta ws Bs y = Ok (y + terms (share_term theta) ws Bs).
Proof.
  induction ws as [|w ws IH]; intros [|B Bs] y P; cbn [terms]; try (cbn; f_equal; ring). inversion P; subst. cbn [share_terms].
  rewrite divide_ok by (apply Rgt_not_eq; now apply Rmult_lt_0_compat). cbn [obind]. rewrite divide_ok by lra. cbn [obind].
  rewrite divide_ok by (apply Rgt_not_eq; now apply Rmult_lt_0_compat). cbn [obind]. rewrite IH by assumption. f_equal. unfold share_term. ring.
Qed.
Lemma density_sum theta : forall ws Bs y, Forall (fun B => 0 < B) Bs -> density_terms nan t chi theta ws Bs y = Ok (y + terms (density_term theta) ws Bs).
Proof.
  induction ws as [|w ws IH]; intros [|B Bs] y P; cbn [terms]; try (cbn; f_equal; ring). inversion P; subst. cbn [density_terms].
  assert (Q : 0 < chi * B) by now apply Rmult_lt_0_compat. assert (Q2 : 0 < chi * B * PI) by (apply Rmult_lt_0_compat; [exact Q|apply PI_RGT_0]).
  rewrite divide_ok by lra. cbn [obind]. unfold Utility_Model.root, Rltb. destruct (Rlt_dec (chi * B * PI) 0); [lra|]. cbn [obind].
  rewrite divide_ok by (apply Rgt_not_eq; now apply sqrt_lt_R0). cbn [obind]. rewrite divide_ok by lra. cbn [obind].
  rewrite divide_ok by (apply Rgt_not_eq; now apply Rmult_lt_0_compat). cbn [obind]. rewrite IH by assumption. f_equal. unfold density_term. ring.
Qed.
(** The odd extension of a term *)
Definition signed_term (theta w B : R) : R :=
  let u := theta / sqrt (chi * B) in
  w * (1 / 2 * erf u + sqrt (1 / PI) * (odd_poly c1 69 u / B + odd_poly c2 69 u / (B * B))).
Lemma share_signed theta w B : 0 < B -> theta * theta < 12 * (chi * B) ->
  signed_term theta w B = if Rlt_dec theta 0 then - share_term theta w B else share_term theta w B.
Proof.
  intros P L. assert (Q : 0 < chi * B) by now apply Rmult_lt_0_compat. set (a := sqrt (chi * B)).
  assert (A : 0 < a) by now apply sqrt_lt_R0. assert (AA : a * a = chi * B) by (apply sqrt_sqrt; lra).
  set (u := theta / a). assert (X : theta * theta / (chi * B) = u * u) by (rewrite <- AA; unfold u; field; lra).
  assert (U : u * u < 12) by (rewrite <- X; apply (proj2 (Rcomplements.Rlt_div_l (theta * theta) 12 (chi * B) Q)); lra).
  assert (S : sqrt (Rmax (u * u) 0) = Rabs u) by (rewrite Rmax_left by (apply Rle_0_sqr); apply sqrt_Rsqr_abs).
  unfold share_term. cbv zeta. rewrite X. cbn [F1M F2M moliere_series]. unfold F1M_series, F2M_series, Rltb.
  destruct (Rlt_dec 12 (u * u)); [lra|]. destruct (Rlt_dec (425 / 100 * (425 / 100)) (u * u)); [lra|]. rewrite S.
  rewrite !horner_poly. unfold signed_term. fold a. fold u. unfold odd_poly.
  set (p1 := sum_f_R0 _ 69). set (p2 := sum_f_R0 (fun k => halved c2 k * _) 69).
  destruct (Rlt_dec theta 0) as [T|T].
  - pose proof (Rinv_0_lt_compat a A) as IA. assert (u < 0) by (unfold u, Rdiv; nra). rewrite Rabs_left by assumption. rewrite erf_odd. field. lra.
  - assert (0 <= u) by (unfold u; apply Rmult_le_pos; [lra|left; now apply Rinv_0_lt_compat]). rewrite Rabs_pos_eq by assumption. field. lra.
Qed.
Lemma signed_derive theta w B : 0 < B -> theta * theta < 12 * (chi * B) -> is_derive (fun x => signed_term x w B) theta (density_term theta w B).
Proof.
  intros P L. assert (Q : 0 < chi * B) by now apply Rmult_lt_0_compat. set (a := sqrt (chi * B)).
  assert (A : 0 < a) by now apply sqrt_lt_R0. assert (AA : a * a = chi * B) by (apply sqrt_sqrt; lra).
  set (u := theta / a). assert (X : theta * theta / (chi * B) = u * u) by (rewrite <- AA; unfold u; field; lra).
  assert (U : u * u < 12) by (rewrite <- X; apply (proj2 (Rcomplements.Rlt_div_l (theta * theta) 12 (chi * B) Q)); lra).
  unfold density_term. cbv zeta. rewrite X. cbn [f1M f2M moliere_series]. unfold f1M_series, f2M_series, Rltb.
  destruct (Rlt_dec 12 (u * u)); [lra|]. destruct (Rlt_dec (425 / 100 * (425 / 100)) (u * u)); [lra|]. rewrite !horner_poly.
  rewrite sqrt_mult by (pose proof PI_RGT_0; lra). fold a.
  pose proof (odd_derive c1 69 u) as D1. pose proof (odd_derive c2 69 u) as D2. pose proof (is_derive_erf u) as D0.
  set (p1 := sum_f_R0 (fun k => c1 k * _) 69) in *. set (p2 := sum_f_R0 (fun k => c2 k * _) 69) in *.
  assert (D : is_derive (fun u => w * (1 / 2 * erf u + sqrt (1 / PI) * (odd_poly c1 69 u / B + odd_poly c2 69 u / (B * B)))) u
    (w * (1 / 2 * (2 / sqrt PI * exp (- (u * u))) + sqrt (1 / PI) * (/ B * p1 + / (B * B) * p2)))).
  { apply (is_derive_scal (fun u => 1 / 2 * erf u + sqrt (1 / PI) * (odd_poly c1 69 u / B + odd_poly c2 69 u / (B * B)))).
    apply (is_derive_plus (fun u => 1 / 2 * erf u) (fun u => sqrt (1 / PI) * (odd_poly c1 69 u / B + odd_poly c2 69 u / (B * B)))).
    - apply (is_derive_scal erf). exact D0.
    - apply (is_derive_scal (fun u => odd_poly c1 69 u / B + odd_poly c2 69 u / (B * B))).
      apply (is_derive_plus (fun u => odd_poly c1 69 u / B) (fun u => odd_poly c2 69 u / (B * B))).
      + apply (is_derive_ext (fun u => / B * odd_poly c1 69 u)); [intros v; unfold Rdiv; apply Rmult_comm|]. apply (is_derive_scal (odd_poly c1 69)). exact D1.
      + apply (is_derive_ext (fun u => / (B * B) * odd_poly c2 69 u)); [intros v; unfold Rdiv; apply Rmult_comm|]. apply (is_derive_scal (odd_poly c2 69)). exact D2. }
  assert (DU : is_derive (fun x => x / a) theta (/ a)) by (auto_derive; [lra|field; lra]).
  pose proof (is_derive_comp _ (fun x => x / a) theta _ _ D DU) as H. unfold signed_term. cbv zeta. fold a.
  match goal with |- is_derive _ _ ?v => match type of H with is_derive _ _ ?w => replace v with w; [exact H|] end end.
  unfold scal; cbn; unfold mult; cbn. assert (SP : 0 < sqrt PI) by (apply sqrt_lt_R0, PI_RGT_0).
  replace (sqrt (1 / PI)) with (/ sqrt PI) by (rewrite sqrt_div_alt by apply PI_RGT_0; rewrite sqrt_1; field; lra).
  field. repeat split; lra.
Qed.
Lemma terms_share theta : forall ws Bs, Forall (fun B => 0 < B) Bs -> Forall (fun B => theta * theta < 12 * (chi * B)) Bs ->
  terms (signed_term theta) ws Bs = if Rlt_dec theta 0 then - terms (share_term theta) ws Bs else terms (share_term theta) ws Bs.
Proof.
  induction ws as [|w ws IH]; intros [|B Bs] P L; cbn [terms]; try (destruct (Rlt_dec theta 0); ring). inversion P; inversion L; subst.
  rewrite share_signed, IH by assumption. destruct (Rlt_dec theta 0); ring.
Qed.
Lemma terms_derive theta : forall ws Bs, Forall (fun B => 0 < B) Bs -> Forall (fun B => theta * theta < 12 * (chi * B)) Bs ->
  is_derive (fun x => terms (signed_term x) ws Bs) theta (terms (density_term theta) ws Bs).
Proof.
  induction ws as [|w ws IH]; intros [|B Bs] P L; cbn [terms]; try (apply (is_derive_const 0)). inversion P; inversion L; subst.
  apply (is_derive_plus (fun x => signed_term x w B) (fun x => terms (signed_term x) ws Bs)); [now apply signed_derive|now apply IH].
Qed.
Lemma near_inside theta Bs : Forall (fun B => 0 < B) Bs -> Forall (fun B => theta * theta < 12 * (chi * B)) Bs ->
  locally theta (fun x => Forall (fun B => x * x < 12 * (chi * B)) Bs).
Proof.
  intros P L. induction L as [|B Bs H L IH]; [apply filter_forall; intros x; constructor|]. inversion P; subst.
  assert (C : locally theta (fun x => x * x < 12 * (chi * B))).
  { assert (CT : continuous (fun x : R => x * x) theta) by (apply (ex_derive_continuous (fun x : R => x * x)); auto_derive; exact I).
    apply (CT (fun y => y < 12 * (chi * B))). apply (open_lt (12 * (chi * B))). exact H. }
  generalize (filter_and _ _ C (IH ltac:(assumption))). apply filter_imp. intros x (A & F). now constructor.
Qed.
End Density.
Lemma c61_density nan c1 c2 C1 c2l s2l s : 0 < mo_chi_c s -> Forall (fun B => 0 < B) (mo_B s) ->
  exists F f, (forall theta, angle_share nan (moliere_series c1 c2 C1 c2l s2l) s theta = Ok (F theta)) /\
  (forall theta, angle_density nan (moliere_series c1 c2 C1 c2l s2l) s theta = Ok (f theta)) /\
  forall theta, Forall (fun B => theta * theta < 12 * (mo_chi_c s * B)) (mo_B s) -> derivable_pt_lim F theta (f theta).
Proof.
  intros C P. set (T := moliere_series c1 c2 C1 c2l s2l).
  exists (fun theta => if theta <? 0 then -1 * terms (share_term c1 c2 C1 c2l s2l (mo_chi_c s) theta) (mo_weight_ZZ s) (mo_B s) * mo_weight_sum s
                       else terms (share_term c1 c2 C1 c2l s2l (mo_chi_c s) theta) (mo_weight_ZZ s) (mo_B s) * mo_weight_sum s).
  exists (fun theta => terms (density_term c1 c2 C1 c2l s2l (mo_chi_c s) theta) (mo_weight_ZZ s) (mo_B s) * mo_weight_sum s).
  split; [|split].
  - intros theta. unfold angle_share, T. rewrite share_sum by assumption. cbn [obind]. rewrite Rplus_0_l. reflexivity.
  - intros theta. unfold angle_density, T. rewrite density_sum by assumption. cbn [obind]. rewrite Rplus_0_l. reflexivity.
  - intros theta L. apply is_derive_Reals.
    apply (is_derive_ext_loc (fun x => mo_weight_sum s * terms (signed_term c1 c2 (mo_chi_c s) x) (mo_weight_ZZ s) (mo_B s))).
    + generalize (near_inside (mo_chi_c s) theta (mo_B s) P L). apply filter_imp. intros x LX.
      rewrite (terms_share c1 c2 C1 c2l s2l (mo_chi_c s) C x _ _ P LX). unfold Rltb. match goal with |- ?a = ?b => change (@eq R a b) end. destruct (Rlt_dec x 0); ring.
    + rewrite Rmult_comm. apply (is_derive_scal (fun x => terms (signed_term c1 c2 (mo_chi_c s) x) (mo_weight_ZZ s) (mo_B s))).
      now apply terms_derive.
Qed.
Lemma c61_density_used nan c1 c2 C1 c2l s2l mass m s0 s E g p s' : not_a_value nan -> proper_medium m -> 0 <= mass < E -> 0 <= g ->
  new_moliere nan mass m = Ok s0 -> used nan s0 s -> prefactor nan s E g = Ok (p, s') -> p <> 0 ->
  exists F f, (forall theta, angle_share nan (moliere_series c1 c2 C1 c2l s2l) s' theta = Ok (F theta)) /\
  (forall theta, angle_density nan (moliere_series c1 c2 C1 c2l s2l) s' theta = Ok (f theta)) /\
  forall theta, Forall (fun B => theta * theta < 12 * (mo_chi_c s' * B)) (mo_B s') -> derivable_pt_lim F theta (f theta).
Proof.
  intros N P M G NW U H NP. destruct (c61_root nan mass m s0 s E g p s' N P M G NW U H NP) as (X & FB).
  rewrite (new_ok nan mass m P) in NW. injection NW as <-. destruct P as (NE & P). apply used_fixed in U.
  destruct (accepted nan N mass _ s E g NE P M U p s' G H NP) as (GP & _).
  destruct (characteristic_sign mass E g _ NE P M) as (C & _). specialize (C GP).
  apply c61_density; [rewrite X; exact C|]. clear - FB. induction FB as [|c b l B (K & _) FB IH]; constructor; [lra|exact IH].
Qed.
