(** A cross section in water, and a medium that lists a component twice. *)
From Verif Require Import Prelude PreludeFacts Propagator_Model Limits_Model Particle_Model Math_Model Cross_Model Photo_Model
  Cross_Spec Cross_Proofs Transform_Proofs Components_Proofs Photo_Proofs.
From Coq Require Import Permutation.

Definition hydrogen_c : component := mkcomponent 1 1 (100794 / 10 ^ 5) 2.
Definition oxygen_c : component := mkcomponent 2 8 (159994 / 10 ^ 4) 1.
Definition water : medium := mkmedium 3 [hydrogen_c; oxygen_c].
Lemma water_sound : sound_medium water.
Proof. split; [discriminate|]. intros c [<-|[<-|[]]]; cbn; lra. Qed.
Lemma water_distinct : distinct_components water.
Proof. unfold distinct_components. cbn. repeat constructor; cbn; intuition discriminate. Qed.

(** 500 MeV or 5 per cent *)
Definition cut0 : energy_cut := mkcut (Fin 500) (5 / 100) true.
Definition kin0 (E : R) : limits := mklimits (1 / 1000) (9 / 10).
Lemma limits0 : integration_limits kin0 (Some cut0) 20000 = mklimits (25 / 1000) (9 / 10).
Proof.
  unfold integration_limits, get_cut_within, get_cut, kin0. cbn [v_min v_max ecut vcut cut0].
  replace (Rmin (500 / 20000) (5 / 100)) with (25 / 1000) by (rewrite Rmin_left; lra).
  f_equal. rewrite (Rmax_right (1 / 1000) (25 / 1000)), (Rmin_left (25 / 1000) (9 / 10)), Rmax_left; lra.
Qed.

Section Nan.
Variable nan : forall A, outcome A.
(** Tables with the rate Z(Z+1) that grow in proportion to the node. *)
Definition table0 (c : component) (E u : R) : R := c_charge c * (c_charge c + 1) * u.
Definition find0 (c : component) (E y : R) : outcome R := Ok (y / (c_charge c * (c_charge c + 1))).
Definition calc0 (c : component) : dndx_calc := dndx_interpolant nan Relative kin0 (Some cut0) (table0 c) 1 (find0 c).
Definition loss_table0 (c : component) : option (R -> outcome R) :=
  if c_charge c =? 1 then None else Some (fun E => Ok (2 * E)).
Definition x0 : outcome cross_section :=
  new_cross_section nan (fun l => rev l) (fun c => Ok (calc0 c)) (fun c => Ok (loss_table0 c)) (fun c => Ok (fun E => Ok (E * E)))
    water (Some cut0) false 105 Brems.
Lemma x0_ok : exists x, x0 = Ok x.
Proof.
  unfold x0, new_cross_section, build_dndx_components, build_dedx_components, build_de2dx_components. cbn [only_continuous ecut cut0 andb].
  cbn [water m_components build_dndx_loop build_dedx_loop cut_cont_rand cut0].
  destruct (weight_ok nan water hydrogen_c water_sound (or_introl eq_refl)) as (w1 & W1 & _).
  destruct (weight_ok nan water oxygen_c water_sound (or_intror (or_introl eq_refl))) as (w2 & W2 & _).
  rewrite W1, W2. cbn [obind]. eauto.
Qed.
Lemma calc0_inverts c : c = hydrogen_c \/ c = oxygen_c ->
  dn_rate (calc0 c) 20000 = Ok (c_charge c * (c_charge c + 1)) /\
  inverts (dn_upper (calc0 c) 20000) (dn_cumulative (calc0 c) 20000) (25 / 1000) (9 / 10) (c_charge c * (c_charge c + 1)).
Proof.
  intros C. assert (P : 0 < c_charge c * (c_charge c + 1)) by (destruct C as [-> | ->]; cbn; lra).
  pose proof (interpolant_inverts nan Relative kin0 (Some cut0) (table0 c) 1 (find0 c) 20000) as I. cbv zeta in I.
  rewrite limits0 in I. cbn [v_min v_max] in I.
  assert (T1 : table0 c 20000 1 = c_charge c * (c_charge c + 1)) by (unfold table0; lra). rewrite T1 in I. apply I.
  - cbn. lra.
  - lra.
  - intros u Hu. unfold table0. nra.
  - intros u v Hu Hv. unfold table0. nra.
  - intros y Hy. exists (y / (c_charge c * (c_charge c + 1))). split; [reflexivity|].
    assert (E1 : y / (c_charge c * (c_charge c + 1)) * (c_charge c * (c_charge c + 1)) = y) by (field; destruct C as [-> | ->]; cbn; lra).
    set (q := c_charge c * (c_charge c + 1)) in *. split; [|unfold table0; fold q; lra].
    split; [apply Rmult_le_reg_r with q; lra|apply Rmult_le_reg_r with q; lra].
Qed.

(** ** Duplicates *)
Definition twice : medium := mkmedium 4 [oxygen_c; oxygen_c].
Definition unit_calc : dndx_calc := mkdndx (fun _ => Ok 1) (fun _ _ => Ok 1) (fun _ _ => Ok 1).
Theorem duplicates_refuted : exists m x,
  sound_medium m /\
  new_cross_section nan (fun l => l) (fun _ => Ok unit_calc) (fun _ => Ok (Some (fun _ => Ok 1))) (fun _ => Ok (fun _ => Ok 1))
    m (Some cut0) false 105 Brems = Ok x /\
  rsum (map (fun c => 1 * mass_share m c) (m_components m)) = 1 /\
  forall E, x_dEdx (as_cross nan x) E = Ok 1 /\ x_dNdx (as_cross nan x) E = Ok (1 / 2).
Proof.
  exists twice.
  assert (S : sound_medium twice) by (split; [discriminate|]; intros c [<-|[<-|[]]]; cbn; lra).
  destruct (weight_ok nan twice oxygen_c S (or_introl eq_refl)) as (w & W & _ & Q).
  assert (Sh : mass_share twice oxygen_c = 1 / 2).
  { unfold mass_share, component_mass. cbn. field. }
  unfold new_cross_section, build_dndx_components, build_dedx_components, build_de2dx_components. cbn [only_continuous ecut cut0 andb].
  cbn [twice m_components build_dndx_loop build_dedx_loop cut_cont_rand cut0].
  rewrite W. cbn [obind].
  eexists. split; [exact S|]. split; [reflexivity|]. split.
  - cbn [twice m_components map]. fold twice. rewrite Sh. unfold rsum. cbn [fold_right]. lra.
  - intros E. cbn [as_cross x_dEdx x_dNdx cs_sum cs_dedx weighted_sum obind]. rewrite !Q. cbn [obind]. rewrite Sh.
    split; [apply f_equal; lra|].
    transitivity (olet r := quo nan 1 w in Ok (0 + r)); [reflexivity|].
    rewrite Q. cbn [obind]. rewrite Sh. apply f_equal; lra.
Qed.
End Nan.
