(** Concrete cases for the density theorems. *)
From Verif Require Import Prelude PreludeFacts Vec_Model Geometry_Model Propagator_Model Shapes_Spec
  Function_Model Function_Spec Spline_Model Spline_Spec Spline_Proofs Math_Model Math_Spec Math_Proofs
  Density_Model Density_Spec Density_Proofs DensityObj_Model DensityObj_Spec.
From Coq Require Import Sorted.

(** An atmosphere over the plane z = 0 (axis upwards, scale height -8, i.e. the
    density falls with the height) and a particle at height 10 coming down. *)
Definition up : vec := mkvec 0 0 1.
Definition ground : vec := mkvec 0 0 0.
Definition high : vec := mkvec 3 4 10.
Definition slanted : vec := mkvec (3 / 5) 0 (- (4 / 5)).
Definition atmosphere (nan : outcome R) : density := exponential nan (cartesian_axis up ground) (-8) 0 (1 / 1000).
Lemma up_unit : dot up up = 1.
Proof. unfold dot, up. cbn. ring. Qed.
Lemma slanted_unit : unit slanted.
Proof. unfold unit, dot, slanted. cbn. field. Qed.
Lemma slanted_up : dot up slanted = - (4 / 5).
Proof. unfold dot, up, slanted. cbn. field. Qed.

(** A spline with two pieces, away from the origin. *)
Definition heights : list R := [1; 2; 4].
Definition values : list R := [3; 2; 1].
Lemma heights_nodes : nodes heights values.
Proof. split; [cbn; lia|]. split; auto. unfold heights. repeat constructor; lra. Qed.
Lemma heights_resolved : resolved heights.
Proof.
  intros i Hi. right. unfold GEOMETRY_PRECISION, node, heights.
  assert (E : Rabs (nth i [1; 2; 4] 0) = nth i [1; 2; 4] 0 /\ 1 <= nth i [1; 2; 4] 0).
  { destruct i as [|[|[|i]]]; cbn in *; try lia; rewrite Rabs_pos_eq; lra. }
  destruct E as [-> E]. assert (/ 10 ^ 9 < / 1); [|lra]. apply Rinv_lt_contravar; lra.
Qed.
Lemma heights_linear nan : exists s, linear_spline nan heights values = Ok s.
Proof. destruct (linear_ok nan heights values heights_nodes) as (s & E & _). eauto. Qed.
Lemma heights_cubic nan : exists s, cubic_spline nan heights values = Ok s.
Proof. destruct (c26_cubic nan heights values heights_nodes heights_resolved) as (s & E & _). eauto. Qed.
Lemma self_equal : let x := mkdobj (Cartesian up ground) 1 (Polynomial [1; 2]) in
  density_eqb x x = true /\ match do_axis x with Cartesian _ _ => up = up | Radial _ => True end.
Proof.
  cbn. split; auto. unfold density_eqb, vec_eqb. cbn.
  repeat match goal with |- context [Reqb ?a ?a] => destruct (Reqb_spec a a) as [_|HH]; [|destruct (HH eq_refl)] end. auto.
Qed.

(** Constant density 1 along the axis: grammage 3 is out of reach of a border at
    2, grammage 2 is reached there. *)
Definition unit_profile (nan : outcome R) : density :=
  profile_density nan (cartesian_axis up ground) 1 (fun _ => 1) (fun z => z).
Lemma unit_profile_grammage nan : d_calculate (unit_profile nan) ground up 2 = Ok 2.
Proof.
  unfold unit_profile. rewrite profile_calculate by (rewrite up_unit; lra). rewrite !up_unit. cbn. unfold dot. cbn. f_equal. field.
Qed.
Lemma unit_profile_correct nan : d_correct (unit_profile nan) ground up 2 2 = Ok 2.
Proof.
  unfold unit_profile. rewrite profile_correct by (rewrite up_unit; lra). rewrite !up_unit.
  unfold newton_raphson.
  assert (HF : forall l, profile_F (cartesian_axis up ground) 1 (fun z => z) 1 ground 2 l = 2 - l).
  { intros l. unfold profile_F, profile_integrate. cbn. unfold dot. cbn. field. }
  rewrite !HF. destruct (Rltb_spec 0 ((2 - 0) * (2 - 2))); [lra|]. destruct (Reqb_spec (2 - 0) 0); [lra|].
  destruct (Reqb_spec (2 - 2) 0); [auto|lra].
Qed.
