(** Concrete cases for the names of the tables. *)
From Coq Require Import String.
From Verif Require Import Prelude PreludeFacts Propagator_Model Particle_Model Limits_Model Cross_Model Photo_Model Products_Model
  Differential_Model Integral_Model Utility_Model Ionization_Model Continuous_Model Photopair_Model Nuclear_Model
  Medium_Model Pairs_Model Multiple_Model Keys_Model Differential_Spec Nuclear_Spec Differential_Proofs Nuclear_Proofs Keys_Spec Keys_Proofs
  Cross_Examples Continuous_Examples Differential_Examples Nuclear_Examples.

Section Water.
Variable of_double : ext -> Z.
Variable of_text : string -> Z.
(** A component as its constructor makes it *)
Definition made (c : component) : component :=
  mkcomponent (Z.to_N (hash of_double of_text (component_key c))) (c_charge c) (c_atomic c) (c_atoms c).
Lemma made_registered c : registered of_double of_text (made c).
Proof. reflexivity. Qed.
Definition made_water : medium_data :=
  mkdata (mkmaterial [made hydrogen_c; made oxygen_c] (797 / 10) (- 35017 / 10 ^ 4) (9116 / 10 ^ 5) (34773 / 10 ^ 4) (24 / 100) (28004 / 10 ^ 4) 0) 1
    (mksummary 10 18 (5 / 9) (334 * 10 ^ 20) 939 36).
(** The tables of the rate of bremsstrahlung by muons in water, with and without
    continuous randomization, made for the component [c] *)
Definition water_table (randomize : bool) (c : component) : table :=
  mktable (DNDX 100 100) (Brems KelnerKokoulinPetrukhin (Some 1)) MuMinusDef made_water c (Some (mkcut (Fin 500) (5 / 100) randomize)) (10 ^ 14).
Lemma water_built b c : built of_double of_text (water_table b (made c)).
Proof. split; [apply made_registered|]. repeat constructor. Qed.
End Water.
Lemma same_tables of_double of_text :
  let t1 := water_table of_double of_text true (made of_double of_text oxygen_c) in
  let t2 := water_table of_double of_text false (made of_double of_text oxygen_c) in
  t1 <> t2 /\ built of_double of_text t1 /\ built of_double of_text t2 /\ hard (t_process t1) = false /\
  file_name of_double of_text t1 = file_name of_double of_text t2.
Proof.
  cbv zeta. split; [intros E; apply (f_equal t_cut) in E; discriminate|]. split; [apply water_built|]. split; [apply water_built|]. split; reflexivity.
Qed.
(** A hash of the numbers that tells eight from the other ones *)
Definition eight (x : ext) : Z := match x with Fin x => if x =? 8 then 1 else 0 | PInf => 0 end.
Definition no_text (s : string) : Z := 0.
Lemma eight_8 : eight (Fin 8) = 1%Z.
Proof. unfold eight. rewrite (proj2 (Reqb_true _ _)) by reflexivity. reflexivity. Qed.
Lemma eight_other x : x <> 8 -> eight (Fin x) = 0%Z.
Proof. intros H. unfold eight. rewrite (proj2 (Reqb_false _ _)) by exact H. reflexivity. Qed.
Lemma saxon_below c : 1 <= c_atomic c -> wood_saxon c <= 1.
Proof.
  intros A. unfold wood_saxon. destruct (c_charge c =? 1); [lra|]. cbv zeta.
  assert (1 <= Rpower (c_atomic c) (1 / 3)) as P.
  { rewrite <- (Rpower_O (c_atomic c)) at 1 by lra. apply Rle_Rpower; lra. }
  set (r := Rpower (c_atomic c) (1 / 3)) in *. clearbody r.
  assert (/ r <= 1) by (rewrite <- Rinv_1; apply Rinv_le_contravar; lra).
  assert (0 < 112 / 100 * r - 86 / 100 / r) as Q by (unfold Rdiv; nra).
  set (s := 112 / 100 * r - 86 / 100 / r) in *. clearbody s. pose proof PI_RGT_0. pose proof ln_lt_2.
  match goal with |- 1 - ?x / ?y <= 1 => assert (0 <= x / y); [|lra] end.
  apply Rmult_le_pos; [|left; apply Rinv_0_lt_compat; lra]. apply Rmult_le_pos; [lra|]. apply Rmult_le_pos; [lra|]. unfold ZETA3.
  assert (0 <= s * s * ln 2) by (apply Rmult_le_pos; nra).
  assert (0 <= 54 / 100 * s * PI * PI / 6) by (apply Rmult_le_pos; [|lra]; apply Rmult_le_pos; [|lra]; apply Rmult_le_pos; lra). lra.
Qed.
Lemma names_apart :
  let t1 := water_table eight no_text true (made eight no_text hydrogen_c) in
  let t2 := water_table eight no_text true (made eight no_text oxygen_c) in
  built eight no_text t1 /\ built eight no_text t2 /\ t_kind t1 = t_kind t2 /\ t_process t1 = t_process t2 /\ t_particle t1 = t_particle t2 /\
  t_medium t1 = t_medium t2 /\ t_cut t1 = t_cut t2 /\ t_upper t1 = t_upper t2 /\ of_medium (t_process t1) = false /\
  c_hash (t_component t1) <> c_hash (t_component t2).
Proof.
  cbv zeta. split; [apply water_built|]. split; [apply water_built|]. do 7 (split; [reflexivity|]).
  cbn [t_component water_table made c_hash]. unfold component_key. cbn [hash fold_left c_charge c_atomic c_atoms hydrogen_c oxygen_c].
  pose proof (log_constant_bounds hydrogen_c). pose proof (log_constant_bounds oxygen_c). pose proof (b_prime_bounds hydrogen_c). pose proof (b_prime_bounds oxygen_c).
  pose proof (nucleon_range hydrogen_c hydrogen_element). pose proof (nucleon_range oxygen_c oxygen_element). unfold MP, MN in *.
  assert (wood_saxon hydrogen_c <= 1) by (apply saxon_below; cbn; lra). assert (wood_saxon oxygen_c <= 1) by (apply saxon_below; cbn; lra).
  fold hydrogen_c oxygen_c. rewrite eight_8, !eight_other by lra. vm_compute. discriminate.
Qed.
(** The hard component of muons in water, with an interpolation that is exact for
    constant tables *)
Lemma muon_hard : (forall x e, (fun y (_ : R) => Ok (hd 0 y)) [x; x; x; x; x; x; x] e = Ok x) /\ element oxygen_c /\ 0 < pd_mass MuMinusDef /\
  pd_charge MuMinusDef <> 0.
Proof. split; [reflexivity|]. split; [exact oxygen_element|]. cbn. unfold MMU. split; lra. Qed.
(** The interaction of a muon with two cross sections, in two objects *)
Lemma same_utilities : let l := [mkkeyed 1 (constant 1 1 1); mkkeyed 2 (constant 2 1 3)] in
  utility_prefix (Interaction l l) = utility_prefix (Interaction l l) /\ told_apart (utility_cross (Interaction l l) ++ utility_cross (Interaction l l)) /\
  one_list (Interaction l l) /\ unnamed_mass (Interaction l l) = unnamed_mass (Interaction l l) /\
  utility_key (Interaction l l) 500 false (10 ^ 14) = utility_key (Interaction l l) 500 false (10 ^ 14).
Proof.
  cbv zeta. split; [reflexivity|]. split; [|split; [reflexivity|split; reflexivity]].
  intros a b A B. cbn in A, B. destruct A as [<-|[<-|[<-|[<-|[]]]]], B as [<-|[<-|[<-|[<-|[]]]]]; cbn; intros E; try reflexivity; discriminate.
Qed.
