(** Concrete cases for the maps of components and media. *)
From Coq Require Import String.
From Verif Require Import Prelude PreludeFacts Propagator_Model Particle_Model Limits_Model Cross_Model Products_Model Differential_Model Ionization_Model Nuclear_Model
  Medium_Model Keys_Model Registry_Model Registry_Spec Registry_Proofs.

Definition named_oxygen : named := mknamed "O" (mkcomponent 0 8 (159994 / 10000) 1).
Lemma example_predefined : Forall is_predefined [hydrogen_named "H"; named_oxygen].
Proof. repeat constructor; unfold is_predefined; cbn; tauto. Qed.
(** A hash of numbers that only knows eight. *)
Definition eight (x : ext) : Z := match x with Fin r => if Req_EM_T r 8 then 1%Z else 0%Z | PInf => 0%Z end.
Definition no_text (s : string) : Z := 0%Z.
Lemma eight_no r : r <> 8 -> eight (Fin r) = 0%Z.
Proof. intro H. unfold eight. destruct (Req_EM_T r 8); congruence. Qed.
Lemma int_part_of (r : R) (z : Z) : IZR z <= r < IZR z + 1 -> Int_part r = z.
Proof.
  intros H. destruct (base_Int_part r) as [A B]. assert (z - 1 < Int_part r < z + 1)%Z; [|lia].
  split; apply lt_IZR; [rewrite minus_IZR|rewrite plus_IZR]; lra.
Qed.
Lemma truncate_half n : (0 <= n)%Z -> truncate (IZR n + 1 / 2) = n.
Proof.
  intro H. apply IZR_le in H. unfold truncate. destruct (Rleb_spec 0 (IZR n + 1 / 2)); [|lra]. apply int_part_of. lra.
Qed.
Lemma hydrogen_digest : hash eight no_text (component_key (nc_component (hydrogen_named "H"))) = hash eight no_text (Digest [Word 0; Word 0; Word 0; Word 0; Word 0; Word 0; Word 0]).
Proof.
  unfold component_key. cbn [hydrogen_named nc_component c_charge c_atomic c_atoms hash map fold_left].
  rewrite (eight_no 1), (eight_no (100794 / 100000)), (eight_no 2) by lra.
  rewrite (eight_no (log_constant _)), (eight_no (b_prime _)), (eight_no (nucleon_weight _)), (eight_no (wood_saxon _)); [reflexivity| | | |].
  - unfold wood_saxon. cbn [c_charge]. unfold Reqb. destruct (Req_EM_T 1 1); [lra|congruence].
  - unfold nucleon_weight. cbn [c_charge c_atomic]. unfold MP, MN. lra.
  - unfold b_prime. cbn [c_charge]. rewrite (truncate_half 1) by lia. lra.
  - unfold log_constant. cbn [c_charge]. rewrite (truncate_half 1) by lia. lra.
Qed.
Lemma oxygen_digest : hash eight no_text (component_key (nc_component named_oxygen)) = hash eight no_text (Digest [Word 1; Word 0; Word 0; Word 0; Word 0; Word 0; Word 0]).
Proof.
  unfold component_key. cbn [named_oxygen nc_component c_charge c_atomic c_atoms hash map fold_left].
  rewrite (eight_no 1), (eight_no (159994 / 10000)) by lra.
  rewrite (eight_no (log_constant _)), (eight_no (b_prime _)), (eight_no (nucleon_weight _)), (eight_no (wood_saxon _)).
  - unfold eight. destruct (Req_EM_T 8 8); [reflexivity|congruence].
  - unfold wood_saxon. cbn [c_charge c_atomic]. unfold Reqb. destruct (Req_EM_T 8 1) as [X|_]; [lra|]. cbv zeta.
    assert (C : 1 <= Rpower (159994 / 10000) (1 / 3)).
    { unfold Rpower. rewrite <- exp_0 at 1. apply Rlt_le, exp_increasing. apply Rmult_lt_0_compat; [lra|]. rewrite <- ln_1. apply ln_increasing; lra. }
    set (p := Rpower _ _) in *. set (r := 112 / 100 * p - 86 / 100 / p).
    assert (R0 : 0 < r). { unfold r. assert (/ p <= 1). { rewrite <- Rinv_1. apply Rinv_le_contravar; lra. } unfold Rdiv at 2. lra. }
    clearbody r. assert (L : 0 < ln 2) by (rewrite <- ln_1; apply ln_increasing; lra). pose proof PI_RGT_0 as P.
    assert (Q : 0 < r * r * ln 2 + 54 / 100 * r * PI * PI / 6 + 54 / 100 * (54 / 100) * (15 / 10) * ZETA3).
    { assert (0 < r * r * ln 2) by (apply Rmult_lt_0_compat; [apply Rmult_lt_0_compat|]; assumption).
      assert (0 < r * PI * PI) by (apply Rmult_lt_0_compat; [apply Rmult_lt_0_compat|]; assumption). unfold ZETA3. lra. }
    set (q := _ + _ + _) in *. pose proof (Rmult_lt_0_compat _ _ P Q) as X.
    replace (4 * PI * (17 / 100) * (54 / 100 * q)) with (4 * (17 / 100) * (54 / 100) * (PI * q)) by ring. lra.
  - unfold nucleon_weight. cbn [c_charge c_atomic]. unfold MP, MN. lra.
  - unfold b_prime. cbn [c_charge]. rewrite (truncate_half 8) by lia. lra.
  - unfold log_constant. cbn [c_charge]. rewrite (truncate_half 8) by lia. lra.
Qed.
Lemma example_no_collision : no_collision eight no_text (map (fun c => component_key (nc_component c)) [hydrogen_named "H"; named_oxygen]).
Proof.
  assert (D : hash eight no_text (component_key (nc_component (hydrogen_named "H"))) <> hash eight no_text (component_key (nc_component named_oxygen))).
  { rewrite hydrogen_digest, oxygen_digest. vm_compute. discriminate. }
  intros v w I J. cbn [map In] in I, J. destruct I as [<-|[<-|[]]], J as [<-|[<-|[]]]; intro H; try reflexivity; exfalso.
  - apply D. exact H.
  - apply D. symmetry. exact H.
Qed.
