(** Concrete cases for C82. *)
From Coq Require Import String ZArith.
From Verif Require Import Prelude Cross_Model Config_Model Config_Spec Catalogue_Spec Factory_Model Factory_Spec Factory_Examples
  Standard_Model Standard_Spec.
Local Open Scope string_scope.
Local Open Scope list_scope.

Example muon_described : described_as 13 = Some Muons /\ described_as (-13) = Some Muons /\ described_as 22 = Some Gamma /\ described_as 211 = None.
Proof. repeat split. Qed.
(** A muon: four cross sections with the cuts of the sector *)
Example muon_standard : exists l, standard_list choices 13 tt (Some a_cut) true = Ok l /\ List.length l = 4%nat /\
  Forall (fun s => s_cuts s = Some a_cut /\ s_tables s = true) l.
Proof. eexists. split; [reflexivity|]. split; [reflexivity|]. repeat constructor. Qed.
(** A positron: five, the annihilation without cuts *)
Example positron_standard : exists l, standard_list choices (-11) tt (Some a_cut) true = Ok l /\ List.length l = 5%nat /\
  In (mkselection Annihilation "Heitler" tt None true None None None) l.
Proof. eexists. split; [reflexivity|]. split; [reflexivity|]. cbn. tauto. Qed.
Example choices_ignore : ignores_correction (@choices unit).
Proof. intros f n m c t r r' h w. reflexivity. Qed.
Definition choice_builders : builders unit (selection unit) unit :=
  mkbuilders _ _ _ (fun _ => Ok tt) (fun _ => 1%R) (make_cross choices (fun _ x => x)) (fun _ _ _ => Ok []) (fun _ => Ok tt) (fun _ => Throw logic_error).
Example choices_made : forall f m c t r o, make choice_builders f m c t r o = make_cross choices (fun _ x => x) f m c t r o.
Proof. reflexivity. Qed.
