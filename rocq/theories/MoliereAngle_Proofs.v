(** Proofs about the angles sampled from Moliere's distribution. *)
From Coq Require Import String.
From Coquelicot Require Import Coquelicot.
From Verif Require Import Prelude PreludeFacts Particle_Model Limits_Model Vec_Model Cross_Model Photo_Model Integral_Model Utility_Model
  Decay_Spec Multiple_Model Multiple_Spec Log_Proofs Reduced_Proofs Multiple_Proofs Moliere_Proofs.
Notation length := List.length.

(** ** The accepted values *)
Lemma index_below : forall l i k, (k <= i)%nat -> (weight_index i k l <= i + (length l - 1))%nat.
Proof.
  induction l as [|a [|b l] IH]; intros i k H; [cbn; lia|cbn; lia|].
  change (weight_index i k (a :: b :: l)) with (weight_index (S i) (if a <? b then S i else k) (b :: l)).
  specialize (IH (S i) (if a <? b then S i else k) ltac:(destruct (a <? b); lia)). cbn [length] in *. lia.
Qed.
Lemma reduced_large nan chi_c a x : not_a_value nan -> reduced_angle nan chi_c a = Ok (Some x) -> 45 / 10 <= x.
Proof.
  intros N H. unfold reduced_angle in H. apply bind_ok in H. destruct H as (r & _ & H). destruct (r <=? 0); [discriminate|].
  apply bind_ok in H. destruct H as ([y|] & _ & H); [|discriminate]. unfold Rltb in H. destruct (Rlt_dec y (45 / 10)); [discriminate|].
  injection H as <-. lra.
Qed.
Section Accepted.
Variable nan : forall A, outcome A.
Hypothesis N : not_a_value nan.
Variables (mass : R) (cs : list component) (s0 s : moliere) (E g : R).
Hypotheses (NE : cs <> []) (P : Forall proper_component cs) (M : 0 <= mass < E).
Hypothesis F : same_fixed s (fresh mass cs).
Notation chi_c := (characteristic_angle2 mass E g cs).
Notation chi_as := (map (screening_angle2 mass E) (map c_charge cs)).
Lemma lengths : length (mo_B s) = length chi_as.
Proof. destruct F as (_ & _ & _ & _ & _ & _ & L). rewrite L. cbn. now rewrite !map_length. Qed.
Lemma screened : Forall (fun a => 0 < a) chi_as.
Proof. rewrite !Forall_map. eapply Forall_impl; [|exact P]. intros c (Z & _). now apply screening_positive. Qed.
Lemma index_inside (B : list R) : length B = length cs -> exists b, nth_error B (mo_index s) = Some b.
Proof.
  intros L. destruct F as (_ & _ & _ & _ & _ & I & _). rewrite I. cbn [fresh mo_index].
  destruct (nth_error B (weight_index 0 0 (map (mass_share cs) cs))) as [b|] eqn:H; [eauto|]. exfalso. apply nth_error_None in H.
  pose proof (index_below (map (mass_share cs) cs) 0 0 ltac:(lia)) as K. rewrite map_length in K.
  assert (length cs <> 0)%nat by (destruct cs; [contradiction|discriminate]). lia.
Qed.
Lemma accepted p s' : 0 <= g -> prefactor nan s E g = Ok (p, s') -> p <> 0 -> 0 < g /\ mo_chi_c s' = chi_c /\
  Forall2 (fun a b => reduced_angle nan chi_c a = Ok (Some b)) chi_as (mo_B s') /\
  exists b, nth_error (mo_B s') (mo_index s') = Some b /\ p = sqrt (chi_c * b).
Proof.
  intros G H NP. rewrite (prefactor_value nan mass cs s E g NE P M F) in H. apply bind_ok in H. destruct H as ((b & B) & Hf & H).
  cbn [fst snd] in H. destruct b; [|injection H as <- _; contradiction].
  destruct (nth_error B (mo_index s)) as [b|] eqn:Hb; [|discriminate]. apply bind_ok in H. destruct H as (q & Hq & H). injection H as <- <-.
  apply (root_inv nan N) in Hq. destruct Hq as (_ & Q). pose proof (fill_complete nan _ _ _ _ lengths Hf) as FC. cbn [filled mo_chi_c mo_B mo_index].
  split; [|split; [reflexivity|split; [exact FC|eauto]]].
  destruct (Rle_lt_or_eq_dec 0 g G) as [|Z]; [assumption|]. exfalso. apply NP. rewrite Q.
  destruct (characteristic_sign mass E g cs NE P M) as (_ & C). rewrite (C ltac:(lra)). rewrite Rmult_0_l. apply sqrt_0.
Qed.
Lemma accepted_root p s' : 0 <= g -> prefactor nan s E g = Ok (p, s') -> p <> 0 ->
  Forall2 (fun c b => 45 / 10 <= b /\ forall B, moliere_root (moliere_b mass E g cs (c_charge c)) B -> B <= b <= B * (1 + / 10 ^ 30)) cs (mo_B s').
Proof.
  intros G H NP. destruct (accepted p s' G H NP) as (GP & _ & FC & _).
  destruct (characteristic_sign mass E g cs NE P M) as (C & _). specialize (C GP).
  assert (K : forall l B', Forall proper_component l -> Forall2 (fun a b => reduced_angle nan chi_c a = Ok (Some b)) (map (screening_angle2 mass E) (map c_charge l)) B' ->
    Forall2 (fun c b => 45 / 10 <= b /\ forall B, moliere_root (moliere_b mass E g cs (c_charge c)) B -> B <= b <= B * (1 + / 10 ^ 30)) l B').
  { induction l as [|c l IH]; intros B' PL FL; cbn [map] in FL; inversion FL as [|? b ? B2 E1 FL']; subst; constructor.
    - split; [exact (reduced_large nan _ _ _ N E1)|]. intros B HB. inversion PL as [|? ? (Z & _) _]; subst.
      assert (B1 : 1 <= moliere_b mass E g cs (c_charge c)).
      { destruct (Rle_dec 1 (moliere_b mass E g cs (c_charge c))) as [|X]; [assumption|]. destruct HB as (B1 & HB). exfalso.
        exact (no_root _ (Rnot_le_lt _ _ X) B ltac:(lra) HB). }
      destruct (reduced_cases nan chi_c (screening_angle2 mass E (c_charge c)) C (screening_positive mass E _ M Z) B1) as [(X & _)|(x & X & _ & _ & R)].
      + congruence.
      + replace b with x by congruence. exact (R B HB).
    - inversion PL; subst. now apply IH. }
  exact (K cs (mo_B s') P FC).
Qed.
(** Where all right-hand sides are at least 3 the object scatters. *)
Lemma thick : 0 < g -> Forall (fun c => 3 <= moliere_b mass E g cs (c_charge c)) cs ->
  exists p s', prefactor nan s E g = Ok (p, s') /\ 0 < p.
Proof.
  intros G T. destruct (characteristic_sign mass E g cs NE P M) as (C & _). specialize (C G).
  rewrite (prefactor_value nan mass cs s E g NE P M F).
  destruct (fill_accepts nan chi_c chi_as (mo_B s) lengths) as (B' & HB).
  { rewrite !Forall_map, Forall_forall in *. intros c I. specialize (T c I). destruct (P c I) as (Z & _).
    destruct (reduced_cases nan chi_c (screening_angle2 mass E (c_charge c)) C (screening_positive mass E _ M Z)) as [(_ & X)|(x & X & _)];
      [change (1 <= moliere_b mass E g cs (c_charge c)); lra|exfalso; change (moliere_b mass E g cs (c_charge c) < 3) in X; lra|eauto]. }
  pose proof (fill_complete nan _ _ _ _ lengths HB) as FC. pose proof (fill_length nan _ _ _ _ _ HB) as L. rewrite lengths, !map_length in L.
  rewrite HB. cbn [obind fst snd]. destruct (index_inside B' L) as (b & Hb). rewrite Hb.
  assert (b5 : 45 / 10 <= b).
  { clear - FC Hb N. revert FC Hb. generalize chi_as as l. generalize (mo_index s) as i. intros i l FC. revert i.
    induction FC as [|a x l B' X FC IH]; intros [|i] Hb; try discriminate; cbn in Hb.
    - injection Hb as ->. exact (reduced_large nan _ _ _ N X).
    - exact (IH i Hb). }
  assert (Q : 0 < chi_c * b) by (apply Rmult_lt_0_compat; lra).
  unfold Utility_Model.root, Rltb. destruct (Rlt_dec (chi_c * b) 0); [lra|]. cbn [obind].
  do 2 eexists. split; [reflexivity|]. now apply sqrt_lt_R0.
Qed.
(** Where one is below 2.6 it does not. *)
Lemma thin : 0 < g -> Forall (fun c => 1 <= moliere_b mass E g cs (c_charge c)) cs ->
  Exists (fun c => moliere_b mass E g cs (c_charge c) <= 26 / 10) cs -> exists s', prefactor nan s E g = Ok (0, s').
Proof.
  intros G T X. destruct (characteristic_sign mass E g cs NE P M) as (C & _). specialize (C G).
  rewrite (prefactor_value nan mass cs s E g NE P M F).
  assert (K : forall c, In c cs -> (reduced_angle nan chi_c (screening_angle2 mass E (c_charge c)) = Ok None /\ True) \/
     exists x, reduced_angle nan chi_c (screening_angle2 mass E (c_charge c)) = Ok (Some x) /\ 26 / 10 < moliere_b mass E g cs (c_charge c)).
  { rewrite Forall_forall in T, P. intros c I. specialize (T c I). destruct (P c I) as (Z & _).
    destruct (reduced_cases nan chi_c (screening_angle2 mass E (c_charge c)) C (screening_positive mass E _ M Z) T) as [(H & _)|(x & H & _ & Y & _)]; eauto. }
  destruct (fill_stops nan chi_c chi_as (mo_B s) lengths) as (B' & HB).
  - rewrite !Forall_map, Forall_forall. intros c I. destruct (K c I) as [(H & _)|(x & H & _)]; eauto.
  - apply Exists_exists in X. destruct X as (c & I & Y). apply Exists_exists. exists (screening_angle2 mass E (c_charge c)).
    split; [now do 2 apply in_map|]. destruct (K c I) as [(H & _)|(x & _ & H)]; [exact H|lra].
  - rewrite HB. cbn [obind fst snd]. eauto.
Qed.
Lemma no_matter : g = 0 -> exists s', prefactor nan s E g = Ok (0, s').
Proof.
  intros G. rewrite (prefactor_value nan mass cs s E g NE P M F). destruct (characteristic_sign mass E g cs NE P M) as (_ & C). rewrite (C G).
  pose proof screened as S. destruct (fill_stops nan 0 chi_as (mo_B s) lengths) as (B' & HB).
  - eapply Forall_impl; [|exact S]. intros a A. exists None. apply reduced_none; lra.
  - destruct cs as [|c l]; [contradiction|]. cbn [map] in *. constructor. inversion S; subst. apply reduced_none; lra.
  - rewrite HB. cbn [obind fst snd]. eauto.
Qed.
End Accepted.

Lemma c61_root nan mass m s0 s E g p s' : not_a_value nan -> proper_medium m -> 0 <= mass < E -> 0 <= g ->
  new_moliere nan mass m = Ok s0 -> used nan s0 s -> prefactor nan s E g = Ok (p, s') -> p <> 0 ->
  mo_chi_c s' = characteristic_angle2 mass E g (m_components m) /\
  Forall2 (fun c b => 45 / 10 <= b /\ forall B, moliere_root (moliere_b mass E g (m_components m) (c_charge c)) B -> B <= b <= B * (1 + / 10 ^ 30))
    (m_components m) (mo_B s').
Proof.
  intros N P M G NW U H NP. rewrite (new_ok nan mass m P) in NW. injection NW as <-. destruct P as (NE & P). apply used_fixed in U.
  split; [exact (proj1 (proj2 (accepted nan N mass _ s E g NE P M U p s' G H NP)))|].
  exact (accepted_root nan N mass _ s E g NE P M U p s' G H NP).
Qed.
Lemma c61_scatters nan mass m s0 s E g : not_a_value nan -> proper_medium m -> 0 <= mass < E ->
  new_moliere nan mass m = Ok s0 -> used nan s0 s ->
  (0 < g -> Forall (fun c => 3 <= moliere_b mass E g (m_components m) (c_charge c)) (m_components m) ->
   exists p s', prefactor nan s E g = Ok (p, s') /\ 0 < p) /\
  (0 < g -> Forall (fun c => 1 <= moliere_b mass E g (m_components m) (c_charge c)) (m_components m) ->
   Exists (fun c => moliere_b mass E g (m_components m) (c_charge c) <= 26 / 10) (m_components m) ->
   exists s', prefactor nan s E g = Ok (0, s')) /\
  (g = 0 -> exists s', prefactor nan s E g = Ok (0, s')).
Proof.
  intros N P M NW U. rewrite (new_ok nan mass m P) in NW. injection NW as <-. destruct P as (NE & P). apply used_fixed in U.
  split; [|split].
  - exact (thick nan N mass _ s E g NE P M U).
  - exact (thin nan mass _ s E g NE P M U).
  - exact (no_matter nan mass _ s E g NE P M U).
Qed.
(** Without a prefactor nothing is deflected. *)
Lemma c61_straight nan t s E g s' : prefactor nan s E g = Ok (0, s') -> forall r0 r1 r2 r3,
  returned (moliere_offset nan t s g E r0 r1 r2 r3) = Ok (mkoffset 0 0 0 0) /\ returned (moliere_angle nan t s g E r0) = Ok 0 /\
  returned (moliere_angle_2d nan t s g E r0 r1) = Ok 0.
Proof.
  intros H r0 r1 r2 r3. unfold moliere_offset, moliere_angle, moliere_angle_2d. rewrite H. cbn [obind]. unfold Reqb.
  destruct (Req_EM_T 0 0); [|contradiction]. repeat split.
Qed.
(** A thickness whose equation has no solution *)
Lemma c61_no_root nan mass m c E : not_a_value nan -> proper_medium m -> m_components m = [c] -> 0 <= mass < E ->
  exists g s0 p s' b, 0 < g /\ new_moliere nan mass m = Ok s0 /\ prefactor nan s0 E g = Ok (p, s') /\ 0 < p /\ mo_B s' = [b] /\ 57 / 10 <= b <= 58 / 10 /\
  moliere_b mass E g [c] (c_charge c) < 1 /\ forall B, 0 < B -> B - ln B <> moliere_b mass E g [c] (c_charge c).
Proof.
  intros N P C M. assert (PC := P). destruct P as (NE & P). rewrite C in *. inversion P as [|? ? (Z & A & K) _]; subst.
  pose proof (screening_positive mass E (c_charge c) M Z) as S.
  destruct (characteristic_sign mass E 1 [c] NE P M) as (C1 & _). specialize (C1 ltac:(lra)).
  set (L := 37 / 100 - 1 + 2 * EULER_MASCHERONI). set (g := exp L * screening_angle2 mass E (c_charge c) / characteristic_angle2 mass E 1 [c]).
  assert (G : 0 < g) by (apply Rdiv_lt_0_compat; [apply Rmult_lt_0_compat; [apply exp_pos|exact S]|exact C1]).
  assert (X : characteristic_angle2 mass E g [c] = exp L * screening_angle2 mass E (c_charge c)).
  { transitivity (g * characteristic_angle2 mass E 1 [c]); [unfold characteristic_angle2; ring|]. unfold g. field. lra. }
  assert (Q : ln (characteristic_angle2 mass E g [c] / screening_angle2 mass E (c_charge c)) = L).
  { rewrite X. replace (exp L * screening_angle2 mass E (c_charge c) / screening_angle2 mass E (c_charge c)) with (exp L) by (field; lra). apply ln_exp. }
  destruct (orbit_accepted nan L ltac:(unfold L; ring)) as (b & HB & B5).
  assert (F : same_fixed (fresh mass [c]) (fresh mass [c])) by repeat split.
  exists g, (fresh mass [c]), (sqrt (characteristic_angle2 mass E g [c] * b)), (filled (fresh mass [c]) (characteristic_angle2 mass E g [c]) [b]), b.
  assert (CP : 0 < characteristic_angle2 mass E g [c]) by (rewrite X; apply Rmult_lt_0_compat; [apply exp_pos|exact S]).
  assert (PB : 0 < characteristic_angle2 mass E g [c] * b) by (apply Rmult_lt_0_compat; lra).
  split; [exact G|]. split; [rewrite (new_ok nan mass m PC), C; reflexivity|]. split; [|split; [now apply sqrt_lt_R0|]].
  - rewrite (prefactor_value nan mass [c] _ E g NE P M F).
    cbn [map fresh mo_B fill]. unfold reduced_angle. rewrite divide_ok by lra. cbn [obind].
    assert (0 < characteristic_angle2 mass E g [c] / screening_angle2 mass E (c_charge c)) by now apply Rdiv_lt_0_compat.
    unfold Rleb. destruct (Rle_dec _ 0); [lra|]. rewrite Q, HB. cbn [obind]. unfold Rltb at 1. destruct (Rlt_dec b (45 / 10)); [lra|]. cbn [obind fst snd].
    cbn [mo_index fresh map weight_index nth_error]. unfold Utility_Model.root, Rltb. destruct (Rlt_dec _ 0); [lra|]. reflexivity.
  - split; [reflexivity|]. split; [lra|]. unfold moliere_b. rewrite Q.
    assert (V : L + 1 - 2 * EULER_MASCHERONI = 37 / 100) by (unfold L; ring). rewrite V. split; [lra|]. apply no_root. lra.
Qed.
