(** Polynom objects and their copies (C25). *)
From Verif Require Import Prelude PreludeFacts Geometry_Model Function_Model Function_Spec Function_Proofs Shapes_Proofs.

(** The state in terms of the arrays [h] and, for every object, the number of
    its array. *)
Definition represents (s : polynom_state) (from : list nat) : Prop :=
  let '(h, objs) := s in
  map p_coeff objs = from /\
  (forall p, In p objs -> exists c, nth_error h (p_coeff p) = Some c /\ length c = p_n p /\ c <> []).

Lemma coefficients h p c : nth_error h (p_coeff p) = Some c -> length c = p_n p -> get_coefficient h p = Ok c.
Proof.
  intros H L. unfold get_coefficient, arr_get. rewrite H. cbn [obind].
  destruct (Nat.ltb_spec (length c) (p_n p)); [lia|]. rewrite <- L, firstn_all. auto.
Qed.

Lemma shift_ok h p c x : nth_error h (p_coeff p) = Some c -> length c = p_n p -> c <> [] ->
  x = 0 \/ GEOMETRY_PRECISION < Rabs x ->
  exists h' c', shift_object h p x = Ok h' /\ length h' = length h /\
    nth_error h' (p_coeff p) = Some c' /\ length c' = length c /\
    (forall y, polynomial c' y = polynomial c (y + x)) /\
    forall k, k <> p_coeff p -> nth_error h' k = nth_error h k.
Proof.
  intros H L Hc Hx.
  assert (HS : exists c', poly_shift c x = Ok c' /\ length c' = length c /\ forall y, polynomial c' y = polynomial c (y + x)).
  { destruct Hx as [->|Hx]; [|apply c24_shift; auto]. exists c. rewrite c24_small_shift.
    - repeat split; auto. intros y. f_equal. ring.
    - rewrite Rabs_R0. pose proof eps_pos. lra. }
  destruct HS as (c' & E & L' & HP). unfold shift_object. rewrite (coefficients h p c H L). cbn [obind].
  rewrite E. cbn [obind].
  destruct (arr_set_ok h (p_coeff p) c') as (h' & E1 & L1 & H1).
  { apply nth_error_Some. congruence. }
  exists h', c'. split; auto. split; auto. split; [rewrite H1, Nat.eqb_refl; auto|]. split; auto. split; auto.
  intros k Hk. rewrite H1. apply Nat.eqb_neq in Hk. rewrite Hk. auto.
Qed.

Lemma nth_error_last {A} (l : list A) a : nth_error (l ++ [a]) (length l) = Some a.
Proof. rewrite nth_error_app2, Nat.sub_diag; auto. Qed.
Lemma nth_error_before {A} (l : list A) a k v : nth_error l k = Some v -> nth_error (l ++ [a]) k = Some v.
Proof. intros H. rewrite nth_error_app1; auto. apply nth_error_Some. congruence. Qed.

(** One operation *)
Lemma step_ok h objs from o ops : represents (h, objs) from -> meaningful (length objs) (o :: ops) ->
  exists h' objs', polynom_step (h, objs) o = Ok (h', objs') /\ meaningful (length objs') ops /\
    (length h <= length h')%nat /\
    match o with
    | Construct c => represents (h', objs') (from ++ [length h]) /\ objs' = objs ++ [mkpolynom (length c) (length h)]
        /\ h' = h ++ [c]
    | Copy i => represents (h', objs') (from ++ [nth i from (length h)]) /\ h' = h
        /\ exists p, nth_error objs i = Some p /\ objs' = objs ++ [p]
    | Shift i x => represents (h', objs') from /\ objs' = objs /\ length h' = length h /\
        exists p c c', nth_error objs i = Some p /\ get_coefficient h p = Ok c /\ get_coefficient h' p = Ok c' /\
          length c' = length c /\ (forall y, polynomial c' y = polynomial c (y + x)) /\
          (forall k, k <> p_coeff p -> nth_error h' k = nth_error h k)
    end.
Proof.
  intros [HF HR] HM. destruct o as [c|i|i x]; cbn [meaningful] in HM; cbn [polynom_step].
  - destruct HM as [Hc HM]. unfold new_polynom. eexists _, _. split; [reflexivity|].
    rewrite app_length, Nat.add_1_r. split; auto. split; [rewrite app_length; lia|]. split; [|auto]. split.
    + rewrite map_app, HF. auto.
    + intros p Hp. apply in_app_or in Hp. destruct Hp as [Hp|[<-|[]]].
      * destruct (HR p Hp) as (c1 & H1 & H2). exists c1. split; auto. apply nth_error_before; auto.
      * exists c. cbn [p_coeff p_n]. split; [apply nth_error_last|auto].
  - destruct HM as [Hi HM]. destruct (nth_error objs i) as [p|] eqn:Ep; [|apply nth_error_None in Ep; lia].
    rewrite (arr_get_ok _ _ _ Ep). cbn [obind]. unfold copy_polynom.
    eexists _, _. split; [reflexivity|]. rewrite app_length, Nat.add_1_r. split; auto. split; [auto|].
    replace (mkpolynom (p_n p) (p_coeff p)) with p by (destruct p; auto).
    split; [|split; [auto|exists p; auto]]. split.
    + rewrite map_app, HF. cbn [map]. do 2 f_equal. symmetry. subst from. apply nth_error_nth.
      rewrite nth_error_map, Ep. auto.
    + intros q Hq. apply in_app_or in Hq. destruct Hq as [Hq|[<-|[]]]; [apply HR; auto|].
      apply HR. eapply nth_error_In; eauto.
  - destruct HM as (Hi & Hx & HM). destruct (nth_error objs i) as [p|] eqn:Ep; [|apply nth_error_None in Ep; lia].
    rewrite (arr_get_ok _ _ _ Ep). cbn [obind].
    destruct (HR p) as (c & H1 & H2 & H3); [eapply nth_error_In; eauto|].
    destruct (shift_ok h p c x) as (h' & c' & E & L & G1 & G2 & G3 & G4); auto.
    rewrite E. cbn [obind]. exists h', objs. split; auto. split; auto. split; [lia|]. split.
    + split; auto. intros q Hq. destruct (Nat.eq_dec (p_coeff q) (p_coeff p)) as [E1|E1].
      * rewrite E1. exists c'. split; auto. destruct (HR q Hq) as (cq & Q1 & Q2 & Q3).
        rewrite E1, H1 in Q1. injection Q1 as <-. split; [lia|]. intros ->. destruct c; [auto|discriminate].
      * destruct (HR q Hq) as (cq & Q1 & Q2 & Q3). exists cq. rewrite G4; auto.
    + split; auto. split; auto. exists p, c, c'. split; auto. split; [apply coefficients; auto|].
      split; [apply coefficients; auto; lia|]. auto.
Qed.

(** ** Different constructions never influence each other, copies always agree *)
Lemma from_lengths h objs from : represents (h, objs) from -> length from = length objs.
Proof. intros [<- _]. apply map_length. Qed.

Lemma c25_run ops : forall h objs from, represents (h, objs) from -> meaningful (length objs) ops ->
  exists h' objs', polynom_run (h, objs) ops = Ok (h', objs') /\ represents (h', objs') (origins from (length h) ops).
Proof.
  induction ops as [|o ops IH]; intros h objs from HR HM; cbn [polynom_run origins].
  - eauto.
  - destruct (step_ok h objs from o ops HR HM) as (h1 & objs1 & E & HM1 & HL & HO). rewrite E. cbn [obind].
    destruct o as [c|i|i x].
    + destruct HO as (R1 & E1 & E2). destruct (IH _ _ _ R1 HM1) as (h' & objs' & E' & R'). exists h', objs'.
      split; auto. subst h1. rewrite app_length, Nat.add_1_r in R'. auto.
    + destruct HO as (R1 & E1 & E2). destruct (IH _ _ _ R1 HM1) as (h' & objs' & E' & R'). exists h', objs'.
      split; auto. subst h1. auto.
    + destruct HO as (R1 & E1 & E2 & _). destruct (IH _ _ _ R1 HM1) as (h' & objs' & E' & R'). exists h', objs'.
      split; auto. rewrite E2 in R'. auto.
Qed.

Lemma represents_nil : represents ([], []) [].
Proof. split; [auto|]. intros p []. Qed.

Lemma polynom_run_app ops1 : forall s ops2,
  polynom_run s (ops1 ++ ops2) = (olet s' := polynom_run s ops1 in polynom_run s' ops2).
Proof.
  induction ops1 as [|o ops1 IH]; intros s ops2; cbn [app polynom_run]; auto.
  destruct (polynom_step s o); cbn [obind]; auto.
Qed.
Lemma meaningful_app ops1 : forall k o, meaningful k (ops1 ++ [o]) -> meaningful k ops1.
Proof.
  induction ops1 as [|a ops1 IH]; intros k o H; cbn [app meaningful] in *; auto.
  destruct a; intuition eauto.
Qed.
Lemma meaningful_last ops1 : forall k o h objs h' objs', length objs = k ->
  meaningful k (ops1 ++ [o]) -> polynom_run (h, objs) ops1 = Ok (h', objs') -> meaningful (length objs') [o].
Proof.
  induction ops1 as [|a ops1 IH]; intros k o h objs h' objs' Hk H E; cbn [app polynom_run] in *.
  - injection E as -> ->. rewrite Hk. auto.
  - destruct a as [c|i|i x]; cbn [polynom_step new_polynom meaningful] in *.
    + cbn [obind] in E. eapply (IH (S k)); [|apply H|exact E]. rewrite app_length; cbn; lia.
    + destruct (arr_get objs i); try discriminate. cbn [obind] in E.
      eapply (IH (S k)); [|apply H|exact E]. rewrite app_length; cbn; lia.
    + destruct (arr_get objs i) as [p| |]; try discriminate. cbn [obind] in E.
      destruct (shift_object h p x); try discriminate. cbn [obind] in E.
      eapply (IH k); [exact Hk|apply H|exact E].
Qed.

Lemma c25_origins ops i x : meaningful 0 (ops ++ [Shift i x]) ->
  exists h objs h', polynom_run ([], []) ops = Ok (h, objs) /\
    polynom_run ([], []) (ops ++ [Shift i x]) = Ok (h', objs) /\
    length objs = length (origins [] 0 ops) /\
    forall j p, nth_error objs j = Some p ->
      exists c, get_coefficient h p = Ok c /\
        (nth_error (origins [] 0 ops) j <> nth_error (origins [] 0 ops) i -> get_coefficient h' p = Ok c) /\
        (nth_error (origins [] 0 ops) j = nth_error (origins [] 0 ops) i ->
           exists c', get_coefficient h' p = Ok c' /\ length c' = length c /\ forall y, polynomial c' y = polynomial c (y + x)).
Proof.
  intros HM. destruct (c25_run ops [] [] [] represents_nil (meaningful_app _ _ _ HM)) as (h & objs & E & HR).
  cbn [length] in HR. pose proof (meaningful_last ops 0 (Shift i x) [] [] h objs eq_refl HM E) as HM1.
  destruct (step_ok h objs _ _ _ HR HM1) as (h' & objs' & E1 & _ & _ & HO).
  destruct HO as (R1 & -> & L & p0 & c & c' & P1 & P2 & P3 & P4 & P5 & P6).
  exists h, objs, h'. split; auto. rewrite polynom_run_app. match goal with |- context [obind ?a _] => replace a with (@Ok polynom_state (h, objs)) by (symmetry; exact E) end. cbn [obind polynom_run]. rewrite E1. cbn [obind].
  split; auto. split; [symmetry; eapply from_lengths; eauto|].
  intros j p Hj. destruct HR as [HF HR]. rewrite <- HF. rewrite !nth_error_map, Hj, P1. cbn [option_map].
  destruct (HR p) as (cp & C1 & C2 & C3); [eapply nth_error_In; eauto|].
  exists cp. split; [apply coefficients; auto|]. split.
  - intros HN. apply coefficients; auto. rewrite P6; [auto|congruence].
  - intros HN. injection HN as HN. destruct (HR p0) as (cp0 & D1 & D2 & D3); [eapply nth_error_In; eauto|].
    assert (cp0 = cp) as -> by congruence. rewrite (coefficients h p0 cp) in P2 by auto. injection P2 as <-.
    exists c'. split; auto. destruct R1 as [_ R1]. 
    destruct (R1 p) as (cq & Q1 & Q2 & Q3); [eapply nth_error_In; eauto|].
    rewrite (coefficients h' p cq) by auto.
    assert (HQ : p_n p0 = p_n p) by congruence.
    rewrite <- P3. symmetry. rewrite HN in Q1. apply coefficients; auto. congruence.
Qed.

(** ** Without copies every object is a value of its own *)
Definition values (s : polynom_state) (vs : list (list R)) : Prop :=
  let '(h, objs) := s in map (get_coefficient h) objs = map Ok vs.

Lemma values_nth h objs vs j : values (h, objs) vs ->
  (forall p, nth_error objs j = Some p -> exists c, nth_error vs j = Some c /\ get_coefficient h p = Ok c) /\
  length vs = length objs.
Proof.
  intros H. cbn in H. split.
  - intros p Hp. assert (E : nth_error (map (get_coefficient h) objs) j = nth_error (map (@Ok _) vs) j) by congruence.
    rewrite !nth_error_map, Hp in E. cbn in E. destruct (nth_error vs j) as [c|]; [|discriminate].
    exists c. split; auto. injection E; auto.
  - apply (f_equal (@length _)) in H. rewrite !map_length in H. auto.
Qed.
Lemma map_ext_nth {A B C} (f : A -> C) (g : B -> C) (l : list A) (m : list B) : length l = length m ->
  (forall j a b, nth_error l j = Some a -> nth_error m j = Some b -> f a = g b) -> map f l = map g m.
Proof.
  revert m; induction l as [|a l IH]; intros [|b m] L H; cbn in *; try discriminate; auto.
  f_equal; [apply (H 0%nat); auto|]. apply IH; [lia|]. intros j. apply (H (S j)).
Qed.

Lemma c25_values ops : forall h objs vs, no_copies ops ->
  represents (h, objs) (seq 0 (length h)) -> meaningful (length objs) ops -> values (h, objs) vs ->
  exists h' objs' vs', polynom_run (h, objs) ops = Ok (h', objs') /\ value_run vs ops vs' /\ values (h', objs') vs'.
Proof.
  induction ops as [|o ops IH]; intros h objs vs HN HR HM HV; cbn [polynom_run].
  - exists h, objs, vs. repeat split; auto. constructor.
  - destruct (step_ok h objs _ o ops HR HM) as (h1 & objs1 & E & HM1 & HL & HO). rewrite E. cbn [obind].
    assert (HN' : no_copies ops). { intros k Hk. apply (HN k). right; auto. }
    assert (HLo : length objs = length h). { pose proof (from_lengths _ _ _ HR) as Q. rewrite seq_length in Q. auto. }
    destruct (values_nth h objs vs 0 HV) as [_ HLv].
    destruct o as [c|i|i x].
    + destruct HO as (R1 & E1 & E2).
      assert (V1 : values (h1, objs1) (vs ++ [c])).
      { cbn. subst. rewrite !map_app. f_equal.
        - apply map_ext_nth; [lia|]. intros j p b Hp Hb.
          destruct HR as [_ HR]. destruct (HR p) as (cp & C1 & C2 & C3); [eapply nth_error_In; eauto|].
          destruct (values_nth _ _ _ j HV) as [V _]. destruct (V p Hp) as (b' & B1 & B2).
          assert (b' = b) by congruence. subst. rewrite <- B2. rewrite !(coefficients _ p cp); auto.
          apply nth_error_before; auto.
        - cbn [map]. f_equal. apply coefficients; auto. cbn [p_coeff]. apply nth_error_last. }
      destruct (IH h1 objs1 (vs ++ [c])) as (h' & objs' & vs' & A1 & A2 & A3); auto.
      { replace (seq 0 (length h1)) with (seq 0 (length h) ++ [length h]); auto.
        subst h1. rewrite app_length, Nat.add_1_r, seq_S. auto. }
      exists h', objs', vs'. split; auto. split; auto. econstructor; eauto. constructor.
    + exfalso. apply (HN i). left; auto.
    + destruct HO as (R1 & -> & L & p & c & c' & P1 & P2 & P3 & P4 & P5 & P6).
      destruct HR as [HF HR].
      set (vs1 := map (fun q => match get_coefficient h1 q with Ok v => v | _ => [] end) objs).
      assert (V1 : values (h1, objs) vs1).
      { cbn. unfold vs1. rewrite map_map. apply map_ext_in. intros q Hq. destruct R1 as [_ R1].
        destruct (R1 q Hq) as (cq & C1 & C2 & C3). rewrite (coefficients _ q cq); auto. }
      assert (HI : forall j q, nth_error objs j = Some q -> p_coeff q = j).
      { intros j q Hq. assert (Ej : nth_error (map p_coeff objs) j = Some j).
        { rewrite HF. rewrite nth_error_nth' with (d := 0%nat).
          - rewrite seq_nth; auto. rewrite <- HLo. apply nth_error_Some. congruence.
          - rewrite seq_length, <- HLo. apply nth_error_Some. congruence. }
        rewrite nth_error_map, Hq in Ej. cbn in Ej. congruence. }
      destruct (values_nth _ _ _ i HV) as [Vi _]. destruct (Vi p P1) as (ci & I1 & I2).
      assert (ci = c) by congruence. subst ci.
      destruct (IH h1 objs vs1) as (h' & objs' & vs' & A1 & A2 & A3); auto.
      { rewrite L. auto. }
      exists h', objs', vs'. split; auto. split; auto. apply value_next with vs1; auto.
      apply value_shift with c c'; auto.
      * unfold vs1. rewrite nth_error_map, P1. cbn [option_map]. rewrite P3. auto.
      * unfold vs1. rewrite map_length. lia.
      * intros j Hj. unfold vs1. rewrite nth_error_map. destruct (nth_error objs j) as [q|] eqn:Eq; cbn [option_map].
        -- destruct (values_nth _ _ _ j HV) as [Vj _]. destruct (Vj q Eq) as (cj & J1 & J2). rewrite J1.
           destruct (HR q) as (cq & C1 & C2 & C3); [eapply nth_error_In; eauto|].
           rewrite (coefficients h q cq) in J2 by auto. injection J2 as <-.
           rewrite (coefficients h1 q cq); auto. rewrite P6; auto.
           rewrite (HI j q Eq), (HI i p P1). auto.
        -- symmetry. apply nth_error_None. apply nth_error_None in Eq. lia.
Qed.
Lemma c25_no_copies ops : no_copies ops -> meaningful 0 ops ->
  exists h objs vs, polynom_run ([], []) ops = Ok (h, objs) /\ value_run [] ops vs /\
    map (get_coefficient h) objs = map Ok vs.
Proof. intros H1 H2. apply (c25_values ops [] [] []); auto; [apply represents_nil|reflexivity]. Qed.

(** ** A copy is changed with its original *)
Lemma c25_refuted : exists ops h objs, meaningful 0 ops /\ polynom_run ([], []) ops = Ok (h, objs) /\
  forall vs, value_run [] ops vs -> map (get_coefficient h) objs <> map Ok vs.
Proof.
  set (ops := [Construct [0; 1]; Copy 0; Shift 1 1]).
  assert (HM : meaningful 0 ops).
  { cbn. repeat split; auto; try discriminate. right. rewrite Rabs_R1. unfold GEOMETRY_PRECISION. lra. }
  destruct (c25_origins [Construct [0; 1]; Copy 0] 1 1 HM) as (h & objs & h' & E1 & E2 & L & HC).
  exists ops, h', objs. split; auto. split; auto. intros vs HV Heq.
  assert (Hv : nth_error vs 0 = Some [0; 1]).
  { unfold ops in HV. inversion HV as [|? v1 ? ? ? S1 V1]; subst. inversion S1; subst. clear HV S1.
    inversion V1 as [|? v2 ? ? ? S2 V2]; subst. inversion S2; subst. clear V1 S2.
    inversion V2 as [|? v3 ? ? ? S3 V3]; subst. inversion V3; subst. clear V2 V3.
    inversion S3; subst. rewrite H9 by lia. reflexivity. }
  cbn [origins length nth app] in L, HC.
  destruct (nth_error objs 0) as [p|] eqn:E0; [|apply nth_error_None in E0; cbn in L; lia].
  destruct (HC 0%nat p E0) as (c & C1 & _ & C2). destruct C2 as (c' & C3 & C4 & C5); [reflexivity|].
  assert (E3 : nth_error (map (get_coefficient h') objs) 0 = nth_error (map (@Ok _) vs) 0) by congruence.
  rewrite !nth_error_map, E0, Hv in E3. cbn [option_map] in E3. rewrite C3 in E3. injection E3 as ->.
  assert (c = [0; 1]).
  { cbn in E1. injection E1 as <- <-. cbn in E0. injection E0 as <-. cbn in C1. congruence. }
  subst c. specialize (C5 0). cbn in C5. lra.
Qed.
