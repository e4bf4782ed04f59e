(** Proofs about the decay of any particle through its table: C53. *)
From Verif Require Import Prelude PreludeFacts Vec_Model Propagator_Model Math_Model Particle_Model
  Particle_Spec Particle_Proofs Shapes_Spec Decay_Model Decay_Spec Decay_Proofs ManyBody_Proofs Leptonic_Proofs.

Lemma decay_conserved nan reg elements par ch parent c rnd fuel k ps : not_a_value nan ->
  open_channel reg (pd_mass parent) ch -> 0 < pd_mass parent <= energy c -> unit (direction c) -> (forall i, 0 <= rnd i <= 1) ->
  decay nan reg elements par ch parent c rnd fuel k = Some (Ok ps) ->
  decay_products (daughters_of ch) (pd_mass parent) c ps.
Proof.
  intros N (RG & MS & TH & K) HM U Rn H. destruct ch; cbn [decay daughters_of] in *; try contradiction.
  - injection H as H. inversion RG as [|? ? R1 RG']; subst. inversion RG' as [|? ? R2 _]; subst.
    inversion MS as [|? ? M1 MS']; subst. inversion MS' as [|? ? M2 _]; subst.
    cbn in TH. eapply c32_conserved; eauto. lra.
  - eapply c33_conserved; eauto.
  - injection H as H. destruct K as (K1 & K2 & K3 & K4). eapply c34_conserved in H; eauto. split; [lra|auto].
  - injection H as H. destruct K as (K1 & K2 & K3 & K4). eapply c34_conserved in H; eauto. split; [lra|auto].
Qed.
Lemma fine_two_body reg first second parent c r1 r2 :
  registered reg first -> registered reg second -> 0 <= pd_mass first -> 0 <= pd_mass second ->
  pd_mass first + pd_mass second <= pd_mass parent -> 0 < pd_mass parent <= energy c -> unit (direction c) -> 0 <= r2 <= 1 ->
  fine (two_body_decay marked reg first second parent c r1 r2).
Proof.
  intros (d1 & L1 & E1) (d2 & L2 & E2) H1 H2 HS HM U Hr. unfold two_body_decay.
  destruct (decay_momentum_ok marked (pd_mass parent) (pd_mass first) (pd_mass second)) as (p & Ep & P0 & _ & S1 & S2); try lra.
  rewrite Ep. cbn [obind]. pose proof (random_direction_unit r1 r2 Hr) as UD.
  set (dir := random_direction r1 r2) in *.
  rewrite (set_momentum_ok reg _ d1) by auto. rewrite (set_momentum_ok reg _ d2) by auto. cbn [obind].
  rewrite E1, E2. set (p1 := product first c (direction c) (energy c)) in *. set (p2 := product second c (direction c) (energy c)) in *.
  destruct (set_on_shell p1 (pd_mass first) p dir H1 P0 UD) as [O1 V1].
  destruct (set_on_shell p2 (pd_mass second) p (vneg dir) H2 P0 (unit_vneg _ UD)) as [O2 V2].
  set (q1 := with_energy (with_direction p1 dir) _) in *. set (q2 := with_energy (with_direction p2 (vneg dir)) _) in *.
  apply (fine_to_lab reg parent c [pd_mass first; pd_mass second]); auto.
  constructor; [split; auto; exists d1; auto|]. constructor; [split; auto; exists d2; auto|]. constructor.
Qed.
Lemma decay_fine reg elements par ch parent c rnd fuel k x :
  open_channel reg (pd_mass parent) ch -> 0 < pd_mass parent <= energy c -> unit (direction c) -> (forall i, 0 <= rnd i <= 1) ->
  decay marked reg elements par ch parent c rnd fuel k = Some x -> fine x.
Proof.
  intros (RG & MS & TH & K) HM U Rn H. destruct ch; cbn [decay daughters_of] in *; try contradiction.
  - injection H as <-. inversion RG as [|? ? R1 RG']; subst. inversion RG' as [|? ? R2 _]; subst.
    inversion MS as [|? ? M1 MS']; subst. inversion MS' as [|? ? M2 _]; subst.
    cbn in TH. apply fine_two_body; auto. lra.
  - eapply c33_only_nan; eauto.
  - injection H as <-. destruct K as (K1 & K2 & K3 & K4). apply c34_approx_only_nan; auto. split; [lra|auto].
  - injection H as <-. destruct K as (K1 & K2 & K3 & K4). apply c34_exact_only_nan; auto. split; [lra|auto].
Qed.

Lemma add_channel_sub br c t x : In x (add_channel br c t) -> snd x = c \/ In x t.
Proof.
  induction t as [|[k d] t IH]; cbn; [intuition; subst; auto|].
  destruct (br <? k); cbn; [intuition; subst; auto|]. destruct (k <? br); cbn; intuition; subst; auto.
Qed.
Lemma decay_table_sub l x : In x (decay_table l) -> In (snd x) (map snd l).
Proof.
  unfold decay_table. assert (G : forall t, In x (fold_left (fun t x => add_channel (fst x) (snd x) t) l t) -> In x t \/ In (snd x) (map snd l)).
  { induction l as [|[k c] l IH]; intros t H; cbn in *; auto. apply IH in H. destruct H as [H|H]; auto.
    apply add_channel_sub in H. destruct H as [->|H]; auto. }
  intros H. apply G in H. destruct H as [[]|H]; auto.
Qed.
Lemma decay_table_nonempty l : l <> [] -> decay_table l <> [].
Proof.
  unfold decay_table. assert (G : forall l t, t <> [] -> fold_left (fun t x => add_channel (fst x) (snd x) t) l t <> []).
  { clear. induction l as [|x l IH]; intros t H; cbn; auto. apply IH. destruct t as [|[k d] t]; [congruence|]. cbn.
    destruct (fst x <? k); [discriminate|]. destruct (k <? fst x); discriminate. }
  destruct l as [|x l]; [congruence|]. intros _. cbn. apply G. discriminate.
Qed.
Lemma select_in t r ch : select_channel t r = Ok ch -> In ch (map snd t).
Proof.
  unfold select_channel. generalize (sum_keys t 0 * r). intros q.
  assert (G : forall acc, select_from q acc t = Some ch -> In ch (map snd t)).
  { induction t as [|[k c] t IH]; intros acc; cbn; [discriminate|]. destruct (_ <? _); [intros [= <-]; auto|]. eauto. }
  destruct (select_from q 0 t) eqn:E.
  - intros [= <-]. eauto.
  - destruct t as [|[k c] t]; [discriminate|]. intros [= <-]. left. auto.
Qed.
Lemma select_some t r : t <> [] -> exists ch, select_channel t r = Ok ch.
Proof. intros H. unfold select_channel. destruct (select_from _ _ t); eauto. destruct t as [|[]]; [congruence|eauto]. Qed.

Lemma c53_table nan reg elements par parent c rnd fuel ps : not_a_value nan ->
  Forall (fun x => open_channel reg (pd_mass parent) (snd x)) (pd_decays parent) ->
  0 < pd_mass parent <= energy c -> unit (direction c) -> (forall i, 0 <= rnd i <= 1) ->
  decay_particle nan reg elements par parent c rnd fuel = Some (Ok ps) ->
  exists br ch, In (br, ch) (pd_decays parent) /\ decay_products (daughters_of ch) (pd_mass parent) c ps.
Proof.
  intros N OP HM U Rn H. unfold decay_particle in H.
  destruct (select_channel (pd_decays parent) (rnd O)) as [ch| |] eqn:E; try discriminate.
  apply select_in in E. apply in_map_iff in E. destruct E as ([br ch'] & <- & I). exists br, ch'. split; auto.
  rewrite Forall_forall in OP. eapply decay_conserved; eauto. apply (OP (br, ch')). auto.
Qed.
Lemma c53_fine reg elements par parent c rnd fuel x : pd_decays parent <> [] ->
  Forall (fun x => open_channel reg (pd_mass parent) (snd x)) (pd_decays parent) ->
  0 < pd_mass parent <= energy c -> unit (direction c) -> (forall i, 0 <= rnd i <= 1) ->
  decay_particle marked reg elements par parent c rnd fuel = Some x -> fine x.
Proof.
  intros NE OP HM U Rn H. unfold decay_particle in H.
  destruct (select_some (pd_decays parent) (rnd O) NE) as (ch & E). rewrite E in H.
  apply select_in in E. apply in_map_iff in E. destruct E as ([br ch'] & <- & I).
  rewrite Forall_forall in OP. refine (decay_fine _ _ _ _ _ _ _ _ _ _ (OP _ I) HM U Rn H).
Qed.

(** ** The predefined particles that decay *)
Lemma standard_registered ops d : In d standard_particles -> registered (opened (fst (registry_run None ops))) d.
Proof.
  intros I. pose proof (run_represents ops) as HR. unfold registered. rewrite HR.
  exists d. split; auto. unfold first_definition.
  cbn [In standard_particles] in I.
  repeat (destruct I as [<-|I]; [reflexivity|]). destruct I.
Qed.
Ltac constants := unfold MTAU, MMU, ME, MPI, MPI0, MKAON.
Definition unstable : list pdef := [MuMinusDef; MuPlusDef; TauMinusDef; TauPlusDef].
Lemma predefined_open ops d : In d unstable -> let reg := opened (fst (registry_run None ops)) in
  Forall (fun x => open_channel reg (pd_mass d) (snd x)) (pd_decays d).
Proof.
  intros I reg.
  assert (SR : forall l, Forall (fun d => In d standard_particles) l -> Forall (registered reg) l).
  { intros l H. eapply Forall_impl; [|exact H]. intros; apply standard_registered; auto. }
  assert (G : forall l, Forall (fun ch => Forall (fun d => In d standard_particles) (daughters_of ch) /\
    Forall (fun d => 0 <= pd_mass d) (daughters_of ch) /\
    mass_sum (map pd_mass (daughters_of ch)) <= pd_mass d /\
    match ch with
    | StableChannel => False
    | TwoBody _ _ => True
    | ManyBody ds _ _ _ => (2 <= length ds)%nat
    | LeptonicApprox l nu anti | Leptonic l nu anti =>
      pd_mass nu = 0 /\ pd_mass anti = 0 /\ 0 < pd_mass l < pd_mass d /\ 4 * pd_mass l * pd_mass d <= pd_mass d * pd_mass d + pd_mass l * pd_mass l
    end) (map snd l) -> pd_decays d = decay_table l -> Forall (fun x => open_channel reg (pd_mass d) (snd x)) (pd_decays d)).
  { intros l H ->. rewrite Forall_forall in *. intros x Hx. apply decay_table_sub in Hx. apply H in Hx.
    destruct Hx as (A & B & C & D). repeat split; auto. }
  cbn [In unstable] in I. repeat (destruct I as [<-|I]); [eapply G; [|reflexivity]..|destruct I]; clear G SR;
    cbn [map snd]; repeat (apply Forall_cons || apply Forall_nil);
    (split; [cbn [daughters_of many]; repeat (apply Forall_cons || apply Forall_nil); cbn [In standard_particles]; tauto|]);
    (split; [cbn [daughters_of many]; repeat (apply Forall_cons || apply Forall_nil); cbn; constants; lra|]);
    (split; [cbn; constants; lra|]); try exact I; cbn; constants; try lia; repeat split; lra.
Qed.
Lemma c53_predefined nan ops d elements par c rnd fuel ps : not_a_value nan -> In d unstable ->
  pd_mass d <= energy c -> unit (direction c) -> (forall i, 0 <= rnd i <= 1) ->
  decay_particle nan (opened (fst (registry_run None ops))) elements par d c rnd fuel = Some (Ok ps) ->
  exists br ch, In (br, ch) (pd_decays d) /\ decay_products (daughters_of ch) (pd_mass d) c ps.
Proof.
  intros N I HM U Rn H. eapply c53_table; eauto. { apply predefined_open. auto. }
  split; auto. clear - I. cbn [In unstable] in I. intuition; subst; cbn; constants; lra.
Qed.
Lemma c53_charge d br ch : In d unstable -> In (br, ch) (pd_decays d) -> total_charge (daughters_of ch) = pd_charge d.
Proof.
  intros I H. cbn [In unstable] in I.
  repeat (destruct I as [<-|I]); [..|destruct I]; apply decay_table_sub in H; cbn [map snd In] in H;
    repeat (destruct H as [<-|H]); try contradiction; cbn; lra.
Qed.
(** Pions and kaons have a lifetime and so decay, but into nothing. *)
Lemma c53_pion_refuted nan reg elements par c rnd fuel : pd_lifetime PiPlusDef <> None /\
  decay_particle nan reg elements par PiPlusDef c rnd fuel = Some (Ok []).
Proof.
  split; [discriminate|]. unfold decay_particle. change (pd_decays PiPlusDef) with set_stable. rewrite c31_stable. reflexivity.
Qed.
Lemma c53_predefined_fine ops d elements par c rnd fuel x : In d unstable ->
  pd_mass d <= energy c -> unit (direction c) -> (forall i, 0 <= rnd i <= 1) ->
  decay_particle marked (opened (fst (registry_run None ops))) elements par d c rnd fuel = Some x -> fine x.
Proof.
  intros I HM U Rn H. eapply c53_fine; eauto.
  - clear - I. cbn [In unstable] in I. repeat (destruct I as [<-|I]); [..|destruct I]; apply decay_table_nonempty; discriminate.
  - apply predefined_open. auto.
  - split; auto. clear - I. cbn [In unstable] in I. intuition; subst; cbn; constants; lra.
Qed.
Lemma c34_spectrum m M : 0 < m < M -> let emax := (M * M + m * m) / (2 * M) in
  (forall rs x y, m / emax <= x < y -> y <= 1 -> rate m M emax x rs < rate m M emax y rs) /\
  (forall rs x, m / emax < x -> derivable_pt_lim (fun x => rate m M emax x rs) x (differential m M emax x)).
Proof.
  intros H emax. split.
  - intros. apply rate_increasing; auto.
  - intros. apply Coquelicot.Derive.is_derive_Reals. apply rate_derive; auto.
Qed.
Lemma c52_weights nan ds M rs : (2 <= length ds)%nat -> Forall (fun d => 0 <= pd_mass d) ds ->
  mass_sum (map pd_mass ds) <= M -> 0 < M -> Forall (fun r => 0 <= r <= 1) rs -> (length rs + 2 = length ds)%nat ->
  exists norm par k, calculate_normalization nan (map pd_mass ds) M = Ok norm /\
    estimate_max_weight nan (map pd_mass ds) norm M = Ok par /\
    calculate_kinematics nan (map pd_mass ds) (normalization par) M rs = Ok k /\
    weight_min par = 0 /\ 0 <= k_weight k <= weight_max par.
Proof.
  intros L MS TH HM Hr Lr. destruct (normalization_ok nan (map pd_mass ds) M TH HM) as (norm & EN & PN).
  destruct ds as [|d0 [|d1 ds]]; cbn in L, Lr; try lia. cbn [map] in *.
  assert (MS' : Forall (fun m => 0 <= m) (pd_mass d0 :: pd_mass d1 :: map pd_mass ds)).
  { exact (proj2 (Forall_map pd_mass (fun m => 0 <= m) (d0 :: d1 :: ds)) MS). }
  destruct (kinematics_ok nan (pd_mass d0) (pd_mass d1) (map pd_mass ds) norm M rs) as (vs & ps & EK & _); auto.
  { rewrite map_length. lia. }
  destruct (kinematics_weight nan _ _ _ norm M rs _ MS' TH Hr ltac:(rewrite map_length; lia) PN EK) as (W & EW & B).
  exists norm, (mkparams norm W 0). eexists. split; auto. split; [exact EW|]. split; [exact EK|]. split; auto.
Qed.
Lemma c52_example : exists br ds u s e, In (br, ManyBody ds u s e) (pd_decays TauMinusDef) /\ length ds = 5%nat /\
  Forall (fun d => 0 <= pd_mass d) ds /\ mass_sum (map pd_mass ds) <= pd_mass TauMinusDef.
Proof.
  exists (457 / 10 ^ 4), [PiMinusDef; PiMinusDef; PiPlusDef; Pi0Def; NuTauDef], true, 1000%Z, None. split.
  - cbn [pd_decays TauMinusDef]. match goal with |- In _ (decay_table ?l) => apply (Permutation.Permutation_in _ (decay_table_perm l ltac:(cbn [map fst]; repeat (apply NoDup_cons || apply NoDup_nil); cbn [In]; intuition lra))) end.
    cbn [In many]. unfold many. tauto.
  - split; [reflexivity|]. split; [repeat (apply Forall_cons || apply Forall_nil)|]; cbn; constants; lra.
Qed.
