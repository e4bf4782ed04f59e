(** Root searches (C27) and the online variance (C28). *)
From Verif Require Import Prelude PreludeFacts Math_Model Math_Spec.

Ltac splits := repeat match goal with |- _ /\ _ => split end.

Lemma between_refl_l a b : between a b a.
Proof. unfold between. split; [apply Rmin_l|apply Rmax_l]. Qed.
Lemma between_refl_r a b : between a b b.
Proof. unfold between. split; [apply Rmin_r|apply Rmax_r]. Qed.
Lemma between_trans a b c d x : between a b c -> between a b d -> between c d x -> between a b x.
Proof.
  unfold between. intros [H1 H2] [H3 H4] [H5 H6]. split.
  - apply Rle_trans with (Rmin c d); auto. apply Rmin_glb; auto.
  - apply Rle_trans with (Rmax c d); auto. apply Rmax_lub; auto.
Qed.
Lemma between_product a b x : (x - a) * (x - b) <= 0 -> between a b x.
Proof.
  intros H. unfold between, Rmin, Rmax. destruct (Rle_dec a b); nra.
Qed.
Lemma between_comm a b x : between a b x -> between b a x.
Proof. unfold between. rewrite Rmin_comm, Rmax_comm. auto. Qed.

(** A continuous function with a sign change has a root in between. *)
Lemma root_between f a b : continuity f -> f a <= 0 -> 0 <= f b -> exists z, between a b z /\ f z = 0.
Proof.
  intros C Ha Hb. destruct (Rle_dec a b) as [H|H].
  - assert (HP : f a * f b <= 0) by nra.
    destruct (IVT_cor f a b C H HP) as (z & Hz & E). exists z. split; auto.
    unfold between. rewrite Rmin_left, Rmax_right; lra.
  - assert (HP : f b * f a <= 0) by nra.
    destruct (IVT_cor f b a C ltac:(lra) HP) as (z & Hz & E). exists z. split; auto.
    unfold between. rewrite Rmin_right, Rmax_left; lra.
Qed.

Section Newton.
Variables (f df : R -> R) (nan : outcome R).
Variables (x1 x2 xacc : R).

(** What holds between the passes of the loop *)
Definition sound (s : newton) : Prop :=
  between x1 x2 (n_xl s) /\ between x1 x2 (n_xh s) /\ between (n_xl s) (n_xh s) (n_rts s) /\
  f (n_xl s) < 0 /\ 0 <= f (n_xh s) /\ n_f s = f (n_rts s) /\ n_df s = df (n_rts s).
(** ... from the second pass on *)
Definition tight (s : newton) : Prop := n_rts s = n_xl s \/ n_rts s = n_xh s.

Lemma sound_rts s : sound s -> between x1 x2 (n_rts s).
Proof. intros (H1 & H2 & H3 & _). exact (between_trans _ _ _ _ _ H1 H2 H3). Qed.

Definition harmless : Prop := forall t, between x1 x2 t -> f t = 0 -> df t <> 0.

(** The two ways to move the estimate *)
Lemma step_cases s : sound s -> 
  (newton_step f df nan xacc s = (olet r := nan in Ok (inr r)) /\ f (n_rts s) = 0 /\ df (n_rts s) = 0) \/
  (exists dx rts, between (n_xl s) (n_xh s) rts /\
     ((rts = (n_xl s + n_xh s) / 2 /\ rts - n_xl s = dx) \/
      (df (n_rts s) <> 0 /\ dx = f (n_rts s) / df (n_rts s) /\ rts = n_rts s - dx)) /\
     ((newton_step f df nan xacc s = Ok (inr rts) /\ (Rabs dx < xacc \/ f rts = 0)) \/
      (exists s', newton_step f df nan xacc s = Ok (inl s') /\ sound s' /\ tight s' /\ n_rts s' = rts /\
         (rts = (n_xl s + n_xh s) / 2 \/ rts <> n_rts s)))).
Proof.
  destruct s as [xl xh rts dxold dx fv dfv]. intros Hs. unfold sound in Hs. cbn [n_xl n_xh n_rts n_f n_df] in *.
  revert Hs. intros (H1 & H2 & H3 & H4 & H5 & -> & ->).
  assert (Hne : xl <> xh) by (intros ->; lra).
  set (after := fun (xl xh rts dxold dx : R) =>
    if Rabs dx <? xacc then Ok (inr rts)
    else if f rts <? 0 then Ok (inl (mknewton rts xh rts dxold dx (f rts) (df rts)))
    else Ok (inl (mknewton xl rts rts dxold dx (f rts) (df rts))) : outcome (newton + R)).
  assert (HA : forall r dxo d, between xl xh r ->
     (after xl xh r dxo d = Ok (inr r) /\ (Rabs d < xacc \/ f r = 0)) \/
     exists s', after xl xh r dxo d = Ok (inl s') /\ sound s' /\ tight s' /\ n_rts s' = r).
  { intros r dxo d Hr. unfold after. destruct (Rltb_spec (Rabs d) xacc); [left; auto|right].
    assert (Hb : between x1 x2 r) by (eapply between_trans; [apply H1|apply H2|auto]).
    destruct (Rltb_spec (f r) 0); eexists; (split; [reflexivity|]); unfold sound, tight;
      cbn [n_xl n_xh n_rts n_f n_df]; splits; auto using between_refl_l, between_refl_r; lra. }
  unfold newton_step. fold after.
  destruct ((0 <? ((rts - xh) * df rts - f rts) * ((rts - xl) * df rts - f rts)) ||
            (Rabs (dxold * df rts) <? Rabs (2 * f rts))) eqn:EC.
  - right. exists (1 / 2 * (xh - xl)), (xl + 1 / 2 * (xh - xl)).
    assert (Hm : between xl xh (xl + 1 / 2 * (xh - xl))) by (apply between_product; nra).
    split; auto. split.
    { left. split; lra. }
    destruct (Reqb_spec xl (xl + 1 / 2 * (xh - xl))) as [E|_]; [exfalso; apply Hne; lra|].
    change (if Rabs (1 / 2 * (xh - xl)) <? xacc then _ else _) with (after xl xh (xl + 1 / 2 * (xh - xl)) dx (1 / 2 * (xh - xl))).
    destruct (HA (xl + 1 / 2 * (xh - xl)) dx (1 / 2 * (xh - xl)) Hm) as [H|(s' & E1 & E2 & E3 & E4)].
    + left. auto.
    + right. exists s'. splits; auto. left. lra.
  - apply orb_false_elim in EC. destruct EC as [C1 C2]. apply Rltb_false in C1. apply Rltb_false in C2.
    destruct (Reqb_spec (df rts) 0) as [E0|E0].
    + left. split; auto. split; auto. rewrite E0 in C1. nra.
    + right. exists (f rts / df rts), (rts - f rts / df rts).
      set (q := f rts / df rts). assert (Hq : f rts = q * df rts) by (unfold q; field; auto).
      assert (Hb : between xl xh (rts - q)).
      { apply between_product. rewrite Hq in C1.
        replace (((rts - xh) * df rts - q * df rts) * ((rts - xl) * df rts - q * df rts))
          with (((rts - q - xl) * (rts - q - xh)) * (df rts * df rts)) in C1 by ring.
        assert (0 < df rts * df rts) by nra. apply Rnot_lt_le. intros HC. nra. }
      split; auto. split; [right; auto|].
      destruct (Reqb_spec rts (rts - q)) as [E|E].
      * left. split; auto. right. assert (q = 0) by lra. rewrite <- E, Hq, H. ring.
      * change (if Rabs q <? xacc then _ else _) with (after xl xh (rts - q) dx q).
        destruct (HA (rts - q) dx q Hb) as [H|(s' & E1 & E2 & E3 & E4)]; [left; auto|].
        right. exists s'. splits; auto.
Qed.

Lemma loop_between n : forall s r, sound s -> newton_loop f df nan xacc n s = Ok r ->
  (forall v, nan <> Ok v) -> between x1 x2 r.
Proof.
  induction n as [|n IH]; intros s r Hs E HN; cbn [newton_loop] in E.
  - injection E as <-. apply sound_rts; auto.
  - destruct (step_cases s Hs) as [(E1 & _)|(dx & rts & Hb & _ & [(E1 & _)|(s' & E1 & Hs' & _)])].
    + rewrite E1 in E. destruct nan as [v| |] eqn:EN; try discriminate. exfalso. eapply HN; eauto.
    + rewrite E1 in E. cbn [obind] in E. injection E as <-.
      destruct Hs as (B1 & B2 & _). exact (between_trans _ _ _ _ _ B1 B2 Hb).
    + rewrite E1 in E. cbn [obind] in E. eapply IH; eauto.
Qed.

Lemma loop_defined n : forall s, sound s -> harmless -> exists r, newton_loop f df nan xacc n s = Ok r.
Proof.
  induction n as [|n IH]; intros s Hs HH; cbn [newton_loop]; [eauto|].
  destruct (step_cases s Hs) as [(E1 & Z1 & Z2)|(dx & rts & Hb & _ & [(E1 & _)|(s' & E1 & Hs' & _)])].
  - exfalso. apply (HH (n_rts s)); auto. apply sound_rts; auto.
  - rewrite E1. cbn [obind]. eauto.
  - rewrite E1. cbn [obind]. apply IH; auto.
Qed.

Lemma loop_converged n : forall s r, continuity f -> 0 < xacc -> sound s -> (n = 0%nat -> tight s) ->
  (forall v, nan <> Ok v) ->
  newton_loop f df nan xacc n s = Ok r -> newton_loop f df nan xacc (S n) s = Ok r ->
  converged f df x1 x2 xacc r.
Proof.
  assert (HR : forall s rts dx, continuity f -> 0 < xacc -> sound s -> between (n_xl s) (n_xh s) rts ->
    (rts = (n_xl s + n_xh s) / 2 /\ rts - n_xl s = dx) \/
      (df (n_rts s) <> 0 /\ dx = f (n_rts s) / df (n_rts s) /\ rts = n_rts s - dx) ->
    (Rabs dx < xacc \/ f rts = 0) -> converged f df x1 x2 xacc rts).
  { intros s rts dx C HX Hs Hb HM [Hd|Hz].
    - destruct HM as [[M1 M2]|(M1 & M2 & M3)].
      + left. destruct Hs as (S1 & S2 & S3 & S4 & S5 & _).
        destruct (root_between f (n_xl s) (n_xh s) C ltac:(lra) S5) as (z & Z1 & Z2).
        exists z. split; auto. apply Rle_lt_trans with (Rabs dx); auto.
        unfold between, Rmin, Rmax in Z1. destruct (Rle_dec (n_xl s) (n_xh s));
          unfold Rabs; destruct (Rcase_abs (rts - z)), (Rcase_abs dx); lra.
      + right. exists (n_rts s). split; [apply sound_rts; auto|]. split; auto. split; congruence.
    - left. exists rts. split; auto. rewrite Rminus_diag_eq, Rabs_R0; auto. }
  induction n as [|n IH]; intros s r C HX Hs HT HN E1 E2.
  - cbn [newton_loop] in E1. injection E1 as <-. cbn [newton_loop] in E2.
    destruct (step_cases s Hs) as [(E & _)|(dx & rts & Hb & HM & [(E & HQ)|(s' & E & Hs' & _ & Hr & HQ)])].
    + rewrite E in E2. destruct nan as [v| |] eqn:EN; try discriminate. exfalso. eapply HN; eauto.
    + rewrite E in E2. cbn [obind] in E2. injection E2 as <-. eapply HR; eauto.
    + rewrite E in E2. cbn [obind] in E2. injection E2 as E2. exfalso.
      destruct HQ as [HQ|HQ]; [|congruence].
      destruct Hs as (S1 & S2 & S3 & S4 & S5 & _). assert (n_xl s <> n_xh s) by (intros EE; rewrite EE in S4; lra).
      apply H. destruct (HT eq_refl); lra.
  - change (newton_loop f df nan xacc (S (S n)) s) with
      (olet r := newton_step f df nan xacc s in match r with inl s' => newton_loop f df nan xacc (S n) s' | inr x => Ok x end) in E2.
    cbn [newton_loop] in E1.
    destruct (step_cases s Hs) as [(E & _)|(dx & rts & Hb & HM & [(E & HQ)|(s' & E & Hs' & Ht & Hr & HQ)])].
    + rewrite E in E2. destruct nan as [v| |] eqn:EN; try discriminate. exfalso. eapply HN; eauto.
    + rewrite E in E2. cbn [obind] in E2. injection E2 as <-. eapply HR; eauto.
    + rewrite E in E1, E2. cbn [obind] in E1, E2. eapply IH; eauto.
Qed.

Lemma newton_start xinit : f x1 * f x2 <= 0 -> f x1 <> 0 -> f x2 <> 0 -> between x1 x2 xinit ->
  exists s, sound s /\ forall n, newton_raphson f df nan x1 x2 xinit n xacc = newton_loop f df nan xacc (n - 1) s.
Proof.
  intros HP N1 N2 Hi. unfold newton_raphson. 
  destruct (Rltb_spec 0 (f x1 * f x2)); [lra|]. destruct (Reqb_spec (f x1) 0); [contradiction|].
  destruct (Reqb_spec (f x2) 0); [contradiction|].
  destruct (Rltb_spec (f x1) 0); eexists; (split; [|intros; reflexivity]); unfold sound;
    cbn [n_xl n_xh n_rts n_f n_df].
  - assert (0 <= f x2) by (apply Rnot_lt_le; intros HC; nra).
    splits; auto using between_refl_l, between_refl_r.
  - assert (f x2 < 0). { assert (0 < f x1) by lra. apply Rnot_le_lt. intros HC. assert (0 < f x2) by lra. nra. }
    splits; auto using between_refl_l, between_refl_r, between_comm; lra.
Qed.

Lemma c27_newton_rejects xinit n : f x1 * f x2 > 0 -> newton_raphson f df nan x1 x2 xinit n xacc = Throw math_exception.
Proof. intros H. unfold newton_raphson. destruct (Rltb_spec 0 (f x1 * f x2)); auto. lra. Qed.

Lemma c27_newton_bracket xinit n r : (forall v, nan <> Ok v) -> between x1 x2 xinit ->
  newton_raphson f df nan x1 x2 xinit n xacc = Ok r -> f x1 * f x2 <= 0 /\ between x1 x2 r.
Proof.
  intros HN Hi E. assert (HP : f x1 * f x2 <= 0).
  { apply Rnot_lt_le. intros HC. rewrite c27_newton_rejects in E; [discriminate|auto]. }
  split; auto. destruct (Req_dec (f x1) 0) as [Z1|Z1]; [|destruct (Req_dec (f x2) 0) as [Z2|Z2]].
  - unfold newton_raphson in E. rewrite Z1 in E. destruct (Rltb_spec 0 (0 * f x2)); [lra|].
    destruct (Reqb_spec 0 0); [|lra]. injection E as <-. apply between_refl_l.
  - unfold newton_raphson in E. destruct (Rltb_spec 0 (f x1 * f x2)); [lra|].
    destruct (Reqb_spec (f x1) 0); [contradiction|]. destruct (Reqb_spec (f x2) 0); [|contradiction].
    injection E as <-. apply between_refl_r.
  - destruct (newton_start xinit HP Z1 Z2 Hi) as (s & Hs & HL). rewrite HL in E. eapply loop_between; eauto.
Qed.

Lemma c27_newton_defined xinit n : between x1 x2 xinit -> f x1 * f x2 <= 0 ->
  (forall t, between x1 x2 t -> f t = 0 -> df t <> 0) ->
  exists r, newton_raphson f df nan x1 x2 xinit n xacc = Ok r.
Proof.
  intros Hi HP HH. destruct (Req_dec (f x1) 0) as [Z1|Z1]; [|destruct (Req_dec (f x2) 0) as [Z2|Z2]].
  - unfold newton_raphson. rewrite Z1. destruct (Rltb_spec 0 (0 * f x2)); [lra|].
    destruct (Reqb_spec 0 0); [|lra]. eauto.
  - unfold newton_raphson. destruct (Rltb_spec 0 (f x1 * f x2)); [lra|].
    destruct (Reqb_spec (f x1) 0); [contradiction|]. destruct (Reqb_spec (f x2) 0); [|contradiction]. eauto.
  - destruct (newton_start xinit HP Z1 Z2 Hi) as (s & Hs & HL). rewrite HL. apply loop_defined; auto.
Qed.

Lemma c27_newton_converged xinit n r : (forall v, nan <> Ok v) -> continuity f -> 0 < xacc -> between x1 x2 xinit ->
  (2 <= n)%nat -> newton_raphson f df nan x1 x2 xinit n xacc = Ok r ->
  newton_raphson f df nan x1 x2 xinit (n + 1) xacc = Ok r -> converged f df x1 x2 xacc r.
Proof.
  intros HN C HX Hi Hn E1 E2. destruct (c27_newton_bracket xinit n r HN Hi E1) as [HP _].
  assert (HZ : forall z, f z = 0 -> converged f df x1 x2 xacc z).
  { intros z Hz. left. exists z. split; auto. rewrite Rminus_diag_eq, Rabs_R0; auto. }
  destruct (Req_dec (f x1) 0) as [Z1|Z1]; [|destruct (Req_dec (f x2) 0) as [Z2|Z2]].
  - unfold newton_raphson in E1. rewrite Z1 in E1. destruct (Rltb_spec 0 (0 * f x2)); [lra|].
    destruct (Reqb_spec 0 0); [|lra]. injection E1 as <-. auto.
  - unfold newton_raphson in E1. destruct (Rltb_spec 0 (f x1 * f x2)); [lra|].
    destruct (Reqb_spec (f x1) 0); [contradiction|]. destruct (Reqb_spec (f x2) 0); [|contradiction].
    injection E1 as <-. auto.
  - destruct (newton_start xinit HP Z1 Z2 Hi) as (s & Hs & HL). rewrite HL in E1, E2.
    replace (n + 1 - 1)%nat with (S (n - 1)) in E2 by lia.
    apply (loop_converged (n - 1) s r); auto. lia.
Qed.
End Newton.

(** A root with a vanishing derivative, hit exactly, gives NaN. *)
Lemma c27_nan_refuted : exists f df x1 x2 xinit,
  continuity f /\ (forall t, derivable_pt_lim f t (df t)) /\ f x1 * f x2 < 0 /\ between x1 x2 xinit /\ f xinit = 0 /\
  forall nan n xacc, (2 <= n)%nat -> newton_raphson f df nan x1 x2 xinit n xacc = (olet r := nan in Ok r).
Proof.
  exists (fun t => t ^ 3), (fun t => INR 3 * t ^ pred 3), (-1), 1, 0.
  split; [apply derivable_continuous, derivable_pow|]. split; [intros t; apply derivable_pt_lim_pow|].
  split; [lra|]. split; [unfold between, Rmin, Rmax; destruct (Rle_dec (-1) 1); lra|]. split; [ring|].
  intros nan n xacc Hn. unfold newton_raphson.
  destruct (Rltb_spec 0 ((-1) ^ 3 * 1 ^ 3)); [lra|]. destruct (Reqb_spec ((-1) ^ 3) 0); [lra|].
  destruct (Reqb_spec (1 ^ 3) 0); [lra|]. destruct (Rltb_spec ((-1) ^ 3) 0); [|lra].
  destruct n as [|[|n]]; [lia|lia|]. cbn [Nat.sub newton_loop newton_step].
  match goal with |- context [if ?c then _ else _] => replace c with false end.
  - destruct (Reqb_spec (INR 3 * 0 ^ pred 3) 0) as [_|H]; [|exfalso; apply H; cbn; ring].
    destruct nan; reflexivity.
  - symmetry. apply orb_false_intro; apply Rltb_false.
    + cbn. lra.
    + rewrite !(Rmult_0_l _), !Rmult_0_r || idtac. cbn. replace (2 * (0 * (0 * (0 * 1)))) with 0 by ring.
      rewrite Rabs_R0. apply Rabs_pos.
Qed.

(** ** Bisection *)
Lemma sgn_cases x : (0 < x /\ sgn x = 1%Z) \/ (x = 0 /\ sgn x = 0%Z) \/ (x < 0 /\ sgn x = (-1)%Z).
Proof.
  unfold sgn. destruct (Rltb_spec 0 x), (Rltb_spec x 0); try lra; [left|right; right|right; left]; split; auto; lra.
Qed.
Lemma bisection_loop_ok f xacc n : forall x1 x2, x1 <= x2 -> f x1 * f x2 <= 0 ->
  let '(a, b) := bisection_loop f xacc n x1 x2 in
  x1 <= a /\ a <= b /\ b <= x2 /\ f a * f b <= 0 /\
  exists k, (k <= n)%nat /\ b - a = (x2 - x1) / 2 ^ k /\ (k = n \/ b - a < xacc) /\
    forall j, (1 <= j < k)%nat -> xacc <= (x2 - x1) / 2 ^ j.
Proof.
  induction n as [|n IH]; intros x1 x2 Hx HP; cbn [bisection_loop].
  - splits; auto; try lra. exists 0%nat. split; auto. split; [cbn; field|]. split; auto. lia.
  - set (c := (x1 + x2) / 2).
    assert (HS : let '(a, b) := if (sgn (f c) =? sgn (f x1))%Z then (c, x2) else (x1, c) in
       x1 <= a /\ a <= b /\ b <= x2 /\ b - a = (x2 - x1) / 2 /\ f a * f b <= 0).
    { destruct (Z.eqb_spec (sgn (f c)) (sgn (f x1))) as [E|E]; unfold c in *; splits; try lra.
      - destruct (sgn_cases (f ((x1 + x2) / 2))) as [[A B]|[[A B]|[A B]]];
        destruct (sgn_cases (f x1)) as [[A' B']|[[A' B']|[A' B']]]; try congruence; rewrite ?A; try lra; 
        apply Rnot_lt_le; intros HC; nra.
      - destruct (sgn_cases (f ((x1 + x2) / 2))) as [[A B]|[[A B]|[A B]]];
        destruct (sgn_cases (f x1)) as [[A' B']|[[A' B']|[A' B']]]; try congruence; rewrite ?A, ?A'; try lra; nra. }
    destruct (if (sgn (f c) =? sgn (f x1))%Z then (c, x2) else (x1, c)) as [a b].
    destruct HS as (S1 & S2 & S3 & S4 & S5).
    destruct (Rltb_spec (Rabs (b - a)) xacc) as [HA|HA].
    + splits; auto. exists 1%nat. split; [lia|]. split; [rewrite S4; cbn; field|].
      rewrite Rabs_right in HA by lra. split; [auto|lia].
    + rewrite Rabs_right in HA by lra.
      specialize (IH a b S2 S5). destruct (bisection_loop f xacc n a b) as [a' b'].
      destruct IH as (I1 & I2 & I3 & I4 & k & K1 & K2 & K3 & K4).
      splits; auto; try lra. exists (S k). split; [lia|]. split.
      { rewrite K2, S4. cbn [pow]. field. apply pow_nonzero. lra. }
      split; [destruct K3; [left; lia|auto]|].
      intros j Hj. destruct j as [|[|j]]; [lia| |].
      * cbn. lra.
      * specialize (K4 (S j) ltac:(lia)). rewrite S4 in K4. cbn [pow] in *.
        replace ((x2 - x1) / (2 * (2 * 2 ^ j))) with ((x2 - x1) / 2 / (2 * 2 ^ j)); auto.
        field. apply pow_nonzero. lra.
Qed.

Lemma c27_bisection f x1 x2 xacc passes : continuity f -> f x1 * f x2 <= 0 ->
  exists a b z k, bisection f x1 x2 xacc passes = Ok (a, b) /\
    between x1 x2 a /\ between x1 x2 b /\ a <= z <= b /\ f z = 0 /\ f a * f b <= 0 /\
    b - a = Rabs (x2 - x1) / 2 ^ k /\ (k <= passes)%nat /\ (k = passes \/ b - a < xacc) /\
    (forall j, (1 <= j < k)%nat -> xacc <= Rabs (x2 - x1) / 2 ^ j).
Proof.
  intros C HP. unfold bisection. destruct (Rltb_spec 0 (f x1 * f x2)); [lra|].
  assert (HG : forall y1 y2, y1 <= y2 -> f y1 * f y2 <= 0 -> (forall t, y1 <= t <= y2 -> between x1 x2 t) ->
    y2 - y1 = Rabs (x2 - x1) ->
    exists a b z k, Ok (bisection_loop f xacc passes y1 y2) = Ok (a, b) /\
    between x1 x2 a /\ between x1 x2 b /\ a <= z <= b /\ f z = 0 /\ f a * f b <= 0 /\
    b - a = Rabs (x2 - x1) / 2 ^ k /\ (k <= passes)%nat /\ (k = passes \/ b - a < xacc) /\
    (forall j, (1 <= j < k)%nat -> xacc <= Rabs (x2 - x1) / 2 ^ j)).
  { intros y1 y2 Hy HQ HB HW. pose proof (bisection_loop_ok f xacc passes y1 y2 Hy HQ) as HL.
    destruct (bisection_loop f xacc passes y1 y2) as [a b].
    destruct HL as (L1 & L2 & L3 & L4 & k & K1 & K2 & K3 & K4).
    destruct (IVT_cor f a b C L2 L4) as (z & Z1 & Z2). exists a, b, z, k. rewrite <- HW.
    splits; auto; try (apply HB; lra); lra. }
  destruct (Rltb_spec x2 x1).
  - apply HG; try lra; [|rewrite Rabs_left; lra].
    intros t Ht. unfold between. rewrite Rmin_right, Rmax_left; lra.
  - apply HG; try lra; [|rewrite Rabs_right; lra].
    intros t Ht. unfold between. rewrite Rmin_left, Rmax_right; lra.
Qed.
Lemma c27_bisection_rejects f x1 x2 xacc passes : f x1 * f x2 > 0 ->
  bisection f x1 x2 xacc passes = Throw math_exception.
Proof. intros H. unfold bisection. destruct (Rltb_spec 0 (f x1 * f x2)); auto. lra. Qed.

(** ** Welford *)
Lemma total_app l a : total (l ++ [a]) = total l + a.
Proof. unfold total. induction l as [|x l IH]; cbn; [lra|]. rewrite IH. lra. Qed.
Lemma total_squares l m : total (map (fun x => (x - m) ^ 2) l) =
  total (map (fun x => x ^ 2) l) - 2 * m * total l + INR (length l) * m ^ 2.
Proof.
  unfold total. induction l as [|x l IH]; [cbn; ring|].
  cbn [map fold_right length]. rewrite IH, S_INR. ring.
Qed.
Lemma welford_prefix l : l <> [] ->
  fold_left (fun '((m, c), i) v => (welford v i m c, S i)) l ((0, 0), 1%nat) = ((mean l, variance l), S (length l)).
Proof.
  induction l as [|a l IH] using rev_ind; [congruence|]. intros _.
  rewrite fold_left_app. cbn [fold_left].
  destruct l as [|b l'] eqn:El.
  - cbn [fold_left app length]. unfold welford, variance, mean, total. cbn. apply (f_equal2 pair); [|reflexivity]. apply (f_equal2 pair); field.
  - rewrite <- El in *. rewrite IH by (rewrite El; discriminate). unfold welford.
    assert (Hn : INR (length l) > 0) by (rewrite El; cbn [length]; apply lt_0_INR; lia).
    rewrite !app_length. cbn [length]. rewrite Nat.add_1_r.
    assert (HM : mean l + (a - mean l) / INR (S (length l)) = mean (l ++ [a])).
    { unfold mean. rewrite total_app, app_length, Nat.add_1_r, S_INR. field. lra. }
    apply (f_equal2 pair); [|reflexivity]. apply (f_equal2 pair); auto. rewrite HM. unfold variance.
    rewrite !total_squares, map_app. cbn [map]. rewrite !total_app, !app_length. cbn [length].
    rewrite Nat.add_1_r. unfold mean. rewrite !total_app, !app_length. cbn [length]. rewrite Nat.add_1_r, S_INR.
    field. lra.
Qed.
Lemma c28_welford l : l <> [] -> welford_all l = (mean l, variance l).
Proof. intros H. unfold welford_all. rewrite welford_prefix; auto. Qed.
