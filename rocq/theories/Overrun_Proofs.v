(** Sessions with an Integral, and the settings that overrun its arrays. *)
From Verif Require Import Prelude PreludeFacts Function_Model Integral_Model Function_Spec Integral_Spec Function_Proofs
  Trapezoid_Proofs Neville_Proofs Romberg_Proofs Integral_Proofs Values_Proofs Safety_Proofs.

Section Overrun.
Variable nan : forall A, outcome A.
Variable qags : (R -> outcome R) -> R -> R -> outcome R.

Lemma session_safe (Nan : forall A, defined (nan A)) (Qags : forall h a b, (forall x, defined (h x)) -> defined (qags h a b)) :
  forall cs g, suited g -> (forall c, In c cs -> call_defined c) -> safe (fun _ => True) (session nan qags cs g).
Proof.
  induction cs as [|c cs IH]; intros g S D; [exact I|]. cbn [session].
  apply (safe_bind (fun s => suited (snd s))).
  - specialize (D c (or_introl eq_refl)). destruct c; cbn in D.
    + apply integrate_safe; assumption.
    + apply integrate_ratio_safe; assumption.
    + apply get_upper_limit_safe; assumption.
  - intros (v & g1) S1. apply (safe_bind (fun _ => True)); [|intros (vs & g2) _; exact I].
    apply IH; [exact S1|]. intros c' I. apply D. right. exact I.
Qed.
Lemma new_suited romberg steps precision : (12 <= steps)%nat -> suited (new_integral romberg steps precision).
Proof.
  intro S. unfold new_integral. repeat split; cbn; try (rewrite repeat_length); try lia.
  unfold INT_MAX. cbv. discriminate.
Qed.
Lemma session_defined romberg steps precision cs : (12 <= steps)%nat -> (forall A, defined (nan A)) ->
  (forall h a b, (forall x, defined (h x)) -> defined (qags h a b)) -> (forall c, In c cs -> call_defined c) ->
  exists o, session nan qags cs (new_integral romberg steps precision) = Some o /\ defined o.
Proof.
  intros S N Q D. pose proof (session_safe N Q cs _ (new_suited romberg steps precision S) D) as H.
  destruct (session _ _ _ _) as [[r|e|u]|]; cbn in H; try tauto; eexists; (split; [reflexivity|discriminate]).
Qed.

(** ** Too short *)
Lemma arr_set_beyond {A} (l : list A) : forall i v, (length l <= i)%nat -> arr_set l i v = UB out_of_bounds.
Proof.
  induction l as [|a l IH]; intros i v H; [reflexivity|]. destruct i as [|i]; cbn in *; [lia|]. rewrite IH by lia. reflexivity.
Qed.
Lemma trapezoid3_loop_runs f : (forall x, exists y, f x = Ok y) -> forall fuel x max step sum,
  trapezoid3_loop fuel f x max step sum = None \/ exists v, trapezoid3_loop fuel f x max step sum = Some (Ok v).
Proof.
  intro H. induction fuel as [|fuel IH]; intros x max step sum; cbn [trapezoid3_loop]; [left; reflexivity|].
  destruct (x <? max); [|right; eexists; reflexivity].
  destruct (H x) as (y1 & ->), (H (x + 2 * step)) as (y2 & ->). cbn. apply IH.
Qed.
Lemma trapezoid3_runs g n old : (forall x, exists y, evaluate nan g x = Ok y) -> (1 <= n)%Z ->
  exists v, trapezoid3 nan g n old = Some (Ok v).
Proof.
  intros H N. pose proof (trapezoid3_total nan g n old N) as T. revert T. unfold trapezoid3. destruct (n =? 1)%Z.
  - intros _. destruct (H ((e_max g + e_min g) / 2)) as (y & ->). eexists. reflexivity.
  - match goal with |- context [trapezoid3_loop ?a ?b ?c ?d ?e ?f] => destruct (trapezoid3_loop_runs b H a c d e f) as [->|(v & ->)] end.
    + intro X. exfalso. apply X. reflexivity.
    + intros _. eexists. reflexivity.
Qed.
Lemma opened_short : forall steps g i k n result, (forall x, exists y, evaluate nan g x = Ok y) -> e_random g = 0 \/ e_random g = 1 ->
  (1 <= k)%Z -> (k * 3 ^ Z.of_nat steps <= INT_MAX)%Z -> length (e_ix g) = length (e_iy g) -> (i <= length (e_ix g))%nat ->
  (length (e_ix g) < i + steps)%nat -> (length (e_ix g) < e_romberg g)%nat ->
  opened_loop nan qags steps None g i k n result = Some (UB out_of_bounds).
Proof.
  induction steps as [|steps IH]; intros g i k n result H Rn K M L B S Ro; [lia|]. cbn [opened_loop].
  replace ((e_random g =? 0) || (e_random g =? 1)) with true
    by (symmetry; apply orb_true_iff; destruct Rn as [Z|Z]; [left|right]; apply Reqb_true; exact Z).
  destruct (trapezoid3_runs g k result H K) as (r & ->). rewrite !fbind_Ok || (unfold done at 1; cbn [fbind]).
  set (g1 := with_x g _). change (e_ix g1) with (e_ix g). change (e_iy g1) with (e_iy g).
  destruct (Nat.eq_dec i (length (e_ix g))) as [E|E].
  - cbn [fbind done]. rewrite arr_set_beyond by lia. reflexivity.
  - destruct (set_ok (e_ix g) i n) as (ix & Ex & Nx & _); [lia|].
    destruct (set_ok (e_iy g) i r) as (iy & Ey & Ny & _); [lia|]. cbn [fbind done]. rewrite Ex, Ey.
    change (e_romberg (with_buffers g1 ix iy)) with (e_romberg g).
    destruct (Nat.leb_spec (e_romberg g) (Datatypes.S i)); [lia|].
    destruct (times_safe k 3 steps K ltac:(lia) M) as (-> & M2 & K2).
    apply IH; try assumption; cbn; try lia.
Qed.
(** ** Too many points *)
Lemma nearest_overrun g start x : forall k j num aux c d, length c = length d -> (j <= length c)%nat -> (length c < j + k)%nat ->
  (start + (j + k) <= length (e_ix g))%nat -> (start + (j + k) <= length (e_iy g))%nat ->
  loop (nearest g start x) (seq j k) (num, aux, c, d) = UB out_of_bounds.
Proof.
  induction k as [|k IH]; intros j num aux c d L J S Rx Ry; [lia|]. cbn [seq loop]. unfold nearest at 1.
  rewrite get_ok by lia. cbn [obind]. destruct (if _ <? _ then _ else _) as (num' & aux'). rewrite get_ok by lia. cbn [obind].
  destruct (Nat.eq_dec j (length c)) as [E|E].
  - rewrite arr_set_beyond by lia. reflexivity.
  - destruct (set_ok c j (nth (start + j) (e_iy g) 0)) as (c' & -> & Lc & _); [lia|]. cbn [obind].
    destruct (set_ok d j (nth (start + j) (e_iy g) 0)) as (d' & -> & Ld & _); [lia|]. cbn [obind].
    apply IH; lia.
Qed.
Lemma interpolate_overrun g start x : (e_work g < e_romberg g)%nat -> (start + e_romberg g <= length (e_ix g))%nat ->
  (start + e_romberg g <= length (e_iy g))%nat -> interpolate g start x = UB out_of_bounds.
Proof.
  intros W Lx Ly. unfold interpolate. rewrite get_ok by lia. cbn [obind].
  rewrite nearest_overrun; [reflexivity|..]; rewrite ?repeat_length; lia.
Qed.
Lemma opened_wide : forall steps g i k n result, (forall x, exists y, evaluate nan g x = Ok y) -> e_random g = 0 \/ e_random g = 1 ->
  (1 <= k)%Z -> (k * 3 ^ Z.of_nat steps <= INT_MAX)%Z -> (i + steps <= length (e_ix g))%nat -> (i + steps <= length (e_iy g))%nat ->
  (e_work g < e_romberg g)%nat -> (i < e_romberg g <= i + steps)%nat ->
  opened_loop nan qags steps None g i k n result = Some (UB out_of_bounds).
Proof.
  induction steps as [|steps IH]; intros g i k n result H Rn K M Lx Ly W S; [lia|]. cbn [opened_loop].
  replace ((e_random g =? 0) || (e_random g =? 1)) with true
    by (symmetry; apply orb_true_iff; destruct Rn as [Z|Z]; [left|right]; apply Reqb_true; exact Z).
  destruct (trapezoid3_runs g k result H K) as (r & ->). cbn [fbind done].
  set (g1 := with_x g _). change (e_ix g1) with (e_ix g). change (e_iy g1) with (e_iy g).
  destruct (set_ok (e_ix g) i n) as (ix & Ex & Nx & _); [lia|].
  destruct (set_ok (e_iy g) i r) as (iy & Ey & Ny & _); [lia|]. rewrite Ex, Ey.
  change (e_romberg (with_buffers g1 ix iy)) with (e_romberg g).
  destruct (Nat.leb_spec (e_romberg g) (Datatypes.S i)) as [Le|Gt].
  - rewrite interpolate_overrun; [reflexivity|..]; cbn; lia.
  - destruct (times_safe k 3 steps K ltac:(lia) M) as (-> & M2 & K2).
    apply IH; try assumption; cbn; try lia.
Qed.

Lemma plain_evaluates g a b f : (forall x, exists y, f x = Ok y) -> forall x, exists y, evaluate nan (init_plain g a b f) x = Ok y.
Proof.
  intros H x. unfold evaluate, init_plain, prepared. cbn [e_reverse e_power e_log e_integrand]. destruct (Reqb_spec 0 0) as [_|X]; [|lra].
  cbn [obind]. destruct (H x) as (y & ->). eexists. reflexivity.
Qed.
Lemma opened_fails g a b f p : a <> b -> negligible (Rmin a b) (Rmax a b) = false ->
  romberg_opened nan qags None (init_plain g a b f) = Some (UB out_of_bounds) ->
  integrate nan qags g a b f 2 p = Some (UB out_of_bounds).
Proof.
  intros N Ng H. unfold integrate.
  replace ((a =? 0) && (b =? 0)) with false
    by (symmetry; destruct (Reqb_spec a 0), (Reqb_spec b 0); try reflexivity; exfalso; apply N; congruence).
  unfold integrate_opened. cbv zeta. cbn [e_min e_max init_plain prepared]. rewrite Ng. unfold finish. rewrite H. reflexivity.
Qed.
(** Fewer steps than points of the extrapolation: every integration overruns. *)
Lemma short_overruns romberg steps precision a b f p : (1 <= steps < romberg)%nat -> (steps < 12)%nat -> (forall x, exists y, f x = Ok y) ->
  negligible (Rmin a b) (Rmax a b) = false -> a <> b ->
  integrate nan qags (new_integral romberg steps precision) a b f 2 p = Some (UB out_of_bounds).
Proof.
  intros S T F Ng N. apply opened_fails; [exact N|exact Ng|]. unfold romberg_opened.
  apply opened_short; [apply plain_evaluates, F|left; reflexivity|lia| |..]; unfold init_plain, prepared, new_integral; cbn [e_steps e_ix e_iy e_romberg];
    rewrite ?repeat_length; try lia.
  change (1 * 3 ^ Z.of_nat 12 <= INT_MAX)%Z. unfold INT_MAX. cbv. discriminate.
Qed.
(** More points than the arrays were made for *)
Lemma wide_overruns m a b f p : (5 < m <= 12)%nat -> (forall x, exists y, f x = Ok y) ->
  negligible (Rmin a b) (Rmax a b) = false -> a <> b ->
  integrate nan qags (with_romberg default_integral m) a b f 2 p = Some (UB out_of_bounds).
Proof.
  intros S F Ng N. apply opened_fails; [exact N|exact Ng|]. unfold romberg_opened.
  apply opened_wide; [apply plain_evaluates, F|left; reflexivity|lia| |..];
    unfold init_plain, prepared, default_integral, with_romberg, new_integral; cbn [e_steps e_ix e_iy e_romberg e_work];
    rewrite ?repeat_length; try (cbn; lia).
  change (1 * 3 ^ Z.of_nat 12 <= INT_MAX)%Z. unfold INT_MAX. cbv. discriminate.
Qed.
End Overrun.
