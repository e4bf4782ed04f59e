(** The buffers of Integral are never overrun; the place of GetUpperLimit lies
    between the limits. *)
From Verif Require Import Prelude PreludeFacts Function_Model Integral_Model Function_Spec Integral_Spec Function_Proofs
  Trapezoid_Proofs Neville_Proofs Romberg_Proofs Integral_Proofs Values_Proofs.

(** No undefined behaviour and no lack of fuel; [P] holds of a result. *)
Definition safe {A} (P : A -> Prop) (r : run A) : Prop :=
  match r with Some (Ok a) => P a | Some (Throw _) => True | Some (UB _) => False | None => False end.
Lemma safe_bind {A B} (P : A -> Prop) (Q : B -> Prop) (r : run A) (k : A -> run B) :
  safe P r -> (forall a, P a -> safe Q (k a)) -> safe Q (fbind r k).
Proof. destruct r as [[a| |]|]; cbn; try tauto. intros H K. apply K, H. Qed.
Lemma safe_weaken {A} (P Q : A -> Prop) r : (forall a, P a -> Q a) -> safe P r -> safe Q r.
Proof. intros H. destruct r as [[a| |]|]; cbn; auto. Qed.
Lemma safe_done {A} (x : outcome A) : defined x -> safe (fun _ => True) (done x).
Proof. intro H. destruct x; cbn; auto. exact (H _ eq_refl). Qed.
Lemma defined_bind {A B} (x : outcome A) (k : A -> outcome B) : defined x -> (forall a, defined (k a)) -> defined (obind x k).
Proof. destruct x as [y|y|y]; cbn; intros H K u E; try discriminate; [apply (K _ _ E)|apply (H _ eq_refl)]. Qed.
Lemma defined_Ok {A} (x : A) : defined (Ok x).
Proof. discriminate. Qed.
Lemma defined_Throw {A} e : defined (Throw e : outcome A).
Proof. discriminate. Qed.
#[local] Hint Resolve defined_Ok defined_Throw : core.

Section Safety.
Variable nan : forall A, outcome A.
Variable qags : (R -> outcome R) -> R -> R -> outcome R.
Hypothesis nan_defined : forall A, defined (nan A).
Hypothesis qags_defined : forall h a b, (forall x, defined (h x)) -> defined (qags h a b).

Lemma quotient_defined a b : defined (quotient nan a b).
Proof. unfold quotient. destruct (_ =? _); [apply nan_defined|auto]. Qed.
Lemma power_defined a b : defined (power nan a b).
Proof. unfold power. destruct (_ <? _); [auto|apply nan_defined]. Qed.
Lemma logarithm_defined a : defined (logarithm nan a).
Proof. unfold logarithm. destruct (_ <? _); [auto|apply nan_defined]. Qed.

Definition harmless (g : engine) : Prop := match e_integrand g with Some f => forall x, defined (f x) | None => True end.
Lemma evaluate_defined g x : harmless g -> defined (evaluate nan g x).
Proof.
  unfold harmless, evaluate. intro H. apply defined_bind.
  - destruct (_ =? 0); [auto|]. destruct (0 <? _).
    + apply defined_bind; [apply power_defined|intro]. apply defined_bind; [apply quotient_defined|auto].
    + apply defined_bind; [apply power_defined|intro]. apply defined_bind; [apply quotient_defined|auto].
  - intros (t & r). destruct (if e_log g then _ else _) as (t' & r'). destruct (e_integrand g); [|auto]. apply defined_bind; auto.
Qed.

Lemma total_safe {A} (r : run A) : r <> None -> (forall u, r <> Some (UB u)) -> safe (fun _ => True) r.
Proof. destruct r as [[| |u]|]; cbn; intros H K; [exact I|exact I|exact (K u eq_refl)|exact (H eq_refl)]. Qed.

Lemma trapezoid_loop_defined f : (forall x, defined (f x)) -> forall fuel x max step sum u,
  trapezoid_loop fuel f x max step sum <> Some (UB u).
Proof.
  intros H. induction fuel as [|fuel IH]; intros x max step sum u; cbn [trapezoid_loop]; [discriminate|].
  destruct (x <? max); [|discriminate]. pose proof (H x) as D. destruct (f x); cbn; try discriminate; [apply IH|].
  exfalso. exact (D _ eq_refl).
Qed.
Lemma trapezoid3_loop_defined f : (forall x, defined (f x)) -> forall fuel x max step sum u,
  trapezoid3_loop fuel f x max step sum <> Some (UB u).
Proof.
  intros H. induction fuel as [|fuel IH]; intros x max step sum u; cbn [trapezoid3_loop]; [discriminate|].
  destruct (x <? max); [|discriminate]. pose proof (H x) as D. destruct (f x); cbn; try discriminate; [|exfalso; exact (D _ eq_refl)].
  pose proof (H (x + 2 * step)) as D2. destruct (f (x + 2 * step)); cbn; try discriminate; [apply IH|]. exfalso. exact (D2 _ eq_refl).
Qed.
Lemma locate_defined precision step small sum x y1 y2 : defined (locate nan precision step small sum x y1 y2).
Proof.
  unfold locate. apply defined_bind; [apply quotient_defined|intro a]. apply defined_bind; [|auto].
  destruct (_ <? _); [apply quotient_defined|]. destruct (_ <=? _); [|apply quotient_defined].
  apply defined_bind; [|intro; destruct (_ || _); [apply quotient_defined|auto]].
  destruct (_ && _); [auto|apply quotient_defined].
Qed.
Lemma trapezoid3s_loop_defined f w precision small : (forall x, defined (f x)) -> forall fuel x max step sum found u,
  trapezoid3s_loop nan fuel f w precision small x max step sum found <> Some (UB u).
Proof.
  intros H. induction fuel as [|fuel IH]; intros x max step sum found u; cbn [trapezoid3s_loop]; [discriminate|].
  destruct (x <? max); [|discriminate]. pose proof (H x) as D. destruct (f x) as [y1| |]; cbn; try discriminate; [|exfalso; exact (D _ eq_refl)].
  pose proof (H (x + 2 * step)) as D2. destruct (f (x + 2 * step)) as [y2| |]; cbn; try discriminate; [|exfalso; exact (D2 _ eq_refl)].
  destruct found; cbn; [apply IH|]. destruct (_ && _); cbn; [|apply IH].
  pose proof (locate_defined precision step small (sum + y1 + y2) (x + 2 * step) y1 y2) as D3.
  destruct (locate _ _ _ _ _ _ _ _); cbn; try discriminate; [apply IH|]. exfalso. exact (D3 _ eq_refl).
Qed.
Lemma trapezoid_safe g n old : (1 <= n)%Z -> harmless g -> safe (fun _ => True) (trapezoid nan g n old).
Proof.
  intros N H. apply total_safe; [apply trapezoid_total; exact N|]. intro u. unfold trapezoid. destruct (n =? 1)%Z.
  - assert (D : defined (olet u := evaluate nan g (e_max g) in olet v := evaluate nan g (e_min g) in Ok ((u + v) * (e_max g - e_min g) / 2))).
    { apply defined_bind; [apply evaluate_defined, H|intro]. apply defined_bind; [apply evaluate_defined, H|auto]. }
    intro E. injection E as E. exact (D _ E).
  - pose proof (trapezoid_loop_defined (evaluate nan g) (fun x => evaluate_defined g x H)) as D.
    match goal with |- context [trapezoid_loop ?a ?b ?c ?d ?e ?f] => specialize (D a c d e f); destruct (trapezoid_loop a b c d e f) as [[| |]|] end;
      cbn; try discriminate. intro E. exact (D _ E).
Qed.
Lemma trapezoid3_safe g n old : (1 <= n)%Z -> harmless g -> safe (fun _ => True) (trapezoid3 nan g n old).
Proof.
  intros N H. apply total_safe; [apply trapezoid3_total; exact N|]. intro u. unfold trapezoid3. destruct (n =? 1)%Z.
  - pose proof (evaluate_defined g ((e_max g + e_min g) / 2) H) as D. destruct (evaluate _ _ _); try discriminate. exfalso. exact (D _ eq_refl).
  - pose proof (trapezoid3_loop_defined (evaluate nan g) (fun x => evaluate_defined g x H)) as D.
    match goal with |- context [trapezoid3_loop ?a ?b ?c ?d ?e ?f] => specialize (D a c d e f); destruct (trapezoid3_loop a b c d e f) as [[| |]|] end;
      cbn; try discriminate. intro E. exact (D _ E).
Qed.
Lemma trapezoid3s_safe g n old i : (1 <= n)%Z -> harmless g -> safe (fun s => exists x, snd s = with_x g x) (trapezoid3s nan g n old i).
Proof.
  intros N H. pose proof (trapezoid3s_total nan g n old i N) as T. revert T. unfold trapezoid3s. destruct (n =? 1)%Z.
  - intros _. pose proof (evaluate_defined g ((e_max g + e_min g) / 2) H) as D. destruct (evaluate _ _ _); cbn; auto.
    + exists (e_random_x g). destruct g. reflexivity.
    + exact (D _ eq_refl).
  - set (small := if Nat.leb _ _ then _ else _).
    assert (Ds : defined small).
    { unfold small. destruct (Nat.leb _ _); [|auto]. destruct (_ <=? _); [apply quotient_defined|].
      apply defined_bind; [apply quotient_defined|auto]. }
    destruct small as [s| |]; cbn [done fbind]; [|intros _; exact I|intros _; exact (Ds _ eq_refl)].
    pose proof (trapezoid3s_loop_defined (evaluate nan g) (Nat.leb (e_romberg g) (S i)) (e_precision g) s (fun x => evaluate_defined g x H)) as D.
    match goal with |- context [trapezoid3s_loop nan ?a ?b ?c0 ?p ?s ?c ?d ?e ?f ?h] => specialize (D a c d e f h);
      destruct (trapezoid3s_loop nan a b c0 p s c d e f h) as [[(sum & found)| |]|] end; cbn [done fbind];
      [intros _; cbn [safe snd]|intros _; exact I|intros _; exact (D _ eq_refl)|intro T; exact (T eq_refl)].
    match goal with |- context [if ?c then _ else g] => destruct c end; [eexists; reflexivity|]. exists (e_random_x g). destruct g. reflexivity.
Qed.

Lemma times_safe k q steps : (1 <= k)%Z -> (2 <= q)%Z -> (k * q ^ Z.of_nat (S steps) <= INT_MAX)%Z ->
  times k q = Ok (k * q)%Z /\ (k * q * q ^ Z.of_nat steps <= INT_MAX)%Z /\ (1 <= k * q)%Z.
Proof.
  intros K Q M. rewrite Nat2Z.inj_succ, Z.pow_succ_r in M by lia.
  assert (P : (1 <= q ^ Z.of_nat steps)%Z) by (assert (0 < q ^ Z.of_nat steps)%Z by (apply Z.pow_pos_nonneg; lia); lia).
  assert (M2 : (k * q * q ^ Z.of_nat steps <= INT_MAX)%Z) by (rewrite <- Z.mul_assoc; exact M).
  assert (K2 : (1 <= k * q)%Z) by nia.
  split; [|split; assumption]. unfold times. destruct (Z.ltb_spec INT_MAX (k * q)); [|reflexivity]. nia.
Qed.

Lemma opened_loop_safe big : forall steps g i k n result, (1 <= k)%Z -> (k * 3 ^ Z.of_nat steps <= INT_MAX)%Z -> harmless g ->
  (i + steps <= length (e_ix g))%nat -> (i + steps <= length (e_iy g))%nat -> (1 <= e_romberg g <= e_work g)%nat ->
  safe (fun s => like g (snd s) /\ (big <> None -> e_random_x (snd s) = e_random_x g)) (opened_loop nan qags steps big g i k n result).
Proof.
  induction steps as [|steps IH]; intros g i k n result K M H Lx Ly Lr; cbn [opened_loop].
  - pose proof (qags_defined (evaluate nan g) (e_min g) (e_max g) (fun x => evaluate_defined g x H)) as D.
    destruct (qags _ _ _); cbn; [split; [apply like_refl|auto]|exact I|exact (D _ eq_refl)].
  - apply (safe_bind (fun s => exists x, snd s = with_x g x /\ (big <> None -> x = e_random_x g))).
    { assert (Same : g = with_x g (e_random_x g)) by (destruct g; reflexivity).
      destruct big as [bg|].
      - apply (safe_bind (fun _ => True)); [apply trapezoid3_safe; assumption|intros r _]. cbn. exists (e_random_x g). split; [exact Same|auto].
      - destruct (_ || _).
        + apply (safe_bind (fun _ => True)); [apply trapezoid3_safe; assumption|intros r _]. cbn. eexists. split; [reflexivity|congruence].
        + eapply safe_weaken; [|apply trapezoid3s_safe; assumption]. cbn. intros (r & g1) (x & E). exists x. split; [exact E|congruence]. }
    intros (r & g1) (x & E & X). cbn [snd] in E. subst g1.
    destruct (set_ok (e_ix (with_x g x)) i n) as (ix & Ex & Nx & Ox); [cbn; lia|]. rewrite Ex.
    destruct (set_ok (e_iy (with_x g x)) i r) as (iy & Ey & Ny & Oy); [cbn; lia|]. rewrite Ey. cbn [done fbind].
    set (g2 := with_buffers (with_x g x) ix iy).
    assert (L2 : like g g2) by (apply like_buffers; [apply like_x, like_refl|assumption|assumption]).
    assert (Next : safe (fun s => like g (snd s) /\ (big <> None -> e_random_x (snd s) = e_random_x g))
      (flet k := done (times k 3) in opened_loop nan qags steps big g2 (S i) k (n / 9) r)).
    { destruct (times_safe k 3 steps K ltac:(lia) M) as (-> & M2 & K2). cbn [done fbind].
      eapply safe_weaken; [|apply IH; try assumption; cbn in *; lia].
      intros (v & g3) (L3 & R3). cbn [snd] in *. split; [apply (like_trans _ _ _ L2 L3)|].
      intro B. rewrite (R3 B). cbn. apply X, B. }
    destruct (Nat.leb_spec (e_romberg g2) (S i)) as [Le|]; [|exact Next].
    assert (Le' : (e_romberg g <= S i)%nat) by exact Le.
    destruct (interpolate_runs g2 (i - (e_romberg g2 - 1)) 0) as (v & e & -> & _); [cbn in *; lia..|].
    match goal with |- context [match big with Some b => quotient nan e b | None => ?z end] =>
      assert (D : defined (match big with Some b => quotient nan e b | None => z end)) by (destruct big; [apply quotient_defined|auto]);
      destruct (match big with Some b => quotient nan e b | None => z end) as [err| |] end; [|exact I|exact (D _ eq_refl)].
    destruct (_ <? _); [|exact Next]. cbn. split; [exact L2|]. intro B. cbn. apply X, B.
Qed.
Lemma closed_loop_safe : forall steps g i k n result, (1 <= k)%Z -> (k * 2 ^ Z.of_nat steps <= INT_MAX)%Z -> harmless g ->
  (i + steps <= length (e_ix g))%nat -> (i + steps <= length (e_iy g))%nat -> (1 <= e_romberg g <= e_work g)%nat ->
  safe (fun s => like g (snd s)) (closed_loop nan qags steps g i k n result).
Proof.
  induction steps as [|steps IH]; intros g i k n result K M H Lx Ly Lr; cbn [closed_loop].
  - pose proof (qags_defined (evaluate nan g) (e_min g) (e_max g) (fun x => evaluate_defined g x H)) as D.
    destruct (qags _ _ _); cbn; [apply like_refl|exact I|exact (D _ eq_refl)].
  - apply (safe_bind (fun _ => True)); [apply trapezoid_safe; assumption|intros r _].
    destruct (set_ok (e_ix g) i n) as (ix & Ex & Nx & Ox); [lia|]. rewrite Ex.
    destruct (set_ok (e_iy g) i r) as (iy & Ey & Ny & Oy); [lia|]. rewrite Ey. cbn [done fbind].
    set (g2 := with_buffers g ix iy).
    assert (L2 : like g g2) by (apply like_buffers; [apply like_refl|assumption|assumption]).
    assert (Next : safe (fun s => like g (snd s)) (flet k := done (times k 2) in closed_loop nan qags steps g2 (S i) k (n / 4) r)).
    { destruct (times_safe k 2 steps K ltac:(lia) M) as (-> & M2 & K2). cbn [done fbind].
      eapply safe_weaken; [|apply IH; try assumption; cbn in *; lia]. intros (v & g3) L3. apply (like_trans _ _ _ L2 L3). }
    destruct (Nat.leb_spec (e_romberg g2) (S i)) as [Le|]; [|exact Next].
    assert (Le' : (e_romberg g <= S i)%nat) by exact Le.
    destruct (interpolate_runs g2 (i - (e_romberg g2 - 1)) 0) as (v & e & -> & _); [cbn in *; lia..|].
    cbn [done fbind]. destruct (_ <? _); [|exact Next]. exact L2.
Qed.

(** The sizes of the arrays suit the settings. *)
Definition suited (g : engine) : Prop :=
  roomy g /\ (1 <= e_romberg_refine g <= e_work g)%nat /\ harmless g.
Lemma like_harmless g0 g : like g0 g -> harmless g0 -> harmless g.
Proof. intros (ix & iy & x & -> & _). exact (fun h => h). Qed.
Lemma like_suited g0 g : like g0 g -> suited g0 -> suited g.
Proof.
  intros L ((F & M) & W & H). split; [split|split].
  - apply (like_fits _ _ L F).
  - destruct (like_fields _ _ L) as (-> & _). exact M.
  - destruct (like_fields _ _ L) as (_ & _ & _ & -> & _ & -> & _). exact W.
  - apply (like_harmless _ _ L H).
Qed.
Lemma romberg_opened_safe big g : suited g ->
  safe (fun s => like g (snd s) /\ (big <> None -> e_random_x (snd s) = e_random_x g)) (romberg_opened nan qags big g).
Proof. intros (([A B C D] & M) & W & H). apply opened_loop_safe; try assumption; lia. Qed.
Lemma romberg_closed_safe g : suited g -> safe (fun s => like g (snd s)) (romberg_closed nan qags g).
Proof.
  intros (R & W & H). pose proof (roomy_two g R). destruct R as ([A B C D] & M). apply closed_loop_safe; try assumption; lia.
Qed.
Lemma prepared_suited g a b f p do lg rnd rev rx : suited g -> (forall x, defined (f x)) -> suited (prepared g a b f p do lg rnd rev rx).
Proof. intros (([A B C D] & M) & W & H) F. repeat split; try assumption; apply W. Qed.
Lemma flags_suited g l r : suited g -> suited (flags g l r).
Proof. intros (([A B C D] & M) & W & H). repeat split; try assumption; apply W. Qed.
Lemma sampled_suited g l r : suited g -> suited (sampled g l r).
Proof. intros (([A B C D] & M) & W & H). repeat split; try assumption; apply W. Qed.
Lemma empty_suited g a b l : suited g -> suited (empty_range g a b l).
Proof. intros (([A B C D] & M) & W & H). repeat split; try assumption; apply W. Qed.
Lemma range_suited g a b : suited g -> suited (with_range g a b).
Proof. intros (([A B C D] & M) & W & H). repeat split; try assumption; apply W. Qed.
Lemma x_suited g a : suited g -> suited (with_x g a).
Proof. intros (([A B C D] & M) & W & H). repeat split; try assumption; apply W. Qed.
Lemma romberg_suited g m : suited g -> (1 <= m <= e_work g)%nat -> suited (with_romberg g m).
Proof. intros (([A B C D] & M) & W & H) Q. repeat split; try assumption; try apply W; apply Q. Qed.

Lemma finish_safe aux (P : engine -> Prop) r : safe (fun s => P (snd s)) r -> safe (fun s => P (snd s)) (finish aux r).
Proof. intro H. unfold finish. apply (safe_bind _ _ _ _ H). intros (v & g) Q. exact Q. Qed.
Lemma range_safe aux g : suited g ->
  safe (fun s => suited (snd s)) (if negligible (e_min g) (e_max g) then done (Ok (0, g)) else finish aux (romberg_opened nan qags None g)).
Proof.
  intro S. destruct (negligible _ _); [exact S|]. apply finish_safe. eapply safe_weaken; [|apply romberg_opened_safe; exact S].
  intros (v & g1) (L & _). apply (like_suited _ _ L S).
Qed.
Lemma integrate_safe g a b f method p : suited g -> (forall x, defined (f x)) ->
  safe (fun s => suited (snd s)) (integrate nan qags g a b f method p).
Proof.
  intros S F. unfold integrate. destruct (_ && _); [exact S|]. rewrite dispatch.
  destruct (method =? 1)%Z; [|destruct (method =? 2)%Z; [|destruct (method =? 3)%Z; [|destruct (method =? 4)%Z; [|destruct (method =? 5)%Z; [|exact S]]]]].
  - unfold integrate_closed. cbv zeta. assert (S1 : suited (init_plain g a b f)) by (apply prepared_suited; assumption).
    destruct (negligible _ _); [exact S1|]. apply finish_safe. eapply safe_weaken; [|apply romberg_closed_safe; exact S1].
    intros (v & g1) L. apply (like_suited _ _ L S1).
  - unfold integrate_opened. cbv zeta. apply range_safe. apply prepared_suited; assumption.
  - unfold integrate_substitution. apply (safe_bind (fun s => suited (snd s))); [|intros (aux & g1) S1; apply range_safe; exact S1].
    unfold init_substitution. cbv zeta.
    set (r := if 0 <? p then _ else _).
    assert (D : defined r).
    { unfold r. repeat match goal with |- defined (if _ then _ else _) => destruct (_ : bool) end; auto;
        repeat (apply defined_bind; [apply power_defined|intro]); auto. }
    destruct r as [[((lo & hi) & s)|]| |]; cbn; auto.
    + apply prepared_suited; [apply flags_suited; exact S|exact F].
    + apply flags_suited; exact S.
    + exact (D _ eq_refl).
  - destruct (_ || _); [exact S|]. unfold integrate_log.
    apply (safe_bind (fun _ => True)); [apply safe_done, logarithm_defined|intros lo _].
    apply (safe_bind (fun _ => True)); [apply safe_done, logarithm_defined|intros hi _].
    cbv zeta. apply range_safe. apply prepared_suited; assumption.
  - destruct (_ || _); [exact S|]. unfold integrate_log_substitution.
    apply (safe_bind (fun s => suited (snd s))); [|intros (aux & g1) S1; apply range_safe; exact S1].
    unfold init_log_substitution. cbv zeta.
    set (r := if 0 <? p then _ else _).
    assert (D : defined r).
    { unfold r. repeat match goal with |- defined (if _ then _ else _) => destruct (_ : bool) end; auto;
        repeat (apply defined_bind; [apply power_defined|intro]); auto. }
    destruct r as [[((lo & hi) & s)|]| |]; cbn; auto.
    + apply prepared_suited; [apply flags_suited; exact S|exact F].
    + apply flags_suited; exact S.
    + exact (D _ eq_refl).
Qed.
Lemma integrate_ratio_safe g a b f method ratio p : suited g -> (forall x, defined (f x)) ->
  safe (fun s => suited (snd s)) (integrate_ratio nan qags g a b f method ratio p).
Proof.
  intros S F. unfold integrate_ratio. destruct (_ && _); [exact S|].
  assert (E : forall A (x3 x4 d : A), match method with 3%Z => x3 | 4%Z => x4 | _ => d end =
    if (method =? 3)%Z then x3 else if (method =? 4)%Z then x4 else d).
  { intros A x3 x4 d. destruct method as [|q|q]; [reflexivity| |reflexivity]. destruct q as [[q|q|]|[q|q|]|]; try reflexivity; destruct q; reflexivity. }
  rewrite E. clear E. destruct (method =? 3)%Z; [|destruct (method =? 4)%Z; [|exact S]].
  - unfold integrate_substitution_ratio. cbv zeta. destruct (negligible _ _); [apply empty_suited; exact S|].
    apply (safe_bind (fun _ => True)).
    { apply safe_done. repeat match goal with |- defined (if _ then _ else _) => destruct (_ : bool) end; auto;
        repeat (apply defined_bind; [apply power_defined|intro]); auto. }
    intros [(((u & v) & s) & reverse)|] _; [|apply flags_suited; exact S].
    apply (safe_bind (fun s => suited (snd s))).
    { eapply safe_weaken; [|apply romberg_opened_safe; apply prepared_suited; [exact S|exact F]].
      intros (w & g1) (L & _). apply (like_suited _ _ L). apply prepared_suited; assumption. }
    intros (result & g1) S1. apply (safe_bind (fun _ => True)).
    { apply safe_done. destruct (_ <? _); [|auto]. apply defined_bind; [apply quotient_defined|auto]. }
    intros r _. apply sampled_suited; exact S1.
  - destruct (_ || _); [exact I|]. unfold integrate_log_ratio. destruct (negligible _ _); [apply empty_suited; exact S|].
    apply (safe_bind (fun _ => True)); [apply safe_done, logarithm_defined|intros lo _].
    apply (safe_bind (fun _ => True)); [apply safe_done, logarithm_defined|intros hi _]. cbv zeta.
    apply (safe_bind (fun s => suited (snd s))).
    { eapply safe_weaken; [|apply romberg_opened_safe; apply prepared_suited; [exact S|exact F]].
      intros (w & g1) (L & _). apply (like_suited _ _ L). apply prepared_suited; assumption. }
    intros (result & g1) S1. apply (safe_bind (fun _ => True)).
    { apply safe_done. destruct (_ <? _); [|auto]. apply defined_bind; [apply quotient_defined|auto]. }
    intros r _. apply sampled_suited; exact S1.
Qed.
Lemma refine_loop_safe : forall steps g result value x f df xlow xhi delta delta_old, suited g ->
  safe (fun s => suited (snd s) /\ e_work (snd s) = e_work g)
    (refine_loop nan qags steps g result value x f df xlow xhi delta delta_old).
Proof.
  induction steps as [|steps IH]; intros g result value x f df xlow xhi delta delta_old S; cbn [refine_loop]; [split; [exact S|reflexivity]|].
  destruct (if f <? 0 then _ else _) as (xl & xh).
  apply (safe_bind (fun _ => True)).
  { apply safe_done. destruct (_ || _); [auto|]. apply defined_bind; [apply quotient_defined|auto]. }
  intros ((x' & d') & stop) _. destruct (_ || _); [split; [exact S|reflexivity]|].
  set (g1 := with_range g _ _). assert (S1 : suited g1) by (apply range_suited; exact S).
  apply (safe_bind (fun s => suited (snd s) /\ e_work (snd s) = e_work g)).
  { eapply safe_weaken; [|apply romberg_opened_safe; exact S1]. intros (w & g2) (L & _). split; [apply (like_suited _ _ L S1)|].
    destruct (like_fields _ _ L) as (_ & _ & _ & _ & _ & Ew & _). exact Ew. }
  intros (v & g2) (S2 & W2). cbn [snd] in *.
  apply (safe_bind (fun _ => True)); [apply safe_done, evaluate_defined, S2|intros df' _].
  eapply safe_weaken; [|apply IH; exact S2]. intros (w & g3) (S3 & W3). cbn [snd] in *. split; [exact S3|congruence].
Qed.
Lemma refine_safe g result : suited g -> safe suited (refine_upper_limit nan qags g result).
Proof.
  intro S. unfold refine_upper_limit. destruct (_ || _); [exact S|]. cbv zeta. destruct (0 <? _); [exact S|].
  destruct (if 0 <? _ then _ else _) as (xl & xh).
  set (g1 := if (_ <? _) || _ then _ else g).
  assert (S1 : suited g1) by (unfold g1; destruct (_ || _); [apply x_suited|]; exact S).
  apply (safe_bind (fun s => like (with_range g1 (e_min g1) (e_random_x g1)) (snd s))).
  { eapply safe_weaken; [|apply romberg_opened_safe, range_suited; exact S1]. intros (w & g2) (L & _). exact L. }
  intros (v & g2) L. cbn [snd] in L. assert (S2 : suited g2) by (apply (like_suited _ _ L), range_suited, S1).
  assert (Ew : e_work g2 = e_work g1) by (destruct (like_fields _ _ L) as (_ & _ & _ & _ & _ & E & _); exact E).
  assert (S3 : suited (with_romberg g2 (e_romberg_refine g2))) by (apply romberg_suited; [exact S2|apply S2]).
  apply (safe_bind (fun _ => True)); [apply safe_done, evaluate_defined, S3|intros df _].
  apply (safe_bind (fun s => suited (snd s) /\ e_work (snd s) = e_work g2)).
  { eapply safe_weaken; [|apply refine_loop_safe; exact S3]. intros (w & g4) (A & B). split; [exact A|exact B]. }
  intros (x & g4) (S4 & W4). cbn [snd] in *. cbn. apply range_suited, romberg_suited; [apply x_suited; exact S4|].
  change (e_work (with_x g4 x)) with (e_work g4). rewrite W4, Ew. destruct S1 as (([A B C D] & _) & _). lia.
Qed.
Lemma get_upper_limit_safe g : suited g -> safe (fun s => suited (snd s)) (get_upper_limit nan qags g).
Proof.
  intro S. unfold get_upper_limit. destruct (e_random_do g); [|exact S]. destruct (negligible _ _); [exact S|].
  apply (safe_bind suited); [apply refine_safe; exact S|intros g1 S1]. cbv zeta.
  apply (safe_bind (fun _ => True)).
  { apply safe_done. destruct (_ <? _); [apply power_defined|]. destruct (_ <? _); [|auto]. apply defined_bind; [apply power_defined|auto]. }
  intros x _. apply x_suited. exact S1.
Qed.
End Safety.
