(** Integrate: antisymmetry, termination, values. *)
From Verif Require Import Prelude PreludeFacts Function_Model Integral_Model Function_Spec Integral_Spec Function_Proofs
  Trapezoid_Proofs Neville_Proofs Expansion_Proofs Romberg_Proofs.

Section Integral.
Variable nan : forall A, outcome A.
Variable qags : (R -> outcome R) -> R -> R -> outcome R.

(** ** Termination *)
Lemma times_pos k q : (1 <= k)%Z -> (1 <= q)%Z -> forall k', times k q = Ok k' -> (1 <= k')%Z.
Proof. unfold times. intros K Q k'. destruct (_ <? _)%Z; [discriminate|]. intro H. injection H as <-. nia. Qed.

Lemma opened_loop_total big : forall steps g i k n result, (1 <= k)%Z -> opened_loop nan qags steps big g i k n result <> None.
Proof.
  induction steps as [|steps IH]; intros g i k n result K; cbn [opened_loop]; [discriminate|].
  set (x := match big with Some _ => _ | None => _ end).
  assert (X : x <> None).
  { unfold x. pose proof (trapezoid3_total nan g k result K) as T. pose proof (trapezoid3s_total nan g k result i K) as U.
    revert T. destruct big; [|destruct (_ || _)]; try (intros _; exact U); destruct (trapezoid3 nan g k result) as [[| |]|]; cbn; intro T; try discriminate; exfalso; apply T; reflexivity. }
  revert X. destruct x as [[(r & g1)| |]|]; intro X; [|discriminate..|exfalso; apply X; reflexivity]. cbn [fbind].
  destruct (arr_set (e_ix g1) i n); try (cbn; congruence). unfold done at 1. cbn [fbind].
  destruct (arr_set (e_iy g1) i r); try (cbn; congruence). unfold done at 1. cbn [fbind].
  assert (Next : forall g2, (flet k0 := done (times k 3) in opened_loop nan qags steps big g2 (S i) k0 (n / 9) r) <> None).
  { intro g2. pose proof (times_pos k 3 K ltac:(lia)) as P. destruct (times k 3); try (cbn; congruence). cbn [done fbind]. apply IH. apply P. reflexivity. }
  destruct (Nat.leb _ _); [|apply Next].
  destruct (interpolate _ _ _) as [(v & e)| |]; try (cbn; congruence). unfold done at 1. cbn [fbind].
  destruct (match big with Some _ => _ | None => _ end); try (cbn; congruence). unfold done at 1. cbn [fbind].
  destruct (_ <? _); [discriminate|apply Next].
Qed.
Lemma closed_loop_total : forall steps g i k n result, (1 <= k)%Z -> closed_loop nan qags steps g i k n result <> None.
Proof.
  induction steps as [|steps IH]; intros g i k n result K; cbn [closed_loop]; [discriminate|].
  pose proof (trapezoid_total nan g k result K) as T. revert T.
  destruct (trapezoid nan g k result) as [[r| |]|]; intro T; [|discriminate..|exfalso; apply T; reflexivity]. cbn [fbind].
  destruct (arr_set (e_ix g) i n); try (cbn; congruence). unfold done at 1. cbn [fbind].
  destruct (arr_set (e_iy g) i r); try (cbn; congruence). unfold done at 1. cbn [fbind].
  assert (Next : forall g2, (flet k0 := done (times k 2) in closed_loop nan qags steps g2 (S i) k0 (n / 4) r) <> None).
  { intro g2. pose proof (times_pos k 2 K ltac:(lia)) as P. destruct (times k 2); try (cbn; congruence). cbn [done fbind]. apply IH. apply P. reflexivity. }
  destruct (Nat.leb _ _); [|apply Next].
  destruct (interpolate _ _ _) as [(v & e)| |]; try (cbn; congruence). unfold done at 1. cbn [fbind]. cbv zeta.
  destruct (_ <? _); [discriminate|apply Next].
Qed.
Lemma romberg_opened_total big g : romberg_opened nan qags big g <> None.
Proof. apply opened_loop_total. lia. Qed.
Lemma romberg_closed_total g : romberg_closed nan qags g <> None.
Proof. apply closed_loop_total. lia. Qed.

(** ** Antisymmetry *)
Lemma opposite_finish s r : r <> None -> opposite (finish s r) (finish (- s) r).
Proof. intro N. destruct r as [[(v & g)| |]|]; cbn; [|reflexivity..|contradiction]. split; [lra|reflexivity]. Qed.
Lemma opposite_zero (g : engine) : opposite (done (Ok (0, g))) (done (Ok (0, g))).
Proof. cbn. split; [lra|reflexivity]. Qed.
Lemma sign_swap a b : a <> b -> sign_of b a = - sign_of a b.
Proof. intro N. unfold sign_of. destruct (Rltb_spec a b), (Rltb_spec b a); lra. Qed.
Lemma negligible_same a : negligible a a = true.
Proof.
  unfold negligible. apply Rleb_true. rewrite Rminus_diag_eq, Rabs_R0 by reflexivity.
  apply Rmult_le_pos; [apply Rabs_pos|]. unfold COMPUTER_PRECISION. left. apply Rinv_0_lt_compat. apply pow_lt. lra.
Qed.
Lemma Rmin_same a : Rmin a a = a.
Proof. unfold Rmin. destruct (Rle_dec a a); reflexivity. Qed.
Lemma Rmax_same a : Rmax a a = a.
Proof. unfold Rmax. destruct (Rle_dec a a); reflexivity. Qed.

(** A result [x] whose sign is that of the order of the limits *)
Lemma opposite_range a b (g : engine) r : r <> None -> (a = b -> negligible (e_min g) (e_max g) = true) ->
  opposite (if negligible (e_min g) (e_max g) then done (Ok (0, g)) else finish (sign_of a b) r)
           (if negligible (e_min g) (e_max g) then done (Ok (0, g)) else finish (sign_of b a) r).
Proof.
  intros N E. destruct (negligible _ _) eqn:Z; [apply opposite_zero|].
  destruct (Req_dec a b) as [->|D]; [specialize (E eq_refl); congruence|]. rewrite (sign_swap a b) by exact D. apply opposite_finish. exact N.
Qed.

(** The limits after the substitution, as a function of the ordered limits *)
Definition sub_range (lo hi p : R) : outcome (option (R * R * R)) :=
  if 0 <? p then
    if (0 <? hi) && (0 <? lo)
    then olet u := power nan hi (- 1 / p) in olet v := power nan lo (- 1 / p) in Ok (Some (u, v, 1))
    else if 0 <? hi
    then olet v := power nan hi (- 1 / p) in Ok (Some (0, v, -1))
    else Ok None
  else if p <? 0 then
    if (hi <? 0) && (lo <? 0)
    then olet u := power nan (- hi) (1 / p) in olet v := power nan (- lo) (1 / p) in Ok (Some (- u, - v, 1))
    else if lo <? 0
    then olet u := power nan (- lo) (1 / p) in Ok (Some (- u, 0, -1))
    else Ok None
  else Ok (Some (lo, hi, 1)).
Definition log_sub_range (lo hi p : R) : outcome (option (R * R * R)) :=
  if 0 <? p then
    if (1 <? hi) && (1 <? lo)
    then olet u := power nan (ln hi) (- 1 / p) in olet v := power nan (ln lo) (- 1 / p) in Ok (Some (u, v, 1))
    else if 1 <? hi
    then olet v := power nan (ln hi) (- 1 / p) in Ok (Some (0, v, -1))
    else Ok None
  else if p <? 0 then
    if (hi <? 1) && (lo <? 1)
    then olet u := power nan (- ln hi) (1 / p) in olet v := power nan (- ln lo) (1 / p) in Ok (Some (- u, - v, 1))
    else if lo <? 1
    then olet u := power nan (- ln lo) (1 / p) in Ok (Some (- u, 0, -1))
    else Ok None
  else Ok (Some (ln lo, ln hi, 1)).

Lemma sub_range_same a p lo hi s : sub_range a a p = Ok (Some (lo, hi, s)) -> lo = hi.
Proof.
  unfold sub_range. destruct (0 <? p).
  - destruct (0 <? a); cbn [andb]; [|discriminate]. destruct (power nan a _); cbn; congruence.
  - destruct (p <? 0); [|congruence].
    destruct (a <? 0); cbn [andb]; [|discriminate]. destruct (power nan (- a) _); cbn; congruence.
Qed.
Lemma log_sub_range_same a p lo hi s : log_sub_range a a p = Ok (Some (lo, hi, s)) -> lo = hi.
Proof.
  unfold log_sub_range. destruct (0 <? p).
  - destruct (1 <? a); cbn [andb]; [|discriminate]. destruct (power nan (ln a) _); cbn; congruence.
  - destruct (p <? 0); [|congruence].
    destruct (a <? 1); cbn [andb]; [|discriminate]. destruct (power nan (- ln a) _); cbn; congruence.
Qed.

Lemma opposite_substituted a b (range : outcome (option (R * R * R))) g (next : R -> R -> engine) :
  (a = b -> forall lo hi s, range = Ok (Some (lo, hi, s)) -> lo = hi) ->
  let init a b := (olet r := range in match r with
                    | Some (lo, hi, s) => Ok (sign_of a b * s, with_range (next lo hi) lo hi) | None => Ok (0, g) end) in
  let go a b := (flet (aux, g) := done (init a b) in
    if negligible (e_min g) (e_max g) then done (Ok (0, g)) else finish aux (romberg_opened nan qags None g)) in
  opposite (go a b) (go b a).
Proof.
  intros Same init go. unfold go, init. destruct range as [[((lo & hi) & s)|]| |]; cbn [obind done fbind]; try reflexivity.
  - destruct (negligible _ _) eqn:Z; [apply opposite_zero|].
    destruct (Req_dec a b) as [E|D].
    + rewrite (Same E lo hi s eq_refl) in Z. cbn in Z. rewrite negligible_same in Z. discriminate.
    + rewrite (sign_swap a b) by exact D. replace (- sign_of a b * s) with (- (sign_of a b * s)) by lra.
      apply opposite_finish, romberg_opened_total.
  - destruct (negligible _ _) eqn:Z; [apply opposite_zero|].
    replace (finish 0 (romberg_opened nan qags None g)) with (finish (- 0) (romberg_opened nan qags None g)) at 2 by (rewrite Ropp_0; reflexivity).
    apply opposite_finish, romberg_opened_total.
Qed.

Lemma dispatch (m : Z) A (x1 x2 x3 x4 x5 d : A) : 
  match m with 1%Z => x1 | 2%Z => x2 | 3%Z => x3 | 4%Z => x4 | 5%Z => x5 | _ => d end =
  (if (m =? 1)%Z then x1 else if (m =? 2)%Z then x2 else if (m =? 3)%Z then x3 else if (m =? 4)%Z then x4 else if (m =? 5)%Z then x5 else d).
Proof. destruct m as [|q|q]; [reflexivity| |reflexivity]. destruct q as [[q|q|]|[q|q|]|]; try reflexivity; destruct q; reflexivity. Qed.

Lemma integrate_substitution_opposite g a b f p :
  opposite (integrate_substitution nan qags g a b f p) (integrate_substitution nan qags g b a f p).
Proof.
  unfold integrate_substitution, init_substitution. rewrite (Rmin_comm b a), (Rmax_comm b a).
  apply (opposite_substituted a b (sub_range (Rmin a b) (Rmax a b) p) (flags g false false)
    (fun lo hi => prepared (flags g false false) lo hi f p false false 0 false (e_reverse_x g))).
  intros -> lo hi s. rewrite Rmin_same, Rmax_same. apply sub_range_same.
Qed.
Lemma integrate_log_substitution_opposite g a b f p :
  opposite (integrate_log_substitution nan qags g a b f p) (integrate_log_substitution nan qags g b a f p).
Proof.
  unfold integrate_log_substitution, init_log_substitution. rewrite (Rmin_comm b a), (Rmax_comm b a).
  apply (opposite_substituted a b (log_sub_range (Rmin a b) (Rmax a b) p) (flags g true false)
    (fun lo hi => prepared (flags g true false) lo hi f p false true 0 false (e_reverse_x g))).
  intros -> lo hi s. rewrite Rmin_same, Rmax_same. apply log_sub_range_same.
Qed.
Lemma integrate_log_opposite g a b f : opposite (integrate_log nan qags g a b f) (integrate_log nan qags g b a f).
Proof.
  unfold integrate_log. rewrite (Rmin_comm b a), (Rmax_comm b a).
  destruct (logarithm nan (Rmin a b)) as [lo| |] eqn:Lo; try reflexivity. unfold done at 1 5. cbn [fbind].
  destruct (logarithm nan (Rmax a b)) as [hi| |] eqn:Hi; try reflexivity. unfold done at 1 3. cbn [fbind].
  apply opposite_range; [apply romberg_opened_total|].
  intros ->. rewrite Rmin_same in Lo. rewrite Rmax_same in Hi. cbn. replace hi with lo by congruence. apply negligible_same.
Qed.
Lemma c39_antisymmetric g a b f method p : opposite (integrate nan qags g a b f method p) (integrate nan qags g b a f method p).
Proof.
  unfold integrate. rewrite (andb_comm (b =? 0)), (orb_comm (b <=? 0)), !dispatch.
  destruct (_ && _); [apply opposite_zero|].
  destruct (method =? 1)%Z; [|destruct (method =? 2)%Z; [|destruct (method =? 3)%Z; [|destruct (method =? 4)%Z; [|destruct (method =? 5)%Z]]]].
  - unfold integrate_closed, init_plain. rewrite (Rmin_comm b a), (Rmax_comm b a). apply opposite_range; [apply romberg_closed_total|].
    intros ->. cbn. rewrite Rmin_same, Rmax_same. apply negligible_same.
  - unfold integrate_opened, init_plain. rewrite (Rmin_comm b a), (Rmax_comm b a). apply opposite_range; [apply romberg_opened_total|].
    intros ->. cbn. rewrite Rmin_same, Rmax_same. apply negligible_same.
  - apply integrate_substitution_opposite.
  - destruct (_ || _); [apply opposite_zero|apply integrate_log_opposite].
  - destruct (_ || _); [apply opposite_zero|apply integrate_log_substitution_opposite].
  - apply opposite_zero.
Qed.
Lemma integrate_total g a b f method p : integrate nan qags g a b f method p <> None.
Proof. pose proof (c39_antisymmetric g a b f method p) as H. intro E. rewrite E in H. exact H. Qed.

(** ** Equal limits *)
Lemma power_pos x y : 0 < x -> power nan x y = Ok (Rpower x y).
Proof. intro H. unfold power. apply Rltb_true in H. rewrite H. reflexivity. Qed.
Lemma eqb_no a b : a <> b -> (a =? b) = false.
Proof. intro H. destruct (Reqb_spec a b); [contradiction|reflexivity]. Qed.
Lemma leb_no a b : b < a -> (a <=? b) = false.
Proof. intro H. destruct (Rleb_spec a b); [lra|reflexivity]. Qed.

Lemma c39_equal g a f method p :
  (method = 3%Z -> (0 < p -> 0 <= a) /\ (p < 0 -> a <= 0)) ->
  (method = 5%Z -> (0 < p -> a <= 0 \/ 1 < a) /\ (p < 0 -> a < 1)) ->
  exists g', integrate nan qags g a a f method p = Some (Ok (0, g')).
Proof.
  intros H3 H5. unfold integrate. rewrite andb_diag, orb_diag, dispatch.
  destruct (Reqb_spec a 0) as [->|Na]; [eexists; reflexivity|].
  destruct (Z.eqb_spec method 1) as [->|N1]; [|destruct (Z.eqb_spec method 2) as [->|N2]; [|destruct (Z.eqb_spec method 3) as [->|N3];
    [|destruct (Z.eqb_spec method 4) as [->|N4]; [|destruct (Z.eqb_spec method 5) as [->|N5]]]]].
  - unfold integrate_closed, init_plain. cbn. rewrite Rmin_same, Rmax_same, negligible_same. eexists; reflexivity.
  - unfold integrate_opened, init_plain. cbn. rewrite Rmin_same, Rmax_same, negligible_same. eexists; reflexivity.
  - destruct (H3 eq_refl) as (P & Q). unfold integrate_substitution, init_substitution. rewrite Rmin_same, Rmax_same.
    destruct (Rltb_spec 0 p) as [Pp|Pp]; [|destruct (Rltb_spec p 0) as [Pn|Pn]].
    + rewrite ltb_yes by (specialize (P Pp); lra). cbn [andb]. rewrite power_pos by (specialize (P Pp); lra). cbn.
      rewrite negligible_same. eexists; reflexivity.
    + rewrite ltb_yes by (specialize (Q Pn); lra). cbn [andb]. rewrite power_pos by (specialize (Q Pn); lra). cbn.
      rewrite negligible_same. eexists; reflexivity.
    + cbn. rewrite negligible_same. eexists; reflexivity.
  - destruct (Rleb_spec a 0); [eexists; reflexivity|]. unfold integrate_log. rewrite Rmin_same, Rmax_same. unfold logarithm.
    rewrite ltb_yes by lra. cbn. rewrite negligible_same. eexists; reflexivity.
  - destruct (Rleb_spec a 0); [eexists; reflexivity|].
    destruct (H5 eq_refl) as (P & Q). unfold integrate_log_substitution, init_log_substitution. rewrite Rmin_same, Rmax_same.
    destruct (Rltb_spec 0 p) as [Pp|Pp]; [|destruct (Rltb_spec p 0) as [Pn|Pn]].
    + specialize (P Pp). rewrite ltb_yes by lra. cbn [andb].
      assert (0 < ln a) by (rewrite <- ln_1; apply ln_increasing; lra). rewrite power_pos by lra. cbn.
      rewrite negligible_same. eexists; reflexivity.
    + specialize (Q Pn). rewrite ltb_yes by lra. cbn [andb].
      assert (ln a < 0) by (rewrite <- ln_1; apply ln_increasing; lra). rewrite power_pos by lra. cbn.
      rewrite negligible_same. eexists; reflexivity.
    + cbn. rewrite negligible_same. eexists; reflexivity.
  - eexists; reflexivity.
Qed.

Lemma opened_loop_throws steps g i k n result e : e_random g = 0 \/ e_random g = 1 -> trapezoid3 nan g k result = Some (Throw e) ->
  opened_loop nan qags (S steps) None g i k n result = Some (Throw e).
Proof.
  intros Z T. cbn [opened_loop]. rewrite T.
  replace ((e_random g =? 0) || (e_random g =? 1)) with true; [reflexivity|].
  symmetry. apply orb_true_iff. destruct Z as [Z|Z]; [left|right]; apply Reqb_true; exact Z.
Qed.
(** A new object has no integrand: an unsuitable substitution calls it. *)
Lemma c39_equal_refuted r s q f a p : (a < 0) -> (0 < p) ->
  integrate nan qags (new_integral r s q) a a f 3 p = Some (Throw bad_function_call).
Proof.
  intros A P. unfold integrate. rewrite andb_diag, eqb_no by lra. unfold integrate_substitution, init_substitution.
  rewrite Rmin_same, Rmax_same, ltb_yes by exact P. rewrite ltb_no by lra. cbn [andb obind]. unfold done at 1. cbn [fbind].
  unfold flags, new_integral. cbn [e_min e_max].
  assert (Ng : negligible 0 1 = false).
  { unfold negligible. apply leb_no. rewrite Rabs_R0. replace (1 - 0) with 1 by lra. rewrite Rabs_R1. lra. }
  rewrite Ng. unfold romberg_opened. cbn [e_steps].
  rewrite opened_loop_throws with (e := bad_function_call); [reflexivity|left; reflexivity|].
  unfold trapezoid3. change (1 =? 1)%Z with true. cbv iota. cbn [e_max e_min]. unfold evaluate. cbn [e_reverse e_power e_log e_integrand].
  destruct (Reqb_spec 0 0) as [_|X]; [|lra]. reflexivity.
Qed.
End Integral.
