(** Proofs for C92: the bisections. *)
From Coq Require Import List Permutation.
From Coquelicot Require Import Coquelicot.
From Verif Require Import Prelude PreludeFacts Kronrod_Model Kronrod_Spec Kronrod_Proofs Bisect_Model Bisect_Spec.
Import ListNotations.
Local Open Scope R_scope.

Definition ends (s : segment) : R * R := (s_min s, s_max s).
Definition honest (f : R -> R) (s : segment) : Prop := s = segment_of f (s_min s) (s_max s).
Definition values (f : R -> R) (x y : R) : R := k_value (gauss_kronrod f x y).
Definition errors (f : R -> R) (x y : R) : R := k_error (gauss_kronrod f x y).

Lemma consecutive_app a l1 l2 b : consecutive a (l1 ++ l2) b <-> exists m, consecutive a l1 m /\ consecutive m l2 b.
Proof.
  revert a. induction l1 as [|[x y] l1 IH]; intro a; cbn [app consecutive].
  - split; [intro H; now exists a|]. now intros (m & -> & H).
  - rewrite IH. split; [intros (-> & m & H & K)|intros (m & (-> & H) & K)]; [exists m; tauto|]. split; [reflexivity|]. now exists m.
Qed.
Lemma halves a b l1 l2 x m y : subdivision a b (l1 ++ (x, y) :: l2) -> subdivision a b ((x, m) :: (m, y) :: l1 ++ l2).
Proof.
  intros (l & P & C). assert (I : In (x, y) l) by (apply (Permutation_in _ P), in_or_app; right; now left).
  apply in_split in I. destruct I as (p & q & ->). apply Permutation_app_inv in P. apply consecutive_app in C as (z & C1 & C2).
  cbn [consecutive] in C2. destruct C2 as [-> C2]. exists (p ++ (z, m) :: (m, y) :: q). split.
  - etransitivity; [apply perm_skip, perm_skip, P|]. etransitivity; [apply perm_skip, Permutation_middle|]. apply Permutation_middle.
  - apply consecutive_app. exists z. cbn [consecutive]. tauto.
Qed.
Lemma subdivision_perm a b l l' : Permutation l l' -> subdivision a b l -> subdivision a b l'.
Proof. intros P (q & Q & C). exists q. split; [|exact C]. etransitivity; [symmetry; exact P|exact Q]. Qed.
Lemma split_perm m s s1 s2 l : nth_error l m = Some s -> exists l1 l2, l = l1 ++ s :: l2 /\ Permutation (split m s1 s2 l) (s1 :: s2 :: l1 ++ l2).
Proof.
  intro H. apply nth_error_split in H. destruct H as (l1 & l2 & -> & <-). exists l1, l2. split; [reflexivity|].
  assert (F : firstn (length l1) (l1 ++ s :: l2) = l1) by (rewrite firstn_app, Nat.sub_diag, firstn_all; apply app_nil_r).
  assert (K : skipn (S (length l1)) (l1 ++ s :: l2) = l2).
  { rewrite skipn_app, skipn_all2 by lia. replace (S (length l1) - length l1)%nat with 1%nat by lia. reflexivity. }
  assert (G : forall u v, Permutation (l1 ++ u :: l2 ++ [v]) (u :: v :: l1 ++ l2)).
  { intros u v. etransitivity; [symmetry; apply Permutation_middle|]. apply perm_skip. rewrite app_assoc. symmetry. apply Permutation_cons_append. }
  unfold split. rewrite F, K. destruct (_ <=? _); [apply G|]. etransitivity; [apply G|apply perm_swap].
Qed.
Lemma total_perm g l l' : Permutation l l' -> total g l = total g l'.
Proof. unfold total. induction 1; cbn [fold_right]; lra. Qed.
Lemma accumulate_from l : forall t, fold_left (fun t s => t + s_value s) l t = t + fold_right (fun s t => s_value s + t) 0 l.
Proof. induction l as [|s l IH]; intro t; cbn [fold_left fold_right]; [ring|]. rewrite IH. ring. Qed.
Lemma accumulate_total f l : Forall (honest f) l -> accumulate l = total (values f) (map ends l).
Proof.
  intro H. unfold accumulate. rewrite accumulate_from, Rplus_0_l. unfold total. induction H as [|s l Hs _ IH]; [reflexivity|]. cbn [map fold_right]. rewrite IH.
  rewrite Hs at 1. reflexivity.
Qed.
(** The state is that of a subdivision. *)
Definition invariant (f : R -> R) (a b : R) (last : nat) (st : bisection) : Prop :=
  Forall (honest f) (b_segments st) /\ subdivision a b (map ends (b_segments st)) /\ b_area st = total (values f) (map ends (b_segments st)) /\
  b_errsum st = total (errors f) (map ends (b_segments st)) /\ S (length (b_segments st)) = last /\
  (a <= b -> Forall (fun s => a <= fst s <= snd s /\ snd s <= b) (map ends (b_segments st))).
Lemma step_invariant f a b last st m s i j : invariant f a b last st -> nth_error (b_segments st) m = Some s ->
  let c := 1 / 2 * (s_min s + s_max s) in let s1 := segment_of f (s_min s) c in let s2 := segment_of f c (s_max s) in
  invariant f a b (S last) (mkbisection (split m s1 s2 (b_segments st)) (b_area st + (s_value s1 + s_value s2) - s_value s)
    (b_errsum st + (s_error s1 + s_error s2) - s_error s) i j).
Proof.
  intros (H & D & A & E & L & O) N c s1 s2. destruct (split_perm m s s1 s2 _ N) as (l1 & l2 & Q & P). rewrite Q in *.
  assert (Hs : honest f s) by (rewrite Forall_forall in H; apply H, in_or_app; right; now left).
  assert (PM : Permutation (map ends (split m s1 s2 (l1 ++ s :: l2))) (ends s1 :: ends s2 :: map ends l1 ++ map ends l2)).
  { etransitivity; [apply Permutation_map, P|]. cbn [map]. rewrite map_app. reflexivity. }
  assert (PO : Permutation (map ends (l1 ++ s :: l2)) (ends s :: map ends l1 ++ map ends l2)).
  { rewrite map_app. cbn [map]. symmetry. apply Permutation_middle. }
  unfold invariant. cbn [b_segments b_area b_errsum]. split; [|split; [|split; [|split; [|split]]]].
  - rewrite Forall_forall in H |- *. intros t T. apply (Permutation_in _ P) in T. destruct T as [<-|[<-|T]]; [reflexivity|reflexivity|].
    apply H. apply in_app_or in T. apply in_or_app. destruct T; [now left|right; now right].
  - apply (subdivision_perm _ _ _ _ (Permutation_sym PM)). rewrite map_app in D. exact (halves a b _ _ _ c _ D).
  - rewrite (total_perm _ _ _ PM), A, (total_perm _ _ _ PO). unfold total. cbn [fold_right]. change (s_value s1) with (values f (fst (ends s1)) (snd (ends s1))). change (s_value s2) with (values f (fst (ends s2)) (snd (ends s2))).
    assert (X : s_value s = values f (fst (ends s)) (snd (ends s))) by (rewrite Hs at 1; reflexivity). rewrite X. lra.
  - rewrite (total_perm _ _ _ PM), E, (total_perm _ _ _ PO). unfold total. cbn [fold_right]. change (s_error s1) with (errors f (fst (ends s1)) (snd (ends s1))). change (s_error s2) with (errors f (fst (ends s2)) (snd (ends s2))).
    assert (X : s_error s = errors f (fst (ends s)) (snd (ends s))) by (rewrite Hs at 1; reflexivity). rewrite X. lra.
  - rewrite (Permutation_length P). cbn [length]. rewrite app_length in L |- *. cbn [length] in L. lia.
  - intro AB. specialize (O AB). rewrite Forall_forall in O |- *. intros t T. apply (Permutation_in _ PM) in T.
    assert (B := O _ (Permutation_in _ (Permutation_sym PO) (or_introl eq_refl))). cbn in B.
    destruct T as [<-|[<-|T]]; [cbn; unfold c; lra|cbn; unfold c; lra|]. apply O. apply (Permutation_in _ (Permutation_sym PO)). now right.
Qed.
Lemma Ok_inj {A} (x y : A) : Ok x = Ok y -> x = y. Proof. congruence. Qed.
Lemma last_code_nonzero z : z <> 0%Z -> last_code z <> 0%Z.
Proof. unfold last_code. destruct (Z.ltb_spec 2 z); lia. Qed.
Lemma finish_complains sure defabs last st ier x : ier <> 0%Z \/ x <> None -> q_ier (finish sure defabs last st ier x) <> 0%Z.
Proof.
  intro H. unfold finish. destruct x as [x|]; [|destruct H as [H|H]; [|contradiction]; cbn [q_ier]; now apply last_code_nonzero]. clear H. cbv zeta.
  set (i := if _ && _ && _ then 6%Z else ier). set (j := if (i =? 0)%Z then 3%Z else i).
  assert (J : j <> 0%Z) by (unfold j; destruct (Z.eqb_spec i 0); [discriminate|assumption]). clearbody j. clear i.
  destruct (_ && _); destruct (_ <? _); cbn [q_ier]; try (now apply last_code_nonzero). apply last_code_nonzero. now destruct (_ && _).
Qed.
Lemma bisections_ok limit epsabs epsrel f sure defabs c a b o : forall n last st, invariant f a b last st -> (last + n = S limit)%nat ->
  bisections limit epsabs epsrel f sure defabs c n last st = Ok o -> q_ier o = 0%Z ->
  exists l, subdivision a b l /\ q_value o = total (values f) l /\ q_abserr o = total (errors f) l /\
    q_abserr o <= Rmax epsabs (epsrel * Rabs (q_value o)) /\ q_neval o = (42 * Z.of_nat (length l) - 21)%Z /\ (length l <= limit)%nat /\ (a <= b -> Forall (fun s => a <= fst s <= snd s /\ snd s <= b) l).
Proof.
  induction n as [|n IH]; intros last st V N; [discriminate|]. cbn [bisections]. destruct (nth_error _ _) as [s|] eqn:E; [|discriminate]. cbv zeta.
  match goal with |- context [mkbisection _ _ _ ?i ?j] => set (i0 := i); set (j0 := j); pose proof (step_invariant f a b last st _ s i0 j0 V E) as W end.
  clearbody i0 j0. cbv zeta in W. match type of W with invariant _ _ _ _ ?q => set (st' := q) in * end.
  match goal with |- context [negb (?i =? 0)%Z] => set (ier := i) end. clearbody ier.
  change (b_errsum st + (s_error (segment_of f (s_min s) (1 / 2 * (s_min s + s_max s))) + s_error (segment_of f (1 / 2 * (s_min s + s_max s)) (s_max s))) - s_error s) with (b_errsum st').
  change (b_area st + (s_value (segment_of f (s_min s) (1 / 2 * (s_min s + s_max s))) + s_value (segment_of f (1 / 2 * (s_min s + s_max s)) (s_max s))) - s_value s) with (b_area st').
  clearbody st'. destruct (Rleb_spec (b_errsum st') (Rmax epsabs (epsrel * Rabs (b_area st')))) as [L|_].
  - intros [= <-] _. cbn [q_value q_abserr q_neval]. destruct W as (H & D & A & B & K & O). exists (map ends (b_segments st')). rewrite (accumulate_total f _ H), <- A, map_length.
    assert (K' : length (b_segments st') = last) by lia. rewrite K'. repeat split; try assumption. lia.
  - destruct (Z.eqb_spec ier 0) as [_|Z0]; cbn [negb].
    + destruct (c_stop c last) as [[x five]|]; [intros H Z; exfalso; apply Ok_inj in H; rewrite <- H in Z; revert Z; apply finish_complains; right; discriminate|]. apply IH; [exact W|lia].
    + intros H Z. exfalso. apply Ok_inj in H. rewrite <- H in Z. revert Z. apply finish_complains. now left.
Qed.
Lemma error_nonneg f a b : 0 <= errors f a b.
Proof. unfold errors. rewrite gk_eq. apply error_bound. Qed.
Lemma start_shape limit epsabs epsrel f a b o : qags_start limit epsabs epsrel f a b = Some o -> q_ier o = 0%Z ->
  q_value o = values f a b /\ q_abserr o = errors f a b /\ q_neval o = 21%Z /\ q_abserr o <= Rmax epsabs (epsrel * Rabs (q_value o)).
Proof.
  intros H Z. assert (B := accepted _ _ _ _ _ _ _ H Z). revert H Z B. unfold qags_start, values, errors. set (k := gauss_kronrod f a b). clearbody k.
  destruct (Rltb_spec epsabs 0) as [A1|A1]; destruct (Rltb_spec epsrel 0) as [A2|A2]; cbn [andb]; [intros [= <-]; discriminate|..].
  all: cbv zeta; destruct (negb _ || _ || _); [|discriminate]; intros [= <-] _; cbn [q_value q_abserr q_neval]; intros B; repeat split;
    destruct B as [B| ->]; [exact B|].
  - eapply Rle_trans; [|apply Rmax_r]. apply Rmult_le_pos; [lra|apply Rabs_pos].
  - eapply Rle_trans; [|apply Rmax_l]. lra.
  - eapply Rle_trans; [|apply Rmax_l]. lra.
Qed.
Lemma bisected limit epsabs epsrel c f a b o : (1 <= limit)%nat -> qags limit epsabs epsrel c f a b = Ok o -> q_ier o = 0%Z ->
  exists l, subdivision a b l /\ q_value o = total (fun x y => k_value (gauss_kronrod f x y)) l /\
    q_abserr o = total (fun x y => k_error (gauss_kronrod f x y)) l /\
    q_abserr o <= Rmax epsabs (epsrel * Rabs (q_value o)) /\ q_neval o = (42 * Z.of_nat (length l) - 21)%Z /\ (length l <= limit)%nat /\ (a <= b -> Forall (fun s => a <= fst s <= snd s /\ snd s <= b) l).
Proof.
  intros L. assert (S2 : a <= b -> Forall (fun s : R * R => a <= fst s <= snd s /\ snd s <= b) [(a, b)]) by (intro; apply Forall_cons; [cbn; lra|apply Forall_nil]). assert (S1 : subdivision a b [(a, b)]) by (exists [(a, b)]; split; [reflexivity|cbn; tauto]).
  unfold qags. destruct (qags_start _ _ _ _ _ _) as [o'|] eqn:Q.
  - intros [= ->] Z. destruct (start_shape _ _ _ _ _ _ _ Q Z) as (V & E & N & B). exists [(a, b)]. split; [exact S1|].
    unfold total. cbn [fold_right fst snd length]. rewrite !Rplus_0_r. repeat split; assumption.
  - cbv zeta. intros H Z. apply (bisections_ok _ _ _ _ _ _ _ a b) in H; [exact H| |lia|exact Z].
    unfold invariant. cbn [b_segments b_area b_errsum map length]. repeat split; [repeat constructor|exact S1| | |exact S2]; unfold total; cbn [fold_right]; symmetry; apply Rplus_0_r.
Qed.
Lemma lengths l : forall a b, consecutive a l b -> total (fun x y => y - x) l = b - a.
Proof. induction l as [|[x y] l IH]; intros a b; cbn [consecutive total fold_right fst snd]; [intros ->; ring|]. intros [-> H]. apply IH in H. unfold total in H. rewrite H. ring. Qed.
Lemma bisected_between limit epsabs epsrel c f a b o lo hi : (1 <= limit)%nat -> qags limit epsabs epsrel c f a b = Ok o -> q_ier o = 0%Z ->
  a <= b -> (forall x, a <= x <= b -> lo <= f x <= hi) ->
  (lo - Rabs lo / 10 ^ 15) * (b - a) <= q_value o <= (hi + Rabs hi / 10 ^ 15) * (b - a).
Proof.
  intros L Q Z AB H. destruct (bisected _ _ _ _ _ _ _ _ L Q Z) as (l & (l' & P & C) & V & _ & _ & _ & _ & O). specialize (O AB).
  rewrite V, (total_perm _ _ _ P), <- (lengths _ _ _ C). assert (O' : Forall (fun s => a <= fst s <= snd s /\ snd s <= b) l').
  { rewrite Forall_forall in O |- *. intros s S. apply O. apply (Permutation_in _ (Permutation_sym P) S). }
  clear - O' H. set (u := lo - Rabs lo / 10 ^ 15). set (v := hi + Rabs hi / 10 ^ 15). induction O' as [|[x y] l' B _ IH]; [unfold total; cbn [fold_right]; lra|].
  unfold total in *. cbn [fold_right fst snd] in *. assert (W := between f x y lo hi ltac:(lra) ltac:(intros; apply H; lra)). fold u v in W.
  rewrite !Rmult_plus_distr_l. lra.
Qed.
Lemma bisections_defined limit epsabs epsrel f sure defabs c : (forall last, (2 <= last <= limit)%nat -> (S (c_index c last) < last)%nat) ->
  forall n last st, (S (length (b_segments st)) = last)%nat -> (2 <= last)%nat -> (last + S n = S limit)%nat ->
  exists o, bisections limit epsabs epsrel f sure defabs c (S n) last st = Ok o.
Proof.
  intros I. induction n as [|n IH]; intros last st K L N; cbn [bisections]; specialize (I last ltac:(lia)).
  all: destruct (nth_error (b_segments st) (c_index c last)) as [s|] eqn:E; [|apply nth_error_None in E; lia]; cbv zeta.
  all: destruct (_ <=? Rmax epsabs _); [eexists; reflexivity|].
  - assert (LL : (last =? limit)%nat = true) by (apply Nat.eqb_eq; lia). rewrite LL. destruct (_ <=? _); cbn [Z.eqb negb]; eexists; reflexivity.
  - destruct (negb _); [eexists; reflexivity|]. destruct (c_stop c last) as [[x five]|]; [eexists; reflexivity|]. apply IH; [|lia|lia]. cbn [b_segments].
    match goal with |- context [split ?m ?s1 ?s2 ?l] => destruct (split_perm m s s1 s2 l E) as (l1 & l2 & Q & P); rewrite (Permutation_length P) end.
    rewrite Q in K. cbn [length]. rewrite app_length in K |- *. cbn [length] in K. lia.
Qed.
Lemma defined limit epsabs epsrel c f a b : (1 <= limit)%nat -> (forall last, (2 <= last <= limit)%nat -> (S (c_index c last) < last)%nat) ->
  exists o, qags limit epsabs epsrel c f a b = Ok o.
Proof.
  intros L I. unfold qags. destruct (qags_start _ _ _ _ _ _) as [o|] eqn:Q; [now exists o|]. cbv zeta.
  destruct limit as [|[|n]]; [lia| |].
  - exfalso. revert Q. unfold qags_start. destruct (_ && _); [discriminate|]. cbv zeta. change (INR 1) with 1. destruct (Reqb_spec 1 1); [discriminate|lra].
  - replace (S (S n) - 1)%nat with (S n) by lia. apply bisections_defined; [exact I|reflexivity|lia|lia].
Qed.
Lemma extrapolation_complains sure defabs last st ier x : q_ier (finish sure defabs last st ier (Some x)) <> 0%Z.
Proof. apply finish_complains. right. discriminate. Qed.
(** * The integral *)
Fixpoint linear (al be c : R) (q : list R) : list R := match q with [] => [c] | d :: q => (al * d + c) :: linear al be (be * d) q end.
Fixpoint substituted (al be : R) (cs : list R) : list R := match cs with [] => [] | c :: cs => linear al be c (substituted al be cs) end.
Lemma linear_value al be u q : forall c, polynomial (linear al be c q) u = c + (al + be * u) * polynomial q u.
Proof. induction q as [|d q IH]; intro c; cbn [linear polynomial]; [ring|]. rewrite IH. ring. Qed.
Lemma linear_magnitudes al be q : forall c, magnitudes (linear al be c q) <= Rabs c + (Rabs al + Rabs be) * magnitudes q.
Proof.
  induction q as [|d q IH]; intro c; cbn [linear magnitudes]; [lra|]. specialize (IH (be * d)). pose proof (Rabs_triang (al * d) c) as T. rewrite Rabs_mult in T, IH. lra.
Qed.
Lemma linear_length al be q : forall c, length (linear al be c q) = S (length q).
Proof. induction q as [|d q IH]; intro c; cbn [linear length]; [reflexivity|]. now rewrite IH. Qed.
Lemma substituted_value al be u cs : polynomial (substituted al be cs) u = polynomial cs (al + be * u).
Proof. induction cs as [|c cs IH]; cbn [substituted polynomial]; [reflexivity|]. now rewrite linear_value, IH. Qed.
Lemma substituted_magnitudes al be cs : Rabs al + Rabs be <= 1 -> magnitudes (substituted al be cs) <= magnitudes cs.
Proof.
  intro H. induction cs as [|c cs IH]; cbn [substituted magnitudes]; [lra|]. eapply Rle_trans; [apply linear_magnitudes|]. apply Rplus_le_compat_l.
  pose proof (magnitudes_pos (substituted al be cs)). pose proof (Rabs_pos al). pose proof (Rabs_pos be). nra.
Qed.
Lemma substituted_length al be cs : length (substituted al be cs) = length cs.
Proof. induction cs as [|c cs IH]; cbn [substituted length]; [reflexivity|]. now rewrite linear_length, IH. Qed.
Lemma part f a b cs d x y : a < b -> a <= x <= y -> y <= b -> (length cs <= 32)%nat ->
  (forall u, -1 <= u <= 1 -> Rabs (f ((a + b) / 2 + (b - a) / 2 * u) - polynomial cs u) <= d) -> ex_RInt f x y ->
  Rabs (k_value (gauss_kronrod f x y) - RInt f x y) <= (y - x) * (magnitudes cs / 10 ^ 15 + 3 * d).
Proof.
  intros AB X Y N H E. set (al := (x + y - a - b) / (b - a)). set (be := (y - x) / (b - a)).
  assert (A1 : al + be <= 1) by (unfold al, be; apply (Rmult_le_reg_r (b - a)); [lra|]; replace (((x + y - a - b) / (b - a) + (y - x) / (b - a)) * (b - a)) with (2 * y - a - b) by (field; lra); lra).
  assert (A2 : -1 <= al - be) by (unfold al, be; apply (Rmult_le_reg_r (b - a)); [lra|]; replace (((x + y - a - b) / (b - a) - (y - x) / (b - a)) * (b - a)) with (2 * x - a - b) by (field; lra); lra).
  assert (A3 : 0 <= be) by (apply Rdiv_le_0_compat; lra).
  assert (S : Rabs al + Rabs be <= 1) by (rewrite (Rabs_pos_eq be) by exact A3; pose proof (Rabs_le al (1 - be) ltac:(lra)); lra).
  assert (Z := approximated f x y (substituted al be cs) d (RInt f x y) ltac:(lra)). rewrite substituted_length in Z. specialize (Z N).
  eapply Rle_trans; [apply Z; [|apply (RInt_correct (V := R_CompleteNormedModule)), E]|].
  - intros u U. rewrite substituted_value. replace ((x + y) / 2 + (y - x) / 2 * u) with ((a + b) / 2 + (b - a) / 2 * (al + be * u)) by (unfold al, be; field; lra).
    apply H. nra.
  - apply Rmult_le_compat_l; [lra|]. apply Rplus_le_compat_r. apply Rmult_le_compat_r; [apply Rlt_le, Rinv_0_lt_compat, pow_lt; lra|]. now apply substituted_magnitudes.
Qed.
Lemma sub_integrable (f : R -> R) a b x y : ex_RInt f a b -> a <= x <= y -> y <= b -> ex_RInt f x y.
Proof. intros E X Y. apply (ex_RInt_Chasles_1 (V := R_CompleteNormedModule) f x y b); [lra|]. apply (ex_RInt_Chasles_2 (V := R_CompleteNormedModule) f a x b); [lra|exact E]. Qed.
Lemma integrals (f : R -> R) a b l : ex_RInt f a b -> Forall (fun s => a <= fst s <= snd s /\ snd s <= b) l -> forall z, a <= z <= b -> consecutive z l b ->
  total (fun x y => RInt f x y) l = RInt f z b.
Proof.
  intros E F. induction F as [|[x y] l B _ IH]; intros z Z; cbn [consecutive].
  - intros ->. unfold total. cbn [fold_right]. symmetry. apply (RInt_point (V := R_CompleteNormedModule)).
  - intros [-> C]. cbn [fst snd] in B. specialize (IH y ltac:(lra) C). unfold total in *. cbn [fold_right fst snd]. rewrite IH.
    apply (RInt_Chasles (V := R_CompleteNormedModule) f z y b); apply (sub_integrable f a b); try assumption; lra.
Qed.
Lemma bisected_approximated limit epsabs epsrel c f a b o cs d I : (1 <= limit)%nat -> qags limit epsabs epsrel c f a b = Ok o -> q_ier o = 0%Z ->
  a < b -> (length cs <= 32)%nat -> (forall u, -1 <= u <= 1 -> Rabs (f ((a + b) / 2 + (b - a) / 2 * u) - polynomial cs u) <= d) -> is_RInt f a b I ->
  Rabs (q_value o - I) <= (b - a) * (magnitudes cs / 10 ^ 15 + 3 * d).
Proof.
  intros L Q Z AB N H J. destruct (bisected _ _ _ _ _ _ _ _ L Q Z) as (l & (l' & P & C) & V & _ & _ & _ & _ & O). specialize (O ltac:(lra)).
  assert (E : ex_RInt f a b) by (now exists I). apply (is_RInt_unique (V := R_CompleteNormedModule)) in J. rewrite <- J.
  assert (O' : Forall (fun s => a <= fst s <= snd s /\ snd s <= b) l').
  { rewrite Forall_forall in O |- *. intros s S. apply O. apply (Permutation_in _ (Permutation_sym P) S). }
  rewrite V, (total_perm _ _ _ P). rewrite <- (integrals f a b l' E O' a ltac:(lra) C), <- (lengths _ _ _ C).
  set (w := magnitudes cs / 10 ^ 15 + 3 * d) in *. clear C P V O J. induction O' as [|[x y] l' B _ IH]; unfold total in *; cbn [fold_right fst snd] in *.
  - rewrite Rminus_0_r, Rabs_R0. lra.
  - assert (W := part f a b cs d x y AB ltac:(lra) ltac:(lra) N H (sub_integrable f a b x y E ltac:(lra) ltac:(lra))). fold w in W.
    set (u1 := k_value (gauss_kronrod f x y)) in *. set (u2 := RInt f x y) in *. set (t1 := fold_right _ 0 l') in *. set (t2 := fold_right _ 0 l') in IH |- *.
    rewrite Rmult_plus_distr_r. match goal with |- Rabs (_ + ?p - (_ + ?q)) <= _ => replace (u1 + p - (u2 + q)) with ((u1 - u2) + (p - q)) by ring end.
    eapply Rle_trans; [apply Rabs_triang|]. apply Rplus_le_compat; [exact W|exact IH].
Qed.
