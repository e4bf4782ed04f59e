(** Proofs about saved splines and CalculateSpline. *)
From Coq Require Import Sorted.
From Verif Require Import Prelude PreludeFacts Geometry_Model Function_Model Function_Spec Spline_Model Spline_Spec Spline_Proofs Saved_Model Saved_Spec.

Section Text.
Variable shown : R -> R.
Definition words (p : list R) : list word := map (fun a => Number (shown a)) p.

Lemma read_words p a ws : read_coefficients (length p) a (words p ++ ws) = Ok (map shown p, ws).
Proof.
  revert a. induction p as [|r p IH]; intro a; [reflexivity|]. cbn [length words map app read_coefficients read_number].
  change (map (fun a0 => Number (shown a0)) p) with (words p). rewrite IH. reflexivity.
Qed.
Lemma read_written p lo hi d ws : p <> [] -> (N.of_nat (length p) <= UINT_MAX)%N ->
  read_container d (write_container shown (p, (lo, hi)) ++ ws) = Ok ((map shown p, (shown lo, shown hi)), ws).
Proof.
  intros P L. destruct p as [|a p]; [easy|]. cbn [write_container app]. unfold read_container. cbn [read_number read_count fst snd].
  assert (LE : (N.of_nat (length (a :: p) - 1) <=? UINT_MAX)%N = true) by (apply N.leb_le; lia). rewrite LE.
  replace (N.to_nat ((N.of_nat (length (a :: p) - 1) + 1) mod (UINT_MAX + 1))) with (length (a :: p)).
  - pose proof (read_words (a :: p) None ws) as E. unfold words in E. rewrite E. reflexivity.
  - unfold UINT_MAX in *. cbn [length] in *. rewrite N.mod_small by lia. lia.
Qed.

(** The containers of polynomials [ps] between the points [x :: xs] *)
Fixpoint cut (ps : list (list R)) (x : R) (xs : list R) : list container :=
  match ps, xs with
  | p :: ps', x' :: xs' => (p, (x, x')) :: cut ps' x' xs'
  | _, _ => []
  end.
Lemma cut_length ps x xs : length ps = length xs -> length (cut ps x xs) = length ps.
Proof. revert x xs. induction ps as [|p ps IH]; intros x [|x' xs] H; cbn in *; try easy. f_equal. apply IH. lia. Qed.
Lemma cut_nth ps x xs i p lo hi : length ps = length xs -> nth_error ps i = Some p -> nth_error (x :: xs) i = Some lo -> nth_error (x :: xs) (i + 1) = Some hi ->
  nth_error (cut ps x xs) i = Some (p, (lo, hi)).
Proof.
  revert x xs i. induction ps as [|q ps IH]; intros x [|x' xs] i L P A B; try (destruct i; easy). cbn [cut length] in *. destruct i as [|i].
  - cbn in P, A, B |- *. injection P as ->. injection A as ->. injection B as ->. reflexivity.
  - cbn [nth_error Nat.add] in *. apply IH; auto.
Qed.
Lemma firstn_next {A} (l : list A) i a : nth_error l i = Some a -> firstn (S i) l = firstn i l ++ [a].
Proof.
  revert i. induction l as [|c l IH]; intros [|i] C; try easy.
  - cbn in C |- *. now injection C as ->.
  - change (c :: firstn (S i) l = c :: (firstn i l ++ [a])). f_equal. apply IH. exact C.
Qed.
Lemma get_cut ps x xs n : length ps = length xs -> get_containers (mkspline ps (x :: xs) n) = Ok (cut ps x xs).
Proof.
  intro L. unfold get_containers. cbn [sp_polys sp_sub].
  assert (H : forall k, (k <= length ps)%nat -> loop (fun cs i => olet p := arr_get ps i in olet lo := arr_get (x :: xs) i in olet hi := arr_get (x :: xs) (i + 1) in
      Ok (cs ++ [(p, (lo, hi))])) (seq (length ps - k) k) (firstn (length ps - k) (cut ps x xs)) = Ok (cut ps x xs)).
  { induction k as [|k IH]; intro K.
    - cbn [seq loop]. f_equal. rewrite firstn_all2; [reflexivity|]. rewrite cut_length by exact L. lia.
    - cbn [seq loop]. set (i := (length ps - S k)%nat).
      destruct (nth_error ps i) as [p|] eqn:P; [|apply nth_error_None in P; lia].
      destruct (nth_error (x :: xs) i) as [lo|] eqn:A; [|apply nth_error_None in A; cbn in A; lia].
      destruct (nth_error (x :: xs) (i + 1)) as [hi|] eqn:B; [|apply nth_error_None in B; cbn in B; lia].
      assert (P' : arr_get ps i = Ok p) by (unfold arr_get; now rewrite P). assert (A' : arr_get (x :: xs) i = Ok lo) by (unfold arr_get; now rewrite A).
      assert (B' : arr_get (x :: xs) (i + 1) = Ok hi) by (unfold arr_get; now rewrite B). rewrite P', A', B'. cbn [obind]. pose proof (cut_nth ps x xs i p lo hi L P A B) as C.
      match goal with |- loop _ _ ?l = _ => replace l with (firstn (length ps - k) (cut ps x xs)) end.
      + replace (S i) with (length ps - k)%nat by lia. apply IH. lia.
      + replace (length ps - k)%nat with (S i) by lia. exact (firstn_next _ _ _ C). }
  specialize (H (length ps) ltac:(lia)). rewrite Nat.sub_diag in H. exact H.
Qed.

(** [d] is the domain of the container read before *)
Lemma read_cut ps x xs d ws : length ps = length xs -> (forall p, In p ps -> p <> [] /\ (N.of_nat (length p) <= UINT_MAX)%N) ->
  exists lo, read_containers (length ps) d (concat (map (write_container shown) (cut ps x xs)) ++ ws) =
    Ok (map (map shown) ps, map shown (removelast (x :: xs)), match ps with [] => d | _ => (lo, shown (last xs 0)) end).
Proof.
  revert x xs d. induction ps as [|p ps IH]; intros x xs d L H.
  - exists 0. destruct xs; [reflexivity|discriminate L].
  - destruct xs as [|x' xs]; [discriminate L|]. cbn [cut map concat length read_containers]. rewrite <- app_assoc. destruct (H p (or_introl eq_refl)) as (H1 & H2). rewrite read_written by assumption.
    cbn [obind fst snd]. destruct (IH x' xs (shown x, shown x') ltac:(cbn in L; lia) (fun q Q => H q (or_intror Q))) as (lo & E). rewrite E. cbn [obind].
    destruct ps as [|q ps].
    + destruct xs; [|easy]. exists (shown x). reflexivity.
    + destruct xs as [|x'' xs]; [easy|]. exists lo. reflexivity.
Qed.

Lemma c89_loaded s : complete s -> exists ws, save shown s = Ok ws /\ load ws = Ok (mkspline (map (map shown) (sp_polys s)) (map shown (sp_sub s)) (sp_n s)).
Proof.
  destruct s as [ps sub n]. intros (L & LS & N1 & NM & H). cbn [sp_polys sp_sub sp_n] in *. destruct sub as [|x xs]; [easy|]. cbn in LS. injection LS as LS.
  unfold save. cbn [sp_n]. rewrite get_cut by lia. cbn [obind]. eexists. split; [reflexivity|]. unfold load. cbn [read_count].
  assert (LE : (N.of_nat n <=? UINT_MAX)%N = true) by (apply N.leb_le; exact NM). rewrite LE. rewrite Nat2N.id.
  destruct (read_cut ps x xs (0, 0) [] ltac:(lia) H) as (lo & E). rewrite app_nil_r, L in E. rewrite E. cbn [obind]. f_equal. f_equal.
  destruct ps as [|p ps]; [cbn in *; lia|]. cbn [snd]. change (map shown (removelast (x :: xs)) ++ map shown [last xs 0] = map shown (x :: xs)). rewrite <- map_app. f_equal.
  destruct xs as [|x' xs]; [cbn in *; lia|]. symmetry. exact (app_removelast_last 0 (l := x :: x' :: xs) ltac:(discriminate)).
Qed.
Lemma c89_same s : complete s -> each_number s (fun r => shown r = r) -> exists ws, save shown s = Ok ws /\ load ws = Ok s.
Proof.
  intros C (H1 & H2). destruct (c89_loaded s C) as (ws & S & L). exists ws. split; [exact S|]. rewrite L. destruct s as [ps sub n]. cbn [sp_polys sp_sub sp_n] in *.
  f_equal. f_equal.
  - rewrite <- (map_id ps) at 2. apply map_ext_in. intros p P. rewrite <- (map_id p) at 2. apply map_ext_in. intros r Q. exact (H2 p r P Q).
  - rewrite <- (map_id sub) at 2. apply map_ext_in. exact H1.
Qed.

(** A spline of polynomials *)
Lemma read_more ps x xs d : length ps = length xs -> (forall p, In p ps -> p <> [] /\ (N.of_nat (length p) <= UINT_MAX)%N) ->
  read_containers (S (length ps)) d (concat (map (write_container shown) (cut ps x xs))) = UB uninitialised.
Proof.
  revert x xs d. induction ps as [|p ps IH]; intros x [|x' xs] d L H; try easy. cbn [cut map concat length]. change (S (S (length ps))) with (1 + S (length ps))%nat.
  cbn [read_containers Nat.add]. destruct (H p (or_introl eq_refl)) as (H1 & H2). rewrite read_written by assumption. cbn [obind fst snd].
  pose proof (IH x' xs (shown x, shown x') ltac:(cbn in L; lia) (fun q Q => H q (or_intror Q))) as E. cbn [read_containers] in E. rewrite E. reflexivity.
Qed.
Lemma c89_polynomials ps sub : length sub = S (length ps) -> (N.of_nat (length sub) <= 4294967295)%N ->
  (forall p, In p ps -> p <> [] /\ (N.of_nat (length p) <= 4294967295)%N) ->
  exists ws, save shown (spline_from ps sub) = Ok ws /\ load ws = UB uninitialised.
Proof.
  intros L LM H. destruct sub as [|x xs]; [easy|]. unfold save, spline_from. cbn [sp_n]. rewrite get_cut by (cbn in L; lia). cbn [obind]. eexists. split; [reflexivity|].
  unfold load. cbn [read_count]. assert (LE : (N.of_nat (length (x :: xs)) <=? UINT_MAX)%N = true) by (apply N.leb_le; exact LM). rewrite LE, Nat2N.id, L.
  rewrite read_more; [reflexivity|cbn in L; lia|exact H].
Qed.
End Text.

(** ** Six digits *)
Lemma powerRZ_pos e : 0 < powerRZ 10 e.
Proof. apply powerRZ_lt. lra. Qed.
Lemma power_up e : powerRZ 10 (e + 1) = 10 * powerRZ 10 e.
Proof. rewrite powerRZ_add by lra. rewrite powerRZ_1. apply Rmult_comm. Qed.
Lemma power_grows a b : (a <= b)%Z -> powerRZ 10 a <= powerRZ 10 b.
Proof.
  intro H. replace b with (a + Z.of_nat (Z.to_nat (b - a)))%Z by lia. rewrite powerRZ_add by lra. rewrite <- pow_powerRZ.
  pose proof (powerRZ_pos a). pose proof (pow_R1_Rle 10 (Z.to_nat (b - a)) ltac:(lra)). nra.
Qed.
Lemma exponent_unique r e e' : 10 ^ 5 * powerRZ 10 e <= Rabs r < 10 ^ 6 * powerRZ 10 e -> 10 ^ 5 * powerRZ 10 e' <= Rabs r < 10 ^ 6 * powerRZ 10 e' -> e = e'.
Proof.
  intros A B. destruct (Z.lt_trichotomy e e') as [H|[H|H]]; [|exact H|]; exfalso.
  - pose proof (power_grows (e + 1) e' ltac:(lia)) as P. rewrite power_up in P. lra.
  - pose proof (power_grows (e' + 1) e ltac:(lia)) as P. rewrite power_up in P. lra.
Qed.
Lemma normalise m e : (0 < Z.abs m < 10 ^ 6)%Z -> exists m' e', (10 ^ 5 <= Z.abs m' < 10 ^ 6)%Z /\ IZR m * powerRZ 10 e = IZR m' * powerRZ 10 e'.
Proof.
  intro H. assert (K : forall k m e, (0 < Z.abs m < 10 ^ 6)%Z -> (10 ^ 5 <= 10 ^ Z.of_nat k * Z.abs m)%Z ->
    exists m' e', (10 ^ 5 <= Z.abs m' < 10 ^ 6)%Z /\ IZR m * powerRZ 10 e = IZR m' * powerRZ 10 e').
  { clear. induction k as [|k IH]; intros m e H L.
    - exists m, e. split; [lia|reflexivity].
    - destruct (Z_le_dec (10 ^ 5) (Z.abs m)); [exists m, e; split; [lia|reflexivity]|].
      destruct (IH (m * 10)%Z (e - 1)%Z) as (m' & e' & B & E).
      + rewrite Z.abs_mul. change (Z.abs 10) with 10%Z. lia.
      + rewrite Z.abs_mul. change (Z.abs 10) with 10%Z. rewrite Nat2Z.inj_succ, Z.pow_succ_r in L by lia. lia.
      + exists m', e'. split; [exact B|]. rewrite <- E. rewrite mult_IZR. replace e with (e - 1 + 1)%Z at 1 by ring. rewrite power_up. ring. }
  apply (K 5%nat m e H). change (10 ^ Z.of_nat 5)%Z with (10 ^ 5)%Z. nia.
Qed.
Lemma short_shown shown r : writes_six_digits shown -> short r -> shown r = r.
Proof.
  intros (S0 & S) (m & e & M & E). destruct (Z.eq_dec m 0) as [->|NZ].
  { rewrite Rmult_0_l in E. now rewrite E. }
  destruct (normalise m e ltac:(lia)) as (m1 & e1 & B & E1). rewrite E1 in E. clear m e M NZ E1.
  pose proof (powerRZ_pos e1) as P. assert (Lo : 10 ^ 5 <= Rabs (IZR m1)) by (rewrite <- abs_IZR; replace (10 ^ 5) with (IZR (10 ^ 5)) by (cbn; lra); apply IZR_le; lia).
  assert (Hi : Rabs (IZR m1) < 10 ^ 6) by (rewrite <- abs_IZR; replace (10 ^ 6) with (IZR (10 ^ 6)) by (cbn; lra); apply IZR_lt; lia).
  assert (A : Rabs r = Rabs (IZR m1) * powerRZ 10 e1) by (rewrite E, Rabs_mult, (Rabs_right (powerRZ 10 e1)); [reflexivity|lra]).
  assert (NZ : r <> 0) by (intro Z; rewrite Z, Rabs_R0 in A; nra).
  destruct (S r NZ) as (m2 & e2 & B2 & E2 & D). assert (e1 = e2) by (apply (exponent_unique r); [rewrite A; split; nra|exact B2]). subst e2.
  rewrite E2. rewrite E2, E in D. rewrite <- Rmult_minus_distr_r, Rabs_mult, (Rabs_right (powerRZ 10 e1)) in D by lra.
  assert (D' : Rabs (IZR m1 - IZR m2) <= 1 / 2) by (apply (Rmult_le_reg_r (powerRZ 10 e1)); lra).
  rewrite <- minus_IZR, <- abs_IZR in D'. assert (Z.abs (m1 - m2) < 1)%Z by (apply lt_IZR; lra). rewrite E. f_equal. f_equal. lia.
Qed.
Lemma c89_short shown s : writes_six_digits shown -> complete s -> each_number s short -> exists ws, save shown s = Ok ws /\ load ws = Ok s.
Proof. intros W C (H1 & H2). apply c89_same; [exact C|]. split; intros; apply short_shown; eauto. Qed.

(** Seven digits *)
Lemma shown_seven shown r z : writes_six_digits shown -> 10 ^ 6 <= Rabs r < 10 ^ 7 -> Rabs (r - 10 * IZR z) < 5 -> shown r = 10 * IZR z.
Proof.
  intros (_ & S) B D. assert (NZ : r <> 0) by (intro Z; rewrite Z, Rabs_R0 in B; lra). destruct (S r NZ) as (m & e & A & E & D2).
  assert (e = 1%Z) by (apply (exponent_unique r); [exact A|rewrite powerRZ_1; lra]). subst e. rewrite powerRZ_1 in *.
  rewrite E in *. assert (Rabs (IZR m - IZR z) < 1).
  { apply (Rmult_lt_reg_r 10); [lra|]. rewrite <- (Rabs_right 10) at 1 by lra. rewrite <- Rabs_mult. replace ((IZR m - IZR z) * 10) with ((r - 10 * IZR z) - (r - IZR m * 10)) by ring.
    pose proof (Rabs_triang (r - 10 * IZR z) (- (r - IZR m * 10))) as T. rewrite Rabs_Ropp in T. unfold Rminus at 1. lra. }
  rewrite <- minus_IZR, <- abs_IZR in H. assert (Z.abs (m - z) < 1)%Z by (apply lt_IZR; lra). replace m with z by lia. ring.
Qed.
Definition surface : spline := mkspline [[-6370999; 1]] [6371000; 6371001] 1.
Lemma surface_made nan : linear_spline nan [6371000; 6371001] [1; 2] = Ok surface.
Proof.
  unfold linear_spline. cbn [length Nat.sub seq loop]. unfold linear_piece, arr_get. cbn [nth_error Nat.add obind].
  rewrite (proj2 (Reqb_false _ _)) by lra. cbn [obind app]. unfold surface. replace ((2 - 1) / (6371001 - 6371000)) with 1 by field. replace (1 - 1 * 6371000) with (-6370999) by ring. reflexivity.
Qed.
Lemma c89_surface shown nan : writes_six_digits shown -> exists s s' ws, nodes [6371000; 6371001] [1; 2] /\ linear_spline nan [6371000; 6371001] [1; 2] = Ok s /\
  save shown s = Ok ws /\ load ws = Ok s' /\ spline_evaluate s 6371000 = Ok 1 /\ spline_evaluate s' 6371000 = Ok 0.
Proof.
  intro W. assert (N : nodes [6371000; 6371001] [1; 2]).
  { split; [cbn; lia|]. split; [reflexivity|]. repeat constructor. lra. }
  assert (C : complete surface).
  { split; [reflexivity|]. split; [reflexivity|]. split; [cbn; lia|]. split; [cbn; lia|]. intros p [<-|[]]. split; [easy|cbn; lia]. }
  destruct (c89_loaded shown surface C) as (ws & S & L). exists surface. eexists. exists ws. split; [exact N|]. split; [apply surface_made|]. split; [exact S|]. split; [exact L|]. split.
  - destruct (c26_linear nan [6371000; 6371001] [1; 2] N) as (s & E & V & _). rewrite surface_made in E. injection E as <-. exact (V 0%nat ltac:(cbn; lia)).
  - cbn [surface sp_polys sp_sub sp_n map].
    rewrite (shown_seven shown (-6370999) (-637100) W) by (try rewrite Rabs_left by lra; try (rewrite Rabs_right by lra); lra).
    rewrite (shown_seven shown 6371000 637100 W), (shown_seven shown 6371001 637100 W).
    + assert (O : shown 1 = 1) by (apply short_shown; [exact W|]; exists 1%Z, 0%Z; split; [lia|rewrite powerRZ_O; ring]). rewrite O.
      unfold spline_evaluate. cbn [seq sp_n spline_search sp_sub sp_polys]. unfold arr_get. cbn [nth_error Nat.add obind].
      rewrite !(proj2 (Rleb_true _ _)) by lra. cbn [obind poly_evaluate rev app fold_left]. unfold poly_evaluate. cbn [rev app fold_left obind]. f_equal. lra.
    + rewrite Rabs_right; lra.
    + rewrite Rabs_right; lra.
    + rewrite Rabs_right; lra.
    + rewrite Rabs_right; lra.
Qed.

(** ** CalculateSpline *)
Lemma calculate_ok nan xs ys : nodes xs ys -> exists cs, calculate_spline nan xs ys = Ok cs /\ length cs = (length xs - 1)%nat /\
  natural_pieces xs ys (fun i t => polynomial (fst (nth i cs ([], 0))) (t - snd (nth i cs ([], 0)))).
Proof.
  intros (L & E & S). set (n := (length xs - 1)%nat). set (x := fun i => nth i xs 0). set (y := fun i => nth i ys 0).
  assert (Hn : (1 <= n)%nat) by (unfold n; lia).
  assert (Hx : forall i, (i < n)%nat -> x i < x (i + 1)%nat) by (intros i I; apply (sorted_nth xs i (i + 1) S); unfold n in I; lia).
  exists (map (fun i => (cs_coeff x y n i, x i)) (seq 0 n)). split; [|split].
  - destruct xs as [|a xs']; [cbn in L; lia|]. unfold calculate_spline. replace (length ys <? length (a :: xs'))%nat with false by (symmetry; apply Nat.ltb_ge; lia).
    cbv zeta. fold n. change (fun i => nth i (a :: xs') 0) with x. change (fun i => nth i ys 0) with y. rewrite (regular x y n Hn Hx). reflexivity.
  - now rewrite map_length, seq_length.
  - assert (F : forall i, (i < n)%nat -> nth i (map (fun i => (cs_coeff x y n i, x i)) (seq 0 n)) ([], 0) = (cs_coeff x y n i, x i)).
    { intros i I. rewrite (nth_indep _ _ (cs_coeff x y n 0, x 0%nat)) by (rewrite map_length, seq_length; lia).
      rewrite (map_nth (fun i => (cs_coeff x y n i, x i)) (seq 0 n) 0%nat i), seq_nth by lia. reflexivity. }
    assert (Q : forall i t, (i < n)%nat -> polynomial (fst (nth i (map (fun i => (cs_coeff x y n i, x i)) (seq 0 n)) ([], 0))) (t - snd (nth i (map (fun i => (cs_coeff x y n i, x i)) (seq 0 n)) ([], 0))) = q0 x y n i t).
    { intros i t I. rewrite F by exact I. cbn [fst snd]. unfold cs_coeff. rewrite polynomial4. reflexivity. }
    exists (q1 x y n), (q2 x y n). repeat apply conj.
    + intros i t I. split.
      * apply (derivable_pt_lim_ext (q0 x y n i)); [intro u; symmetry; apply Q; unfold n; lia|]. apply q0_derives.
      * apply q1_derives.
    + intros i I. rewrite !Q by (unfold n; lia). split; [apply q0_left|]. apply (q0_right x y n Hx i). unfold n; lia.
    + intros i I. split; [apply (q1_cont x y n Hn Hx i); unfold n; lia|]. change (node xs (i + 1)) with (x (i + 1)%nat). rewrite (q2_cont x y n Hx i) by (unfold n; lia).
      unfold q2. ring.
    + change (node xs 0) with (x 0%nat). unfold q2. rewrite (c_0 x y n Hn). ring.
    + replace (length xs - 1)%nat with (n - 1 + 1)%nat by (unfold n; lia). replace (length xs - 2)%nat with (n - 1)%nat by (unfold n; lia).
      change (node xs (n - 1 + 1)) with (x (n - 1 + 1)%nat). rewrite (q2_cont x y n Hx (n - 1)) by lia. replace (n - 1 + 1)%nat with n by lia. rewrite (c_n x y n). ring.
Qed.

Lemma calculate_short nan xs ys : (length ys < length xs)%nat -> calculate_spline nan xs ys = UB out_of_bounds.
Proof.
  intro L. destruct xs as [|a xs]; [cbn in L; lia|]. unfold calculate_spline.
  replace (length ys <? length (a :: xs))%nat with true by (symmetry; apply Nat.ltb_lt; exact L). reflexivity.
Qed.

(** ** Splines made from nodes *)
Lemma linear_lengths nan xs ys s : nodes xs ys -> linear_spline nan xs ys = Ok s -> forall p, In p (sp_polys s) -> length p = 2%nat.
Proof.
  intros (HL & HE & HS) E. unfold linear_spline in E. destruct xs as [|x0 xs']; [cbn in HL; lia|]. set (xs := x0 :: xs') in *.
  destruct (loop_append (linear_piece nan xs ys) (fun i p => length p = 2%nat) (length xs - 1)) as (l & El & L1 & L2).
  - intros i Hi. unfold linear_piece. rewrite !arr_node by lia. cbn [obind]. pose proof (sorted_nth xs i (i + 1) HS ltac:(lia)).
    destruct (Reqb_spec (node xs (i + 1) - node xs i) 0); [lra|]. eexists; split; [reflexivity|]. reflexivity.
  - rewrite El in E. cbn [obind] in E. injection E as <-. cbn [sp_polys]. intros p Hp. apply In_nth_error in Hp as (k & Hk). exact (L2 k p Hk).
Qed.
Lemma built_complete nan nan' xs ys s : nodes xs ys -> (N.of_nat (length xs) <= 4294967295)%N ->
  linear_spline nan xs ys = Ok s \/ (cubic_spline nan' xs ys = Ok s /\ forall i, (i + 1 < length xs)%nat -> node xs i = 0 \/ GEOMETRY_PRECISION < Rabs (node xs i)) -> complete s.
Proof.
  intros HN HM H. destruct (built_spline nan nan' xs ys s HN H) as ((W1 & W2 & W3 & W4 & W5) & _ & S).
  split; [exact W2|]. split; [exact W3|]. split; [exact W1|]. split; [rewrite S in W3; lia|]. intros p P. split; [now apply W5|].
  assert (B : length p = 2%nat \/ length p = 4%nat).
  { destruct H as [H|(H & HR)]; [left; exact (linear_lengths nan xs ys s HN H p P)|]. right. destruct (c26_cubic nan' xs ys HN HR) as (s1 & E & _ & _ & _ & NC).
    rewrite H in E. injection E as <-. destruct NC as (_ & d1 & d2 & D & _). apply In_nth_error in P as (k & K). exact (proj1 (D k p 0 K)). }
  destruct B as [-> | ->]; cbn; lia.
Qed.
Lemma c89_round_trip shown nan nan' xs ys s : writes_six_digits shown -> nodes xs ys -> (N.of_nat (length xs) <= 4294967295)%N ->
  linear_spline nan xs ys = Ok s \/ (cubic_spline nan' xs ys = Ok s /\ forall i, (i + 1 < length xs)%nat -> node xs i = 0 \/ GEOMETRY_PRECISION < Rabs (node xs i)) ->
  each_number s short -> exists ws, save shown s = Ok ws /\ load ws = Ok s.
Proof. intros W HN HM H. apply c89_short; [exact W|]. exact (built_complete nan nan' xs ys s HN HM H). Qed.
