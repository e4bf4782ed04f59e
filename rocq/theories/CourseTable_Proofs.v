(** Tables keep energies in range and let the time run forward. *)
From Verif Require Import Prelude PreludeFacts Vec_Model Geometry_Model Propagator_Model Math_Model Math_Proofs
  Trapezoid_Proofs Integral_Proofs Integral_Model Utility_Model Utility_Spec Utility_Proofs Grammage_Proofs Course_Model Course_Spec Course_Proofs.

Section Tables.
Variable nan : forall A, outcome A.
Variable qags : (R -> outcome R) -> R -> R -> outcome R.
Variable find : (R -> R) -> R -> R -> R -> R -> option R.
Variable eps : R.
Hypothesis finding : finds_within eps find.

Lemma value_Ok r x : value_of r = Ok x -> exists c, r = Some (Ok (x, c)).
Proof. destruct r as [[[y c]| |]|]; cbn; try discriminate. intro H. injection H as ->. eauto. Qed.

Lemma bisection_range h low E acc n a b : low <= E -> bisection h low E acc n = Ok (a, b) -> low <= a /\ a <= b /\ b <= E.
Proof.
  intros LE H. unfold bisection in H. destruct (Rltb_spec 0 (h low * h E)) as [P|P]; [discriminate|].
  destruct (Rltb_spec E low) as [Q|Q]; [lra|]. pose proof (bisection_loop_ok h acc n low E LE ltac:(lra)) as K.
  injection H as H. rewrite H in K. tauto.
Qed.
Lemma upper_range f L table reverse E s x c : L <= E ->
  get_upper nan qags find (Tabulated f L table reverse) E s = Some (Ok (x, c)) -> L <= x <= E.
Proof using finding.
  intros LE H. cbn [get_upper] in H. destruct (calculate nan qags (Tabulated f L table reverse) E L) as [[[m c']| |]|]; cbn [fbind] in H; try discriminate.
  destruct (m <? s); [discriminate|]. destruct (s =? m); [injection H as <- _; lra|].
  set (h := fun x => _) in H. generalize dependent (101%nat). intros n H.
  destruct (bisection h L E ((E - L) * / 100) n) as [[a b]| |] eqn:B; cbn [done fbind] in H; try discriminate.
  apply bisection_range in B; [|exact LE].
  destruct (find table _ a b _) as [y|] eqn:F.
  - injection H as <- _. apply finding in F. lra.
  - destruct (bisection h L E (/ 10 ^ 6) n) as [[a' b']| |] eqn:B'; cbn [done fbind] in H; try discriminate.
    apply bisection_range in B'; [|exact LE]. injection H as <- _. lra.
Qed.
Lemma calculate_same f L table reverse E E' v c : calculate nan qags (Tabulated f L table reverse) E E' = Some (Ok (v, c)) ->
  c = Tabulated f L table reverse.
Proof.
  cbn [calculate]. destruct (_ <? _).
  - unfold done. destruct (f _) as [y| |]; cbn [obind]; try discriminate. intro H. injection H as _ <-. reflexivity.
  - unfold done. intro H. injection H as _ <-. reflexivity.
Qed.
Lemma interaction_range f L table reverse E r x c : L <= E ->
  energy_interaction nan qags find (Tabulated f L table reverse) E r = Some (Ok (x, c)) -> L <= x <= E.
Proof using finding.
  intros LE H. unfold energy_interaction in H. destruct (minus_log nan r) as [rndi| |]; cbn [done fbind] in H; try discriminate.
  destruct (calculate nan qags _ E _) as [[[m c']| |]|] eqn:C; cbn [fbind] in H; try discriminate.
  apply calculate_same in C. subst c'. destruct rndi as [r'|].
  - destruct (m <=? r'); [injection H as <- _; cbn; lra|]. exact (upper_range _ _ _ _ _ _ _ _ LE H).
  - injection H as <- _. cbn. lra.
Qed.
Lemma decay_range f L table reverse lifetime E r density x c : L <= E ->
  energy_decay nan qags find (Tabulated f L table reverse) lifetime E r density = Some (Ok (x, c)) -> L <= x <= E.
Proof using finding.
  intros LE H. unfold energy_decay in H. destruct (minus_log nan r) as [rndd| |]; cbn [done fbind] in H; try discriminate.
  destruct (match rndd with Fin r0 => Ok (Fin (r0 * density)) | PInf => if 0 <? density then Ok PInf else nan ext end) as [q| |] eqn:Q; cbn [fbind] in H; try discriminate.
  destruct (calculate nan qags _ E _) as [[[m c']| |]|] eqn:C; cbn [fbind] in H; try discriminate.
  apply calculate_same in C. subst c'. destruct (quotient nan m lifetime) as [m'| |]; cbn [fbind] in H; try discriminate.
  destruct q as [r'|].
  - destruct (m' <=? r'); [injection H as <- _; cbn; lra|]. exact (upper_range _ _ _ _ _ _ _ _ LE H).
  - injection H as <- _. cbn. lra.
Qed.

Variables (erf : R -> R) (ppf : R -> outcome R).
Hypothesis normal : quantile SQRT2 erf ppf.

Lemma randomize_in f L table reverse E e r m x c : 0 <= r <= 1 -> Rmax L m <= e <= E ->
  energy_randomize nan qags erf ppf (Tabulated f L table reverse) E e r m = Some (Ok (x, c)) -> Rmax L m <= x <= E.
Proof using normal.
  intros N B H. destruct (calculate nan qags (Tabulated f L table reverse) E e) as [[[v c']| |]|] eqn:C;
    try (unfold energy_randomize in H; rewrite C in H; discriminate).
  destruct (randomize_range nan qags erf ppf (Tabulated f L table reverse) E e r m v normal) as (y & (c'' & G) & Y); [eexists; exact C|exact N|exact B|].
  rewrite H in G. injection G as -> _. exact Y.
Qed.

Lemma tables_in_range L col g d : tables L col -> in_range L (mksector g (assemble nan qags find erf ppf col) d).
Proof using finding normal.
  intros [(fd & td & rd & D) (fi & ti & ri & I) Dc Cr Lo]. split; cbn [s_utility].
  - unfold assemble. cbn [u_lower_lim]. rewrite D. reflexivity.
  - intros E r e LE N H. unfold assemble in H. cbn [u_interaction] in H. apply value_Ok in H. destruct H as (c & H). rewrite I in H.
    apply interaction_range in H; [lra|exact LE].
  - intros f E r density e U LE N H. unfold assemble in U. cbn [u_decay] in U. destruct (c_decay col) as [[dc life]|] eqn:Q; [|discriminate].
    injection U as <-. apply value_Ok in H. destruct H as (c & H). destruct (Dc _ _ eq_refl) as (fc & tc & rc & ->).
    apply decay_range in H; [lra|exact LE].
  - intros E gr e LE H. unfold assemble in H. cbn [u_upper_limit] in H. apply value_Ok in H. destruct H as (c & H). rewrite D in H.
    exact (upper_range _ _ _ _ _ _ _ _ LE H).
  - intros f E e r m x U N B H. unfold assemble in U. cbn [u_cont_rand] in U. destruct (c_cont_rand col) as [dc|] eqn:Q; [|discriminate].
    injection U as <-. apply value_Ok in H. destruct H as (c & H). destruct (Cr _ eq_refl) as (fc & tc & rc & ->).
    exact (randomize_in _ _ _ _ _ _ _ _ _ _ N B H).
  - exact Lo.
Qed.

Lemma losses_positive L c E e v c' : table_of_losses L c -> L <= e <= E -> calculate nan qags c E e = Some (Ok (v, c')) -> 0 <= v.
Proof.
  intros (f & table & reverse & -> & S & M) B H. cbn [calculate] in H. destruct (_ <? _) in H.
  - unfold done in H. destruct (f ((E + E) / 2)) as [y| |] eqn:F; cbn [obind] in H; try discriminate. injection H as <- _.
    apply S in F; [|lra]. nra.
  - unfold done in H. injection H as <- _. pose proof (M E e B). destruct reverse; lra.
Qed.
Lemma tables_forward L col g d c : c_time col = Some c -> table_of_losses L c -> (forall p, 0 < d_evaluate d p) ->
  forward_time L (mksector g (assemble nan qags find erf ppf col) d).
Proof.
  intros T K P E e gr t p B H. cbn [s_utility s_density] in H. unfold assemble in H. cbn [u_time] in H. rewrite T in H.
  apply value_Ok in H. destruct H as (c' & H). unfold time_elapsed in H.
  destruct (calculate nan qags c E e) as [[[v c'']| |]|] eqn:C; cbn [fbind] in H; try discriminate.
  unfold quotient in H. pose proof (P p). rewrite eqb_no in H by lra. cbn in H. injection H as <- _.
  apply (losses_positive _ _ _ _ _ _ K B) in C. apply Rcomplements.Rdiv_le_0_compat; [exact C|exact (P p)].
Qed.
Lemma tables_course rs sectors L max_steps outer st md me cond t : (forall k, 0 <= rs k <= 1) -> 0 <= L -> me <= L ->
  (forall s, In s sectors -> exists g d col c, s = mksector g (assemble nan qags find erf ppf col) d /\ tables L col /\
     c_time col = Some c /\ table_of_losses L c /\ forall p, 0 < d_evaluate d p) ->
  L <= energy st -> propagate rs sectors outer max_steps st md me cond = Some (Ok t) ->
  forall a b, followed_by t a b -> L <= energy a /\ 0 <= energy b <= energy a /\ time a <= time b.
Proof using finding normal.
  intros N P M HS S H a b F.
  destruct (course rs sectors L max_steps outer st md me cond t True N P M) with (5 := F) as (A & B & C); auto.
  - intros s Hs. destruct (HS s Hs) as (g & d & col & c & -> & T & _). apply tables_in_range. exact T.
  - intros _ s Hs. destruct (HS s Hs) as (g & d & col & c & -> & _ & T & K & Q). apply (tables_forward _ _ _ _ c); assumption.
Qed.
End Tables.
