(** Proofs about the random numbers of decays: rejection sampling, and which
    numbers are used. *)
From Verif Require Import Prelude PreludeFacts Vec_Model Propagator_Model Math_Model Particle_Model Decay_Model Particle_Spec Decay_Spec.

Section Rejection.
Variables (nan : forall A, outcome A) (reg : registry) (daughters : list pdef) (par : params) (element : pstate -> list particle -> R)
          (parent : pdef) (c : pstate) (rnd : nat -> R).
Notation weighted_event := (weighted_event nan reg daughters par element parent c rnd).
Lemma rejection_accepted fuel : forall k ps out, weight_min par = 0 ->
  rejection nan reg daughters par element parent c rnd fuel k ps = Some (Ok out) ->
  accepted weighted_event (length daughters - 2 + 2 * (length daughters - 1)) rnd (weight_max par) k ps out.
Proof.
  induction fuel as [|fuel IH]; intros k ps out W H; [discriminate|]. cbn [rejection] in H.
  destruct (one_event nan reg daughters par parent rnd k ps) as [(kin & ps')| |] eqn:E; [|discriminate|discriminate].
  cbv zeta in H. rewrite W in H. assert (EV : weighted_event k ps = Ok (k_weight kin * element c ps', ps')) by (unfold Decay_Spec.weighted_event; rewrite E; reflexivity).
  replace (k + (length daughters - 2) + 2 * (length daughters - 1))%nat with (k + (length daughters - 2 + 2 * (length daughters - 1)))%nat in H by lia.
  match type of H with context [?a <? ?b] => destruct (Rltb_spec a b) as [L|L] end.
  - eapply accepted_later; [exact EV|lra|]. apply IH; [exact W|]. replace (k + (length daughters - 2 + 2 * (length daughters - 1)) + 1)%nat
      with (S (k + (length daughters - 2 + 2 * (length daughters - 1)))) by lia. exact H.
  - injection H as <-. eapply accepted_now; [exact EV|lra].
Qed.
Lemma decay_accepted fuel k out : weight_min par = 0 ->
  many_body_decay nan reg daughters par element parent c rnd true fuel k = Some (Ok out) ->
  exists ps, accepted weighted_event (length daughters - 2 + 2 * (length daughters - 1)) rnd (weight_max par) k
    (map (fun d => product d c (direction c) (energy c)) daughters) ps /\ to_lab nan reg parent c ps = Ok out.
Proof.
  intros W H. unfold many_body_decay in H. destruct (rejection _ _ _ _ _ _ _ _ _ _ _) as [[ps| |]|] eqn:E; cbn [obind] in H; try discriminate.
  exists ps. split; [apply (rejection_accepted fuel _ _ _ W E)|congruence].
Qed.
End Rejection.

(** ** Only the numbers from a given one on are used. *)
Section Numbers.
Variables (nan : forall A, outcome A) (reg : registry) (rnd rnd' : nat -> R).
Lemma one_event_numbers daughters par parent k ps : (forall i, (k <= i)%nat -> rnd i = rnd' i) ->
  one_event nan reg daughters par parent rnd k ps = one_event nan reg daughters par parent rnd' k ps.
Proof.
  intro S. unfold one_event. replace (draws rnd k (length daughters - 2)) with (draws rnd' k (length daughters - 2)).
  2:{ unfold draws. apply map_ext_in. intros i I. apply in_seq in I. symmetry. apply S. lia. }
  replace (direction_draws rnd (k + (length daughters - 2)) (length daughters - 1)) with (direction_draws rnd' (k + (length daughters - 2)) (length daughters - 1)).
  { reflexivity. }
  unfold direction_draws. apply map_ext_in. intros i I. rewrite !S by lia. reflexivity.
Qed.
Lemma rejection_numbers daughters par element parent c fuel : forall k ps, (forall i, (k <= i)%nat -> rnd i = rnd' i) ->
  rejection nan reg daughters par element parent c rnd fuel k ps = rejection nan reg daughters par element parent c rnd' fuel k ps.
Proof.
  induction fuel as [|fuel IH]; intros k ps S; [reflexivity|]. cbn [rejection]. rewrite (one_event_numbers _ _ _ _ _ S).
  destruct (one_event nan reg daughters par parent rnd' k ps) as [(kin & ps')| |]; [|reflexivity|reflexivity]. cbv zeta. rewrite S by lia.
  destruct (_ <? _); [|reflexivity]. apply IH. intros i I. apply S. lia.
Qed.
Lemma decay_numbers elements par ch parent c fuel k : (forall i, (k <= i)%nat -> rnd i = rnd' i) ->
  decay nan reg elements par ch parent c rnd fuel k = decay nan reg elements par ch parent c rnd' fuel k.
Proof.
  intro S. destruct ch as [|a b|ds uniform b e|l nu anti|l nu anti]; cbn [decay]; [reflexivity| | | |]; try (rewrite !S by lia; reflexivity).
  unfold many_body_decay. destruct uniform; [rewrite (rejection_numbers _ _ _ _ _ _ _ _ S); reflexivity|rewrite (one_event_numbers _ _ _ _ _ S); reflexivity].
Qed.
Lemma particle_numbers elements par parent c fuel : select_channel (pd_decays parent) (rnd 0%nat) = select_channel (pd_decays parent) (rnd' 0%nat) ->
  (forall i, (1 <= i)%nat -> rnd i = rnd' i) ->
  decay_particle nan reg elements par parent c rnd fuel = decay_particle nan reg elements par parent c rnd' fuel.
Proof.
  intros E S. unfold decay_particle. rewrite E. clear E. destruct (select_channel (pd_decays parent) (rnd' 0%nat)); [|reflexivity|reflexivity]. apply decay_numbers. exact S.
Qed.
End Numbers.
