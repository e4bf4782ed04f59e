(** Concrete cases for C89 and for CalculateSpline. *)
From Coq Require Import Sorted.
From Verif Require Import Prelude PreludeFacts Geometry_Model Function_Model Function_Spec Spline_Model Spline_Spec Spline_Proofs Saved_Model Saved_Spec Saved_Proofs.

(** A linear spline with short numbers: 1 at 0 km, 2.5 at 2 km, 2 at 4 km *)
Lemma short_integer z : (Z.abs z < 10 ^ 6)%Z -> short (IZR z).
Proof. intro H. exists z, 0%Z. split; [exact H|]. rewrite powerRZ_O. ring. Qed.
Lemma short_decimal z : (Z.abs z < 10 ^ 6)%Z -> short (IZR z / 100).
Proof. intro H. exists z, (-2)%Z. split; [exact H|]. cbn [powerRZ]. replace (Pos.to_nat 2) with 2%nat by reflexivity. cbn. field. Qed.
Lemma short_example nan : nodes [0; 2; 4] [1; 25 / 10; 2] /\ exists s, linear_spline nan [0; 2; 4] [1; 25 / 10; 2] = Ok s /\ each_number s short.
Proof.
  split; [split; [cbn; lia|]; split; [reflexivity|]; repeat constructor; lra|].
  exists (mkspline [[1; 75 / 100]; [3; -25 / 100]] [0; 2; 4] 2). split.
  - unfold linear_spline. cbn [length Nat.sub seq loop]. unfold linear_piece, arr_get. cbn [nth_error Nat.add obind].
    rewrite !(proj2 (Reqb_false _ _)) by lra. cbn [obind app]. replace ((25 / 10 - 1) / (2 - 0)) with (75 / 100) by field. replace ((2 - 25 / 10) / (4 - 2)) with (-25 / 100) by field.
    replace (1 - 75 / 100 * 0) with 1 by field. replace (25 / 10 - -25 / 100 * 2) with 3 by field. reflexivity.
  - split; cbn [sp_sub sp_polys].
    + intros r [<-|[<-|[<-|[]]]]; apply short_integer; lia.
    + intros p r [<-|[<-|[]]] [<-|[<-|[]]]; (apply short_integer; lia) || (apply short_decimal; lia).
Qed.

(** Rounding to six digits is possible. *)
Lemma six_digits_exist r : r <> 0 -> exists r', six_digits r r'.
Proof.
  intro NZ. assert (P : 0 < Rabs r) by now apply Rabs_pos_lt.
  assert (E : exists e, 10 ^ 5 * powerRZ 10 e <= Rabs r < 10 ^ 6 * powerRZ 10 e).
  { assert (Up : exists k : nat, Rabs r < 10 ^ 6 * powerRZ 10 (Z.of_nat k)).
    { destruct (Pow_x_infinity 10 ltac:(rewrite Rabs_right; lra) (Rabs r + 1)) as (k & K). exists k. rewrite <- pow_powerRZ.
      specialize (K k (Nat.le_refl k)). rewrite Rabs_right in K by (apply Rle_ge, pow_le; lra). assert (0 < 10 ^ k) by (apply pow_lt; lra). lra. }
    assert (Dn : exists k : nat, 10 ^ 5 * powerRZ 10 (- Z.of_nat k) <= Rabs r).
    { destruct (Pow_x_infinity 10 ltac:(rewrite Rabs_right; lra) (10 ^ 5 / Rabs r)) as (k & K). exists k. rewrite powerRZ_neg'. rewrite <- pow_powerRZ.
      specialize (K k (Nat.le_refl k)). assert (T : 0 < 10 ^ k) by (apply pow_lt; lra). rewrite Rabs_right in K by lra.
      apply (Rmult_le_reg_r (10 ^ k)); [exact T|]. rewrite Rmult_assoc, Rinv_l, Rmult_1_r by lra.
      apply Rge_le in K. apply (Rmult_le_compat_r (Rabs r)) in K; [|lra]. unfold Rdiv in K. rewrite Rmult_assoc, Rinv_l, Rmult_1_r in K by lra. lra. }
    destruct Up as (u & U). destruct Dn as (d & D).
    assert (S : forall n e, 10 ^ 5 * powerRZ 10 e <= Rabs r -> Rabs r < 10 ^ 6 * powerRZ 10 (e + Z.of_nat n) -> exists e, 10 ^ 5 * powerRZ 10 e <= Rabs r < 10 ^ 6 * powerRZ 10 e).
    { clear -P. induction n as [|n IH]; intros e A B.
      - rewrite Z.add_0_r in B. now exists e.
      - destruct (Rlt_le_dec (Rabs r) (10 ^ 6 * powerRZ 10 e)) as [L|L]; [now exists e|]. apply (IH (e + 1)%Z).
        + rewrite power_up. lra.
        + replace (e + 1 + Z.of_nat n)%Z with (e + Z.of_nat (S n))%Z by lia. exact B. }
    apply (S (u + d)%nat (- Z.of_nat d)%Z D). replace (- Z.of_nat d + Z.of_nat (u + d))%Z with (Z.of_nat u) by lia. exact U. }
  destruct E as (e & E). pose proof (powerRZ_pos e) as T. set (m := (up (r / powerRZ 10 e - 1 / 2))%Z). exists (IZR m * powerRZ 10 e), m, e. split; [exact E|]. split; [reflexivity|].
  destruct (archimed (r / powerRZ 10 e - 1 / 2)) as (A & B). fold m in A, B. replace (r - IZR m * powerRZ 10 e) with ((r / powerRZ 10 e - IZR m) * powerRZ 10 e) by (field; lra).
  rewrite Rabs_mult, (Rabs_right (powerRZ 10 e)) by lra. unfold Rdiv at 2. rewrite (Rmult_comm (powerRZ 10 e)). apply Rmult_le_compat_r; [lra|]. apply Rabs_le. lra.
Qed.
