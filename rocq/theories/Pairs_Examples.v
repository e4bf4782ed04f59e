(** Concrete cases for the production of pairs. *)
From Coq Require Import Lra.
From Coquelicot Require Import Coquelicot.
From Verif Require Import Prelude PreludeFacts Particle_Model Limits_Model Cross_Model Photo_Model Products_Model Differential_Model Integral_Model Pairs_Model.
From Verif Require Import Differential_Spec Pairs_Spec Differential_Proofs Brems_Proofs Pairs_Proofs Rho_Proofs Cross_Examples Differential_Examples.

(** A muon of 1 TeV that loses 1 GeV in oxygen *)
Lemma electron_pair_case : element oxygen_c /\ 0 < MMU /\ 0 < 10 ^ 6 /\
  v_min (epair_limits MMU (c_charge oxygen_c) (10 ^ 6)) < 1 / 1000 < v_max (epair_limits MMU (c_charge oxygen_c) (10 ^ 6)) /\
  largest_asymmetry MMU (10 ^ 6) (1 / 1000) <= 1 - COMPUTER_PRECISION.
Proof.
  split; [exact oxygen_element|]. pose proof mmu_val as Mm. pose proof me_val as Me. pose proof SQRTE_val as SQ. pose proof (cube_root_small oxygen_c oxygen_element) as CR.
  split; [lra|]. split; [lra|]. split.
  - unfold epair_limits. cbv zeta. cbn [v_min v_max]. split; [lra|]. set (q := MMU / 10 ^ 6). assert (0 <= q <= 1 / 1000) as Q by (unfold q; lra).
    assert (1 / 2 <= Rmin (1 - 75 / 100 * SQRTE * q * cube_root (c_charge oxygen_c)) (1 - 6 * q * q)) as M.
    { apply Rmin_glb; [|nra]. assert (0 <= SQRTE * q <= 2 / 1000) as A by nra. set (a := SQRTE * q) in *.
      replace (75 / 100 * SQRTE * q * cube_root (c_charge oxygen_c)) with (75 / 100 * (a * cube_root (c_charge oxygen_c))) by (unfold a; ring). clearbody a. nra. }
    match goal with |- context [?a <? ?b] => destruct (Rltb_spec a b) end; lra.
  - unfold largest_asymmetry. set (x := 4 * ME / (1 / 1000 * 10 ^ 6)). assert (2 / 1000 <= x <= 3 / 1000) as X by (unfold x; lra).
    assert (sqrt (1 - x) <= 1 - 1 / 1000) as S. { rewrite <- (sqrt_Rsqr (1 - 1 / 1000)) by lra. apply sqrt_le_1; unfold Rsqr; lra. }
    pose proof (sqrt_pos (1 - x)) as P. assert (0 <= 6 * (MMU / 10 ^ 6) ^ 2 / (1 - 1 / 1000)) as W.
    { apply Rdiv_le_0_compat; [|lra]. assert (0 <= (MMU / 10 ^ 6) ^ 2) by apply pow2_ge_0. lra. }
    set (w := 6 * (MMU / 10 ^ 6) ^ 2 / (1 - 1 / 1000)) in *. set (s := sqrt (1 - x)) in *. clearbody w s. unfold COMPUTER_PRECISION. nra.
Qed.
Lemma electron_pair_top : element oxygen_c /\ 0 < MMU /\ 0 < 10 ^ 14 /\
  v_min (epair_limits MMU (c_charge oxygen_c) (10 ^ 14)) < 1 / 2 < v_max (epair_limits MMU (c_charge oxygen_c) (10 ^ 14)) /\
  1 - COMPUTER_PRECISION < largest_asymmetry MMU (10 ^ 14) (1 / 2).
Proof.
  split; [exact oxygen_element|]. pose proof mmu_val as Mm. pose proof me_val as Me. pose proof SQRTE_val as SQ. pose proof (cube_root_small oxygen_c oxygen_element) as CR.
  split; [lra|]. split; [lra|]. split.
  - unfold epair_limits. cbv zeta. cbn [v_min v_max]. split; [lra|]. set (q := MMU / 10 ^ 14). assert (0 <= q <= 1 / 1000) as Q by (unfold q; lra).
    assert (3 / 5 <= Rmin (1 - 75 / 100 * SQRTE * q * cube_root (c_charge oxygen_c)) (1 - 6 * q * q)) as M.
    { apply Rmin_glb; [|nra]. assert (0 <= SQRTE * q <= 2 / 1000) as A by nra. set (a := SQRTE * q) in *.
      replace (75 / 100 * SQRTE * q * cube_root (c_charge oxygen_c)) with (75 / 100 * (a * cube_root (c_charge oxygen_c))) by (unfold a; ring). clearbody a. nra. }
    match goal with |- context [?a <? ?b] => destruct (Rltb_spec a b) end; lra.
  - unfold largest_asymmetry. set (x := 4 * ME / (1 / 2 * 10 ^ 14)). assert (0 <= x <= 1 / 10 ^ 12) as X by (unfold x; lra).
    assert (1 - x <= sqrt (1 - x)) as S. { rewrite <- (sqrt_Rsqr (1 - x)) at 1 by lra. apply sqrt_le_1; unfold Rsqr; nra. }
    assert (0 <= 6 * (MMU / 10 ^ 14) ^ 2 / (1 - 1 / 2) <= 1 / 10 ^ 12) as W.
    { assert (0 <= MMU / 10 ^ 14 <= 1 / 10 ^ 11) as Q by lra. set (q := MMU / 10 ^ 14) in *. clearbody q. cbn [pow]. nra. }
    set (w := 6 * (MMU / 10 ^ 14) ^ 2 / (1 - 1 / 2)) in *. set (s := sqrt (1 - x)) in *. clearbody w s. unfold COMPUTER_PRECISION. nra.
Qed.
(** A muon of 10 GeV *)
Lemma muon_pair_case : element oxygen_c /\ v_min (mupair_limits MMU (10 ^ 4)) < 1 / 2 < v_max (mupair_limits MMU (10 ^ 4)) /\
  1 / 2 < largest_pair_asymmetry MMU (10 ^ 4) (1 / 2) < 99 / 100.
Proof.
  split; [exact oxygen_element|]. split; [|unfold largest_pair_asymmetry, MMU; lra].
  unfold mupair_limits. cbv zeta. cbn [v_min v_max]. unfold MMU. match goal with |- context [?a <? ?b] => destruct (Rltb_spec a b) end; lra.
Qed.
(** A routine that knows the integral of zero *)
Lemma zero_routine : exists qags : (R -> outcome R) -> R -> R -> outcome R,
  forall h lo hi, lo < hi -> (forall t, lo < t < hi -> h t = Ok 0) -> qags h lo hi = Ok 0.
Proof. exists (fun h lo hi => olet y := h ((lo + hi) / 2) in Ok (y * (hi - lo))). intros h lo hi L H. rewrite H by lra. cbn. f_equal. ring. Qed.
