(** Theorems about the composition of media. *)
From Coq Require Import Lra Permutation.
From Verif Require Import Prelude Propagator_Model Particle_Model Limits_Model Cross_Model Photo_Model Products_Model Differential_Model Photopair_Model Nuclear_Model
  Multiple_Model Pairs_Model Medium_Model Cross_Spec Differential_Spec Pairs_Spec Medium_Spec Components_Proofs Medium_Proofs Rho_Proofs Cross_Examples Medium_Examples.

(** ** C67: what a medium does follows from its elements and their ratios *)
(** The sums over a molecule *)
Theorem C67_summary : forall nan rho cs, substance cs -> exists s, medium_init nan rho cs = Ok s /\
  su_charge s = molecule c_charge cs /\ su_nucleons s = molecule c_atomic cs /\
  su_ZA s * su_nucleons s = su_charge s /\ 1 / 3 <= su_ZA s <= 1 /\
  su_mol_density s * su_nucleons s = rho * NA /\ MP <= su_MM s <= MN.
Proof. exact c67_summary. Qed.
Print Assumptions C67_summary.
(** Bragg's rule: the inverse radiation lengths of the elements are added with their
    shares of the mass. *)
Theorem C67_bragg : forall nan rho cs, substance cs -> exists s, medium_init nan rho cs = Ok s /\ 0 < su_length s /\
  forall X, (forall c, In c cs -> exists s1, medium_init nan rho [c] = Ok s1 /\ su_length s1 = X c) ->
  / su_length s = rsum (map (fun c => component_mass c / rsum (map component_mass cs) * / X c) cs).
Proof. exact c67_bragg. Qed.
Print Assumptions C67_bragg.
(** Only the ratios of the numbers of atoms count, not the order of the components,
    and not how the atoms of an element are spread over several components. *)
Theorem C67_scaling : forall nan rho k cs cs', 0 < k -> same_ratios k cs cs' -> substance cs -> exists s s',
  medium_init nan rho cs = Ok s /\ medium_init nan rho cs' = Ok s' /\
  su_ZA s' = su_ZA s /\ su_MM s' = su_MM s /\ su_length s' = su_length s /\
  su_charge s' = k * su_charge s /\ su_nucleons s' = k * su_nucleons s /\ su_mol_density s' = su_mol_density s / k.
Proof. exact c67_scaling. Qed.
Print Assumptions C67_scaling.
Theorem C67_order : forall nan rho cs cs', Permutation cs cs' -> substance cs -> medium_init nan rho cs' = medium_init nan rho cs.
Proof. exact c67_order. Qed.
Print Assumptions C67_order.
Theorem C67_merge : forall nan rho l1 c1 c2 c l2, same_element c c1 -> same_element c c2 -> c_atoms c = c_atoms c1 + c_atoms c2 ->
  substance (l1 ++ c1 :: c2 :: l2) -> medium_init nan rho (l1 ++ c1 :: c2 :: l2) = medium_init nan rho (l1 ++ c :: l2).
Proof. exact c67_merge. Qed.
Print Assumptions C67_merge.
(** The rates and the continuous losses of interactions, when the calculators of an
    element do not depend on the number of its atoms *)
Theorem C67_rates : forall nan order make_n make_e make_e2 make_n' make_e' make_e2' k m m' cut only lower t x x',
  (forall l, Permutation (order l) l) -> 0 < k -> same_ratios k (m_components m) (m_components m') -> sound_medium m ->
  new_cross_section nan order make_n make_e make_e2 m cut only lower t = Ok x ->
  new_cross_section nan order make_n' make_e' make_e2' m' cut only lower t = Ok x' ->
  forall E f, (forall c c', same_element c c' -> f c' = f c) ->
  (only_continuous cut = false -> distinct_components m -> distinct_components m' ->
   (forall c, In c (m_components m) -> exists calc, make_n c = Ok calc /\ dn_rate calc E = Ok (f c)) ->
   (forall c, In c (m_components m') -> exists calc, make_n' c = Ok calc /\ dn_rate calc E = Ok (f c)) ->
   exists r, x_dNdx (as_cross nan x) E = Ok r /\ x_dNdx (as_cross nan x') E = Ok r) /\
  (cut <> None ->
   (forall c, In c (m_components m) -> exists g, make_e c = Ok (Some g) /\ g E = Ok (f c)) ->
   (forall c, In c (m_components m') -> exists g, make_e' c = Ok (Some g) /\ g E = Ok (f c)) ->
   exists r, x_dEdx (as_cross nan x) E = Ok r /\ x_dEdx (as_cross nan x') E = Ok r).
Proof. exact c67_rates. Qed.
Print Assumptions C67_rates.
(** The suppression of bremsstrahlung and of pair production by photons *)
Theorem C67_lpm : forall nan mass factor rho f k cs cs' m, 0 < k -> same_ratios k cs cs' -> substance cs -> (forall c c', same_element c c' -> f c' = f c) ->
  new_lpm nan mass factor rho f cs = Ok m -> exists m', new_lpm nan mass factor rho f cs' = Ok m' /\
  (forall M density c E v, brems_suppression nan M m' density c E v = brems_suppression nan M m density c E v) /\
  (forall density c E x, pair_suppression nan m' density c E x = pair_suppression nan m density c E x).
Proof. exact c67_lpm. Qed.
Print Assumptions C67_lpm.
(** Multiple scattering *)
Theorem C67_moliere : forall nan mass k h h' cs cs', k <> 0 -> same_ratios k cs cs' ->
  new_moliere nan mass (mkmedium h' cs') = new_moliere nan mass (mkmedium h cs).
Proof. exact c67_moliere. Qed.
Print Assumptions C67_moliere.
Example C67_example : substance (m_components water) /\ same_ratios 2 (m_components water) (m_components double_water) /\
  sound_medium water /\ distinct_components water /\ distinct_components double_water /\
  substance ([] ++ mkcomponent 1 1 (100794 / 10 ^ 5) 1 :: mkcomponent 1 1 (100794 / 10 ^ 5) 1 :: [oxygen_c]) /\
  same_element hydrogen_c (mkcomponent 1 1 (100794 / 10 ^ 5) 1) /\ c_atoms hydrogen_c = 1 + 1.
Proof.
  split; [exact water_substance|]. split; [exact water_doubled|]. split; [exact water_sound|]. split; [exact water_distinct|].
  split; [exact water_distinct|]. exact water_split.
Qed.
Example C67_rates_example : forall nan, (exists x, simple_cross nan water = Ok x) /\ (exists x, simple_cross nan double_water = Ok x) /\
  forall c, element c -> dn_rate (calc0 nan c) 20000 = Ok (c_charge c * (c_charge c + 1)).
Proof. exact simple_cross_ok. Qed.
(** The suppression of electron pairs does depend on the way the molecule is written:
    its energy scale is proportional to the number of atoms in the formula. *)
Theorem C67_epair_lpm_refuted : forall nan mass charge rho k cs cs', 0 < mass -> charge <> 0 -> 0 < rho -> 0 < k -> same_ratios k cs cs' -> substance cs ->
  exists e, 0 < e /\ epair_lpm_energy nan mass charge rho cs = Ok e /\ epair_lpm_energy nan mass charge rho cs' = Ok (k * e).
Proof. exact c67_epair_lpm. Qed.
Print Assumptions C67_epair_lpm_refuted.
(** The production of muon pairs by an element depends on the number of its atoms in
    the molecule, which takes the place of the mass number in the formula. *)
Theorem C67_muon_pairs_refuted : forall nan charge c c' E v r, element c -> c_charge c' = c_charge c -> 0 < c_atoms c < c_atoms c' -> charge <> 0 ->
  0 < E -> 0 < v < 1 -> 2 * MMU < v * E -> 0 <= r < largest_pair_asymmetry MMU E v ->
  exists y y', muon_pair nan MMU charge c E v r = Ok y /\ muon_pair nan MMU charge c' E v r = Ok y' /\ y' < y.
Proof. exact c67_muon_pairs. Qed.
Print Assumptions C67_muon_pairs_refuted.
Example C67_muon_pairs_example : element hydrogen_c /\ 0 < c_atoms hydrogen_c < 4 /\ 0 < 10 ^ 4 /\ 2 * MMU < 1 / 2 * 10 ^ 4 /\
  0 <= 1 / 2 < largest_pair_asymmetry MMU (10 ^ 4) (1 / 2).
Proof. exact pair_in_water. Qed.
(** The radiation length does not see the fraction of a mean charge. *)
Theorem C67_fraction_refuted : forall nan rho n c c', (0 <= n)%Z -> IZR n <= c_charge c < IZR n + 1 -> IZR n <= c_charge c' < IZR n + 1 ->
  c_atomic c = c_atomic c' -> c_atoms c = c_atoms c' -> substance [c] -> substance [c'] ->
  exists s s', medium_init nan rho [c] = Ok s /\ medium_init nan rho [c'] = Ok s' /\ su_length s = su_length s'.
Proof. exact c67_fraction. Qed.
Print Assumptions C67_fraction_refuted.
Example C67_fraction_example : (0 <= 10)%Z /\ IZR 10 <= c_charge frejus < IZR 10 + 1 /\ IZR 10 <= c_charge neon_like < IZR 10 + 1 /\
  c_charge neon_like < c_charge frejus /\ substance [frejus] /\ substance [neon_like].
Proof. exact frejus_case. Qed.
