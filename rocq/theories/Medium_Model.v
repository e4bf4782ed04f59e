(** Model of the numbers that a Medium derives from its components
    (detail/PROPOSAL/medium/Medium.cxx) and of what the suppression of
    bremsstrahlung and of pair production takes from a medium.  [nan] is the
    outcome of arithmetic whose result is infinite or not a number. *)
From Verif Require Import Prelude Particle_Model Limits_Model Cross_Model Photo_Model Products_Model
  Differential_Model Nuclear_Model.

Section Medium.
Variable nan : forall A, outcome A.
Notation quo := (quo nan).
Notation log := (log nan).

(** The conversion of a double to an unsigned int, as in the call of X0_inv,
    Medium.cxx:187 *)
Definition to_unsigned (x : R) : outcome Z :=
  let n := truncate x in
  if ((0 <=? n) && (n <? 2 ^ 32))%Z then Ok n else UB bad_conversion.

(** Medium::X0_inv, Medium.cxx:519-557.  [Z * Z] is a product of unsigned
    numbers. *)
Definition X0_inv (Z : Z) (M : R) : outcome R :=
  let z := IZR Z in
  let a_sq := ALPHA * ALPHA * z * z in
  let fZ := a_sq * (1 / (1 + a_sq) + 20206 / 10 ^ 5 - 369 / 10 ^ 4 * a_sq
                    + 83 / 10 ^ 4 * a_sq * a_sq - 2 / 10 ^ 3 * a_sq * a_sq * a_sq) in
  olet L :=
    (if (4 <? Z)%Z then
       olet l := log (18415 / 100 * Rpower z (- (1 / 3))) in
       olet l' := log (1194 * Rpower z (- (2 / 3))) in
       Ok (l, l')
     else if (Z =? 1)%Z then Ok (531 / 100, 6144 / 1000)
     else if (Z =? 2)%Z then Ok (479 / 100, 5621 / 1000)
     else if (Z =? 3)%Z then Ok (474 / 100, 5805 / 1000)
     else if (Z =? 4)%Z then Ok (471 / 100, 5924 / 1000)
     else Ok (0, 0)) in
  olet k := quo (4 * ALPHA * RE * RE * NA) M in
  Ok (k * (IZR (Z * Z mod 2 ^ 32) * (fst L - fZ) + z * snd L)).

(** The second loop of Medium::init, Medium.cxx:183-190 *)
Fixpoint length_sums (aux1 aux2 : R) (cs : list component) : outcome (R * R) :=
  match cs with
  | [] => Ok (aux1, aux2)
  | c :: cs =>
    olet Z := to_unsigned (c_charge c) in
    olet x := X0_inv Z (c_atomic c) in
    length_sums (aux1 + x * (c_atoms c * c_atomic c)) (aux2 + c_atoms c * c_atomic c) cs
  end.

(** The members that Medium::init (Medium.cxx:156-194) sets: sumCharge_,
    sumNucleons_, ZA_, molDensity_, MM_, radiationLength_ *)
Record summary := mksummary {
  su_charge : R;
  su_nucleons : R;
  su_ZA : R;
  su_mol_density : R;
  su_MM : R;
  su_length : R
}.
(** Medium::init, Medium.cxx:156-194; the first loop adds the three sums in the
    order of the components. *)
Definition medium_init (mass_density : R) (cs : list component) : outcome summary :=
  let aux1 := fold_left (fun a c => a + c_atoms c * c_charge c) cs 0 in
  let aux2 := fold_left (fun a c => a + c_atoms c * c_atomic c) cs 0 in
  let aux3 := fold_left (fun a c => a + c_atoms c * c_atomic c * nucleon_weight c) cs 0 in
  olet ZA := quo aux1 aux2 in
  olet mol := quo (mass_density * NA) aux2 in
  olet MM := quo aux3 aux2 in
  olet s := length_sums 0 0 cs in
  olet l := quo (snd s) (fst s) in
  Ok (mksummary aux1 aux2 ZA mol MM l).

(** What BremsLPM::BremsLPM (Bremsstrahlung.cxx:568-599, with mass the mass of the
    particle and factor 1) and PhotoPairLPM::PhotoPairLPM
    (PhotoPairProduction.cxx:338-370, with mass the mass of the electron and factor
    9/7) take from a medium; [contribution] is the integral over the unsuppressed
    cross section of a component. *)
Fixpoint lpm_sum (nucleons : R) (contribution : component -> outcome R) (sum : R) (cs : list component) : outcome R :=
  match cs with
  | [] => Ok sum
  | c :: cs =>
    olet x := contribution c in
    olet w := quo nucleons (c_atoms c * c_atomic c) in
    olet q := quo x w in
    lpm_sum nucleons contribution (sum + q) cs
  end.
Definition new_lpm (mass factor mass_density : R) (contribution : component -> outcome R) (cs : list component)
  : outcome lpm_medium :=
  olet s := medium_init mass_density cs in
  olet sum := lpm_sum (su_nucleons s) contribution 0 cs in
  let sum := factor * sum * mass_density in
  let e := ALPHA * mass in
  olet q := quo (2 * e) (PI * ME * RE * sum) in
  Ok (mklpm (su_mol_density s) (su_charge s) (e * q)).

(** EpairLPM::EpairLPM, EpairProduction.cxx:553-574: eLpm_ *)
Fixpoint epair_lpm_sum (sum : R) (cs : list component) : outcome R :=
  match cs with
  | [] => Ok sum
  | c :: cs =>
    olet l := log (325 / 100 * log_constant c * Rpower (c_charge c) (- (1 / 3))) in
    epair_lpm_sum (sum + c_charge c * c_charge c * l) cs
  end.
Definition epair_lpm_energy (mass charge mass_density : R) (cs : list component) : outcome R :=
  olet s := medium_init mass_density cs in
  olet sum := epair_lpm_sum 0 cs in
  let e := mass / (ME * RE) in
  olet q := quo ((e * e) * ALPHA * mass) (2 * PI * su_mol_density s * charge * charge * sum) in
  Ok (e * q).
End Medium.
