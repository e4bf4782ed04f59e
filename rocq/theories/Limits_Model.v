(** Model of the kinematic limits of the interactions
    (detail/PROPOSAL/crosssection/parametrization/*.cxx: GetKinematicLimits).
    [m] is the mass of the particle, [Z] the charge of the nucleus, [E] the energy. *)
From Verif Require Import Prelude Particle_Model.

(** SQRTE, MP, MN, ALPHA: detail/PROPOSAL/Constants.cxx:12, 58, 59, 48 *)
Definition SQRTE : R := 1648721270700128 / 10 ^ 15.
Definition MP : R := 9382720813 / 10 ^ 7.
Definition MN : R := 939565413 / 10 ^ 6.
Definition ALPHA : R := 72973525664 / 10 ^ 13.

(** KinematicLimits, PROPOSAL/crosssection/parametrization/Parametrization.h:44-47 *)
Record limits := mklimits { v_min : R; v_max : R }.

(** [pow(Z, 1./3)] for a positive charge *)
Definition cube_root (Z : R) : R := Rpower Z (1 / 3).
(** Bremsstrahlung.cxx:84-92: the default *)
Definition brems_default_limits (m E : R) : limits := mklimits 0 (1 - m / E).
(** Bremsstrahlung.cxx:47-66: the parametrizations; [lorenz] is the cut if it is
    switched on. *)
Definition brems_limits (lorenz : option R) (m Z E : R) : limits :=
  let vmax := 1 - 75 / 100 * SQRTE * (m / E) * cube_root Z in
  mklimits 0 (if vmax <? 0 then 0
              else match lorenz with Some cut => Rmin vmax (cut / E) | None => vmax end).
(** EpairProduction.cxx:65-79 *)
Definition epair_limits (m Z E : R) : limits :=
  let aux := m / E in
  let vmin := 4 * ME / E in
  let vmax := 1 - 75 / 100 * SQRTE * aux * cube_root Z in
  let aux := 1 - 6 * aux * aux in
  let vmax := Rmin vmax aux in
  mklimits vmin (if vmax <? vmin then vmin else vmax).
(** MupairProduction.cxx:42-54 *)
Definition mupair_limits (m E : R) : limits :=
  let vmin := 2 * MMU / E in
  let vmax := 1 - m / E in
  mklimits vmin (if vmax <? vmin then vmin else vmax).
(** PhotoMuPairProduction.cxx:17-30 *)
Definition photo_mupair_limits (E : R) : limits :=
  if E <=? 2 * MMU * SQRTE then mklimits (1 / 2) (1 / 2)
  else mklimits (1 / 2 * (1 - sqrt (1 - 2 * SQRTE * MMU / E))) (1 / 2 * (1 + sqrt (1 - 2 * SQRTE * MMU / E))).
(** PhotoPairProduction.cxx:30-44 *)
Definition photo_pair_limits (E : R) : limits :=
  if E <=? 2 * ME then mklimits (1 / 2) (1 / 2) else mklimits (ME / E) (1 - ME / E).
(** Photonuclear.cxx:72-91; [M] is the average nucleon weight. *)
Definition photonuclear_limits (m M E : R) : limits :=
  let vmin := (MPI + MPI * MPI / (2 * M)) / E in
  let vmax := if m <? MPI then let aux := m / M in 1 - M * (1 + aux * aux) / (2 * E) else 1 in
  mklimits vmin (if vmax <? vmin then vmin else vmax).
(** WeakInteraction.cxx:22-31 *)
Definition weak_limits (E : R) : limits :=
  let aux := (MP + MN) / 2 in
  let aux := 2 * E * aux + aux * aux in
  mklimits (10 ^ 6 / aux) 1.
(** Compton.cxx:19-27 *)
Definition compton_limits (E : R) : limits := mklimits 0 (1 - 1 / (1 + 2 * E / ME)).
(** Ionization.cxx:40-58; [I] is the ionization potential in eV. *)
Definition ionization_limits (m I E : R) : limits :=
  let ratio := ME / m in
  let gamma := E / m in
  let vmin := (I / 10 ^ 6) / E in
  let vmax := 2 * ME * (gamma * gamma - 1) / ((1 + 2 * gamma * ratio + ratio * ratio) * E) in
  let vmax := Rmin vmax (1 - m / E) in
  mklimits vmin (if vmax <? vmin then vmin else vmax).
(** Ionization.cxx:241-253 *)
Definition bhabha_limits (m E : R) : limits :=
  let vmax := 1 - m / E in mklimits 0 (if vmax <? 0 then 0 else vmax).
(** Ionization.cxx:369-381 *)
Definition moller_limits (m E : R) : limits :=
  let vmax := 1 / 2 * (1 - m / E) in mklimits 0 (if vmax <? 0 then 0 else vmax).
