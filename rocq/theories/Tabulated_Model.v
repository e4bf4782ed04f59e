(** Model of the tables that correct cross sections below 50 MeV: those of
    BremsElectronScreening (PROPOSAL/crosssection/parametrization/Bremsstrahlung.cxx) and
    of PhotoPairKochMotz (PhotoPairProduction.cxx). *)
From Verif Require Import Prelude Weak_Tables Tabulated_Tables Weak_Model Interpolant_Model.

(** The number a literal of Tabulated_Tables.v stands for *)
Definition decimal_number (d : decimal) : R := IZR (scaled d) / 10 ^ 53.
Definition screening_nodes : list R := map (fun z => IZR z / 10 ^ 8) screening_charges.
Definition pair_nodes : list R := map INR pair_charges.

(** The interpolant_ of BremsElectronScreening, Bremsstrahlung.cxx:434-437 and 447-450 *)
Definition screening_table : outcome grid :=
  make_grid screening_nodes (map decimal_number screening_energies) (map (map decimal_number) screening_corrections) 2 false 2 false.
(** The interpolant_ of PhotoPairKochMotz, PhotoPairProduction.cxx:84-88 and 97-103 *)
Definition pair_table : outcome grid :=
  make_grid pair_nodes (map decimal_number pair_energies) (map (map decimal_number) pair_cross_sections) 2 false 2 false.

(** interpolant_->InterpolateArray(q1, q2), Bremsstrahlung.cxx:554 and
    PhotoPairProduction.cxx:128, without what it leaves in the table *)
Definition look_up (nan : forall A, outcome A) (g : grid) (q1 q2 : R) : outcome R :=
  olet (y, _) := grid_array nan g q1 q2 in Ok y.
