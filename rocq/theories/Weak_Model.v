(** Model of weak interactions after Cooper-Sarkar and Mertsch
    (PROPOSAL/crosssection/parametrization/WeakInteraction.cxx): the tables with nodes of
    their own in every row, and what is read from them. *)
From Verif Require Import Prelude Cross_Model Photo_Model Weak_Tables Interpolant_Model.

(** ** Rows with their own nodes *)
(** The loop over the rows of the constructor below, with x2[i] and iY2_[i]; both are
    accessed with operator[] in the comparison of the sizes before. *)
Fixpoint make_own_rows (x1 : list R) (x2 y : list (list R)) (romberg : Z) (rational : bool) : outcome (list inter) :=
  match x1 with
  | [] => Ok []
  | _ :: x1 =>
    match x2, y with
    | nodes :: x2, row :: y =>
      olet t := make nodes row romberg rational in
      olet l := make_own_rows x1 x2 y romberg rational in
      Ok (t :: l)
    | _, _ => UB out_of_bounds
    end
  end.
(** Interpolant::Interpolant(x1, x2, y, romberg1, …) with a vector of vectors x2,
    Interpolant.cxx:1317-1420.  The messages about sizes that do not match are left out:
    they are only written to the log.  As in [make_grid], iX_.at(i) = x1.at(i) is done
    before the rows. *)
Definition make_sheet (x1 : list R) (x2 y : list (list R)) (romberg1 : Z) (rational1 : bool) (romberg2 : Z) (rational2 : bool)
  : outcome grid :=
  olet first := at_ x1 0 in
  olet last := at_ x1 (length x1 - 1) in
  let max := init_max (Nat.min (length x1) (length y)) first last in
  let r := init_romberg max romberg1 in
  olet ix := fill max x1 in
  olet rows := make_own_rows x1 x2 y romberg2 rational2 in
  Ok (mkgrid (mkinter ix (repeat 0 max) (repeat 0 r) (repeat 0 r) max r r rational1 (Rmin first last) (Rmax first last)) rows).

(** ** The tables *)
(** The number a literal of Weak_Tables.v stands for *)
Definition scaled (d : decimal) : Z := match d with D m k => Zpos m * 10 ^ Z.of_N k end.
Definition unscaled (z : Z) : R := IZR z / 10 ^ 18.
Definition numbers (t : list (list decimal)) : list (list R) := map (map (fun d => unscaled (scaled d))) t.
(** energies, ParamTables.cxx:6-19: 4.0, 4.1, ... 15.0, decadic logarithms of energies in
    MeV *)
Definition energies : list R := map (fun j => IZR (40 + Z.of_nat j) / 10) (seq 0 111).

(** The two pairs of tables, for protons and neutrons each, WeakInteraction.h:64-65 *)
Record weak_tables := mkweak { w_particle : grid * grid; w_antiparticle : grid * grid }.
(** WeakCooperSarkarMertsch::WeakCooperSarkarMertsch, WeakInteraction.cxx:39-55; IROMB is
    5, Constants.cxx *)
Definition cooper_sarkar_mertsch : outcome weak_tables :=
  olet p := make_sheet energies (numbers y_proton) (numbers sigma_nubar_proton) 5 false 5 false in
  olet n := make_sheet energies (numbers y_neutron) (numbers sigma_nubar_neutron) 5 false 5 false in
  olet p' := make_sheet energies (numbers y_proton) (numbers sigma_nu_proton) 5 false 5 false in
  olet n' := make_sheet energies (numbers y_neutron) (numbers sigma_nu_neutron) 5 false 5 false in
  Ok (mkweak (p, n) (p', n')).

Section Weak.
Variable nan : forall A, outcome A.
(** WeakCooperSarkarMertsch::DifferentialCrossSection, WeakInteraction.cxx:57-86, and what
    it leaves in the tables; [charge] is that of the particle. *)
Definition weak_cross (w : weak_tables) (charge : R) (c : component) (E v : R) : outcome (R * weak_tables) :=
  olet l := log nan E in
  let log10_energy := l / ln 10 in
  let (p, n) := if charge <? 0 then w_particle w else w_antiparticle w in
  olet (proton, p) := grid_array nan p log10_energy v in
  olet (neutron, n) := grid_array nan n log10_energy v in
  let w := if charge <? 0 then mkweak (p, n) (w_antiparticle w) else mkweak (w_particle w) (p, n) in
  olet mean := quo nan (c_charge c * proton + (c_atomic c - c_charge c) * neutron) (c_atomic c) in
  olet atoms := quo nan NA (c_atomic c) in
  Ok (atoms / 10 ^ 36 * Rmax mean 0, w).

(** A history of calls of an object, with the charge, the component, the energy and v *)
Fixpoint weak_calls (w : weak_tables) (qs : list (R * component * R * R)) : outcome (list R * weak_tables) :=
  match qs with
  | [] => Ok ([], w)
  | (charge, c, E, v) :: qs =>
    olet (x, w) := weak_cross w charge c E v in
    olet (xs, w) := weak_calls w qs in
    Ok (x :: xs, w)
  end.
End Weak.
