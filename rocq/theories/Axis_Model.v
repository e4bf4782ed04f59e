(** Model of the energies at which the tables of the cross sections and of the rates
    begin: AxisBuilderDEDX, AxisBuilderDE2DX, AxisBuilderDNDX, and of the classes that
    read the tables.  The classes of splines and axes come from the library
    CubicInterpolation, which is not part of the code: an axis is modelled by the
    energies of its nodes, a spline is an argument. *)
From Verif Require Import Prelude Math_Model Cross_Model.

(** The arguments of cubic_splines::ExpAxis<double>: lower and upper energy, number of
    nodes *)
Record axis := mkaxis { a_low : R; a_up : R; a_nodes : Z }.
(** ExpAxis::back_transform: the energy that belongs to a number of a node, which need
    not be whole.  One node only would divide by zero: the theorems ask for two.  An
    energy beyond the largest double stands for infinity. *)
Definition node (a : axis) (x : R) : R := a_low a * exp (x * (ln (a_up a / a_low a) / (IZR (a_nodes a) - 1))).

(** [while (!(func(ax.back_transform(i)) > 0) && i < n) ++i], AxisBuilderDEDX.cxx:17-18,
    AxisBuilderDE2DX.cxx:17-18, AxisBuilderDNDX.cxx:11-12, from the default i = 0; [rest]
    is n - i.  The function is a number; a NaN behaves like zero in all that is done with
    it here. *)
Fixpoint first_node (value : R -> R) (rest : nat) (i : Z) : Z :=
  match rest with
  | O => i
  | S rest => if 0 <? value (IZR i) then i else first_node value rest (i + 1)
  end.
(** [Bisection(f, i - 1, i, i_accuracy, 100).first + i_accuracy] with an unsigned i of
    32 bits *)
Definition refined (value : R -> R) (accuracy : R) (i : Z) : outcome R :=
  olet (x, _) := bisection value (IZR ((i - 1) mod 2 ^ 32)) (IZR i) accuracy 101 in
  Ok (x + accuracy).

(** AxisBuilderDEDX::refine_definition_range, AxisBuilderDEDX.cxx:13-29.  [None] is
    exception_axis_builder_dedx_out_of_range. *)
Definition refine_dedx (f : R -> R) (a : axis) : outcome (option axis) :=
  let value := fun x => f (node a x) in
  let i := first_node value (Z.to_nat (a_nodes a)) 0 in
  if (i =? a_nodes a)%Z then Ok None
  else if (i =? 0)%Z then Ok (Some a)
  else olet x := refined value (1 / 10) i in Ok (Some (mkaxis (node a x) (a_up a) (a_nodes a))).
(** AxisBuilderDE2DX::refine_definition_range, AxisBuilderDE2DX.cxx:13-27; the value
    that is given to [low] first is overwritten. *)
Definition refine_de2dx (f : R -> R) (a : axis) : outcome axis :=
  let value := fun x => f (node a x) in
  let i := first_node value (Z.to_nat (a_nodes a)) 0 in
  if (i =? a_nodes a)%Z then Throw logic_error
  else olet x := refined value (1 / 2) i in Ok (mkaxis (node a x) (a_up a) (a_nodes a)).
(** AxisBuilderDNDX::refine_definition_range, AxisBuilderDNDX.cxx:7-26 *)
Definition refine_dndx (f : R -> R) (a : axis) : outcome axis :=
  let value := fun x => f (node a x) in
  let i := first_node value (Z.to_nat (a_nodes a)) 0 in
  if (i =? a_nodes a)%Z then Throw logic_error
  else if (i =? 0)%Z then Ok (mkaxis (node a 0) (a_up a) (a_nodes a))
  else olet x := refined value (1 / 10) i in Ok (mkaxis (node a x) (a_up a) (a_nodes a)).

Section Tables.
(** The table of a function over an axis and its evaluation *)
Variable spline : (R -> R) -> axis -> R -> R.
(** CrossSectionDEDXInterpolant::Calculate, CrossSectionDEDXInterpolant.cxx:25-30,
    CrossSectionDE2DXInterpolant::Calculate, CrossSectionDE2DXInterpolant.cxx:24-29;
    lower_energy_lim is the lower energy of the axis. *)
Definition read_table (f : R -> R) (a : axis) (E : R) : R := if E <? a_low a then 0 else spline f a E.
(** make_dedx with the constructor of CrossSectionDEDXInterpolant,
    CrossSectionDEDXBuilder.h:9-24, CrossSectionDEDXInterpolant.h:16-29, 43-52: [None] is
    the null pointer that _build_dedx leaves out *)
Definition make_dedx (f : R -> R) (a : axis) : outcome (option (R -> R)) :=
  olet r := refine_dedx f a in Ok (option_map (read_table f) r).
(** make_de2dx, CrossSectionDE2DXBuilder.h:7-17, CrossSectionDE2DXInterpolant.h *)
Definition make_de2dx (f : R -> R) (a : axis) : outcome (R -> R) :=
  olet r := refine_de2dx f a in Ok (read_table f r).
(** InteractionBuilder::InitializeRateInterpolant, InteractionBuilder.cxx:41-65: the
    energy rate_lower_energy_lim and the interpolant *)
Definition rate_table (f : R -> R) (a : axis) : outcome (R * (R -> R)) :=
  olet r := refine_dndx f a in Ok (a_low r, spline f r).
End Tables.
