(** Model of PropagationUtility (detail/PROPOSAL/propagation_utility/
    PropagationUtility.cxx) with the calculators of [Utility_Model]: the record
    of functions over which [Propagator_Model] is written, for a collection of
    tables.  A table does not change when it is read; a calculator that
    integrates anew does, which is left out here. *)
From Verif Require Import Prelude Vec_Model Geometry_Model Propagator_Model Cross_Model Integral_Model Utility_Model.

(** PropagationUtility::Collection, PropagationUtility.h:20-35, without the
    null pointers that the constructor refuses (PropagationUtility.cxx:80-90).
    [c_decay] has the lifetime; [c_time] is [None] for the approximate time. *)
Record collection := mkcollection {
  c_displacement : calculator;
  c_interaction : calculator;
  c_decay : option (calculator * R);
  c_time : option calculator;
  c_cont_rand : option calculator;
  c_sample_loss : R -> R -> outcome loss;
  c_scattering : option scattering
}.

(** The value of a call; a table always has one ([None] is used by the
    integration only). *)
Definition value_of (r : run (R * calculator)) : outcome R :=
  match r with
  | Some (Ok (x, _)) => Ok x
  | Some (Throw e) => Throw e
  | Some (UB u) => UB u
  | None => Throw logic_error
  end.

Section Course.
Variable nan : forall A, outcome A.
Variable qags : (R -> outcome R) -> R -> R -> outcome R.
Variable find : (R -> R) -> R -> R -> R -> R -> option R.
Variables (erf : R -> R) (ppf : R -> outcome R).

(** PropagationUtility.cxx:101-139, with DisplacementBuilder.h (SolveTrackIntegral
    is Calculate, UpperLimitTrackIntegral is GetUpperLimit) *)
Definition assemble (c : collection) : utility :=
  mkutility (lower_of (c_displacement c))
    (match c_decay c with
     | Some (d, lifetime) => Some (fun E rnd density => value_of (Utility_Model.energy_decay nan qags find d lifetime E rnd density))
     | None => None
     end)
    (fun E rnd => value_of (Utility_Model.energy_interaction nan qags find (c_interaction c) E rnd))
    (c_sample_loss c)
    (match c_cont_rand c with
     | Some d => Some (fun E_i E_f rnd min_energy => value_of (Utility_Model.energy_randomize nan qags erf ppf d E_i E_f rnd min_energy))
     | None => None
     end)
    (fun E grammage => value_of (get_upper nan qags find (c_displacement c) E grammage))
    (fun E_i E_f => value_of (calculate nan qags (c_displacement c) E_i E_f))
    (fun E_i E_f grammage density =>
       match c_time c with
       | Some d => value_of (time_elapsed nan qags d E_i E_f grammage density)
       | None => approximate_time_elapsed nan E_i E_f grammage density
       end)
    (c_scattering c).
End Course.
