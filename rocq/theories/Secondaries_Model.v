(** Model of the queries on a propagated track,
    detail/PROPOSAL/Secondaries.cxx.  A track is the three parallel vectors of
    [Propagator_Model.track]. *)
From Verif Require Import Prelude Vec_Model Geometry_Model Propagator_Model.
From Coq Require Import String.
Import List ListNotations.

(** StochasticLoss and ContinuousLoss, PROPOSAL/particle/Particle.h:123-150 *)
Record sloss := mksloss {
  sl_type : itype; sl_energy : R; sl_position : vec; sl_direction : vec;
  sl_time : R; sl_distance : R; sl_parent_energy : R; sl_hash : N }.
Record closs := mkcloss {
  cl_energy : R; cl_parent_energy : R; cl_start : vec; cl_end : vec;
  cl_dir_i : vec; cl_dir_f : vec; cl_time_i : R; cl_time_f : R }.

(** [v[i]] of a std::vector: an index past the end is undefined behaviour. *)
Definition at_index {A} (l : list A) (i : nat) : outcome A :=
  match nth_error l i with Some a => Ok a | None => UB out_of_bounds end.

(** The loop [for (unsigned i = 1; i < track_.size(); i++)] with a body that
    appends to a result vector. *)
Fixpoint for_each {B} (body : nat -> outcome (list B)) (is : list nat) : outcome (list B) :=
  match is with
  | [] => Ok []
  | i :: is' =>
    olet x := body i in
    olet y := for_each body is' in
    Ok (x ++ y)
  end.
Definition track_indices (t : track) : list nat := seq 1 (length (tr_states t) - 1).

(** The emplace_back of the three overloads, Secondaries.cxx:377-382, 397-402,
    416-421 *)
Definition make_sloss (t : track) (i : nat) (ty : itype) : outcome (list sloss) :=
  olet a := at_index (tr_states t) (i - 1) in
  olet b := at_index (tr_states t) i in
  olet h := at_index (tr_hashes t) i in
  Ok [mksloss ty (energy a - energy b) (position b) (direction b) (time b)
        (propagated_distance b) (energy a) h].

(** GetStochasticLosses(), Secondaries.cxx:368-385; the [assert]s are not
    modelled (the parallel vectors have equal length by construction). *)
Definition get_stochastic_losses (t : track) : outcome (list sloss) :=
  for_each (fun i =>
    olet ty := at_index (tr_types t) i in
    if negb (itype_eqb ty ContinuousEnergyLoss) && negb (itype_eqb ty DecayType)
    then make_sloss t i ty else Ok []) (track_indices t).

(** GetStochasticLosses(geometry), Secondaries.cxx:387-406 *)
Definition get_stochastic_losses_in (t : track) (g : geometry) : outcome (list sloss) :=
  for_each (fun i =>
    olet b := at_index (tr_states t) i in
    if is_inside g (position b) (direction b) then
      olet ty := at_index (tr_types t) i in
      if negb (itype_eqb ty ContinuousEnergyLoss) && negb (itype_eqb ty DecayType)
      then make_sloss t i ty else Ok []
    else Ok []) (track_indices t).

(** GetStochasticLosses(type), Secondaries.cxx:408-424 *)
Definition get_stochastic_losses_of (t : track) (want : itype) : outcome (list sloss) :=
  for_each (fun i =>
    olet ty := at_index (tr_types t) i in
    if itype_eqb ty want then make_sloss t i ty else Ok []) (track_indices t).

(** Type_Interaction_Name_Map, PROPOSAL/particle/Particle.h:68-87.  The names
    are distinct, so the iteration order of the unordered_map does not matter. *)
Definition type_names : list (itype * string) :=
  [ (Particle, "Particle"); (Brems, "Brems"); (Ioniz, "Ioniz"); (Epair, "Epair");
    (Photonuclear, "Photonuclear"); (MuPair, "MuPair"); (Hadrons, "Hadrons");
    (ContinuousEnergyLoss, "ContinuousEnergyLoss"); (WeakInt, "WeakInt"); (Compton, "Compton");
    (DecayType, "Decay"); (Annihilation, "Annihilation"); (Photopair, "Photopair");
    (Photoproduction, "Photoproduction"); (PhotoMuPair, "PhotoMuPairProduction");
    (Photoeffect, "Photoeffect") ]%string.

(** GetStochasticLosses(name), Secondaries.cxx:426-437: an unknown name is only
    logged and the end iterator dereferenced. *)
Definition get_stochastic_losses_named (t : track) (name : string) : outcome (list sloss) :=
  match find (fun p => String.eqb (snd p) name) type_names with
  | Some (ty, _) => get_stochastic_losses_of t ty
  | None => UB deref_end
  end.

(** GetContinuousLosses(), Secondaries.cxx:439-455 *)
Definition make_closs (t : track) (i : nat) : outcome (list closs) :=
  olet a := at_index (tr_states t) (i - 1) in
  olet b := at_index (tr_states t) i in
  Ok [mkcloss (energy a - energy b) (energy a) (position a) (position b)
        (direction a) (direction b) (time a) (time b)].
Definition get_continuous_losses (t : track) : outcome (list closs) :=
  for_each (fun i =>
    olet ty := at_index (tr_types t) i in
    if itype_eqb ty ContinuousEnergyLoss then make_closs t i else Ok []) (track_indices t).

(** GetContinuousLosses(geometry), Secondaries.cxx:457-479 *)
Definition get_continuous_losses_in (t : track) (g : geometry) : outcome (list closs) :=
  for_each (fun i =>
    olet b := at_index (tr_states t) i in
    if is_inside g (position b) (direction b) then
      olet ty := at_index (tr_types t) i in
      if itype_eqb ty ContinuousEnergyLoss then make_closs t i else Ok []
    else Ok []) (track_indices t).

(** GetTrack(geometry), Secondaries.cxx:73-81 *)
Definition get_track_in (t : track) (g : geometry) : list pstate :=
  filter (fun s => is_inside g (position s) (direction s)) (tr_states t).

(** GetTrackEnergies etc., Secondaries.cxx:124-162 *)
Definition get_track_energies (t : track) : list R := map energy (tr_states t).
Definition get_track_times (t : track) : list R := map time (tr_states t).
Definition get_track_propagated_distances (t : track) : list R := map propagated_distance (tr_states t).

(** [displacement.normalize()] where a zero vector gives NaN coordinates
    (0/0); NaN is outside of the model, so this is reported as its own outcome.
    [Nan] is not undefined behaviour in C++. *)
Definition normalize_or {A} (v : vec) (k : vec -> outcome A) (nan : outcome A) : outcome A :=
  match normalize v with Some d => k d | None => nan end.

Section Queries.
Variable sectors : list sector.

(** RePropagateDistance, Secondaries.cxx:321-344.  utility.EnergyDistance is
    displacement_calc->UpperLimitTrackIntegral (PropagationUtility.cxx). *)
Definition re_propagate_distance (init : pstate) (dir : vec) (displacement : R) : outcome pstate :=
  olet s := secondaries_get_current_sector sectors (position init) dir in
  let u := s_utility s in let dn := s_density s in
  olet g := d_calculate dn (position init) (direction init) displacement in
  olet e_f := u_upper_limit u (energy init) g in
  olet dt := u_time u (energy init) e_f displacement (d_evaluate dn (position init)) in
  Ok (mkpstate (vadd (position init) (scale displacement dir)) dir e_f (time init + dt)
        (propagated_distance init + displacement)).

(** RePropagateEnergy, Secondaries.cxx:292-319; utility.LengthContinuous is
    displacement_calc->SolveTrackIntegral (PropagationUtility.cxx). *)
Definition re_propagate_energy (init : pstate) (dir : vec) (energy_lost max_distance : R) : outcome pstate :=
  olet s := secondaries_get_current_sector sectors (position init) dir in
  let u := s_utility s in let dn := s_density s in
  olet g := u_track_integral u (energy init) (energy init - energy_lost) in
  olet displacement := d_correct dn (position init) (direction init) g max_distance in
  let e_f := energy init - energy_lost in
  olet dt := u_time u (energy init) e_f displacement (d_evaluate dn (position init)) in
  Ok (mkpstate (vadd (position init) (scale displacement dir)) dir e_f (time init + dt)
        (propagated_distance init + displacement)).

(** First index i >= 1 of a track whose state satisfies [p]; [None] when the
    loop runs to the end. *)
Fixpoint find_index (p : pstate -> bool) (l : list pstate) (i : nat) : option nat :=
  match l with
  | [] => None
  | s :: l' => if p s then Some i else find_index p l' (S i)
  end.

(** GetStateForDistance, Secondaries.cxx:106-122.  [nan] is the outcome when a
    step of zero displacement has to be normalised. *)
Definition get_state_for_distance (nan : outcome pstate) (t : track) (x : R) : outcome pstate :=
  olet front := at_index (tr_states t) 0 in
  if x <=? propagated_distance front then Ok front
  else
    match find_index (fun s => x <? propagated_distance s) (tl (tr_states t)) 1 with
    | Some i =>
      olet a := at_index (tr_states t) (i - 1) in
      olet b := at_index (tr_states t) i in
      normalize_or (vsub (position b) (position a))
        (fun d => re_propagate_distance a d (x - propagated_distance a)) nan
    | None => at_index (tr_states t) (length (tr_states t) - 1)
    end.

(** GetStateForEnergy, Secondaries.cxx:84-104 *)
Definition get_state_for_energy (nan : outcome pstate) (t : track) (e : R) : outcome pstate :=
  olet front := at_index (tr_states t) 0 in
  if energy front <=? e then Ok front
  else
    match find_index (fun s => energy s <? e) (tl (tr_states t)) 1 with
    | Some i =>
      olet ty := at_index (tr_types t) i in
      olet a := at_index (tr_states t) (i - 1) in
      olet b := at_index (tr_states t) i in
      if itype_eqb ty ContinuousEnergyLoss then
        normalize_or (vsub (position b) (position a))
          (fun d => re_propagate_energy a d (energy a - e)
                      (propagated_distance a - propagated_distance b)) nan
      else Ok a
    | None => at_index (tr_states t) (length (tr_states t) - 1)
    end.

(** HitGeometry, Secondaries.cxx:269-290.  A zero displacement is normalised to
    NaN coordinates; every comparison with NaN is false, so that
    DistanceToBorder of all three shapes answers (-1, -1) and the segment is
    skipped.  [track_.size() - 1] underflows for an empty track. *)
Fixpoint hit_loop (g : geometry) (l : list pstate) : bool :=
  match l with
  | a :: ((b :: _) as l') =>
    match normalize (vsub (position b) (position a)) with
    | Some d => is_inside g (position a) d ||
                (is_infront g (position a) d && is_behind g (position b) d) || hit_loop g l'
    | None => hit_loop g l'
    end
  | [a] => is_inside g (position a) (direction a)
  | [] => false
  end.
Definition hit_geometry (t : track) (g : geometry) : outcome bool :=
  match tr_states t with
  | [] => UB out_of_bounds
  | l => Ok (hit_loop g l)
  end.

(** The loop of GetEntryPoint, Secondaries.cxx:181-199; a zero displacement is
    skipped as above. *)
Fixpoint entry_loop (g : geometry) (l : list pstate) : outcome (option pstate) :=
  match l with
  | a :: ((b :: _) as l') =>
    let displacement := vsub (position b) (position a) in
    let dist_i_f := magnitude displacement in
    match normalize displacement with
    | Some d =>
      let distance := fst (g_distance_to_border g (position a) d) in
      if (distance <=? dist_i_f) && (0 <=? distance) then
        if Rabs (dist_i_f - distance) <? PARTICLE_POSITION_RESOLUTION then Ok (Some b)
        else
          olet r := re_propagate_distance a d distance in
          Ok (Some r)
      else entry_loop g l'
    | None => entry_loop g l'
    end
  | _ => Ok None
  end.
(** GetEntryPoint, Secondaries.cxx:171-200; [None] is the null pointer.
    front() of an empty vector is undefined. *)
Definition get_entry_point (t : track) (g : geometry) : outcome (option pstate) :=
  olet front := at_index (tr_states t) 0 in
  if is_entering g (position front) (direction front) then Ok (Some front)
  else if is_inside g (position front) (direction front) then Ok None
  else entry_loop g (tr_states t).

(** The loop of GetExitPoint, Secondaries.cxx:212-229; it runs through the
    reversed track. *)
Fixpoint exit_loop (g : geometry) (l : list pstate) : outcome (option pstate) :=
  match l with
  | b :: ((a :: _) as l') =>
    let displacement := vsub (position b) (position a) in
    let dist_i_f := magnitude displacement in
    match normalize displacement with
    | Some d =>
      let distance := fst (g_distance_to_border g (position b) (vneg d)) in
      if (distance <=? dist_i_f) && (0 <=? distance) then
        if Rabs (dist_i_f - distance) <? PARTICLE_POSITION_RESOLUTION then Ok (Some a)
        else
          olet r := re_propagate_distance a d (dist_i_f - distance) in
          Ok (Some r)
      else exit_loop g l'
    | None => exit_loop g l'
    end
  | _ => Ok None
  end.
(** GetExitPoint, Secondaries.cxx:202-237 *)
Definition get_exit_point (t : track) (g : geometry) : outcome (option pstate) :=
  olet back := at_index (tr_states t) (length (tr_states t) - 1) in
  if is_leaving g (position back) (direction back) then Ok (Some back)
  else if is_inside g (position back) (direction back) then Ok None
  else
    olet r := exit_loop g (rev (tr_states t)) in
    match r with
    | Some x => Ok (Some x)
    | None =>
      olet front := at_index (tr_states t) 0 in
      if is_leaving g (position front) (direction front) then Ok (Some front) else Ok None
    end.

(** GetELost, Secondaries.cxx:164-169: both pointers are dereferenced. *)
Definition get_elost (t : track) (g : geometry) : outcome R :=
  olet en := get_entry_point t g in
  olet ex := get_exit_point t g in
  match en, ex with
  | Some a, Some b => Ok (energy a - energy b)
  | _, _ => UB null_deref
  end.

(** GetClosestApproachPoint, Secondaries.cxx:239-267.  With a NaN displacement
    both comparisons are false and the segment is skipped. *)
Fixpoint closest_loop (g : geometry) (l : list pstate) : outcome pstate :=
  match l with
  | a :: ((b :: _) as l') =>
    let displacement := vsub (position b) (position a) in
    let dist_i_f := magnitude displacement in
    match normalize displacement with
    | Some d =>
      let x := distance_to_closest_approach g (position a) d in
      if Rabs (x - dist_i_f) <=? PARTICLE_POSITION_RESOLUTION then Ok b
      else if x <? dist_i_f then
        if x <? PARTICLE_POSITION_RESOLUTION then Ok a
        else re_propagate_distance a d x
      else closest_loop g l'
    | None => closest_loop g l'
    end
  | [a] => Ok a
  | [] => UB out_of_bounds
  end.
Definition get_closest_approach_point (t : track) (g : geometry) : outcome pstate :=
  closest_loop g (tr_states t).

End Queries.
