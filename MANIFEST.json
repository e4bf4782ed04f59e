{
 "claims": [
  {
   "property": "C01",
   "status": "proved",
   "theorems": [
    "C01_sector_lookup"
   ],
   "note": "First maximal-hierarchy sector containing the ray; the empty case is UB for Propagator and a logic_error for Secondaries."
  },
  {
   "property": "C02",
   "status": "proved",
   "theorems": [
    "C02_distance_to_border"
   ],
   "note": "The returned distance is exactly the least border candidate."
  },
  {
   "property": "C03",
   "status": "proved",
   "theorems": [
    "C03_event_arbitration"
   ],
   "note": ""
  },
  {
   "property": "C04",
   "status": "partial",
   "theorems": [
    "C04_step_ending",
    "C04_step_terminates",
    "C04_fuel_irrelevant",
    "C04_no_logic_error",
    "C04_logic_error_refuted"
   ],
   "note": "Ending, consistency of energy/grammage/length, clock, termination and fuel are proved for all environments. Unreachability of logic_error needs propagated_distance <= final distance; without it the branch is reachable (refuted theorem)."
  },
  {
   "property": "C05",
   "status": "partial",
   "theorems": [
    "C05_max_distance_partial",
    "C05_step_overshoot",
    "C05_max_distance_refuted"
   ],
   "note": "Full statement is false: border-proximity rule lets a step overshoot (refuted). Proved: overshoot only if the last step reported a border."
  },
  {
   "property": "C06",
   "status": "proved",
   "theorems": [
    "C06_track_shape"
   ],
   "note": "Environment hypothesis: sampled losses never carry the tags ContinuousEnergyLoss/Decay."
  },
  {
   "property": "C07",
   "status": "proved",
   "theorems": [
    "C07_stop_reasons",
    "C07_observable_stop"
   ],
   "note": "Stated on ghost events and on the observable track."
  },
  {
   "property": "C08",
   "status": "proved",
   "theorems": [
    "C08_losses_add_up"
   ],
   "note": "Proved for every track produced by the propagation model."
  },
  {
   "property": "C09",
   "status": "partial",
   "theorems": [
    "C09_losses_describe_rows",
    "C09_rows_partition",
    "C09_filters_select_partial",
    "C09_continuous_filter_selects",
    "C09_type_filter_refuted",
    "C09_named_filter_partial"
   ],
   "note": "Row description, partition and filters proved. Refuted: the type filter accepts the continuous type; the name filter is undefined for unknown names (the log call does not return)."
  },
  {
   "property": "C10",
   "status": "proved",
   "theorems": [
    "C10_one_target",
    "C10_chosen_target",
    "C10_distribution",
    "C10_tables_invert",
    "C10_cross_section_inverts",
    "C10_no_rate",
    "C10_random_number_one"
   ],
   "note": "Slot, residual rate, uniqueness, zero rate, and the distribution of the sampled loss (given a table whose node search is exact; the spline library itself is not modelled). Random number 1 throws."
  },
  {
   "property": "C11",
   "status": "proved",
   "theorems": [
    "C11_mean_free_path",
    "C11_table"
   ],
   "note": "For all cross sections whose per-target rates add up (shown for the library's kinds in C14)."
  },
  {
   "property": "C12",
   "status": "proved",
   "theorems": [
    "C12_accepts",
    "C12_rejects",
    "C12_keeps",
    "C12_both_limits",
    "C12_within",
    "C12_stochastic",
    "C12_monotone",
    "C12_energy",
    "C12_equality"
   ],
   "note": ""
  },
  {
   "property": "C13",
   "status": "partial",
   "theorems": [
    "C13_inverse",
    "C13_ends",
    "C13_increasing",
    "C13_empty_range",
    "C13_compton_empty_range_refuted",
    "C13_no_cut_refuted"
   ],
   "note": "Refuted at the edge of validity: the Compton spacing divides by zero for an empty range; without a cut a parametrization starting at zero has no spacing."
  },
  {
   "property": "C14",
   "status": "partial",
   "theorems": [
    "C14_rates",
    "C14_target",
    "C14_unknown_target",
    "C14_mean_loss",
    "C14_variance",
    "C14_only_continuous",
    "C14_medium",
    "C14_shares",
    "C14_additive",
    "C14_additive_multiplied",
    "C14_additive_direct",
    "C14_duplicates_refuted",
    "C14_photoeffect",
    "C14_photoeffect_target_refuted",
    "C14_below",
    "C14_above"
   ],
   "note": "Proved for media without duplicate components, for the iteration order of the map chosen arbitrarily. Refuted: a component listed twice counts once in the rate and twice in the loss; the photo effect asked for one target lacks the cut-off check."
  },
  {
   "property": "C15",
   "status": "partial",
   "theorems": [
    "C15_bremsstrahlung",
    "C15_bremsstrahlung_default",
    "C15_ionization",
    "C15_bhabha",
    "C15_moller",
    "C15_epair",
    "C15_mupair",
    "C15_photonuclear_partial",
    "C15_photonuclear_refuted",
    "C15_compton",
    "C15_photo_pair",
    "C15_photo_mupair_partial",
    "C15_photo_mupair_refuted",
    "C15_weak_partial",
    "C15_weak_refuted"
   ],
   "note": "Ordering and the rest mass are proved for bremsstrahlung, ionization, Bhabha, Moller, electron pairs, muon pairs, Compton, photon pairs. Refuted: photonuclear limits of taus, weak limits below 64 MeV, muon pairs made by photons. Annihilation and photoeffect have no loss spectrum."
  },
  {
   "property": "C16",
   "status": "proved",
   "theorems": [
    "C16_scaled",
    "C16_same_losses",
    "C16_mean_free_path",
    "C16_zero"
   ],
   "note": "Scaling, same sampled losses, mean free path, zero multiplier."
  },
  {
   "property": "C17",
   "status": "proved",
   "theorems": [
    "C17_sphere_distances",
    "C17_sphere_radii",
    "C17_sphere_inside",
    "C17_sphere_outside",
    "C17_sphere_on_surface"
   ],
   "note": "Solid and hollow sphere; crossings closer than GEOMETRY_PRECISION are excluded (resolvable)."
  },
  {
   "property": "C18",
   "status": "partial",
   "theorems": [
    "C18_box_distances_partial",
    "C18_box_inside_partial",
    "C18_box_outside_partial",
    "C18_box_on_surface",
    "C18_box_inside_refuted",
    "C18_box_infront_refuted"
   ],
   "note": "Full statement is false for rays through an edge (two refutations); proved for all rays that avoid edges."
  },
  {
   "property": "C19",
   "status": "partial",
   "theorems": [
    "C19_cylinder_distances_partial",
    "C19_cylinder_inside_distance",
    "C19_cylinder_inside",
    "C19_cylinder_radii",
    "C19_cylinder_on_surface",
    "C19_hollow_outside_partial",
    "C19_hollow_hole",
    "C19_hollow_cylinder_refuted",
    "C19_cylinder_outside_partial",
    "C19_cylinder_outside_refuted"
   ],
   "note": "Full statement is false: a pipe entered through its opening (refuted), a ray touching a rim (refuted). Proved: complete answer for solid cylinders; for hollow ones from outside when the ray does not come in through the opening, and complete from inside the hole; nearest crossing from inside the material; every returned distance lies on the surface; radii in either order."
  },
  {
   "property": "C20",
   "status": "proved",
   "theorems": [
    "C20_location_partition",
    "C20_entering_leaving"
   ],
   "note": "For all library shapes with arbitrary parameters."
  },
  {
   "property": "C21",
   "status": "partial",
   "theorems": [
    "C21_homogeneous",
    "C21_exponential_grammage_partial",
    "C21_exponential_round_trip",
    "C21_exponential_round_trip_back",
    "C21_exponential_unreachable",
    "C21_exponential_additive",
    "C21_horizontal_refuted",
    "C21_radial_refuted"
   ],
   "note": "Homogeneous density fully proved. Exponential: line integral, both round trips, additivity and the meaning of the exception for rays with a component along a Cartesian axis; perpendicular rays (NaN/exception) and the radial axis (wrong sign) are refuted."
  },
  {
   "property": "C22",
   "status": "partial",
   "theorems": [
    "C22_polynomial_partial",
    "C22_polynomial_parallel_partial",
    "C22_spline_partial",
    "C22_additive",
    "C22_oblique_refuted"
   ],
   "note": "The answer is the line integral divided by the cosine between axis and ray, for polynomials and for linear/cubic splines; hence right only for rays along the axis (refuted at 60 degrees)."
  },
  {
   "property": "C23",
   "status": "partial",
   "theorems": [
    "C23_cartesian",
    "C23_radial_depth",
    "C23_radial_negated_partial",
    "C23_radial_refuted"
   ],
   "note": "Depth is the distance; the effective distance is minus the derivative for radial axes (refuted), and right for Cartesian axes."
  },
  {
   "property": "C24",
   "status": "partial",
   "theorems": [
    "C24_evaluate",
    "C24_derivative",
    "C24_antiderivative",
    "C24_shift_partial",
    "C24_small_shift_refuted"
   ],
   "note": "Evaluation, derivative, antiderivative and shift for every coefficient list. Shifts with 0<|a|<=GEOMETRY_PRECISION are ignored by the code (refuted witness); larger shifts are exact."
  },
  {
   "property": "C25",
   "status": "partial",
   "theorems": [
    "C25_copy_refuted",
    "C25_no_copies_partial",
    "C25_shift_reaches_all_copies_partial"
   ],
   "note": "Refuted as stated: a copy shares its coefficient array. Proved: programs without copies behave as values; with copies a shift changes exactly the objects of the same origin."
  },
  {
   "property": "C26",
   "status": "partial",
   "theorems": [
    "C26_linear",
    "C26_cubic_partial",
    "C26_tiny_node_refuted",
    "C26_antiderivative",
    "C26_derivative_refuted",
    "C26_constructor_refuted",
    "C26_calculate",
    "C26_calculate_short"
   ],
   "note": "Linear splines in full; natural cubic splines except for nodes with 0<|x_i|<=GEOMETRY_PRECISION (refuted witness); antiderivatives are differentiable everywhere with the spline as derivative. Derivative() is a no-op and the constructor from polynomials counts one interval too many (refuted). CalculateSpline returns the natural cubic spline for all nodes (C26_calculate)."
  },
  {
   "property": "C27",
   "status": "partial",
   "theorems": [
    "C27_newton_rejects",
    "C27_newton_stays_in_bracket",
    "C27_newton_answers_partial",
    "C27_newton_converged",
    "C27_newton_flat_root_refuted",
    "C27_bisection",
    "C27_bisection_rejects"
   ],
   "note": "Bracketing, rejection, bisection width and root enclosure for every continuous function. Newton returns NaN when it meets a root with vanishing derivative (refuted); otherwise it always answers."
  },
  {
   "property": "C28",
   "status": "proved",
   "theorems": [
    "C28_welford"
   ],
   "note": "Exact real arithmetic; the variance is the population variance (divided by n)."
  },
  {
   "property": "C29",
   "status": "proved",
   "theorems": [
    "C29_deflect",
    "C29_sense_of_rotation",
    "C29_no_deflection",
    "C29_not_normalised_refuted"
   ],
   "note": "For every unit vector, cosine in [-1,1] and azimuth; the angle between two azimuths and the sense of rotation are proved too. The refuted theorem only shows that the unit-length hypothesis is needed."
  },
  {
   "property": "C30",
   "status": "proved",
   "theorems": [
    "C30_there_and_back",
    "C30_ranges",
    "C30_back_and_there"
   ],
   "note": "Both round trips; the second one away from the poles, where the azimuth is not determined. Signed zeros are not modelled."
  },
  {
   "property": "C31",
   "status": "partial",
   "theorems": [
    "C31_slots_partial",
    "C31_share_partial",
    "C31_equal_ratios_refuted",
    "C31_empty_refuted"
   ],
   "note": "Slots and shares proved for tables with distinct ratios; refuted for equal ratios (the map keyed by ratio keeps one channel only); an empty table is undefined behaviour."
  },
  {
   "property": "C32",
   "status": "proved",
   "theorems": [
    "C32_conserved",
    "C32_answers",
    "C32_below_threshold_refuted"
   ],
   "note": "Conservation and mass shells for every open channel; also when an answer exists, and that below threshold the energy is not conserved."
  },
  {
   "property": "C33",
   "status": "proved",
   "theorems": [
    "C33_conserved",
    "C33_only_nan"
   ],
   "note": "Any number n >= 2 of daughters, both sampling modes, any matrix element; failures can only be NaN from a particle at rest."
  },
  {
   "property": "C34",
   "status": "proved",
   "theorems": [
    "C34_conserved",
    "C34_approximate_only_nan",
    "C34_exact_only_nan_light",
    "C34_exact_spectrum"
   ],
   "note": "Both leptonic channels, for all spectra and all masses: a root of the search above the end of the spectrum gives NaN, never products. With the exact spectrum the absence of exceptions is shown for leptons so light that the start value 1/2 of the root search is above their rest mass (all predefined particles)."
  },
  {
   "property": "C35",
   "status": "partial",
   "theorems": [
    "C35_lookup",
    "C35_new",
    "C35_same",
    "C35_kept",
    "C35_different_partial",
    "C35_daughters_refuted",
    "C35_leptonic_refuted",
    "C35_builder",
    "C35_standard_limits"
   ],
   "note": "Lookup, first registration, same and different definitions for all histories; refuted for definitions that differ only in decay daughters of equal mass or in the leptonic channel kind."
  },
  {
   "property": "C36",
   "status": "proved",
   "theorems": [
    "C36_set_get",
    "C36_get",
    "C36_unknown_type"
   ],
   "note": ""
  },
  {
   "property": "C37",
   "status": "proved",
   "theorems": [
    "C37_unit_directions",
    "C37_no_scattering",
    "C37_large_offsets_refuted"
   ],
   "note": "As stated, plus the deflection angles. The refuted theorem shows that offsets beyond the stated bound are accepted and break unit length."
  },
  {
   "property": "C38",
   "status": "partial",
   "theorems": [
    "C38_ionization",
    "C38_ionization_electrons",
    "C38_bhabha_end_refuted",
    "C38_compton",
    "C38_annihilation",
    "C38_epair",
    "C38_mupair",
    "C38_mupair_below_threshold_refuted",
    "C38_photo_pair",
    "C38_pair_forward",
    "C38_pair_sauter",
    "C38_pair_tsai",
    "C38_photo_mupair_partial",
    "C38_photo_mupair_refuted",
    "C38_bremsstrahlung",
    "C38_bremsstrahlung_deflected",
    "C38_koch_motz_partial",
    "C38_photonuclear",
    "C38_photoproduction",
    "C38_photoeffect",
    "C38_weak",
    "C38_naive_epair_refuted"
   ],
   "note": "Exact four-momentum conservation is proved for ionization, Compton scattering and annihilation for every loss within the kinematic limits; energy sums and rest masses for all other processes. Integrals and tables enter as functions with values in their stated ranges. Refuted: end point of Bhabha scattering, muon pairs below threshold, muon pairs made by photons, naive pair production. Koch-Motz: termination of the rejection loop is not proved."
  },
  {
   "property": "C39",
   "status": "partial",
   "theorems": [
    "C39_antisymmetric",
    "C39_empty_range_partial",
    "C39_empty_range_refuted"
   ],
   "note": "Antisymmetry is proved for all methods, limits, integrands and object states. Equal limits give zero except where the substitution of methods 3 and 5 does not suit the limits; there a new object throws std::bad_function_call (refuted), an old one integrates its previous range."
  },
  {
   "property": "C40",
   "status": "proved",
   "theorems": [
    "C40_open_refinement",
    "C40_closed_refinement",
    "C40_first",
    "C40_sampling_refinement"
   ],
   "note": "Refinement of the open rule (3k cells) and of the closed rule (2k cells), first sums, and the sampling variant; real arithmetic."
  },
  {
   "property": "C41",
   "status": "partial",
   "theorems": [
    "C41_no_overrun_partial",
    "C41_few_steps_refuted",
    "C41_set_romberg_refuted"
   ],
   "note": "For at least 12 steps no sequence of Integrate, IntegrateWithRandomRatio and GetUpperLimit calls on a newly constructed object is undefined or endless. Refuted for fewer steps than extrapolation points (every integration overruns) and after SetRomberg beyond the constructed size. An exception ends the sequence."
  },
  {
   "property": "C42",
   "status": "partial",
   "theorems": [
    "C42_displacement",
    "C42_displacement_none",
    "C42_interaction",
    "C42_cont_rand",
    "C42_decay",
    "C42_time",
    "C42_time_none",
    "C42_table_additive",
    "C42_table_additive_partial",
    "C42_table_additive_refuted",
    "C42_direct_additive_partial",
    "C42_direct_value_partial",
    "C42_direct_additive_refuted",
    "C42_table_equal",
    "C42_direct_equal",
    "C42_table_value_partial",
    "C42_table_inverse",
    "C42_table_upper",
    "C42_table_beyond",
    "C42_direct_inverse_partial",
    "C42_direct_upper_partial",
    "C42_near_limit_refuted",
    "C42_exact_time",
    "C42_approximate_time"
   ],
   "note": "Calculators with a table (UtilityInterpolant): exact sums for energies that differ by a millionth, a bound and a refutation for closer ones; the inverse within the width of the last bisection for an exact Newton-Raphson; an exception near the lower limit is refuted to be absent. Calculators that integrate (UtilityIntegral): sums and values for losses that are polynomials in ln E over E with up to ten coefficients, after any history of calls; refuted for energies whose logarithms differ by a part in 10^10; the inverse within 1e-5 in ln E for losses proportional to the energy. Missing: other losses, for which Romberg's method and the inverse have an error; the interpolation error, which is a parameter."
  },
  {
   "property": "C43",
   "status": "proved",
   "theorems": [
    "C43_state_for_distance",
    "C43_state_for_distance_defined"
   ],
   "note": "Proved for tracks whose distance counter measures the way (measured). Definedness proved when the calculators of the step's sector succeed."
  },
  {
   "property": "C44",
   "status": "proved",
   "theorems": [
    "C44_state_for_energy"
   ],
   "note": "Proved, given that continuous energy-losing steps have non-zero length. The displacement is whatever the density's Correct returns; the maximal distance passed to it by the code is negative."
  },
  {
   "property": "C45",
   "status": "partial",
   "theorems": [
    "C45_entry_point",
    "C45_no_entry_point",
    "C45_exit_point",
    "C45_sphere_border",
    "C45_box_border",
    "C45_cylinder_border",
    "C45_energy_lost_refuted"
   ],
   "note": "Entry/exit points characterised for every geometry and on the surface for sphere, box, cylinder. Refuted: GetELost dereferences a null pointer for a track inside of the geometry."
  },
  {
   "property": "C46",
   "status": "partial",
   "theorems": [
    "C46_hit_sphere_partial",
    "C46_hit_box_partial",
    "C46_hit_cylinder_partial",
    "C46_hit_hollow_sphere_partial",
    "C46_hollow_refuted"
   ],
   "note": "Proved for solid spheres, boxes and solid cylinders, for tracks with no state within the geometry precision of the border and whose rays avoid edges and rims, and for hollow spheres if no state lies in the hole (C46_hit_hollow_sphere_partial); refuted for a hollow sphere whose hole contains the end of the track (C46_hollow_refuted). Missing: tracks through edges, rims or the border itself, hollow cylinders."
  },
  {
   "property": "C47",
   "status": "partial",
   "theorems": [
    "C47_closest_approach_partial",
    "C47_closest_approach_refuted"
   ],
   "note": "Proved for straight tracks; refuted for tracks with scattering (the first local minimum is returned)."
  },
  {
   "property": "C48",
   "status": "partial",
   "theorems": [
    "C48_time_refuted",
    "C48_exact_time_partial"
   ],
   "note": "Refuted for the approximate clock in a medium of density 2; proved for the exact clock."
  },
  {
   "property": "C49",
   "status": "partial",
   "theorems": [
    "C49_out_of_reach",
    "C49_stays_inside",
    "C49_inverse_refuted"
   ],
   "note": "Rejection and bracketing proved for every profile. False in general: the derivative handed to Newton's method is wrong (zero for a constant profile), so a root at the first guess gives 0/0."
  },
  {
   "property": "C50",
   "status": "partial",
   "theorems": [
    "C50_equal_partial",
    "C50_axis_ignored_refuted",
    "C50_same_splines_refuted"
   ],
   "note": "False both ways: the axis direction and class are ignored, and spline densities are compared by address."
  },
  {
   "property": "C51",
   "status": "partial",
   "theorems": [
    "C51_no_copies_partial",
    "C51_double_free_refuted",
    "C51_dangling_refuted"
   ],
   "note": "Safe for all histories in which no spline density is copied; copying one leads to a double free and to dangling pointers."
  },
  {
   "property": "C52",
   "status": "proved",
   "theorems": [
    "C52_weights",
    "C52_acceptance"
   ],
   "note": "Weight bound for any number of daughters without a user matrix element. The sampled bound used for a user matrix element is not modelled."
  },
  {
   "property": "C53",
   "status": "partial",
   "theorems": [
    "C53_table",
    "C53_muons_and_taus",
    "C53_only_nan",
    "C53_charge",
    "C53_channel_number",
    "C53_pion_refuted"
   ],
   "note": "Proved for muons and taus in any program; refuted for pions and kaons, which have a lifetime but only a stable channel and decay into nothing."
  },
  {
   "property": "C54",
   "status": "partial",
   "theorems": [
    "C54_last_registered",
    "C54_random_numbers_suffice",
    "C54_only_required",
    "C54_too_few_refuted",
    "C54_missing_refuted",
    "C54_tables"
   ],
   "note": "The dispatch, the sufficiency and the irrelevance of further numbers are proved; refuted parts: too few numbers are read past the end, RequiredRandomNumbers of an unregistered type dereferences end(), and the exception for the type Undefined itself dereferences end() of the name map."
  },
  {
   "property": "C55",
   "status": "proved",
   "theorems": [
    "C55_step_numbers"
   ],
   "note": "Proved for the whole of AdvanceParticle. The hypothesis excludes the sentinel -1 only; RandomGenerator values lie in [0,1]. Finding: EnergyRandomize gets the first of the four numbers already used by multiple scattering."
  },
  {
   "property": "C56",
   "status": "partial",
   "theorems": [
    "C56_closed",
    "C56_open",
    "C56_open_after_sampling",
    "C56_logarithm",
    "C56_substitution",
    "C56_polynomial_closed",
    "C56_polynomial_open",
    "C56_polynomial_logarithm",
    "C56_substitution_refuted"
   ],
   "note": "Proved for methods 1-4 with suitable limits; method 5 and negative powers only through antisymmetry and safety. Refuted for the substitution with limits on both sides of zero: the range from the upper limit to infinity is integrated with the opposite sign. The fallback routine qags is a parameter."
  },
  {
   "property": "C57",
   "status": "partial",
   "theorems": [
    "C57_logarithm_partial",
    "C57_substitution_partial",
    "C57_not_negative_logarithm_partial",
    "C57_not_negative_plain_partial",
    "C57_close_limits_refuted"
   ],
   "note": "Proved unless the transformed limits coincide to ten digits; then refuted: for limits that are told apart but whose logarithms are not, GetUpperLimit returns the logarithm of the lower limit (witness 10^6 and 10^6(1+2e-10)). That the place splits the integral in the wanted ratio is not proved in general; the worked example shows it for 1/x."
  },
  {
   "property": "C58",
   "status": "partial",
   "theorems": [
    "C58_table_interaction",
    "C58_table_decay",
    "C58_table_place",
    "C58_direct_interaction_partial",
    "C58_direct_decay_partial",
    "C58_direct_sample_partial",
    "C58_near_limit_refuted",
    "C58_lower_limit",
    "C58_no_cross_section"
   ],
   "note": "With a table: complete (Newton-Raphson's result is assumed to lie in the interval given to it). By integration: every result is in range, also for energies that the integration does not tell from the lower limit; that there is one, and that it is the inverse of the distribution function within 1e-5 in ln E, is proved for losses proportional to the energy. Refuted: an electron less than one part in 10^10 above its rest mass, where the integral to the lower limit is found but GetUpperLimit throws (C58_near_limit_refuted)."
  },
  {
   "property": "C59",
   "status": "proved",
   "theorems": [
    "C59_range",
    "C59_no_variance",
    "C59_constructor"
   ],
   "note": "std::erf and normalppf are parameters that are inverse to each other and monotone."
  },
  {
   "property": "C60",
   "status": "partial",
   "theorems": [
    "C60_brems_tsai",
    "C60_ionization",
    "C60_ionization_positron",
    "C60_ionization_electron",
    "C60_ionization_stop_refuted",
    "C60_epair",
    "C60_photonuclear",
    "C60_borog_light",
    "C60_borog_heavy",
    "C60_borog_refuted",
    "C60_brems_low",
    "C60_brems_high",
    "C60_brems_top_partial",
    "C60_brems_exception_refuted",
    "C60_zenith_refuted",
    "C60_numbers_enough",
    "C60_numbers_used",
    "C60_numbers_needed",
    "C60_calculator",
    "C60_no_calculator",
    "C60_multiple"
   ],
   "note": "Proved for Tsai, ionization, pair production and photonuclear interaction after Van Ginneken. Refuted: the bremsstrahlung calculator after Van Ginneken throws for some muons between 1 and 4 GeV (C60_brems_exception_refuted), Borog-Petrukhin gives no angle for kaons within the limits (C60_borog_refuted; proved for light and heavy particles), a positron that loses everything gets NaN (C60_ionization_stop_refuted), and the zenith of the Van Ginneken calculators exceeds pi (C60_zenith_refuted). Missing: the mean angle in the last branch of the bremsstrahlung calculator is only known to be at least 0.2."
  },
  {
   "property": "C61",
   "status": "partial",
   "theorems": [
    "C61_highland_planes",
    "C61_moliere_planes",
    "C61_quantile",
    "C61_highland_width",
    "C61_highland_monotone",
    "C61_highland_mirror",
    "C61_integral_width",
    "C61_integral_range",
    "C61_copy_refuted",
    "C61_moliere_root",
    "C61_moliere_root_refuted",
    "C61_moliere_thickness",
    "C61_moliere_straight",
    "C61_moliere_history",
    "C61_moliere_mirror",
    "C61_moliere_iteration_partial",
    "C61_moliere_density_partial",
    "C61_heaviest_partial",
    "C61_heaviest_refuted",
    "C61_equality_highland",
    "C61_equality_kind_refuted",
    "C61_equality_class_refuted",
    "C61_equality_used_refuted"
   ],
   "note": "Refuted: a reduced angle is accepted for some thin layers although its equation has no solution; max_weight_index is not the heaviest component in AntaresWater; HighlandIntegral's integrand captures this and is undefined in a copy that outlives the original; Highland == Moliere of the same mass dereferences a null pointer, Highland == HighlandIntegral holds, and a used Moliere is unequal to a new one. Partial: the iteration for the angle may stop after 100 steps; the density is proved to be the derivative only where the power series are used; the heaviest component is found for at most two components. The tables of Coefficients.cxx are parameters."
  },
  {
   "property": "C62",
   "status": "partial",
   "theorems": [
    "C62_bhabha",
    "C62_moller",
    "C62_own_cut_refuted",
    "C62_rossi_partial",
    "C62_below_refuted",
    "C62_plain",
    "C62_logarithmic",
    "C62_reflected",
    "C62_split",
    "C62_whole",
    "C62_variance",
    "C62_uncut_refuted"
   ],
   "note": "The Bethe-Bloch-Rossi theorem (C62_rossi_partial) is for cuts inside the kinematic limits and for a positive loss; below the ionization potential the claim is false (C62_below_refuted). The ionization formulas use the cut stored in the parametrization, which need not be the cut of the cross section (C62_own_cut_refuted). Without a cut, a process whose smallest loss is zero gets the rate zero (C62_uncut_refuted). Pair production with limits outside (0, 1] and the interpolated tables are not covered."
  },
  {
   "property": "C63",
   "status": "partial",
   "theorems": [
    "C63_compton",
    "C63_annihilation",
    "C63_annihilation_rate",
    "C63_complete_screening",
    "C63_andreev",
    "C63_sandrock",
    "C63_kelner",
    "C63_petrukhin",
    "C63_petrukhin_refuted",
    "C63_electron_screening_refuted",
    "C63_electron_screening_partial",
    "C63_screening_functions",
    "C63_bhabha",
    "C63_moller",
    "C63_rossi_refuted",
    "C63_photonuclear",
    "C63_photonuclear_tau_refuted",
    "C63_photonuclear_limit_refuted",
    "C63_koch_motz",
    "C63_koch_motz_low_refuted",
    "C63_koch_motz_heavy_refuted",
    "C63_tsai",
    "C63_tsai_limit_refuted",
    "C63_screening_factor",
    "C63_screening_table_partial",
    "C63_koch_motz_table",
    "C63_koch_motz_exact"
   ],
   "note": "False for Petrukhin-Shestakov above neon at high energy, for electron screening in the heaviest elements (proved below 50 MeV and for charges up to 40), for Bethe-Bloch-Rossi always (refuted for every material), for Koch-Motz at four electron masses (every element) and in the heaviest elements above 50 MeV, for Tsai at the lower limit, where it is infinite, for photonuclear interactions of tau leptons in hydrogen, and of every particle not lighter than a pion at the upper limit, where it is not a number. The theorem for Kelner-Kokoulin-Petrukhin covers the electron and masses from fifty electron masses on. Photonuclear interactions are covered in the approximation of real photons without the hard component; pair production by charged particles is not covered; the LPM factor is C64, pairs of muons made by photons are in C65. The tables of the electron screening correction and of Koch and Motz are modelled: C63_screening_table_partial (missing: heavy elements from 50 MeV on, where it is refuted), C63_screening_factor, C63_koch_motz_table and C63_koch_motz_exact."
  },
  {
   "property": "C64",
   "status": "partial",
   "theorems": [
    "C64_bremsstrahlung_factor",
    "C64_pair_factor",
    "C64_bremsstrahlung",
    "C64_pairs",
    "C64_enhancement_refuted"
   ],
   "note": "False as stated: for electrons in every element from mercury on the factor exceeds 1.01 where the effect sets in (C64_enhancement_refuted). Proved for every element, medium, density and energy: it lies strictly between zero and 1.05; it is below one for muons and all heavier particles, and for every particle as long as s' >= 1. The energy scale of the medium, an integral, is a parameter."
  },
  {
   "property": "C65",
   "status": "partial",
   "theorems": [
    "C65_limits",
    "C65_koch_motz",
    "C65_muon_pairs",
    "C65_tsai_refuted",
    "C65_lpm_refuted"
   ],
   "note": "True for Koch-Motz without the LPM effect and for pairs of muons. False for Tsai: the share below one half always has the greater cross section. False with the LPM effect, in every medium."
  },
  {
   "property": "C66",
   "status": "proved",
   "theorems": [
    "C66_zeus",
    "C66_bezrukov_bugaev",
    "C66_caldwell",
    "C66_kokoulin",
    "C66_heck",
    "C66_rhode",
    "C66_shadowing",
    "C66_shadowing_c7",
    "C66_atom",
    "C66_rate",
    "C66_lower_limit"
   ],
   "note": "Rhode's table and its interpolation by cubic polynomials are modelled and the values shown to be positive from the threshold on."
  },
  {
   "property": "C67",
   "status": "partial",
   "theorems": [
    "C67_summary",
    "C67_bragg",
    "C67_scaling",
    "C67_order",
    "C67_merge",
    "C67_rates",
    "C67_lpm",
    "C67_moliere",
    "C67_epair_lpm_refuted",
    "C67_muon_pairs_refuted",
    "C67_fraction_refuted"
   ],
   "note": "Proved for the derived numbers, Bragg's rule, rates and continuous losses (given calculators that do not look at the number of atoms), the suppression of bremsstrahlung and photon pairs, and Moliere's angles. Refuted where the code looks at the number of atoms: the energy scale of the suppression of electron pairs is proportional to the factor (C67_epair_lpm_refuted), the muon pair integrand takes the number of atoms for the mass number (C67_muon_pairs_refuted), and the radiation length cuts off the fraction of a mean charge (C67_fraction_refuted)."
  },
  {
   "property": "C68",
   "status": "partial",
   "theorems": [
    "C68_asymmetry",
    "C68_asymmetry_range",
    "C68_formula",
    "C68_suppressed",
    "C68_integral",
    "C68_integral_top",
    "C68_electron_asymmetry",
    "C68_electron_refuted",
    "C68_sandrock_partial",
    "C68_sandrock_number",
    "C68_sandrock_correction",
    "C68_sandrock_integral",
    "C68_sandrock_integral_top"
   ],
   "note": "Proved for Kelner-Kokoulin-Petrukhin up to one part in ten thousand from the short expression for large xi; the suppression multiplies with its factor (C68_suppressed). Refuted for EpairForElectronPositron (C68_electron_refuted): it does not turn its argument around, so that the wrong end of the range is integrated. The parametrization of Sandrock, Soedingrekso and Rhode is the published formula with a dilogarithm correct up to 10^-14 for xi up to 10^12 (C68_sandrock_partial), and always a number that is not negative (C68_sandrock_number); its integral is C68_sandrock_integral. The code has a second expression for the logarithms of the electron where the correction is not positive; the sign of half the correction is wrong there, but the correction is always positive (C68_sandrock_correction)."
  },
  {
   "property": "C69",
   "status": "partial",
   "theorems": [
    "C69_range",
    "C69_limits",
    "C69_defined",
    "C69_muon",
    "C69_light_refuted",
    "C69_tau_refuted"
   ],
   "note": "Proved in full for muons; for other particles that the integrand is a number and not negative. Refuted for lighter particles (no zero at the largest asymmetry) and for the tau (cross section exactly zero within the limits)."
  },
  {
   "property": "C70",
   "status": "partial",
   "theorems": [
    "C70_hard_tables_refuted",
    "C70_tables_partial",
    "C70_components",
    "C70_crowded_refuted",
    "C70_hard_refuted",
    "C70_utility_partial",
    "C70_utility_refuted"
   ],
   "note": "C70_tables_partial: same name implies interchangeable tables, except for a collision of the 64 bit hash and for the table of the hard component. C70_components: the tables of one cross section for different components never collide. Refuted: collisions exist for every hash of numbers (C70_crowded_refuted, by counting); the table of the hard component is not part of ParticleDef::GetHash (C70_hard_refuted); the names of the tables of interactions, continuous randomization, time and multiple scattering leave out the other list of cross sections or the mass (C70_utility_refuted); without these cases C70_utility_partial. Not modelled: the parametrizations of PhotoQ2Integration.cxx. HardComponent combines into a member that was never initialised; the value is not used."
  },
  {
   "property": "C71",
   "status": "partial",
   "theorems": [
    "C71_reads",
    "C71_nodes",
    "C71_window",
    "C71_polynomial",
    "C71_line",
    "C71_sign_refuted",
    "C71_continuous",
    "C71_continuous_refuted",
    "C71_single_refuted",
    "C71_mismatch",
    "C71_limit",
    "C71_inverse",
    "C71_inverse_refuted",
    "C71_grid_reads",
    "C71_grid_nodes",
    "C71_grid_window",
    "C71_grid_polynomial",
    "C71_grid_single_refuted",
    "C71_hard",
    "C71_grid_line",
    "C71_sheet_reads",
    "C71_sheet_nodes",
    "C71_sheet_window"
   ],
   "note": "Proved for two or more points at a time: C71_reads, C71_nodes, C71_window, C71_polynomial, C71_line, C71_continuous (even numbers or all points), C71_limit, C71_inverse (two points), C71_grid_* (C71_grid_line: two points at a time in both directions), C71_sheet_* (rows with nodes of their own), C71_mismatch, C71_hard. Refuted: with one point at a time (or a number below one, which is replaced by it) reading near the last node throws std::out_of_range (C71_single_refuted), and a table of two variables returns a value of an earlier call or zero (C71_grid_single_refuted); an odd number of points gives jumps (C71_continuous_refuted); four points give negative values from entries that are not (C71_sign_refuted); FindLimit is not the inverse with three points (C71_inverse_refuted). Rational interpolation is covered by C71_reads and C71_nodes only. Not modelled: tables made from a function with equidistant nodes and logarithms, which the library does not use."
  },
  {
   "property": "C72",
   "status": "partial",
   "theorems": [
    "C72_losses",
    "C72_no_losses",
    "C72_rates",
    "C72_no_rates",
    "C72_mean_free_path",
    "C72_variance_partial",
    "C72_no_variance",
    "C72_variance_throws_refuted",
    "C72_variance_refuted",
    "C72_order_refuted",
    "C72_order"
   ],
   "note": "Proved up to a gap of a tenth of the distance of two nodes above the threshold: C72_losses, C72_no_losses, C72_rates, C72_mean_free_path, C72_order; half a distance for the variance of processes that set in above the lowest energy (C72_variance_partial). Refuted: the variance of a process that is there at the lowest energy already (Compton scattering) either cannot be tabulated (C72_variance_throws_refuted, MathException) or its table begins above all energies with a variance, so that zero is read everywhere (C72_variance_refuted), because i - 1 is 2^32 - 1 for i = 0; a process that sets in just below the highest energy gets a table that begins above it (C72_order_refuted); a target without any rate or variance makes the whole cross section throw (C72_no_rates, C72_no_variance), while it is left out for the losses. The splines themselves are not modelled."
  },
  {
   "property": "C73",
   "status": "partial",
   "theorems": [
    "C73_range",
    "C73_upper_limit",
    "C73_lower_limit_refuted",
    "C73_defined",
    "C73_integrand_partial",
    "C73_block_refuted",
    "C73_spin_zero_refuted",
    "C73_tau_refuted",
    "C73_stopped_refuted",
    "C73_value",
    "C73_nonnegative",
    "C73_empty",
    "C73_charge"
   ],
   "note": "Proved: possible transfers are covered (C73_range), the upper limit is the exact threshold (C73_upper_limit), the integrand is a number (C73_defined) and non-negative for possible transfers (C73_integrand_partial: five of six parametrizations, transfers that are doubles), value, sign and charge of the cross section (C73_value, C73_nonnegative, C73_empty, C73_charge). Refuted: the lower limit is always below what is possible (C73_lower_limit_refuted), where the integrand is negative for particles without spin (C73_spin_zero_refuted) and some taus (C73_tau_refuted); the structure function of Block, Durand and Ha becomes negative at high energies (C73_block_refuted); taus that lose more than their kinetic energy have a positive integrand (C73_stopped_refuted)."
  },
  {
   "property": "C74",
   "status": "partial",
   "theorems": [
    "C74_positive",
    "C74_hydrogen",
    "C74_bounded_partial",
    "C74_bounded_refuted"
   ],
   "note": "Proved: positive (C74_positive), one for hydrogen (C74_hydrogen), at most one for the shadowing of Dutta and others below x = 0.039 and from x = 0.04 on (C74_bounded_partial); refuted in between (C74_bounded_refuted)."
  },
  {
   "property": "C75",
   "status": "partial",
   "theorems": [
    "C75_described",
    "C75_any_shape",
    "C75_mandatory",
    "C75_other_keys",
    "C75_global_density_refuted",
    "C75_no_geometry_refuted",
    "C75_null_refuted"
   ],
   "note": "Proved: a configuration gives exactly what it describes (C75_described), missing settings are errors (C75_mandatory), other keywords have no effect (C75_other_keys). Refuted: a global density distribution is ignored (C75_global_density_refuted), a sector without geometries is accepted (C75_no_geometry_refuted). Assertions are not modelled (release build). Lists that are not arrays are covered too (C75_any_shape): null is accepted as an empty one (C75_null_refuted). Missing: the choice of the parametrizations by the factories, which is C79."
  },
  {
   "property": "C76",
   "status": "partial",
   "theorems": [
    "C76_cuts",
    "C76_geometry_partial",
    "C76_inner_radius_refuted",
    "C76_large_radius_refuted",
    "C76_hierarchy_refuted",
    "C76_equal_refuted",
    "C76_impossible",
    "C76_cylinder_refuted",
    "C76_distribution_partial",
    "C76_polynomial",
    "C76_polynomial_refuted"
   ],
   "note": "Proved: cuts (C76_cuts), geometries with whole inner radii and non-negative hierarchies (C76_geometry_partial), impossible spheres and boxes are rejected (C76_impossible), distributions but polynomials (C76_distribution_partial). Refuted: fractions of inner radii are lost (C76_inner_radius_refuted), radii from 2^31 cm are undefined behaviour (C76_large_radius_refuted), a negative hierarchy ranks above positive ones (C76_hierarchy_refuted), impossible cylinders are accepted (C76_cylinder_refuted), geometries do not equal those made of the same numbers with the documented spelling (C76_equal_refuted), polynomials cannot be configured (C76_polynomial, C76_polynomial_refuted)."
  },
  {
   "property": "C77",
   "status": "partial",
   "theorems": [
    "C77_slow",
    "C77_asymptote",
    "C77_joined",
    "C77_monotone",
    "C77_media_partial",
    "C77_nearly",
    "C77_other_media",
    "C77_drop_refuted",
    "C77_salt_refuted",
    "C77_frejus_refuted",
    "C77_frejus_partial",
    "C77_all_media_partial"
   ],
   "note": "Proved: zero for slow particles (C77_slow), above the asymptote (C77_asymptote), joined at X1 (C77_joined), not negative and growing for growing fits (C77_monotone), which ten predefined media have (C77_media_partial). In the seven other predefined media but the rock of Frejus it is never below -0.0006, and decreases at X0 only, by at most 0.0006 (C77_nearly, C77_other_media); each of the seven does decrease there (C77_drop_refuted). Refuted: salt (C77_salt_refuted: negative), the rock of Frejus (C77_frejus_refuted: decreasing above X0); it is never negative there, and decreases by at most 0.01 (C77_frejus_partial). So in every predefined medium it is at least -0.0006 and decreases by at most 0.01 (C77_all_media_partial). Missing: the refuted signs."
  },
  {
   "property": "C78",
   "status": "partial",
   "theorems": [
    "C78_documented",
    "C78_others",
    "C78_case",
    "C78_name_partial",
    "C78_name_refuted",
    "C78_calcium_carbonate_refuted",
    "C78_sound",
    "C78_composition_partial",
    "C78_paraffin_refuted",
    "C78_sea_water",
    "C78_sea_water_refuted"
   ],
   "note": "Proved: names (C78_documented, C78_others, C78_case), recovery by name but for the media of 2001 (C78_name_partial), conditions (C78_sound), composition of pure substances (C78_composition_partial), neutral sea water of Cascadia Basin (C78_sea_water). Refuted: media of 2001 are not found by their name (C78_name_refuted), calcium carbonate has no name (C78_calcium_carbonate_refuted), paraffin contains oxygen instead of hydrogen (C78_paraffin_refuted), ten times the sulfur in the water of Antares (C78_sea_water_refuted)."
  },
  {
   "property": "C79",
   "status": "partial",
   "theorems": [
    "C79_selected",
    "C79_unambiguous",
    "C79_list_partial",
    "C79_hard_component_refuted",
    "C79_defined",
    "C79_other_keys",
    "C79_negative_refuted"
   ],
   "note": "Partial: a photonuclear parametrization with Q2 integration is refused if the unrelated key 'hard_component' is not a boolean (C79_hard_component_refuted); negative multipliers are accepted (C79_negative_refuted)."
  },
  {
   "property": "C80",
   "status": "partial",
   "theorems": [
    "C80_read",
    "C80_deflection",
    "C80_not_listed",
    "C80_multiple",
    "C80_other_keys",
    "C80_defined",
    "C80_default_partial",
    "C80_default_refuted",
    "C80_angle_refuted",
    "C80_shape_refuted"
   ],
   "note": "Partial: 'DefaultMuPair' and other types throw (C80_default_refuted); factors may turn angles beyond half a turn (C80_angle_refuted); a value that is not an array is accepted in a release build (C80_shape_refuted)."
  },
  {
   "property": "C81",
   "status": "partial",
   "theorems": [
    "C81_energy_partial",
    "C81_time_partial",
    "C81_tables",
    "C81_tables_track_partial",
    "C81_start_below_minimum_refuted",
    "C81_light_speed",
    "C81_lifetime"
   ],
   "note": "Partial: proved for a common lower limit that is not below the minimal energy and for calculators that stay in range, which is proved of tables (C81_tables). A particle that starts below the minimal energy gains energy, moves backwards and its clock runs backwards (C81_start_below_minimum_refuted). Not covered: minimal energies above the lower limit, where an energy can fall below the minimal one by the precision of the inverse table or after the limit on retries; calculators that integrate anew, of which C57 and C58 are about single calls. With the approximate clock the time is that of light for the distance, for any tables (C81_light_speed); decays follow the lifetime (C81_lifetime)."
  },
  {
   "property": "C82",
   "status": "partial",
   "theorems": [
    "C82_documented",
    "C82_other_particles",
    "C82_no_cut_refuted",
    "C82_configured_partial",
    "C82_photon_tables_refuted"
   ],
   "note": "Partial: without cuts the list of a lepton is undefined behaviour (C82_no_cut_refuted), although single cross sections accept a null pointer; configured photoproduction and photoeffect never use tables, the standard ones do (C82_photon_tables_refuted). Equality of the lists is up to order and for cross sections that ignore the density correction without LPM effect."
  },
  {
   "property": "C83",
   "status": "partial",
   "theorems": [
    "C83_direct_partial",
    "C83_direct_compton",
    "C83_resolved",
    "C83_close_refuted",
    "C83_no_cut",
    "C83_inverse_partial",
    "C83_bremsstrahlung_partial",
    "C83_compton",
    "C83_table",
    "C83_compton_table_partial",
    "C83_components",
    "C83_medium",
    "C83_multiplied",
    "C83_chosen"
   ],
   "note": "Partial: where the limits differ by more than one part in 10^10 but their logarithms by less, the logarithm of the lower limit, a negative number, is returned as the loss (C83_close_refuted); limits that are 10^-8 apart are fine (C83_resolved). The tables of Compton scattering need a node between zero and one. The value of the loss for a rate is proved for spectra proportional to 1/v."
  },
  {
   "property": "C84",
   "status": "partial",
   "theorems": [
    "C84_reproducible",
    "C84_seeded",
    "C84_restored",
    "C84_custom",
    "C84_resumes",
    "C84_secondaries_reseed",
    "C84_secondaries_refuted",
    "C84_secondaries_cycle",
    "C84_secondaries_custom",
    "C84_same_directions"
   ],
   "note": "Partial: seeds (C84_seeded), saved states and generators of the user hold; the directions of Koch and Motz after bremsstrahlung reseed the static engine that all generators share (C84_secondaries_refuted): all later numbers depend on one random number only (C84_secondaries_reseed), and a program that draws it from the default generator runs into a cycle of at most 2^31 losses (C84_secondaries_cycle)."
  },
  {
   "property": "C85",
   "status": "partial",
   "theorems": [
    "C85_component_partial",
    "C85_component_refuted",
    "C85_predefined",
    "C85_component_named",
    "C85_medium_partial",
    "C85_medium_refuted",
    "C85_medium_named",
    "C85_stable",
    "C85_unknown",
    "C85_none_refuted",
    "C85_equal_component",
    "C85_equal_component_hash",
    "C85_equal_medium",
    "C85_equal_medium_hash"
   ],
   "note": "Partial: the name is not part of the hash, so that of two components or media with equal numbers the one that was constructed first is returned for both (C85_component_refuted, C85_medium_refuted); among the predefined components this cannot happen (C85_predefined). A lookup before anything was constructed dereferences a null pointer (C85_none_refuted)."
  },
  {
   "property": "C86",
   "status": "partial",
   "theorems": [
    "C86_limits",
    "C86_remembered",
    "C86_kept",
    "C86_default",
    "C86_acceptance_partial",
    "C86_proportional_refuted",
    "C86_motion_partial",
    "C86_event_partial",
    "C86_motion_refuted"
   ],
   "note": "Partial: events are accepted with the probability (w - min)/(max - min) (C86_acceptance_partial), so that events lighter than all sampled ones can never happen (C86_proportional_refuted). Decays in flight and at rest agree for matrix elements of the products alone (C86_motion_partial, C86_event_partial); a matrix element that uses the parent, even a Lorentz invariant one, gets the parent in the lab frame with products in the rest frame, and the distribution depends on the boost (C86_motion_refuted)."
  },
  {
   "property": "C87",
   "status": "partial",
   "theorems": [
    "C87_answers",
    "C87_mean",
    "C87_sign",
    "C87_nodes",
    "C87_complete",
    "C87_zero_refuted",
    "C87_rise_refuted"
   ],
   "note": "Partial: history independence (C87_answers), the mean and the interpolated values (C87_mean), sign (C87_sign), the points of the tables (C87_nodes) and complete losses (C87_complete) are proved. The tables end above the smallest loss and above the smallest energy allowed: a loss of 5.1 % at 10 GeV has the cross section zero (C87_zero_refuted), and at 100 MeV the extrapolated cross section of a complete loss is more than 17 times that at 10 GeV (C87_rise_refuted). Not proved: positivity at the losses between the nodes."
  },
  {
   "property": "C88",
   "status": "partial",
   "theorems": [
    "C88_answers",
    "C88_positive",
    "C88_energy",
    "C88_charge",
    "C88_total",
    "C88_total_exists",
    "C88_total_refuted"
   ],
   "note": "Partial: the answers (C88_answers), their sign and growth (C88_positive, C88_energy, C88_charge) and the integral of the corrected cross section (C88_total, given the exact total of the uncorrected one, which exists by C88_total_exists and is not zero from 20 electron masses on or below 2.5) are proved. Refuted: for every element there is an energy between 2.5 and 20 electron masses where the uncorrected cross section integrates to zero and the corrected one is not defined (C88_total_refuted). The error of the numerical integration that the code uses for the uncorrected total is not covered."
  },
  {
   "property": "C89",
   "status": "partial",
   "theorems": [
    "C89_loaded",
    "C89_round_trip_partial",
    "C89_round_trip_refuted",
    "C89_polynomials_refuted"
   ],
   "note": "Partial: loading returns the numbers as they were written (C89_loaded) and the same spline when all numbers have at most six digits (C89_round_trip_partial). Refuted: with more digits (C89_round_trip_refuted: a density of one becomes zero), and for splines made from polynomials, whose interval count is one too large, so that an uninitialised degree is read (C89_polynomials_refuted). The binary format, which stores the bytes of a std::string object, is not modelled."
  },
  {
   "property": "C90",
   "status": "proved",
   "theorems": [
    "C90_dilog",
    "C90_dilogarithm"
   ],
   "note": "Proved for real arithmetic: the error of the rational function and of the literals is below 1e-14; rounding is not modelled."
  },
  {
   "property": "C91",
   "status": "proved",
   "theorems": [
    "C91_suppresses",
    "C91_denser",
    "C91_electron",
    "C91_factor",
    "C91_skipped"
   ],
   "note": "Proved in real arithmetic for the integrands of all three parametrizations (C91_suppresses, C91_denser, C91_electron); the factor itself: C91_factor, C91_skipped. The energy scale of the medium is a parameter. Rounding, which matters because of the cancellations, is not modelled."
  },
  {
   "property": "C92",
   "status": "partial",
   "theorems": [
    "C92_bisected",
    "C92_bisected_between",
    "C92_bisected_approximated",
    "C92_defined",
    "C92_extrapolated",
    "C92_polynomials",
    "C92_approximated",
    "C92_magnitude",
    "C92_roughness",
    "C92_roundoff",
    "C92_error",
    "C92_between",
    "C92_swapped",
    "C92_accepted",
    "C92_single",
    "C92_impossible",
    "C92_at_once",
    "C92_error_refuted"
   ],
   "note": "Proved: polynomials (C92_polynomials), any function as well as it is approximated by a polynomial (C92_approximated), bounds (C92_between), swapped limits (C92_swapped), the integrals of the magnitude and of the deviation (C92_magnitude, C92_roughness), the reported error for polynomials up to the degree 19 and its lower bound (C92_error, C92_roundoff), what is accepted (C92_accepted, C92_single, C92_impossible, C92_at_once, the last unless the error estimate equals the roughness estimate, which the code takes as a reason to bisect). The bisections, with the choice of the subinterval and the extrapolation as parameters: a result without a complaint is the sum of the rule over a subdivision, with errors within the requested accuracy and the value within the bounds of the function (C92_bisected, C92_bisected_between), and the integral as well as a polynomial approximates the function (C92_bisected_approximated); no access beyond the lists as long as existing subintervals are chosen (C92_defined, the choice itself is not modelled); a result of the extrapolation always comes with a complaint, even if it converged, other than in QUADPACK (C92_extrapolated). Refuted: the reported error bounds the true one (C92_error_refuted: a continuous function with a positive integral for which value and error are reported as 0 without a complaint). Real arithmetic; the ordering of the subintervals and the extrapolation are not modelled."
  }
 ]
}