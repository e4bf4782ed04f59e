# PROPOSAL in Rocq: design

## What is modelled, and how

The C++ sources in `/repo/src/PROPOSAL` (headers in `PROPOSAL/`, bodies in
`detail/PROPOSAL/`) are transcribed, function by function, into small total
Gallina functions. Every definition carries a comment naming the file and lines
it models and the simplifications made.

Modelling conventions (they hold for all files):

* **Numbers.** `double` is modelled by the reals `R` of the standard library
  (exact arithmetic; rounding, overflow and denormals are *not* modelled). Where
  the code itself manipulates infinities or NaN (`INF` distances, `0/0` in
  Newton's method, `normalize()` of a zero vector) the model uses an explicit
  extended type or an explicit error outcome. Integer code uses `Z`/`nat`.
* **Undefined behaviour is an outcome.** Functions that may dereference an end
  iterator, a null pointer or write out of bounds return
  `outcome A := Ok a | Throw e | UB why`; exceptions and undefined
  behaviour are different constructors.
* **Division.** `x / 0` is totalised in Rocq. Whenever a divisor may be zero in
  the code the model either tests it and returns an explicit outcome, or the
  theorem's hypotheses exclude it and the comment says so.
* **Loops** are structural recursion, folds, or recursion on explicit fuel with
  an explicit out-of-fuel outcome that theorems exclude or prove unreachable.
* **Environment** (random streams, interpolation library, cross-section
  parametrisation formulas, scattering samplers) is a `Section` variable or a
  function argument; its assumed behaviour is a visible hypothesis of the
  theorem. There are no axioms of our own.
* **Objects with aliasing** (`Polynom` with a raw coefficient pointer,
  `Integral` holding `std::ref`) are modelled with an explicit heap.

Files: `X_Model.v` (definitions only), `X_Spec.v` when the specification needs
its own vocabulary, `X_Proofs.v` (lemmas), `X_Props.v` (only property theorems,
each closed by `exact lemma.`, followed by `Print Assumptions`, with an
`Example` showing that the hypotheses are met by a concrete case).

A property that is false of the faithful model is kept with its full statement
and a theorem `..._refuted` with a witness; a part that does hold is proved
beside it (`..._partial` when the remaining statement is weaker than the English
one).

## Trusted base

* the kernel of Coq 8.16.1 (and `coqchk`);
* the axioms of the standard library that `Print Assumptions` lists beneath each
  theorem (the list per theorem is at the end of this file):
  `ClassicalDedekindReals.sig_forall_dec`, `ClassicalDedekindReals.sig_not_dec`,
  `FunctionalExtensionality.functional_extensionality_dep` (the classical reals),
  `Classical_Prop.classic` (facts about derivatives and integrals), and for two
  theorems of C70 `ClassicalEpsilon.constructive_indefinite_description`. Coquelicot,
  a library over these, adds no axiom;
* the reading of the C++ text: nothing ties the model to the code except the
  cited lines.

<!-- parts -->
## Parts of the code

Modelled (model file: code, relative to `src/PROPOSAL/detail/PROPOSAL/` or the headers in
`src/PROPOSAL/PROPOSAL/`; the exact lines are at each definition):

| model | code |
|-------|------|
| `Propagator_Model` | `Propagator.cxx` (Propagate, AdvanceParticle, sector choice, distances), over an arbitrary environment |
| `Course_Model` | `propagation_utility/PropagationUtility.cxx`: the environment made of tables |
| `Config_Model`, `Factory_Model`, `Standard_Model` | the constructors of Propagator from JSON, `crosssection/Factories/*`, `scattering/*Factory*`, `ParticleDefaultCrossSectionList.h` |
| `Catalogue_Model`, `Medium_Model` | `medium/Components.cxx`, `medium/Medium.cxx`, `medium/MediumFactory.cxx` |
| `Secondaries_Model` | `Secondaries.cxx` (queries on tracks) |
| `Geometry_Model`, `Shapes_Model` | `geometry/*` |
| `Density_Model`, `DensityObj_Model` | `density_distr/*` (values; objects, comparison, ownership) |
| `Function_Model`, `Spline_Model`, `Math_Model`, `Vec_Model` | `math/Function.cxx`, `math/Spline.cxx`, `math/MathMethods.cxx` (root searches, variance, quantile, samplers), `math/Cartesian3D.cxx`, `math/Spherical3D.cxx` |
| `Integral_Model`, `Interpolant_Model` | `math/Integral.cxx` (all but QUADPACK's qags), `math/Interpolant.cxx` |
| `Utility_Model` | `propagation_utility/*`: integrating and tabulated displacement, time, interaction, decay, randomization |
| `Random_Model` | `math/RandomGenerator`: default and user generators, seeds, saved states, and the Koch-Motz directions that use it; the engine itself is a parameter |
| `Registry_Model` | `medium/Components.cxx`, `Medium.cxx`: the maps of all components and media, lookups by hash, comparisons |
| `Cross_Model`, `Continuous_Model`, `Sampling_Model`, `Axis_Model`, `Keys_Model` | `crosssection/CrossSection*`, axes and names of tables |
| `Limits_Model`, `Differential_Model`, `Ionization_Model`, `Photo_Model`, `Photopair_Model`, `Pairs_Model`, `Sandrock_Model`, `Nuclear_Model`, `Rhode_Model`, `Transfer_Model` | `crosssection/parametrization/*` |
| `Weak_Tables`, `Weak_Model` | `crosssection/parametrization/WeakInteraction.cxx`, `ParamTables.cxx`, `math/Interpolant.cxx` (rows with their own nodes) |
| `Tabulated_Tables`, `Tabulated_Model` | `crosssection/parametrization/ParamTables.cxx` (electron screening, Koch-Motz), their tables in `Bremsstrahlung.cxx` and `PhotoPairProduction.cxx` |
| `Saved_Model` | `math/Spline.cxx` (save and load as text), `math/TableWriter.h`, `CalculateSpline` of `math/MathMethods.cxx` |
| `Kronrod_Model`, `Bisect_Model` | `q_gaus_kronrod_21` and `qags` of `math/Integral.cxx` without the ordering of the subintervals and the extrapolation |
| `Dilog_Model` | `dilog` of `math/MathMethods.cxx` |
| `Deflection_Model`, `Multiple_Model` | `scattering/*` |
| `Products_Model` | `secondaries/parametrization/*`, `secondaries/SecondariesCalculator.cxx` |
| `Decay_Model`, `Weights_Model`, `Particle_Model` | `decay/*`, `particle/*` |

Not modelled: rounding and overflow of `double`; the algorithms inside the external
libraries CubicInterpolation (tables of cross sections are functions that hold stated
values), nlohmann::json (values and accessors only) and spdlog; the ordering of subintervals
and the extrapolation of QUADPACK's qags (which is a parameter of `Integral_Model`); reading and writing of
files other than splines as text; thread
safety; the Python bindings; the code of `NDEBUG`-only assertions.
<!-- /parts -->

## Plan per property

| id | model | proof |
|----|-------|-------|
| C01 | sector list with hierarchy + containment; `std::max_element` as a left fold keeping the first maximum; outcome type for the empty case | induction over the list, characterise first maximum |
| C02 | fold over sectors with the `-1` sentinel | induction; equality with the minimum of the spec list |
| C03 | 3-array `max_element` | case analysis on reals |
| C04 | `AdvanceParticle` as a fuelled loop over an abstract environment (utility, density, geometry, random stream), extended reals for INF | loop invariant by induction on fuel; unreachability of the logic_error branch; bound on the number of iterations |
| C05 | same model | refutation by witness (border-proximity rule); true bound proved: overshoot only on a reported border |
| C06 | `Propagate` as fuelled loop appending to the track | invariant over iterations |
| C07 | same | invariant |
| C08 | track rows, loss extraction as in `Secondaries.cxx` | telescoping induction |
| C09 | same | list induction |
| C10 | `SampleLoss` as recursion over rates | induction over the list; slot characterisation |
| C11 | `MeanFreePath` | algebra |
| C12 | `EnergyCutSettings` constructor and `GetCut` | case analysis, `lra` |
| C13 | the four transform functions | `exp`/`ln`/`Rpower` algebra, monotonicity |
| C14 | component list + unordered_map keyed by hash (emplace ignores duplicates) | refutation for duplicated components, proof for distinct hashes |
| C15 | `GetKinematicLimits` for each process | real inequalities |
| C16 | multiplier wrapper over an abstract cross section | algebra |
| C17-C19 | `DistanceToBorder` for each shape | quadratic/linear root reasoning; refutations for the box edge case |
| C20 | `Geometry.cxx` predicates | case analysis |
| C21-C23 | axes and densities | algebra, derivatives (Coquelicot); refutations for the faulty parts |
| C24 | coefficient lists, Horner loop, shift loop | induction over the list |
| C25 | heap model of `Polynom` | refutation by a concrete history |
| C26 | nodes and spline polynomials, tridiagonal solver | induction |
| C27 | `NewtonRaphson`, `Bisection` with fuel | loop invariant |
| C28 | Welford update as a fold | induction with exact mean/variance spec |
| C29, C30 | vector functions | trigonometric algebra |
| C31 | `std::map` keyed by branching ratio as a sorted association list | induction; refutation for equal keys |
| C32-C34 | phase-space kinematics with explicit 4-vectors | algebra, induction over daughters |
| C35 | registry as association map, outcome type | induction over histories |
| C36 | momentum setters | `sqrt` algebra |
| C37 | `ScatterInitialDirection` | vector algebra |
| C38 | secondaries calculators | vector algebra, inequalities |
| C39-C41 | `Integral.cxx` dispatch, midpoint refinement, buffer indices | sums, induction; refutation for short buffers |
| C42 | integral-based utilities with an abstract loss function | `RInt` additivity, monotonicity |
| C43, C44 | track queries with re-propagation; NaN of a zero-length step as a parameter outcome | first-index induction, straight-line geometry |
| C45 | entry/exit search loops | list induction, instantiated with the surface lemmas of C17-C19; null dereference refutation |
| C46 | `HitGeometry` | convexity of the ball along each segment (solid spheres only) |
| C47 | closest-approach loop | projection argument for straight tracks; refutation for bent tracks |
| C48 | re-propagated time with both clocks | refutation by a run with density 2; exact clock proved |
| C49 | Correct through NewtonRaphson with the code's derivative | rejection and bracket from C27; refuted by a NaN run with constant density |
| C50 | objects with axis class, mass density and kind; operator== with static dispatch to Axis | soundness when axis classes and directions agree; refuted by two atmospheres with different directions and by two identical spline densities |
| C51 | heap of cells, objects with pointers, history of operations | invariant (disjoint live cells) for histories without copies of spline densities; refuted by create, clone, destroy, destroy |
| C52 | Decay_Model: calculate_normalization, estimate_max_weight, calculate_kinematics. | Every momentum factor of the weight is monotone in the virtual mass above and antitone in the one below; product of bounds by induction. |
| C53 | Particle_Model tables of the predefined particles; Decay_Model: decay_particle = SelectChannel then Decay of the channel. | All channels of the tables are open in every program; dispatch to C32-C34. |
| C54 | Products_Model.v: calculators as an inductive type with required and calculate, registry as an association list, std::vector access with an explicit out-of-bounds outcome | case analysis over the calculators |
| C55 | The lambda with its four slots and running index (cached_rnd, resample) inside the modelled AdvanceParticle. | Invariant of the loop: the index is a multiple of four and the slots are all empty or hold the block drawn last. |
| C56 | Integral_Model.v: the Integral object with buffers, limits, flags; all five methods, Neville extrapolation, the QUADPACK fallback as a parameter | Induction over refinement steps (buffers hold the sums), uniqueness of the interpolating polynomial, Euler-Maclaurin style expansion of polynomial sums in even powers |
| C57 | Integral_Model.v: integrate_ratio, refine_upper_limit, get_upper_limit | Invariant of the bracket over the refinement loop; frame lemma for the nested integrations; monotone substitutions |
| C58 | EnergyInteraction, EnergyDecay over direct and tabulated calculators | bisection invariant; equality of the two integrations by mirrored sums; range of GetUpperLimit |
| C59 | EnergyRandomize, SampleFromGaussian with a quantile function as parameter | monotonicity of the quantile function |
| C60 | Deflection_Model (the six calculators over the reals with a distinct outcome for NaN, the map of calculators, the factors) | closed forms inverted; limits of Limits_Model give positive arguments of roots and logarithms; intermediate value theorem and the bisection loop for the refutation of the exception; induction over the lists |
| C61 | `Multiple_Model`: normalppf, Highland, HighlandIntegral on the utility calculators, Moliere with its stored state, comparison | the Gaussian integral and Mills' inequality (`Gauss_Proofs`) for the totality of the quantile; six Newton steps bounded by convexity (`Reduced_Proofs`); induction over the histories, the components and the iteration |
| C62 | Ionization_Model: the three ionization parametrizations with their formulas for the restricted loss. Continuous_Model: the continuous loss of each process (plain, logarithmic, Rossi, formula, reflected for Compton, split for pair production), the second moment and the rate of sampled losses, over the integration engine of Integral_Model | Ionization: the derivative of each restricted loss with respect to the cut is computed (auto_derive, field) and shown to be E v dsigma/dv, then the fundamental theorem of calculus. Numerical integrals: Chasles and substitution, with the error of the engine a free number. Witnesses: a slow positron and a slow muon in water, evaluated with bounds on logarithms |
| C63 | Differential_Model: Klein-Nishina, Heitler, the six parametrizations of bremsstrahlung with prefactor and limits, the tables of logarithmic constants; the ionization parametrizations of Ionization_Model | each logarithm is brought to the form ln(a/b) with a polynomial inequality in the charge to the power -1/3, the least momentum over the mass and the mass ratio, using the kinematic limit; rational bounds for exp(1/2), ln 2 and cube roots. Witnesses for the refutations at the upper limit (Petrukhin-Shestakov, electron screening) and close to it (Rossi) |
| C64 | Differential_Model.brems_suppression and Photopair_Model.pair_suppression with the functions xi, phi and G in all their pieces | xi lies between one and two, phi and G between zero and one, by rational bounds for pi, exponentials and logarithms; the factor is a mean of phi and G over powers of Gamma >= 1, times xi. Witness for the enhancement at s' = 0.65 |
| C65 | Photopair_Model: Koch-Motz with the correction at low energies, Tsai with its three sets of form factors, Burkhardt-Kelner-Kokoulin, the suppression factor | the functions depend on x (1 - x) only; where they do not, the values at x and 1 - x are compared for all elements (Tsai: the factor x/p decreases; LPM: Gamma depends on x) |
| C66 | Nuclear_Model: the six parametrizations, shadowing, the cross section as an instance of Cross_Model.direct | the cut-off is the kinematic threshold by algebra; each parametrization positive above it, Rhode's interpolated table by the Bernstein coefficients of its 20 cubic pieces; 0 < 3/x^3 (x^2/2 - 1 + (1+x) e^-x) < 1 by derivatives; sum over the components |
| C67 | Medium_Model: Medium::init, X0_inv, the constructors of the three suppressions; Cross_Model, Multiple_Model, Pairs_Model for the rest | all sums are linear in the numbers of atoms; inverse radiation length by induction over the components; the rates through C14; refutations by scaling laws |
| C68 | Pairs_Model: the two parametrizations, the suppression, the integral over the asymmetry with the integrator of Integral_Model | positivity of the kinetic factors by bounds of the logarithm; the short expression against the full one by a third-order bound; the integral by C56 |
| C69 | Pairs_Model: the integrand and the integral over the asymmetry | the two screening terms are values of one monotone function; positivity of the kinetic factor by bounds of the logarithm; for the tau the terms are in the wrong order for every asymmetry |
| C70 | Keys_Model: hash_combine with 64 bit, the lists of values combined for particles, components, media, cuts, parametrizations, tables and utilities, and the function each table holds (through Continuous_Model, Differential_Model, Nuclear_Model, Photopair_Model, Pairs_Model, Ionization_Model) | the key is a tree of values whose equality forces equality of everything the function reads; last step of hash_combine is injective; pigeonhole for collisions; explicit pairs for what is left out |
| C71 | Interpolant_Model: the constructors from vectors, the binary search, the window, Neville's algorithm with its buffers, tables of two variables with their scratch values, FindLimit | invariant of the search (position bracketed up to sign); Neville's columns as in the integration; uniqueness of the interpolating polynomial; buffers are overwritten before use; pieces agree at the nodes for an even number of points |
| C72 | Axis_Model: the three builders of axes with the unsigned counter, Bisection, make_dedx with the exception it catches, the tables of rates; splines are an argument that holds positive functions | the search stops at the first node above the threshold; bisection keeps the sign of its left end, so that the start lies between the threshold and one accuracy above it |
| C73 | Transfer_Model: the six integrands with their constants, both shadowings, the limits and the integral by Integral_Model | the condition on the angle of the scattered particle is eliminated: m^2 (nu^2 + Q2) + Q2^2/4 <= E E' Q2, from which the signs of the brackets follow |
| C74 | Transfer_Model.shadow, with Keys_Model.wood_saxon for the nucleus | bounds of the logarithm of 2 and of the share of the surface of a nucleus |
| C75 | Config_Model: JSON values with the accessors of the library, the constructor of Propagator; makers of media, cross sections and utilities are parameters | Config_Spec.described says what the documentation promises; equivalence by cases on every setting, induction on sectors and geometries |
| C76 | Config_Model: constructors from JSON and from numbers, conversions to int with undefined behaviour out of range | inversion of the accessors; truncation of reals by Int_part |
| C77 | Ionization_Model.density_effect with the parameters of Catalogue_Model | mean value theorem for the fit; powers with decimal exponents bounded by rational powers of integers |
| C78 | Catalogue_Model: the tables and the search by name | case analysis on the name; evaluation of the tables |
| C79 | Factory_Model.v: names, look-up without regard to capitals, options, multiplier of all thirteen factories; make_crosssection left open | inversion of the reading of each option; uniqueness of the look-up; the list of C75 instantiated; refutations by evaluation |
| C80 | Factory_Model.v: scattering_parts reads the document; the result is the scattering object of C60 | inversion of the reading; composition with the queries of C60; refutations by evaluation and by an angle of C60 |
| C81 | Course_Model.v: the collection of utilities assembled from the tables of Utility_Model, put into the propagation loop of Propagator_Model | invariants of AdvanceParticle (energy is the requested one or an upper limit, cached numbers come from the generator) and of Propagate (chain of states); C57-C59 for the tables; refutation by evaluation |
| C82 | Standard_Model.v: the lists as selections of Factory_Model, a null pointer to cuts dereferenced for leptons | evaluation of both lists, permutation of selections |
| C83 | Sampling_Model.v: the integral of the differential cross section with a ratio and its upper limit, on Integral_Model; tables and lists of cross sections from Cross_Model | the position that the trapezoidal sum leaves lies in the cell it was found in if the integrand is not negative (root of the parabola); bisection keeps it; exact values for spectra like 1/v |
| C84 | Random_Model.v: the static engine (its functions are parameters), the random function of the generator, the directions of Koch and Motz on the static engine | the state after the directions is a function of the seed taken from rnd[0]; pigeonhole over the 2^31 seeds |
| C85 | Registry_Model.v: the two maps, what the constructors enter, the lookups and the comparisons, with the hashes of Keys_Model | induction over the history; contents determined by the key; case analysis over the comparisons |
| C86 | Weights_Model.v: the sampled estimate, the cache of parameters, the matrix element with the parent at rest | induction over the sampled events and over the history of the cache; induction over rejections; a relation between the events of two parents; Lorentz invariants of boosted products |
| C87 | Weak_Tables.v: the 66600 numbers of the tables; Weak_Model.v: the constructor for tables with nodes of their own in every row, the four tables, the cross section and what it leaves behind | reflection for the order of the nodes of all tables; an invariant of the work space over histories; Neville's scheme in rows and across them; linear arithmetic for the polynomials through the outermost points |
| C88 | Tabulated_Tables.v: the numbers of the tables; Tabulated_Model.v: the interpolation objects made of them and what reading leaves behind | bilinear interpolation from Neville's scheme (C71_grid_line); reflection for the order of the entries; the integral of the uncorrected cross section exists, is negative at 2.5 and positive at 20 electron masses and depends continuously on the energy |
| C89 | Saved_Model.v: the words of a text file, reading with variables that may not be initialised and streams that may have failed | induction over the intervals; uniqueness of the exponent of a number with six digits |
| C90 | Dilog_Model.v: all branches with the literals as exact decimals; the specification is the continuous function with the given derivative | functional equations from vanishing derivatives; remainder of the series; the polynomial q S - y p bounded on four intervals with integers; the constant pi^2/6 from the equations themselves |
| C91 | Pairs_Model.v, Sandrock_Model.v: the factor as in the code, with the energy scale and the density as parameters | the numerator of the factor and phi of the electron are integrals of positive integrands over [0,1] (complex partial fractions); the integrands are compared by the mean value theorem |
| C92 | Kronrod_Model.v: the nodes and weights as exact decimals, the rule with its error estimate, and qags up to the first bisection; Bisect_Model.v: the loop of bisections and what follows it, with the choice of the subinterval and the extrapolation as parameters | the moments of the rule are compared with those of the integral in integers up to the degree 31; positivity of the weights; a polynomial with squares of all nodes as zeros refutes the bound of the error |

<!-- appendix -->
## Where the code does not do what it says

Every `_refuted` theorem has a witness; in the order of the properties:

* C04 a caller that asks for a distance already passed reaches a `logic_error`; C05 a step may overshoot the distance asked for near a border.
* C09 the filter by type accepts the continuous type, the filter by name is undefined for unknown names.
* C13, C15, C62 edges of kinematic ranges: division by zero for an empty Compton range, taus, weak interactions below 64 MeV and muon pairs by photons have crossed limits; without a cut a process that starts at zero loss has the rate zero.
* C14 a component listed twice counts once in the rate and twice in the loss.
* C18, C19, C46 rays through edges and rims, pipes entered through their opening, and hollow bodies are answered wrongly.
* C21-C23, C49, C50 slanted rays, radial axes, comparison and Newton's method of density distributions.
* C24-C27, C51 small shifts of polynomials are ignored, copies share arrays (double free), `Derivative` of a spline is a no-op, Newton's method gives NaN at a multiple root.
* C31, C53 channels of equal branching ratio are merged; pions and kaons decay into nothing.
* C35 definitions that differ in the decay daughters only are taken for the same.
* C38 end points where secondaries violate conservation or get NaN.
* C39, C41, C56, C57 `Integral`: bad_function_call for equal limits, buffer overruns for few steps, wrong sign across zero, a logarithm returned for close limits.
* C42, C58 exceptions near the lower limit, with a table and with integration (an electron just above its rest mass).
* C45, C47, C48 queries: null dereference inside of a geometry, first local minimum, approximate clock.
* C54 vectors read past their end and end iterators dereferenced.
* C60, C61 scattering: exceptions for some muons, no angle for kaons, NaN for stopped positrons, accepted reduced angles without a solution, null dereference in comparisons, dangling `this` in a copied HighlandIntegral.
* C62-C66 cross sections that are negative (Petrukhin-Shestakov, electron screening, Rossi, Koch-Motz), infinite (Tsai), or not symmetric; an LPM factor above one; tau photonuclear interactions.
* C67-C69 dependence on the number of atoms per molecule; the wrong end of the asymmetry range for electrons; muon pairs by taus exactly zero; a wrong sign in a branch of Sandrock, Soedingrekso and Rhode that is never taken.
* C70-C72 names of tables that collide or do not depend on the hard component; interpolation with one or an odd number of points; an axis whose unsigned counter passes below zero.
* C73, C74 lower limit of the transfer below what is possible; shadowing above one.
* C75-C80, C82 configurations: ignored global density, truncated inner radii, negative hierarchies, missing names, swapped constituents, defaults that throw, accepted negative factors, no cuts, tables of photons.
* C77, C78 the density correction of salt is negative, the one of Frejus rock decreases.
* C81 a particle that starts below the minimal energy gains energy and its clock runs backwards.
* C83 a negative loss (a logarithm) is sampled where the cut nearly equals the largest loss.
* C84 the directions of Koch and Motz reseed the engine that all generators of the program share.
* C85 the hash of components and media does not contain the name, so that another one than the constructed one is found; a lookup before the first construction dereferences a null pointer.
* C86 with a matrix element, events lighter than all sampled ones never happen, and the matrix element is evaluated with the parent in the lab frame and the products in its rest frame.
* C87 the limits of weak interactions reach below the tables in energy and in loss, where polynomials of the fourth degree are extrapolated.
* C88 the scale of the Koch-Motz cross section divides by an integral that vanishes at one energy between 2.5 and 20 electron masses at least, for every element.
* C89 splines are saved with six digits, so that a density of one at the surface of the Earth is loaded as zero; splines made from polynomials cannot be loaded.

## Assumptions of each theorem

What `Print Assumptions` lists beneath each theorem (all from the standard library).

**`sig_forall_dec`, `sig_not_dec`, `constructive_indefinite_description`, `classic`, `functional_extensionality_dep`** (2):
C70_crowded_refuted, C70_tables_partial.

**`sig_forall_dec`** (7):
C09_losses_describe_rows, C09_named_filter_partial, C82_documented, C82_no_cut_refuted, C82_other_particles, C89_loaded, C89_polynomials_refuted.

**Closed under the global context** (13):
C09_rows_partition, C31_empty_refuted, C51_dangling_refuted, C51_double_free_refuted, C51_no_copies_partial, C54_last_registered, C59_constructor, C79_unambiguous, C80_default_partial, C80_default_refuted, C85_none_refuted, C85_stable, C85_unknown.

**`sig_forall_dec`, `sig_not_dec`, `functional_extensionality_dep`** (71):
C15_photo_mupair_partial, C15_photo_mupair_refuted, C17_sphere_distances, C17_sphere_inside, C17_sphere_on_surface, C17_sphere_outside, C17_sphere_radii, C19_cylinder_distances_partial, C19_cylinder_inside, C19_cylinder_inside_distance, C19_cylinder_on_surface, C19_cylinder_outside_partial, C19_cylinder_outside_refuted, C19_cylinder_radii, C19_hollow_cylinder_refuted, C19_hollow_hole, C19_hollow_outside_partial, C20_entering_leaving, C20_location_partition, C23_radial_depth, C27_bisection, C27_newton_converged, C32_answers, C32_below_threshold_refuted, C32_conserved, C33_conserved, C33_only_nan, C34_conserved, C36_get, C36_set_get, C36_unknown_type, C42_decay, C42_time, C42_time_none, C43_state_for_distance, C43_state_for_distance_defined, C44_state_for_energy, C45_box_border, C45_cylinder_border, C45_entry_point, C45_exit_point, C45_no_entry_point, C45_sphere_border, C46_hit_box_partial, C46_hit_cylinder_partial, C46_hit_hollow_sphere_partial, C46_hit_sphere_partial, C46_hollow_refuted, C47_closest_approach_partial, C47_closest_approach_refuted, C48_exact_time_partial, C52_acceptance, C52_weights, C60_brems_tsai, C63_compton, C65_limits, C68_asymmetry_range, C70_utility_partial, C70_utility_refuted, C73_lower_limit_refuted, C73_range, C76_geometry_partial, C86_acceptance_partial, C86_default, C86_event_partial, C86_kept, C86_limits, C86_motion_partial, C86_motion_refuted, C86_proportional_refuted, C86_remembered.

**`sig_forall_dec`, `functional_extensionality_dep`** (194):
C01_sector_lookup, C02_distance_to_border, C03_event_arbitration, C09_continuous_filter_selects, C09_filters_select_partial, C10_chosen_target, C10_cross_section_inverts, C10_distribution, C10_no_rate, C10_one_target, C10_random_number_one, C11_mean_free_path, C11_table, C12_accepts, C12_both_limits, C12_energy, C12_equality, C12_keeps, C12_monotone, C12_rejects, C12_stochastic, C12_within, C14_above, C14_additive, C14_additive_direct, C14_additive_multiplied, C14_below, C14_duplicates_refuted, C14_mean_loss, C14_medium, C14_only_continuous, C14_rates, C14_shares, C14_target, C14_unknown_target, C14_variance, C15_bhabha, C15_bremsstrahlung_default, C15_compton, C15_ionization, C15_moller, C15_mupair, C15_photo_pair, C15_photonuclear_partial, C15_photonuclear_refuted, C15_weak_partial, C15_weak_refuted, C16_mean_free_path, C16_same_losses, C16_scaled, C16_zero, C18_box_distances_partial, C18_box_infront_refuted, C18_box_inside_partial, C18_box_inside_refuted, C18_box_on_surface, C18_box_outside_partial, C21_homogeneous, C22_additive, C24_antiderivative, C24_derivative, C24_evaluate, C24_shift_partial, C24_small_shift_refuted, C25_copy_refuted, C25_no_copies_partial, C25_shift_reaches_all_copies_partial, C26_antiderivative, C26_calculate, C26_calculate_short, C26_constructor_refuted, C26_cubic_partial, C26_derivative_refuted, C26_linear, C26_tiny_node_refuted, C27_bisection_rejects, C27_newton_answers_partial, C27_newton_flat_root_refuted, C27_newton_rejects, C27_newton_stays_in_bracket, C28_welford, C31_equal_ratios_refuted, C31_share_partial, C31_slots_partial, C35_builder, C35_daughters_refuted, C35_different_partial, C35_kept, C35_leptonic_refuted, C35_lookup, C35_new, C35_same, C35_standard_limits, C38_bremsstrahlung, C38_mupair, C38_mupair_below_threshold_refuted, C38_naive_epair_refuted, C38_photo_pair, C38_photoeffect, C38_photonuclear, C38_photoproduction, C38_weak, C42_approximate_time, C42_cont_rand, C42_displacement, C42_displacement_none, C42_interaction, C49_out_of_reach, C49_stays_inside, C53_charge, C58_lower_limit, C58_no_cross_section, C61_equality_class_refuted, C61_equality_highland, C61_equality_kind_refuted, C61_heaviest_partial, C61_heaviest_refuted, C66_lower_limit, C66_rate, C67_moliere, C67_rates, C69_limits, C69_range, C71_continuous, C71_continuous_refuted, C71_grid_line, C71_grid_nodes, C71_grid_polynomial, C71_grid_reads, C71_grid_single_refuted, C71_grid_window, C71_hard, C71_inverse, C71_inverse_refuted, C71_limit, C71_line, C71_mismatch, C71_nodes, C71_polynomial, C71_reads, C71_sheet_nodes, C71_sheet_reads, C71_sheet_window, C71_sign_refuted, C71_single_refuted, C71_window, C73_upper_limit, C75_any_shape, C75_described, C75_global_density_refuted, C75_mandatory, C75_no_geometry_refuted, C75_null_refuted, C75_other_keys, C76_cuts, C76_cylinder_refuted, C76_distribution_partial, C76_equal_refuted, C76_hierarchy_refuted, C76_impossible, C76_inner_radius_refuted, C76_large_radius_refuted, C76_polynomial, C76_polynomial_refuted, C78_calcium_carbonate_refuted, C78_case, C78_composition_partial, C78_documented, C78_name_partial, C78_name_refuted, C78_others, C78_paraffin_refuted, C78_sea_water, C78_sea_water_refuted, C78_sound, C79_defined, C79_hard_component_refuted, C79_list_partial, C79_negative_refuted, C79_other_keys, C79_selected, C82_configured_partial, C82_photon_tables_refuted, C83_chosen, C83_components, C83_medium, C83_multiplied, C88_answers, C88_charge, C88_energy, C88_positive, C89_round_trip_partial, C89_round_trip_refuted, C92_extrapolated.

**`sig_forall_dec`, `sig_not_dec`, `classic`, `functional_extensionality_dep`** (369):
C04_fuel_irrelevant, C04_logic_error_refuted, C04_no_logic_error, C04_step_ending, C04_step_terminates, C05_max_distance_partial, C05_max_distance_refuted, C05_step_overshoot, C06_track_shape, C07_observable_stop, C07_stop_reasons, C08_losses_add_up, C09_type_filter_refuted, C10_tables_invert, C13_compton_empty_range_refuted, C13_empty_range, C13_ends, C13_increasing, C13_inverse, C13_no_cut_refuted, C14_photoeffect, C14_photoeffect_target_refuted, C15_bremsstrahlung, C15_epair, C21_exponential_additive, C21_exponential_grammage_partial, C21_exponential_round_trip, C21_exponential_round_trip_back, C21_exponential_unreachable, C21_horizontal_refuted, C21_radial_refuted, C22_oblique_refuted, C22_polynomial_parallel_partial, C22_polynomial_partial, C22_spline_partial, C23_cartesian, C23_radial_negated_partial, C23_radial_refuted, C29_deflect, C29_no_deflection, C29_not_normalised_refuted, C29_sense_of_rotation, C30_back_and_there, C30_ranges, C30_there_and_back, C34_approximate_only_nan, C34_exact_only_nan_light, C34_exact_spectrum, C37_large_offsets_refuted, C37_no_scattering, C37_unit_directions, C38_annihilation, C38_bhabha_end_refuted, C38_bremsstrahlung_deflected, C38_compton, C38_epair, C38_ionization, C38_ionization_electrons, C38_koch_motz_partial, C38_pair_forward, C38_pair_sauter, C38_pair_tsai, C38_photo_mupair_partial, C38_photo_mupair_refuted, C39_antisymmetric, C39_empty_range_partial, C39_empty_range_refuted, C40_closed_refinement, C40_first, C40_open_refinement, C40_sampling_refinement, C41_few_steps_refuted, C41_no_overrun_partial, C41_set_romberg_refuted, C42_direct_additive_partial, C42_direct_additive_refuted, C42_direct_equal, C42_direct_inverse_partial, C42_direct_upper_partial, C42_direct_value_partial, C42_exact_time, C42_near_limit_refuted, C42_table_additive, C42_table_additive_partial, C42_table_additive_refuted, C42_table_beyond, C42_table_equal, C42_table_inverse, C42_table_upper, C42_table_value_partial, C45_energy_lost_refuted, C48_time_refuted, C49_inverse_refuted, C50_axis_ignored_refuted, C50_equal_partial, C50_same_splines_refuted, C53_channel_number, C53_muons_and_taus, C53_only_nan, C53_pion_refuted, C53_table, C54_missing_refuted, C54_only_required, C54_random_numbers_suffice, C54_tables, C54_too_few_refuted, C55_step_numbers, C56_closed, C56_logarithm, C56_open, C56_open_after_sampling, C56_polynomial_closed, C56_polynomial_logarithm, C56_polynomial_open, C56_substitution, C56_substitution_refuted, C57_close_limits_refuted, C57_logarithm_partial, C57_not_negative_logarithm_partial, C57_not_negative_plain_partial, C57_substitution_partial, C58_direct_decay_partial, C58_direct_interaction_partial, C58_direct_sample_partial, C58_near_limit_refuted, C58_table_decay, C58_table_interaction, C58_table_place, C59_no_variance, C59_range, C60_borog_heavy, C60_borog_light, C60_borog_refuted, C60_brems_exception_refuted, C60_brems_high, C60_brems_low, C60_brems_top_partial, C60_calculator, C60_epair, C60_ionization, C60_ionization_electron, C60_ionization_positron, C60_ionization_stop_refuted, C60_multiple, C60_no_calculator, C60_numbers_enough, C60_numbers_needed, C60_numbers_used, C60_photonuclear, C60_zenith_refuted, C61_copy_refuted, C61_equality_used_refuted, C61_highland_mirror, C61_highland_monotone, C61_highland_planes, C61_highland_width, C61_integral_range, C61_integral_width, C61_moliere_density_partial, C61_moliere_history, C61_moliere_iteration_partial, C61_moliere_mirror, C61_moliere_planes, C61_moliere_root, C61_moliere_root_refuted, C61_moliere_straight, C61_moliere_thickness, C61_quantile, C62_below_refuted, C62_bhabha, C62_logarithmic, C62_moller, C62_own_cut_refuted, C62_plain, C62_reflected, C62_rossi_partial, C62_split, C62_uncut_refuted, C62_variance, C62_whole, C63_andreev, C63_annihilation, C63_annihilation_rate, C63_bhabha, C63_complete_screening, C63_electron_screening_partial, C63_electron_screening_refuted, C63_kelner, C63_koch_motz, C63_koch_motz_exact, C63_koch_motz_heavy_refuted, C63_koch_motz_low_refuted, C63_koch_motz_table, C63_moller, C63_petrukhin, C63_petrukhin_refuted, C63_photonuclear, C63_photonuclear_limit_refuted, C63_photonuclear_tau_refuted, C63_rossi_refuted, C63_sandrock, C63_screening_factor, C63_screening_functions, C63_screening_table_partial, C63_tsai, C63_tsai_limit_refuted, C64_bremsstrahlung, C64_bremsstrahlung_factor, C64_enhancement_refuted, C64_pair_factor, C64_pairs, C65_koch_motz, C65_lpm_refuted, C65_muon_pairs, C65_tsai_refuted, C66_atom, C66_bezrukov_bugaev, C66_caldwell, C66_heck, C66_kokoulin, C66_rhode, C66_shadowing, C66_shadowing_c7, C66_zeus, C67_bragg, C67_epair_lpm_refuted, C67_fraction_refuted, C67_lpm, C67_merge, C67_muon_pairs_refuted, C67_order, C67_scaling, C67_summary, C68_asymmetry, C68_electron_asymmetry, C68_electron_refuted, C68_formula, C68_integral, C68_integral_top, C68_sandrock_correction, C68_sandrock_integral, C68_sandrock_integral_top, C68_sandrock_number, C68_sandrock_partial, C68_suppressed, C69_defined, C69_light_refuted, C69_muon, C69_tau_refuted, C70_components, C70_hard_refuted, C70_hard_tables_refuted, C72_losses, C72_mean_free_path, C72_no_losses, C72_no_rates, C72_no_variance, C72_order, C72_order_refuted, C72_rates, C72_variance_partial, C72_variance_refuted, C72_variance_throws_refuted, C73_block_refuted, C73_charge, C73_defined, C73_empty, C73_integrand_partial, C73_nonnegative, C73_spin_zero_refuted, C73_stopped_refuted, C73_tau_refuted, C73_value, C74_bounded_partial, C74_bounded_refuted, C74_hydrogen, C74_positive, C77_all_media_partial, C77_asymptote, C77_drop_refuted, C77_frejus_partial, C77_frejus_refuted, C77_joined, C77_media_partial, C77_monotone, C77_nearly, C77_other_media, C77_salt_refuted, C77_slow, C80_angle_refuted, C80_defined, C80_deflection, C80_multiple, C80_not_listed, C80_other_keys, C80_read, C80_shape_refuted, C81_energy_partial, C81_lifetime, C81_light_speed, C81_start_below_minimum_refuted, C81_tables, C81_tables_track_partial, C81_time_partial, C83_bremsstrahlung_partial, C83_close_refuted, C83_compton, C83_compton_table_partial, C83_direct_compton, C83_direct_partial, C83_inverse_partial, C83_no_cut, C83_resolved, C83_table, C84_custom, C84_reproducible, C84_restored, C84_resumes, C84_same_directions, C84_secondaries_custom, C84_secondaries_cycle, C84_secondaries_refuted, C84_secondaries_reseed, C84_seeded, C85_component_named, C85_component_partial, C85_component_refuted, C85_equal_component, C85_equal_component_hash, C85_equal_medium, C85_equal_medium_hash, C85_medium_named, C85_medium_partial, C85_medium_refuted, C85_predefined, C87_answers, C87_complete, C87_mean, C87_nodes, C87_rise_refuted, C87_sign, C87_zero_refuted, C88_total, C88_total_exists, C88_total_refuted, C90_dilog, C90_dilogarithm, C91_denser, C91_electron, C91_factor, C91_skipped, C91_suppresses, C92_accepted, C92_approximated, C92_at_once, C92_between, C92_bisected, C92_bisected_approximated, C92_bisected_between, C92_defined, C92_error, C92_error_refuted, C92_impossible, C92_magnitude, C92_polynomials, C92_roughness, C92_roundoff, C92_single, C92_swapped.
<!-- /appendix -->
