{"id": "C01", "title": "Sector lookup picks the innermost sector", "statement": "Looking up the sector for a position and direction returns the first sector, in configuration order, among those that contain the point and whose hierarchy is maximal. If no sector contains the point, the track-side lookup (Secondaries) throws std::logic_error while the propagation-side lookup (Propagator) dereferences an end iterator (undefined behaviour) after only logging.", "quantifier": "every list of sectors (any number, any hierarchies, any containment answers), every position/direction", "why_tests_cant": "The answer depends on an arbitrary combination of hierarchies and containment results over an unbounded list; tests only use one to three nested sectors.", "anchors": ["src/PROPOSAL/detail/PROPOSAL/Propagator.cxx: Propagator::GetCurrentSector", "src/PROPOSAL/detail/PROPOSAL/Secondaries.cxx: Secondaries::GetCurrentSector"]}
{"id": "C02", "title": "Distance to border is the nearest relevant border", "statement": "The distance to the next sector border equals the minimum of the current geometry's own border distance and the border distances of exactly those geometries with strictly higher hierarchy that lie ahead of the particle (non-negative distance); geometries of equal or lower hierarchy never shorten a step.", "quantifier": "every sector list, every current geometry, every position/direction", "why_tests_cant": "Unbounded list of sectors and real-valued distances incl. the -1 sentinel; a test only samples a few layouts.", "anchors": ["src/PROPOSAL/detail/PROPOSAL/Propagator.cxx: Propagator::CalculateDistanceToBorder"]}
{"id": "C03", "title": "Event arbitration is by largest energy with fixed tie order", "statement": "The next event chosen by Propagate is the one whose candidate energy is the largest of (decay, minimal energy, stochastic); on ties decay wins over minimal energy, which wins over stochastic.", "quantifier": "every triple of candidate energies", "why_tests_cant": "Ties and orderings over reals; three-way comparison for all inputs.", "anchors": ["src/PROPOSAL/detail/PROPOSAL/Propagator.cxx: Propagator::maximize, Propagator::Propagate", "src/PROPOSAL/PROPOSAL/Propagator.h: enum {Decay, MinimalE, Stochastic}"]}
{"id": "C04", "title": "A single advance step ends only in a legal way", "statement": "When an advance step reports that an interaction was reached, the travelled distance is at most both the remaining allowed distance and the distance to the border along the scattered direction and the step's target energy is the requested one; when it reports the maximal distance, the travelled distance is exactly the remaining distance and not beyond the border; when it reports a border, the travelled distance is exactly the border distance. The step search always ends within ADVANCE_PARTICLE_MAX_STEPS+1 iterations and its internal logic_error branch is unreachable.", "quantifier": "every particle state, every behaviour of the medium/scattering/geometry utilities, every random stream", "why_tests_cant": "The step search is a loop whose exits depend on arbitrary scattering angles, densities and geometries.", "anchors": ["src/PROPOSAL/detail/PROPOSAL/Propagator.cxx: Propagator::AdvanceParticle"]}
{"id": "C05", "title": "Propagation never exceeds the requested maximal distance", "statement": "The propagated distance of the final state is never larger than the requested max_distance.", "quantifier": "every configuration and every random stream", "why_tests_cant": "The overshoot arises only for special combinations of border distance, step length and iteration counts.", "anchors": ["src/PROPOSAL/detail/PROPOSAL/Propagator.cxx: Propagator::Propagate, Propagator::AdvanceParticle"]}
{"id": "C06", "title": "Track shape", "statement": "The track returned by Propagate starts with the initial particle tagged as continuous loss; positions, types and target hashes have equal length; every propagation step contributes one continuous-loss entry followed by at most one stochastic or decay entry; a decay entry can only be the last one.", "quantifier": "every configuration, number of steps and random stream", "why_tests_cant": "Unbounded number of steps and arbitrary event sequences.", "anchors": ["src/PROPOSAL/detail/PROPOSAL/Propagator.cxx: Propagator::Propagate", "src/PROPOSAL/detail/PROPOSAL/Secondaries.cxx: Secondaries::push_back"]}
{"id": "C07", "title": "Propagation stops only for a documented reason", "statement": "If Propagate returns, then the last step reached the minimal energy, a decay, the maximal distance, a stochastic loss that brought the energy to or below the minimal energy, or a sector border crossing from above to below the hierarchy condition; and none of these happened in an earlier step.", "quantifier": "every configuration, number of steps and random stream", "why_tests_cant": "Needs all event sequences, not sampled ones.", "anchors": ["src/PROPOSAL/detail/PROPOSAL/Propagator.cxx: Propagator::Propagate"]}
{"id": "C08", "title": "Energy book-keeping of the track telescopes", "statement": "The sum of all continuous losses plus all stochastic losses reported for a track equals the initial energy minus the final energy (a decay row carries no loss).", "quantifier": "every track produced by Propagate (any length)", "why_tests_cant": "Induction over arbitrarily long tracks.", "anchors": ["src/PROPOSAL/detail/PROPOSAL/Secondaries.cxx: GetStochasticLosses, GetContinuousLosses"]}
{"id": "C09", "title": "Loss filters agree with each other", "statement": "Filtering stochastic losses by interaction type or by geometry returns exactly the sublist (same order, same content) of the unfiltered stochastic losses, and continuous, stochastic and decay entries partition the track after its first entry.", "quantifier": "every track, every interaction type, every geometry", "why_tests_cant": "Universal over tracks and predicates.", "anchors": ["src/PROPOSAL/detail/PROPOSAL/Secondaries.cxx: GetStochasticLosses overloads, GetContinuousLosses overloads"]}
{"id": "C10", "title": "Stochastic loss selection is proportional to rates", "statement": "Given per-process and per-target rates, SampleLoss with random number r in [0,1) selects target k exactly when r times the total rate falls into the k-th slot of the cumulated rates, hence with probability rate_k/total; the relative loss is then sampled with the residual rate, which lies in the half-open range of that slot; it never runs off the list; a total rate of zero gives the undefined loss.", "quantifier": "every list of rates (non-negative), every r in [0,1)", "why_tests_cant": "Universal over list lengths and real rates; boundary behaviour has measure zero and is never hit by random tests.", "anchors": ["src/PROPOSAL/detail/PROPOSAL/propagation_utility/Interaction.cxx: Interaction::SampleLoss, Rates, MeanFreePath"]}
{"id": "C11", "title": "Mean free path is the reciprocal of the summed rates", "statement": "MeanFreePath(E) times the sum over all processes and targets of the interaction rates equals one whenever the sum is positive.", "quantifier": "every set of cross sections and energy", "why_tests_cant": "Universal over lists of cross sections.", "anchors": ["src/PROPOSAL/detail/PROPOSAL/propagation_utility/Interaction.cxx: Interaction::MeanFreePath"]}
{"id": "C12", "title": "Energy cut respects both limits and the kinematic range", "statement": "The effective stochastic cut at energy E is min(ecut/E, vcut) clamped into [v_min, v_max]; the constructor rejects negative ecut and vcut outside (0,1]; increasing ecut or vcut never lowers the effective cut, so energy is moved monotonically from stochastic to continuous treatment.", "quantifier": "every ecut, vcut, energy and kinematic limits", "why_tests_cant": "Real-valued inputs and boundary cases.", "anchors": ["src/PROPOSAL/detail/PROPOSAL/EnergyCutSettings.cxx: EnergyCutSettings::EnergyCutSettings, GetCut"]}
{"id": "C13", "title": "Loss-variable transforms used for interpolation tables are mutually inverse", "statement": "The (linear-exponent and logarithmic) transforms between a relative loss in [v_cut, v_max] and the unit interval are inverse to each other, strictly increasing, and hit the end points.", "quantifier": "all 0 < v_cut < v_max, all v in the interval and all unit-interval values, both exponents", "why_tests_cant": "Real-analytic identities over a continuum.", "anchors": ["src/PROPOSAL/PROPOSAL/crosssection/CrossSectionDNDX/CrossSectionDNDXInterpolant.h: transform_relative_loss, retransform_relative_loss", "src/PROPOSAL/detail/PROPOSAL/crosssection/CrossSectionDNDX/CrossSectionDNDXInterpolant.cxx"]}
{"id": "C14", "title": "Total cross section is the sum over the medium's components", "statement": "The total interaction rate reported for a medium equals the sum of the per-component rates over all components of the medium, and likewise for the mean energy loss.", "quantifier": "every medium (list of components), every energy", "why_tests_cant": "Depends on hash collisions/duplicates of components in arbitrary media.", "anchors": ["src/PROPOSAL/PROPOSAL/crosssection/CrossSection.h: CalculatedNdx, CalculatedEdx, build_dndx", "src/PROPOSAL/detail/PROPOSAL/crosssection/CrossSection.cxx"]}
{"id": "C15", "title": "Stochastic losses never push the particle below its rest mass", "statement": "For every process whose kinematic limits are clamped, v_min <= v_max always holds, and for bremsstrahlung, ionization, muon pair production the maximal relative loss leaves at least the rest mass: E(1-v_max) >= m.", "quantifier": "every particle mass, nuclear charge and energy above threshold", "why_tests_cant": "Inequalities over a continuum of energies, masses and charges.", "anchors": ["src/PROPOSAL/detail/PROPOSAL/crosssection/parametrization/*.cxx: GetKinematicLimits"]}
{"id": "C16", "title": "A cross section multiplier scales consistently", "statement": "Wrapping a cross section with multiplier k scales its rates and mean losses by k and samples, for the scaled rate, the same relative loss the original gives for the unscaled rate.", "quantifier": "every cross section, every non-zero k, energy and rate", "why_tests_cant": "Universal over wrapped behaviours.", "anchors": ["src/PROPOSAL/PROPOSAL/crosssection/CrossSectionMultiplier.h"]}
{"id": "C17", "title": "Sphere: distances are the true ray/surface intersections", "statement": "For a sphere (solid or hollow) DistanceToBorder returns the ordered positive intersection parameters of the ray with the surfaces according to the documented convention: inside gives (d,-1), in front gives (d1,d2) with d1<=d2, otherwise (-1,-1); every returned non-negative distance puts the point on one of the two spherical surfaces.", "quantifier": "every radius pair, position, unit direction", "why_tests_cant": "Continuous geometry with degenerate tangential cases.", "anchors": ["src/PROPOSAL/detail/PROPOSAL/geometry/Sphere.cxx: Sphere::DistanceToBorder"]}
{"id": "C18", "title": "Box: distances are the true ray/surface intersections", "statement": "For a box DistanceToBorder follows the documented convention: a point strictly inside yields (d,-1) with the exit point on a face; a point outside whose ray hits the box yields entry and exit distances.", "quantifier": "every box, position, direction", "why_tests_cant": "Rays through edges and corners are measure-zero and never hit by random tests.", "anchors": ["src/PROPOSAL/detail/PROPOSAL/geometry/Box.cxx: Box::DistanceToBorder"]}
{"id": "C19", "title": "Cylinder: distances are the true ray/surface intersections", "statement": "For a cylinder DistanceToBorder follows the documented convention and each returned non-negative distance puts the point on the barrel or on a cap.", "quantifier": "every cylinder, position, direction", "why_tests_cant": "Degenerate (axis-parallel, rim) rays are measure zero.", "anchors": ["src/PROPOSAL/detail/PROPOSAL/geometry/Cylinder.cxx: Cylinder::DistanceToBorder"]}
{"id": "C20", "title": "Inside / in front / behind partition all rays", "statement": "For every geometry, position and direction exactly one of IsInside, IsInfront, IsBehind holds and GetLocation reports it.", "quantifier": "every geometry result pair", "why_tests_cant": "Universal over real pairs incl. sentinels.", "anchors": ["src/PROPOSAL/detail/PROPOSAL/geometry/Geometry.cxx: IsInside, IsInfront, IsBehind, GetLocation"]}
{"id": "C21", "title": "Homogeneous and exponential densities: distance and grammage conversions are inverse", "statement": "For a homogeneous medium and for an exponential atmosphere, converting a distance to grammage and back returns the distance, grammage equals the line integral of the density and is additive along the ray.", "quantifier": "every axis, position, direction, positive density parameters, distance", "why_tests_cant": "Real-analytic identities over a continuum.", "anchors": ["src/PROPOSAL/detail/PROPOSAL/density_distr/density_homogeneous.cxx", "src/PROPOSAL/detail/PROPOSAL/density_distr/density_exponential.cxx", "src/PROPOSAL/detail/PROPOSAL/density_distr/density_distr.cxx"]}
{"id": "C22", "title": "Polynomial density: grammage is the line integral of the density", "statement": "For a polynomial mass density the grammage returned by Calculate equals the line integral of Evaluate along the ray.", "quantifier": "every polynomial, axis, position, direction and distance", "why_tests_cant": "The error vanishes exactly for the axis-parallel rays that tests use.", "anchors": ["src/PROPOSAL/detail/PROPOSAL/density_distr/density_polynomial.cxx: Integrate, Calculate", "src/PROPOSAL/detail/PROPOSAL/density_distr/density_splines.cxx"]}
{"id": "C23", "title": "Radial density axis measures distance from its centre", "statement": "The depth of a point on a radial axis is its distance from the axis origin and the effective distance is the derivative of that depth along the ray.", "quantifier": "every reference point, position, unit direction", "why_tests_cant": "Sign errors are invisible on a single symmetric sample.", "anchors": ["src/PROPOSAL/detail/PROPOSAL/density_distr/density_distr.cxx: RadialAxis::GetDepth, GetEffectiveDistance"]}
{"id": "C24", "title": "Polynomial algebra", "statement": "Polynom evaluation equals the coefficient sum; GetDerivative and GetAntiderivative return the exact derivative/antiderivative with the requested constant; shift(a) yields the polynomial translated by a.", "quantifier": "every coefficient list, every point, every shift", "why_tests_cant": "Unbounded degree.", "anchors": ["src/PROPOSAL/detail/PROPOSAL/math/Function.cxx: Polynom"]}
{"id": "C25", "title": "Copies of polynomials and splines are independent values", "statement": "Copying a Polynom and modifying the copy leaves the original unchanged.", "quantifier": "every history of copy and shift operations", "why_tests_cant": "Aliasing needs the history of operations.", "anchors": ["src/PROPOSAL/detail/PROPOSAL/math/Function.cxx: Polynom copy/shift"]}
{"id": "C26", "title": "Splines interpolate their nodes", "statement": "Linear and cubic splines evaluate to y_i at x_i; the cubic spline is twice continuously differentiable with natural end conditions; the antiderivative is continuous, has the requested start value and differentiates back to the spline.", "quantifier": "every strictly increasing node list and every value list", "why_tests_cant": "Unbounded number of nodes, real values.", "anchors": ["src/PROPOSAL/detail/PROPOSAL/math/Spline.cxx"]}
{"id": "C27", "title": "Newton-Raphson and bisection keep the root bracketed", "statement": "The root search never leaves the initial bracket, the sign change is maintained, it rejects brackets without a sign change and ends within the given number of steps; the bisection bracket halves at every step.", "quantifier": "every continuous function, bracket, precision and step count", "why_tests_cant": "Universal over functions.", "anchors": ["src/PROPOSAL/detail/PROPOSAL/math/MathMethods.cxx: NewtonRaphson", "src/PROPOSAL/PROPOSAL/math/MathMethods.h: Bisection"]}
{"id": "C28", "title": "Streaming mean/variance equals the batch formulas", "statement": "After feeding any sequence of samples the online (Welford) estimator holds the exact mean and the exact sample variance.", "quantifier": "every sequence of samples of any length", "why_tests_cant": "Induction over arbitrary sequences.", "anchors": ["src/PROPOSAL/PROPOSAL/math/MathMethods.h: welfords_online_algorithm"]}
{"id": "C29", "title": "Deflecting a direction preserves its length and realises the requested angle", "statement": "deflect(cos phi, theta) maps a unit vector to a unit vector whose scalar product with the original equals cos phi, for every azimuth.", "quantifier": "every unit vector, every cosine in [-1,1], every azimuth", "why_tests_cant": "Continuum incl. the pole direction special case.", "anchors": ["src/PROPOSAL/detail/PROPOSAL/math/Cartesian3D.cxx: Cartesian3D::deflect"]}
{"id": "C30", "title": "Cartesian and spherical coordinates round-trip", "statement": "Converting a cartesian vector to spherical coordinates and back is the identity, incl. the zero vector and the poles.", "quantifier": "every vector", "why_tests_cant": "Continuum incl. branch cuts of atan2.", "anchors": ["src/PROPOSAL/detail/PROPOSAL/math/Cartesian3D.cxx", "src/PROPOSAL/detail/PROPOSAL/math/Spherical3D.cxx"]}
{"id": "C31", "title": "Decay channel selection is proportional to branching ratios", "statement": "SelectChannel(r) for r in [0,1) returns the channel whose slot of the cumulated branching ratios contains r times their sum; every channel that was added is selectable with probability br/sum.", "quantifier": "every sequence of added channels, every r", "why_tests_cant": "Equal branching ratios and the upper boundary are special.", "anchors": ["src/PROPOSAL/detail/PROPOSAL/decay/DecayTable.cxx"]}
{"id": "C32", "title": "Two-body decay conserves energy and momentum", "statement": "The energies and momenta of the two decay products sum to the energy and momentum of the decaying particle in the laboratory frame and each product is on its mass shell.", "quantifier": "every parent momentum, masses M >= m1+m2, random direction", "why_tests_cant": "Continuum of kinematics.", "anchors": ["src/PROPOSAL/detail/PROPOSAL/decay/TwoBodyPhaseSpace.cxx", "src/PROPOSAL/detail/PROPOSAL/decay/DecayChannel.cxx: Boost, Momentum"]}
{"id": "C33", "title": "Many-body decay conserves energy and momentum", "statement": "The energies and momenta of n >= 2 decay products sum to those of the parent for every n and every set of intermediate virtual masses.", "quantifier": "every n, every mass list below threshold, all random numbers", "why_tests_cant": "Unbounded number of daughters; induction over the decay chain.", "anchors": ["src/PROPOSAL/detail/PROPOSAL/decay/ManyBodyPhaseSpace.cxx"]}
{"id": "C34", "title": "Leptonic three-body decay conserves energy and momentum", "statement": "Charged lepton plus two neutrinos carry the parent's energy and momentum, and the lepton is at or above its rest mass.", "quantifier": "every parent energy, every sampled root in the allowed range, all directions", "why_tests_cant": "Continuum of kinematics.", "anchors": ["src/PROPOSAL/detail/PROPOSAL/decay/LeptonicDecayChannel.cxx"]}
{"id": "C35", "title": "Particle registry is consistent", "statement": "A particle type registered twice with the same definition keeps that definition; registering a different definition under a used type throws and leaves the registry unchanged; lookup returns what was registered first.", "quantifier": "every sequence of registrations", "why_tests_cant": "Arbitrary histories of global state.", "anchors": ["src/PROPOSAL/detail/PROPOSAL/particle/ParticleDef.cxx", "src/PROPOSAL/PROPOSAL/particle/ParticleDef.h"]}
{"id": "C36", "title": "Energy and momentum of a particle state agree", "statement": "Setting a momentum and reading it back is the identity and energy^2 = momentum^2 + mass^2 holds afterwards.", "quantifier": "every mass and momentum >= 0", "why_tests_cant": "Continuum.", "anchors": ["src/PROPOSAL/detail/PROPOSAL/particle/Particle.cxx: ParticleState::SetMomentum, GetMomentum"]}
{"id": "C37", "title": "Multiple scattering returns unit directions", "statement": "For a unit input direction and scattering offsets with sx^2+sy^2 <= 1 and tx^2+ty^2 <= 1 both the mean and the final direction are unit vectors; with zero offsets both equal the input direction.", "quantifier": "every direction, every offset", "why_tests_cant": "Large sampled angles are rare.", "anchors": ["src/PROPOSAL/detail/PROPOSAL/scattering/multiple_scattering/Parametrization.cxx: ScatterInitialDirection"]}
{"id": "C38", "title": "Secondary particles conserve energy and momentum", "statement": "Ionization, Compton scattering and annihilation secondaries conserve total energy and total momentum exactly (target electron at rest); pair production, bremsstrahlung, photonuclear and weak secondaries carry exactly the lost energy; pair partners never fall below the electron rest mass.", "quantifier": "every energy, loss, rho, azimuth", "why_tests_cant": "Continuum of kinematics.", "anchors": ["src/PROPOSAL/detail/PROPOSAL/secondaries/parametrization/*", "src/PROPOSAL/PROPOSAL/secondaries/parametrization/*"]}
{"id": "C39", "title": "Integrals are antisymmetric and degenerate ranges vanish", "statement": "Integrate(a,b)= -Integrate(b,a) for every method and the integral over an empty range is zero.", "quantifier": "every integrand, limits and method", "why_tests_cant": "Universal over integrands.", "anchors": ["src/PROPOSAL/detail/PROPOSAL/math/Integral.cxx: Integral::Integrate"]}
{"id": "C40", "title": "Open quadrature refinement equals the composite midpoint rule", "statement": "Refining the open trapezoid rule from k to 3k nodes gives exactly the 3k-node composite midpoint sum, so no node is double counted or skipped.", "quantifier": "every integrand, limits and refinement depth", "why_tests_cant": "Unbounded refinement depth.", "anchors": ["src/PROPOSAL/detail/PROPOSAL/math/Integral.cxx: Trapezoid3, Romberg"]}
{"id": "C41", "title": "Romberg buffers are never overrun", "statement": "Integration never writes past its internal extrapolation buffers.", "quantifier": "every constructor argument combination and integrand", "why_tests_cant": "Only configurations with few steps overflow.", "anchors": ["src/PROPOSAL/detail/PROPOSAL/math/Integral.cxx: Integral::Integral, RombergIntegrateClosed, RombergIntegrateOpened"]}
{"id": "C42", "title": "Displacement, time and decay utilities are additive", "statement": "The accumulated grammage (and exact time) from E1 to E3 equals that from E1 to E2 plus that from E2 to E3, is zero for equal energies and inverts the energy after a given grammage.", "quantifier": "every positive energy-loss function, every energies", "why_tests_cant": "Real-analytic over all loss functions.", "anchors": ["src/PROPOSAL/detail/PROPOSAL/propagation_utility/Displacement.cxx", "src/PROPOSAL/detail/PROPOSAL/propagation_utility/PropagationUtilityIntegral.cxx", "src/PROPOSAL/detail/PROPOSAL/propagation_utility/PropagationUtilityInterpolant.cxx"]}
{"id": "C43", "title": "GetStateForDistance returns the state at the requested distance", "statement": "Asking a track for the state at propagated distance x returns the first state for x before the start, the last state for x beyond the end, and otherwise a state whose propagated distance is x, lying on the straight line between the two neighbouring track points, with the energy left after the grammage of that partial way.", "quantifier": "every track whose distance counter measures the way between its points, every x", "why_tests_cant": "Ranges over all tracks and all real x, including x exactly at track points and zero-length stochastic steps.", "anchors": ["src/PROPOSAL/detail/PROPOSAL/Secondaries.cxx: Secondaries::GetStateForDistance, RePropagateDistance"]}
{"id": "C44", "title": "GetStateForEnergy returns the state with the requested energy", "statement": "Asking a track for the state at energy e returns the first state if e is at or above the initial energy, the last state if e is never undercut, the state before a stochastic loss that jumps over e, and otherwise a state with energy exactly e displaced along the step by the distance that corresponds to the energy lost.", "quantifier": "every track, every e", "why_tests_cant": "All tracks and all real e, including energies inside stochastic jumps.", "anchors": ["src/PROPOSAL/detail/PROPOSAL/Secondaries.cxx: Secondaries::GetStateForEnergy, RePropagateEnergy"]}
{"id": "C45", "title": "Entry and exit points lie on the border of the geometry", "statement": "The entry (exit) point of a track with respect to a geometry is on the surface of the geometry within the position resolution, belongs to the first (last) step that crosses the border, and the energy lost inside is the difference of the energies of the two points; the query is defined for every track.", "quantifier": "every track, every sphere, box or cylinder", "why_tests_cant": "All tracks against all geometries, including tracks that start, end or lie completely inside.", "anchors": ["src/PROPOSAL/detail/PROPOSAL/Secondaries.cxx: Secondaries::GetEntryPoint, GetExitPoint, GetELost"]}
{"id": "C46", "title": "HitGeometry answers whether the track passes through the geometry", "statement": "HitGeometry is true exactly if some point of the track polyline lies inside of the geometry.", "quantifier": "every track, every geometry", "why_tests_cant": "Universally quantified over polylines and bodies.", "anchors": ["src/PROPOSAL/detail/PROPOSAL/Secondaries.cxx: Secondaries::HitGeometry"]}
{"id": "C47", "title": "Closest approach is the minimum over the track", "statement": "The closest approach point minimises, up to the position resolution, the distance to the centre of the geometry over all points of the track.", "quantifier": "every track, every geometry", "why_tests_cant": "A minimum over a continuum of points for all tracks.", "anchors": ["src/PROPOSAL/detail/PROPOSAL/Secondaries.cxx: Secondaries::GetClosestApproachPoint"]}
{"id": "C48", "title": "Interpolated states carry the time of the propagation", "statement": "The time of a state queried between two track points is the time the propagation itself would have assigned to that point of the step.", "quantifier": "every track, density and clock", "why_tests_cant": "Only visible with the approximate clock in media whose density differs from one.", "anchors": ["src/PROPOSAL/detail/PROPOSAL/Secondaries.cxx: RePropagateDistance, RePropagateEnergy", "src/PROPOSAL/detail/PROPOSAL/propagation_utility/TimeBuilder.cxx: ApproximateTimeBuilder::TimeElapsed"]}
{"id": "C49", "title": "Polynomial and spline densities: grammage to distance inverts distance to grammage", "statement": "Correct returns, within the border distance, the distance at which Calculate yields the given grammage, and throws exactly if the grammage is not reached before the border.", "quantifier": "every polynomial or spline profile, axis, ray, grammage and border distance", "why_tests_cant": "A root search over a continuum of profiles; the failing case needs the root to coincide with the first guess.", "anchors": ["src/PROPOSAL/detail/PROPOSAL/density_distr/density_polynomial.cxx: Correct, helper_function", "src/PROPOSAL/detail/PROPOSAL/density_distr/density_splines.cxx: Correct"]}
{"id": "C50", "title": "Density distributions that compare equal behave equally", "statement": "operator== on density distributions returns true only for distributions with the same density everywhere, and true for distributions built from the same data.", "quantifier": "every pair of density objects", "why_tests_cant": "A statement about all pairs; tests compare few examples.", "anchors": ["src/PROPOSAL/detail/PROPOSAL/density_distr/density_distr.cxx: Density_distr::operator==, Axis::operator==", "src/PROPOSAL/detail/PROPOSAL/density_distr/density_splines.cxx: compare"]}
{"id": "C51", "title": "Copies of density distributions own their data", "statement": "Any program that only uses existing density objects, copies and destroys each object once never frees memory twice or reads freed memory.", "quantifier": "every sequence of constructions, copies, uses and destructions", "why_tests_cant": "Quantifies over all histories; a double free need not crash a test.", "anchors": ["src/PROPOSAL/PROPOSAL/density_distr/density_splines.h: ~Density_splines, clone", "src/PROPOSAL/detail/PROPOSAL/density_distr/density_splines.cxx: copy constructor", "src/PROPOSAL/detail/PROPOSAL/density_distr/density_distr.cxx: copy constructor"]}
{"id": "C52", "title": "Many-body rejection sampling uses a valid weight bound", "statement": "For every list of at least two daughters at or above threshold, the normalisation and the estimated maximal weight exist, and every phase-space point that can be drawn has a weight between zero and that maximum, so that accepting with probability weight/maximum is a correct rejection sampling.", "quantifier": "every list of daughter masses, parent mass, all random numbers", "why_tests_cant": "The bound must hold for all points of a phase space of any dimension.", "anchors": ["src/PROPOSAL/detail/PROPOSAL/decay/ManyBodyPhaseSpace.cxx: EstimateMaxWeight, CalculateKinematics, CalculateNormalization"]}
{"id": "C53", "title": "Decays of the predefined particles conserve energy, momentum and charge", "statement": "For every predefined particle with a finite lifetime, at any energy, the secondaries produced by its decay are those of one channel of its decay table, are on their mass shells, and carry its energy, momentum and charge.", "quantifier": "every predefined unstable particle, energy, direction, random sequence, history of the registry", "why_tests_cant": "Combines table selection, registry and three kinds of kinematics over a continuum.", "anchors": ["src/PROPOSAL/detail/PROPOSAL/Secondaries.cxx: decay in the propagator", "src/PROPOSAL/detail/PROPOSAL/decay/DecayTable.cxx", "src/PROPOSAL/detail/PROPOSAL/particle/ParticleDef.cxx"]}
{"id": "C54", "title": "The secondaries calculator dispatches on the interaction type and asks for enough random numbers", "statement": "CalculateSecondaries uses the calculator registered last for the interaction type of the loss. The products depend only on the first RequiredRandomNumbers random numbers, and with at least that many nothing is read past the end of the list. A type without a calculator is reported by an exception.", "quantifier": "all registries of calculators, losses, targets and lists of random numbers", "why_tests_cant": "reading one random number too many is silent in most runs, and the set of registered types differs from run to run", "anchors": ["src/PROPOSAL/PROPOSAL/secondaries/SecondariesCalculator.h", "src/PROPOSAL/detail/PROPOSAL/secondaries/SecondariesCalculator.cxx: CalculateSecondaries", "src/PROPOSAL/PROPOSAL/secondaries/parametrization/*: n_rnd"]}
{"id": "C55", "title": "Random numbers consumed by one propagation step", "statement": "If the random generator never returns -1, one step of Propagate in a sector with multiple scattering takes a whole number of blocks of four consecutive random numbers; the flight direction and the new direction of the particle both come from the multiple scattering evaluated on the four numbers of the last block, in the order drawn, no matter how often the step was retried. Continuous randomisation in the same step draws no further number: it reuses the first number of that block, so scattering offset and energy fluctuation of one step are not independent.", "quantifier": "every sector configuration, particle state, random stream without the sentinel value, number of retries and way the step ends", "why_tests_cant": "Whether numbers are reused depends on how many times a step is retried and on the parameters of every retry; tests only see distributions or single seeds.", "anchors": ["src/PROPOSAL/detail/PROPOSAL/Propagator.cxx:AdvanceParticle", "src/PROPOSAL/detail/PROPOSAL/propagation_utility/PropagationUtility.cxx:DirectionsScatter", "src/PROPOSAL/detail/PROPOSAL/propagation_utility/PropagationUtility.cxx:EnergyRandomize"]}
{"id": "C56", "title": "Values of numerical integrals", "statement": "Integrate with the closed rule, the open rule, the logarithmic variable or a power substitution returns the extrapolation to zero cell width of consecutive composite sums of the integrand over exactly the requested range (or the result of the adaptive fallback), accepted only if one point fewer changes it by less than the precision. Polynomials (for the logarithmic method: polynomials of the logarithm divided by the argument) with at most twice as many coefficients as extrapolation points are integrated without any error. The value does not depend on random numbers left behind by earlier calls on the same object.", "quantifier": "every integrand, limits, precision, number of extrapolation points and history of the integration object", "why_tests_cant": "Tests compare a few functions within a tolerance; a wrong node or weight can hide below it, and the dependence on earlier calls needs all histories.", "anchors": ["src/PROPOSAL/detail/PROPOSAL/math/Integral.cxx: Integrate, RombergIntegrateClosed, RombergIntegrateOpened, Interpolate, Trapezoid, Trapezoid3"]}
{"id": "C57", "title": "Upper limits of partial integrals stay in the range", "statement": "After IntegrateWithRandomRatio, GetUpperLimit returns a place between the two limits of the integration, for a ratio that is non-negative or a negative one whose absolute value is smaller than the integral.", "quantifier": "every integrand, limits, ratio, substitution power and object history", "why_tests_cant": "Root refinement uses a bracketed Newton method with data-dependent path; only a proof covers all integrands.", "anchors": ["src/PROPOSAL/detail/PROPOSAL/math/Integral.cxx: IntegrateWithRandomRatio, GetUpperLimit, RefineUpperLimit"]}
{"id": "C58", "title": "Sampled interaction and decay energies stay in range", "statement": "The energy of the next interaction or decay that is sampled for a particle lies between the lower energy limit and the current energy, for every random number; with a table it is the energy at which minus the logarithm of the random number has been accumulated, or the lower limit if there is none. The lower limit is the lowest one of the cross sections.", "quantifier": "every table and every loss function, every energy, every random number in [0,1], every history of calls", "why_tests_cant": "Samples cover neither all random numbers nor the tables for which Newton-Raphson fails and the bisection takes over.", "anchors": ["src/PROPOSAL/detail/PROPOSAL/propagation_utility/InteractionBuilder.cxx:EnergyInteraction", "src/PROPOSAL/detail/PROPOSAL/propagation_utility/DecayBuilder.cxx:EnergyDecay", "src/PROPOSAL/detail/PROPOSAL/propagation_utility/PropagationUtilityInterpolant.cxx:GetUpperLimit", "src/PROPOSAL/PROPOSAL/propagation_utility/Displacement.h"]}
{"id": "C59", "title": "Continuous randomization stays in range", "statement": "The randomized energy after a continuous loss lies between the larger of the lower limit and the requested minimum, and the initial energy; without variance it is the unrandomized energy. Continuous randomization can be constructed exactly if a cross section has an energy cut with it enabled.", "quantifier": "every calculator, every energies and random number, every list of cross sections", "why_tests_cant": "The extreme random numbers and variances are not sampled.", "anchors": ["src/PROPOSAL/PROPOSAL/propagation_utility/ContRandBuilder.h:EnergyRandomize", "src/PROPOSAL/detail/PROPOSAL/math/MathMethods.cxx:SampleFromGaussian", "src/PROPOSAL/detail/PROPOSAL/propagation_utility/ContRand.cxx"]}
{"id": "C60", "title": "Deflection by a stochastic loss", "statement": "For every loss a sampled interaction can have, the calculators for stochastic deflections return a zenith and an azimuth: the zenith is not negative, the azimuth is 2 pi times the last random number, and the zenith has the distribution of the parametrization (Tsai: the spectrum u du/(1+u^2)^2 below the largest angle; Van Ginneken: squares of the angles distributed exponentially around the mean angle of the parametrization; ionization: the angle of an elastic collision with an electron at rest; Borog-Petrukhin: the spectrum of momentum transfers between its limits). The announced count of random numbers suffices, no other numbers are used and fewer never give an angle. A scattering object asks the last calculator registered for the type of the loss and multiplies its zenith by the factor for that type.", "quantifier": "all particle masses, energies before and after the loss within the kinematic limits, random numbers, lists of calculators and of factors", "why_tests_cant": "the angle is the inverse of a distribution function with branches that meet at energy-dependent points; tests sample a few energies and cannot see a loss for which the calculator returns NaN or throws", "anchors": ["src/PROPOSAL/detail/PROPOSAL/scattering/stochastic_deflection", "src/PROPOSAL/PROPOSAL/scattering/Scattering.h", "src/PROPOSAL/PROPOSAL/scattering/ScatteringMultiplier.h"]}
{"id": "C61", "title": "Multiple scattering is symmetric, grows with the matter crossed, and does not depend on earlier calls", "statement": "Every random number between 0 and 1 gives a number of standard deviations, and r and 1 - r give opposite ones. Highland's width follows the formula of Lynch and Dahl cut at zero, vanishes without matter and never shrinks with more matter or less energy; every four random numbers give a scattering and the opposite numbers give the opposite one. HighlandIntegral's width lies between 0 and 1. Moliere's reduced angle solves B - ln B = b for every component whenever the object scatters, nothing is deflected without matter, the density of the angle is the derivative of its share, opposite random numbers give opposite scatterings, and what a call returns does not depend on the calls before. Equal objects scatter equally and unused and used objects with the same parameters are equal.", "quantifier": "all masses, charges, media of components with positive charge, mass and number, all thicknesses, energies above the mass, random numbers, and all histories of calls on one object", "why_tests_cant": "The numbers, thicknesses, energies and media are unbounded, the equation for the reduced angle has no solution in a small range of thicknesses a test would have to hit, and independence of earlier calls is a statement about all histories.", "anchors": ["src/PROPOSAL/detail/PROPOSAL/scattering/multiple_scattering/Highland.cxx", "src/PROPOSAL/detail/PROPOSAL/scattering/multiple_scattering/Moliere.cxx", "src/PROPOSAL/PROPOSAL/scattering/multiple_scattering/HighlandIntegral.h", "src/PROPOSAL/detail/PROPOSAL/math/MathMethods.cxx:normalppf"]}
{"id": "C62", "title": "The continuous and the sampled losses share out one mean loss", "statement": "For a cross section and an energy cut, the continuous loss per distance (all losses below the cut) plus the mean of the losses that are sampled one by one (all losses above the cut) is the mean loss of the process. So moving the cut moves the losses between the old and the new cut from one part to the other and changes nothing else; a larger cut never gives a smaller continuous loss. The same holds for the second moment used by continuous randomization. For integrals that are computed numerically the sum differs from the mean by the error of the integral times the energy.", "quantifier": "all energies, media with a positive ionization potential, pairs of accepted cuts, differential cross sections with an integrable v times dsigma/dv, and all errors of the numerical integral", "why_tests_cant": "The claim relates the results for every pair of cuts at every energy; tests compare single tabulated numbers for a few cuts and cannot show that formulas for the restricted loss have the sampled cross section as their derivative.", "anchors": ["src/PROPOSAL/detail/PROPOSAL/crosssection/CrossSectionDEDX/CrossSectionDEDXIntegral.cxx", "src/PROPOSAL/detail/PROPOSAL/crosssection/CrossSectionDE2DX/CrossSectionDE2DXIntegral.cxx", "src/PROPOSAL/detail/PROPOSAL/crosssection/CrossSectionDNDX/CrossSectionDNDXIntegral.cxx", "src/PROPOSAL/detail/PROPOSAL/crosssection/parametrization/Ionization.cxx: IonizBetheBlochRossi, IonizBergerSeltzerBhabha, IonizBergerSeltzerMoller", "src/PROPOSAL/detail/PROPOSAL/EnergyCutSettings.cxx"]}
{"id": "C63", "title": "Differential cross sections are numbers and never negative", "statement": "For every particle, element and energy, and every relative loss within the kinematic limits that the parametrization itself reports, the differential cross section is a finite number and not negative, so rates, means and the distribution from which losses are sampled make sense. Compton scattering follows the Klein-Nishina formula at the angle that belongs to the loss; the rate of annihilation is the integral of the distribution from which the photons are sampled.", "quantifier": "all masses from the one of the electron on, all non-zero charges, elements (1 <= Z <= 100, Z <= A <= 3 Z), energies, and losses in the kinematic limits", "why_tests_cant": "The sign depends on the loss, the energy, the mass and the element at once; tests compare a table of values and skip the edges of the limits, where the logarithms change sign.", "anchors": ["src/PROPOSAL/detail/PROPOSAL/crosssection/parametrization/Bremsstrahlung.cxx: CalculateParametrization, DifferentialCrossSection, GetKinematicLimits", "src/PROPOSAL/detail/PROPOSAL/crosssection/parametrization/Compton.cxx: ComptonKleinNishina", "src/PROPOSAL/detail/PROPOSAL/crosssection/parametrization/Annihilation.cxx: AnnihilationHeitler", "src/PROPOSAL/detail/PROPOSAL/crosssection/parametrization/Ionization.cxx: DifferentialCrossSection", "src/PROPOSAL/detail/PROPOSAL/medium/Components.cxx: SetLogConstant, SetBPrime"]}
{"id": "C64", "title": "The Landau-Pomeranchuk-Migdal effect only suppresses", "statement": "With the LPM effect switched on, the cross section of bremsstrahlung and of pair production by photons is the unsuppressed one times a factor that is a number greater than zero and not greater than one.", "quantifier": "all masses from the one of the electron on, elements, media, densities, energies and shares of the energy strictly between zero and one", "why_tests_cant": "The factor is assembled from piecewise approximations of three functions whose pieces meet at points that depend on the element, the medium and the density; tests look at a few energies far above the onset.", "anchors": ["src/PROPOSAL/detail/PROPOSAL/crosssection/parametrization/Bremsstrahlung.cxx: BremsLPM::suppression_factor", "src/PROPOSAL/detail/PROPOSAL/crosssection/parametrization/PhotoPairProduction.cxx: PhotoPairLPM::suppression_factor"]}
{"id": "C65", "title": "The particles of a pair made by a photon are exchangeable", "statement": "The differential cross section for a photon to make a pair of an electron and a positron, or of two muons, in which one particle gets the share x of the energy is the same as for the share 1 - x, and the kinematic limits are exchanged by it.", "quantifier": "all elements, energies and shares within the kinematic limits", "why_tests_cant": "It is a relation between two values of a function at every point; tests compare single values with a table that was produced by the same code.", "anchors": ["src/PROPOSAL/detail/PROPOSAL/crosssection/parametrization/PhotoPairProduction.cxx: PhotoPairKochMotz, PhotoPairTsai, PhotoPairLPM", "src/PROPOSAL/detail/PROPOSAL/crosssection/parametrization/PhotoMuPairProduction.cxx: PhotoMuPairBurkhardtKelnerKokoulin"]}
{"id": "C66", "title": "Photoproduction sets in exactly where a pion can be made", "statement": "The cross section of a photon and a nucleus is a number; it is positive exactly when photon and nucleon have the energy for a nucleon and a pion in their centre of mass, and zero below. The cross section of the atom is positive, at least a quarter of the sum over its nucleons and at most the sum, which it reaches for hydrogen only. The rate in a medium is the sum over the atoms in a gram, positive from the reported lower energy limit on and zero below.", "quantifier": "all elements, media made of elements, and energies; the parametrizations Zeus, Bezrukov-Bugaev, Caldwell, Kokoulin, Rhode and Heck, both ways of shadowing", "why_tests_cant": "The threshold is compared in five places in different units, the parametrizations are switched at several energies, and the shadowing factor is a difference of large terms divided by a cube; tests look at tabulated energies above a GeV.", "anchors": ["src/PROPOSAL/detail/PROPOSAL/crosssection/parametrization/Photoproduction.cxx: GetCutOff, GetLowerEnergyLim, PhotonNucleonCrossSection, PhotonAtomCrossSection, ShadowingFactor, CalculatedNdx", "src/PROPOSAL/detail/PROPOSAL/crosssection/parametrization/PhotoRealPhotonAssumption.cxx: DifferentialCrossSection"]}
{"id": "C67", "title": "What a medium does follows from its elements and their ratios", "statement": "The sums that a medium derives from its components (charge and nucleons of a molecule, their ratio, the density of molecules, the mean nucleon mass, the radiation length) are the averages over its atoms; the inverse radiation length follows Bragg's rule. Writing the same substance with another multiple of its formula, another order of components, or an element in two entries changes none of the intensive numbers, and no rate, continuous loss, suppression factor or scattering angle.", "quantifier": "all media made of elements with positive numbers of atoms, all factors between two formulas of the same substance, all densities, energies and losses", "why_tests_cant": "Tests compare numbers of the predefined media, each written in one way; the independence of the way a substance is written relates two different runs, and the number of atoms enters in many places.", "anchors": ["src/PROPOSAL/detail/PROPOSAL/medium/Medium.cxx: Medium::init, X0_inv", "src/PROPOSAL/detail/PROPOSAL/crosssection/parametrization/EpairProduction.cxx: EpairLPM", "src/PROPOSAL/detail/PROPOSAL/crosssection/parametrization/Bremsstrahlung.cxx: BremsLPM", "src/PROPOSAL/detail/PROPOSAL/crosssection/parametrization/MupairProduction.cxx: MupairKelnerKokoulinPetrukhin::FunctionToIntegral", "src/PROPOSAL/detail/PROPOSAL/scattering/multiple_scattering/Moliere.cxx"]}
{"id": "C68", "title": "Electron pairs: the cross section covers the allowed asymmetries once", "statement": "For a loss within its limits the cross section for an electron pair is the integral of the published cross section (Kelner, Kokoulin and Petrukhin, or Sandrock, Soedingrekso and Rhode) over all asymmetries of the pair that are allowed, from zero to the largest one, and the integrand is a number that is not negative.", "quantifier": "all charged particles, elements, energies, losses within the limits and asymmetries", "why_tests_cant": "Tests compare the total cross section with stored numbers of the same code; a wrong range of the inner variable shows as a different number only.", "anchors": ["src/PROPOSAL/detail/PROPOSAL/crosssection/parametrization/EpairProduction.cxx: EpairProductionRhoIntegral::DifferentialCrossSection, EpairKelnerKokoulinPetrukhin::FunctionToIntegral, EpairSandrockSoedingreksoRhode::FunctionToIntegral, EpairForElectronPositron::FunctionToIntegral, EpairLPM::suppression_factor"]}
{"id": "C69", "title": "Muon pairs: positive exactly for the allowed asymmetries", "statement": "For a loss within its limits the cross section for a muon pair is a number for every asymmetry; it is positive for every allowed asymmetry and vanishes at the largest one and beyond.", "quantifier": "all charged particles, elements, energies, losses within the limits and asymmetries", "why_tests_cant": "The integrand is a difference of two screening terms inside a logarithm that is cut off at zero; whether the cut takes away allowed pairs depends on mass, energy and loss together.", "anchors": ["src/PROPOSAL/detail/PROPOSAL/crosssection/parametrization/MupairProduction.cxx: GetKinematicLimits, DifferentialCrossSection, MupairKelnerKokoulinPetrukhin::FunctionToIntegral"]}
{"id": "C70", "title": "A table on disk is used for the calculation it was made for only", "statement": "The interpolation tables are kept on disk under a name made of a prefix and a hash, and a table that is found is used without further comparison. Two calculations (parametrization and its options, particle, medium, component, cut, upper limit of the energies, numbers of nodes) that arrive at the same name have the same axes and tabulate the same function; the same holds for the tables of the propagation utilities.", "quantifier": "all pairs of calculations, all hash functions for numbers and strings, all energies", "why_tests_cant": "Tests build the tables of a few configurations into one directory; a part of the input that is left out of the name shows only if two configurations differ in that part and share a directory.", "anchors": ["src/PROPOSAL/PROPOSAL/methods.h: hash_combine", "src/PROPOSAL/detail/PROPOSAL/crosssection/CrossSection.cxx: generate_cross_hash", "src/PROPOSAL/detail/PROPOSAL/crosssection/CrossSectionDNDX/CrossSectionDNDXInterpolant.cxx: gen_name, gen_hash", "src/PROPOSAL/detail/PROPOSAL/particle/ParticleDef.cxx: ParticleDef::GetHash", "src/PROPOSAL/detail/PROPOSAL/medium/Medium.cxx: Medium::GetHash", "src/PROPOSAL/detail/PROPOSAL/propagation_utility/PropagationUtilityInterpolant.cxx: UtilityInterpolant::BuildTables"]}
{"id": "C71", "title": "Tables of points are read faithfully", "statement": "A table made from points in ascending or descending order (of one or of two variables) can be read at every position without an exception. What is read depends on the position alone and not on earlier readings. At a point of the table it is the value given there; elsewhere it is the value of the polynomial of the lowest degree through as many neighbouring points as were asked for, with the position in their middle; so a table of a polynomial of low degree reproduces it everywhere, the result is continuous, and with two points at a time it stays between the neighbours. The search for the position of a value stays within the table and undoes the reading.", "quantifier": "all lengths and orders of the table, all values, all positions inside and outside of the table, all numbers of points used at once, all histories of calls", "why_tests_cant": "Tests read one tabulated function at some positions and compare with a tolerance; the choice of the window, the ends of the table, descending order, odd and even numbers of points and the buffers that are reused between calls make many cases.", "anchors": ["src/PROPOSAL/detail/PROPOSAL/math/Interpolant.cxx: Interpolant::InterpolateArray, Interpolant::Interpolate, Interpolant::FindLimit, Interpolant::InitInterpolant", "src/PROPOSAL/detail/PROPOSAL/crosssection/parametrization/Photonuclear.cxx: HardComponent"]}
{"id": "C72", "title": "Tables cover the energies at which a process takes place", "statement": "Whether a cross section is evaluated from tables or not makes no difference to the energies at which it acts: from the energy at which a process sets in up to the highest energy of the tables, continuous losses, their variance, rates and the mean free path read from tables are those computed directly (up to the precision of the splines); below they are zero. A table is left out only if there is nothing to be put into it.", "quantifier": "all functions that set in at some energy, all lower and upper energies of the tables, all numbers of nodes, all energies in between", "why_tests_cant": "The first energy of a table is found by a search over the nodes and a bisection between two of them, with an unsigned counter. Tests compare tables and integrals for some particles and energies far above the thresholds; whether the search finds the right start depends on where the threshold lies relative to the nodes.", "anchors": ["src/PROPOSAL/detail/PROPOSAL/crosssection/CrossSectionDEDX/AxisBuilderDEDX.cxx: AxisBuilderDEDX::refine_definition_range", "src/PROPOSAL/detail/PROPOSAL/crosssection/CrossSectionDE2DX/AxisBuilderDE2DX.cxx: AxisBuilderDE2DX::refine_definition_range", "src/PROPOSAL/detail/PROPOSAL/crosssection/CrossSectionDNDX/AxisBuilderDNDX.cxx: AxisBuilderDNDX::refine_definition_range", "src/PROPOSAL/PROPOSAL/crosssection/CrossSectionDEDX/CrossSectionDEDXBuilder.h: make_dedx", "src/PROPOSAL/detail/PROPOSAL/propagation_utility/InteractionBuilder.cxx: InteractionBuilder::InitializeRateInterpolant, MeanFreePath"]}
{"id": "C73", "title": "Photonuclear cross sections from structure functions", "statement": "The photonuclear cross sections that integrate over the momentum transfer are non-negative numbers proportional to the square of the charge; they integrate over exactly those momentum transfers that the kinematics of the particle and the production of a pion allow, with an integrand that is a non-negative number at each of them.", "quantifier": "all six parametrizations, both shadowings, all nuclei, masses, charges, energies, shares of the energy and momentum transfers", "why_tests_cant": "Tests compare the integrated cross sections with stored numbers. Negative or forbidden contributions are hidden inside the integral, and a cross section that becomes negative is set to zero without a message.", "anchors": ["src/PROPOSAL/detail/PROPOSAL/crosssection/parametrization/PhotoQ2Integration.cxx: PhotoQ2Integral::DifferentialCrossSection", "src/PROPOSAL/detail/PROPOSAL/crosssection/parametrization/PhotoQ2Integration.cxx: FunctionToQ2Integral of the six parametrizations"]}
{"id": "C74", "title": "Shadowing of nucleons", "statement": "The factor by which nucleons of a nucleus are shadowed by others is a positive number, one for hydrogen, and at most one where shadowing is described.", "quantifier": "both shadowings, all nuclei, all x between 0 and 1, all energies of the photon", "why_tests_cant": "The factor is defined piecewise with powers of the number of nucleons and of x; tests only see it inside integrated cross sections.", "anchors": ["src/PROPOSAL/detail/PROPOSAL/crosssection/parametrization/PhotoQ2Integration.cxx: ShadowDuttaRenoSarcevicSeckel::CalculateShadowEffect", "src/PROPOSAL/detail/PROPOSAL/crosssection/parametrization/PhotoQ2Integration.cxx: ShadowButkevichMikheyev::CalculateShadowEffect"]}
{"id": "C75", "title": "Sectors described by a configuration", "statement": "A Propagator made of a configuration has one sector for each geometry written in it, in that order. Each setting of a sector is that of the sector if it has one, else the global one, else the documented default; a missing mandatory setting is an error; the cross sections are those listed, with the density correction of the sector. Keywords that are not documented have no effect.", "quantifier": "all configurations (JSON values of any depth), all media, cross sections and scatterings", "why_tests_cant": "Tests read a handful of configuration files and look at a few of the results. A setting that is taken from the wrong place gives a valid Propagator for another environment without a message.", "anchors": ["src/PROPOSAL/detail/PROPOSAL/Propagator.cxx: Propagator(ParticleDef, json), GlobalSettings, InitializeSectorFromJSON, CreateCrossSectionList, CreateUtility", "docs/config_docu.md"]}
{"id": "C76", "title": "Cuts, geometries and densities described by a configuration", "statement": "Energy cuts, geometries and density distributions read from JSON are those that the constructors make of the same numbers; numbers out of range are rejected.", "quantifier": "all JSON values; all shapes, axes and kinds of distributions", "why_tests_cant": "Tests read single objects with convenient numbers. Lengths that are silently truncated, and levels that are reversed, only show in the geometry.", "anchors": ["src/PROPOSAL/detail/PROPOSAL/EnergyCutSettings.cxx: EnergyCutSettings(json)", "src/PROPOSAL/detail/PROPOSAL/geometry/GeometryFactory.cxx, Geometry.cxx, Sphere.cxx, Box.cxx, Cylinder.cxx: constructors from json", "src/PROPOSAL/detail/PROPOSAL/density_distr: constructors from json", "docs/config_docu.md"]}
{"id": "C77", "title": "Density correction of ionization", "statement": "The correction for the density of the medium is zero for slow particles in insulators, is never negative, grows with the momentum, follows the logarithm of the momentum for fast particles and has no jump where the fit meets its asymptote.", "quantifier": "all media (all parameters of the fit), all velocities; all predefined media", "why_tests_cant": "The correction is a piecewise function of a real number and of six parameters; tests see it at a few energies inside the energy loss.", "anchors": ["src/PROPOSAL/detail/PROPOSAL/crosssection/parametrization/Ionization.cxx: Ionization::Delta", "src/PROPOSAL/detail/PROPOSAL/medium/Medium.cxx: parameters of the predefined media"]}
{"id": "C78", "title": "Predefined media", "statement": "Each documented name of a medium, in capital or small letters, creates the medium of that name and no other name creates one; a medium can be created from its own name; predefined media consist of the elements of the substance and meet the conditions that the cross sections need.", "quantifier": "all strings; all predefined media", "why_tests_cant": "Tests create some media and compare them with themselves; nobody compares the table with the substances.", "anchors": ["src/PROPOSAL/detail/PROPOSAL/medium/MediumFactory.cxx: CreateMedium", "src/PROPOSAL/PROPOSAL/medium/MediumFactory.h: Medium_Map", "src/PROPOSAL/PROPOSAL/medium/Medium.h: Medium_Name", "src/PROPOSAL/detail/PROPOSAL/medium/Medium.cxx, Components.cxx: predefined media and elements", "docs/config_docu.md"]}
{"id": "C79", "title": "Parametrizations and options of a configuration are the documented ones", "statement": "For every configuration of a cross section: it is constructed exactly if 'parametrization' names one of the documented parametrizations of the interaction (in any capitals) and the options are well formed, and then with that parametrization, with 'lpm', 'hard_component' and 'shadow' as given or at their documented defaults, with the cuts, interpolation tables and density correction where they apply, and scaled by 'multiplier'; 'photo' accepts both kinds of photonuclear parametrizations; other keys are ignored; nothing leads to undefined behaviour.", "quantifier": "all interactions, all JSON documents, media, cuts, constructors of cross sections", "why_tests_cant": "There are infinitely many documents (spellings, types, missing and extra keys) per factory; tests construct a few valid ones.", "anchors": ["src/PROPOSAL/detail/PROPOSAL/crosssection/Factories/*.cxx", "src/PROPOSAL/detail/PROPOSAL/Propagator.cxx: CreateCrossSectionList", "docs/config_docu.md:328-507"]}
{"id": "C80", "title": "The scattering of a configuration is what it describes", "statement": "For every scattering object of a configuration: it is accepted exactly if its names are those of multiple scattering models, of deflection parametrizations or 'default' followed by an interaction type with a default (in any capitals) and its factors are numbers for named interaction types; then multiple scattering is the named one with every component scaled by its factor, a loss of a type is deflected by the last parametrization listed for the type with its angle scaled by the factor of the type, and losses of types that are not listed are not deflected.", "quantifier": "all JSON documents, particles masses, multiple scattering models, energies, random numbers", "why_tests_cant": "Ranges over all documents and over the order and multiplicity of entries; tests use single valid documents.", "anchors": ["src/PROPOSAL/PROPOSAL/scattering/ScatteringFactory.h: make_scattering", "src/PROPOSAL/PROPOSAL/scattering/multiple_scattering/ScatteringFactory.h", "src/PROPOSAL/PROPOSAL/scattering/stochastic_deflection/ScatteringFactory.h", "src/PROPOSAL/PROPOSAL/DefaultFactory.h", "docs/config_docu.md:150-207"]}
{"id": "C81", "title": "Energies do not rise and clocks do not run backwards along a track", "statement": "For every propagation: from one state of the returned track to the next the energy does not rise and is not negative, the time does not decrease, and only the last state can have an energy below the lower limit of the calculators.", "quantifier": "all sectors, densities, geometries and scattering models, all collections of tables, random numbers, initial states, distances, hierarchy conditions", "why_tests_cant": "Ranges over all configurations and histories of random numbers; tests check final states of a few seeds.", "anchors": ["src/PROPOSAL/detail/PROPOSAL/Propagator.cxx: Propagate, AdvanceParticle", "src/PROPOSAL/detail/PROPOSAL/propagation_utility/PropagationUtility.cxx", "src/PROPOSAL/detail/PROPOSAL/propagation_utility/PropagationUtilityInterpolant.cxx"]}
{"id": "C82", "title": "Standard cross sections are the documented ones", "statement": "For electrons, positrons, muons, taus and photons the standard cross sections are exactly the documented parametrizations with the given medium, cuts and tables and without LPM effect; other particles are rejected; a configuration that lists the same parametrizations gives the same cross sections.", "quantifier": "all particle types, media, cuts (also none), uses of tables, density corrections, and constructors of cross sections", "why_tests_cant": "Ranges over all particles and combinations of cuts, media and tables, and compares two ways to the same list; tests use one of them for a few particles.", "anchors": ["src/PROPOSAL/PROPOSAL/crosssection/ParticleDefaultCrossSectionList.h: GetStdCrossSections, DefaultCrossSections::Append", "src/PROPOSAL/detail/PROPOSAL/Propagator.cxx: CreateCrossSectionList", "docs/default_crosssections.md"]}
{"id": "C83", "title": "A sampled loss lies between the cut and the largest possible loss", "statement": "The fraction of its energy that a particle loses in a sampled stochastic interaction is at least the cut (or the smallest possible loss) and at most the largest possible loss of the chosen parametrization and target, whatever the random numbers; so the particle keeps at least its rest mass where the largest loss leaves it.", "quantifier": "all energies, cuts, rates and random numbers, all differential cross sections that are not negative, with tables or without, all media and multipliers", "why_tests_cant": "A loss outside of the limits shows up for few random numbers (at the ends of the range, or where the rate is larger than the integral); tests draw some thousand losses at a few energies.", "anchors": ["src/PROPOSAL/detail/PROPOSAL/crosssection/CrossSectionDNDX/CrossSectionDNDXIntegral.cxx: define_dndx_upper_lim, GetUpperLimit", "src/PROPOSAL/detail/PROPOSAL/crosssection/CrossSectionDNDX/CrossSectionDNDXInterpolant.cxx: GetUpperLimit, transform_relative_loss", "src/PROPOSAL/detail/PROPOSAL/math/Integral.cxx: IntegrateWithRandomRatio, GetUpperLimit", "src/PROPOSAL/detail/PROPOSAL/propagation_utility/Interaction.cxx: SampleLoss"]}
{"id": "C84", "title": "Random numbers are reproducible and the library does not disturb the generator", "statement": "After setting a seed or restoring a saved state the generator gives the same numbers whatever happened before; a generator that the user sets gives all numbers, in order, until another one is chosen, and the default one resumes where it was; calculating the secondaries of a loss with given random numbers leaves the numbers that follow as they were.", "quantifier": "all engines, seeds and saved states, all programs of draws, seeds, restored states, changes of the generator and calculations of secondaries, all losses and random numbers", "why_tests_cant": "Tests set the seed and then compare a few values; that a calculation reseeds the shared engine only shows in what the program draws afterwards, and the cycles it causes only after up to 2^31 losses.", "anchors": ["src/PROPOSAL/detail/PROPOSAL/math/RandomGenerator.cxx: RandomDouble, SetSeed, Serialize, Deserialize, SetRandomNumberGenerator", "src/PROPOSAL/PROPOSAL/math/RandomGenerator.h: rng_", "src/PROPOSAL/detail/PROPOSAL/secondaries/parametrization/bremsstrahlung/BremsKochMotz.cxx: CalculateDirections"]}
{"id": "C85", "title": "Components and media are found under their hashes", "statement": "GetComponentForHash and GetMediumForHash, called with the hash of a component or medium that was constructed at any time before, return an equal object; what is returned never changes afterwards; a hash that belongs to nothing is refused with an exception. Two components or media are equal if and only if their names and their numbers agree, and then their hashes agree.", "quantifier": "all histories of constructions, all names and numbers, all hash functions of doubles and texts without collisions among the contents", "why_tests_cant": "The maps are global and live as long as the program; a wrong entry needs a special order of constructions in different parts of a program.", "anchors": ["src/PROPOSAL/detail/PROPOSAL/medium/Components.cxx: Component::Component, GetComponentForHash, operator==", "src/PROPOSAL/detail/PROPOSAL/medium/Medium.cxx: Medium::Medium, GetMediumForHash, GetHash, operator=="]}
{"id": "C86", "title": "Many-body decays with a matrix element of the user", "statement": "A ManyBodyPhaseSpace channel with a matrix element finds the limits of the weights once for each parent, from as many events as its statistic says, and remembers them whatever else decays; with uniform sampling every phase-space event is then accepted with a probability proportional to its weight; and the products of a decay in flight are those of a decay at rest seen from another frame. Without a matrix element the limits need no random numbers.", "quantifier": "all lists of daughters, matrix elements, statistics, parents, states of the parent, histories of decays and sequences of random numbers", "why_tests_cant": "Whether events are missing or frames are mixed up shows only in distributions, over all matrix elements, boosts and histories of the cache.", "anchors": ["src/PROPOSAL/detail/PROPOSAL/decay/ManyBodyPhaseSpace.cxx: ManyBodyPhaseSpace::ManyBodyPhaseSpace, Decay, GetPhaseSpaceParams, SampleEstimateMaxWeight", "tests/DecayChannel_TEST.cxx: matrix_element_evaluate"]}
{"id": "C87", "title": "Weak interactions after Cooper-Sarkar and Mertsch", "statement": "The cross section of weak interactions can be asked for at every energy and loss in every order, the answer depending on the question alone; it is never negative, goes through the points of the published tables, is the mean over the protons and neutrons of the nucleus, uses the antineutrino tables for negative particles, is positive for every loss the kinematic limits allow, and grows with the energy down to the smallest energies allowed.", "quantifier": "all histories of questions, charges of particles, elements, energies and losses", "why_tests_cant": "The tables are read by interpolation objects with mutable work space, at any pair of real numbers; tests compare a few values.", "anchors": ["src/PROPOSAL/detail/PROPOSAL/crosssection/parametrization/WeakInteraction.cxx: WeakCooperSarkarMertsch::WeakCooperSarkarMertsch, DifferentialCrossSection, GetKinematicLimits", "src/PROPOSAL/detail/PROPOSAL/crosssection/parametrization/ParamTables.cxx: energies, y_nu_p, sigma_nu_p, y_nubar_p, sigma_nubar_p, y_nu_n, sigma_nu_n, y_nubar_n, sigma_nubar_n", "src/PROPOSAL/detail/PROPOSAL/math/Interpolant.cxx: Interpolant::Interpolant(x1, x2, y, ...), InterpolateArray"]}
{"id": "C88", "title": "Pair production by photons below 50 MeV follows the tabulated cross sections", "statement": "Below 50 MeV the parametrization of Koch and Motz is scaled so that its total cross section is the tabulated one. For every element and every photon energy between twice the electron mass and 50 MeV the differential cross section is defined, its integral over the losses is the tabulated total cross section of the element, and this is positive, grows with the energy and with the charge, has the tabulated values at the tabulated energies, and does not depend on what was asked before.", "quantifier": "all elements, photon energies below 50 MeV, losses and histories of questions", "why_tests_cant": "The scale is a quotient of a number read from a table by an interpolation object with mutable work space and an integral of a function that changes its sign; tests see a few energies and elements.", "anchors": ["src/PROPOSAL/detail/PROPOSAL/crosssection/parametrization/PhotoPairProduction.cxx: PhotoPairKochMotz::PhotoPairKochMotz, DifferentialCrossSection, DifferentialCrossSectionWithoutA", "src/PROPOSAL/detail/PROPOSAL/crosssection/parametrization/ParamTables.cxx: photopair_KM_Z, photopair_KM_energies, photopair_KM_cross", "src/PROPOSAL/detail/PROPOSAL/math/Interpolant.cxx: InterpolateArray"]}
{"id": "C89", "title": "Saved splines are loaded as they were saved", "statement": "A spline that is saved to a file and loaded from it is the same spline: it has the same intervals and polynomials and evaluates to the same values.", "quantifier": "all splines, whatever they were made from", "why_tests_cant": "The numbers go through formatted streams; tests compare one spline with round coefficients.", "anchors": ["src/PROPOSAL/detail/PROPOSAL/math/Spline.cxx: Spline::save, Spline::Spline(std::string, bool), operator<<, operator>>, Spline::GetSplineContainer", "src/PROPOSAL/PROPOSAL/math/TableWriter.h: Table_write, Table_read"]}
{"id": "C90", "title": "The dilogarithm is the dilogarithm", "statement": "For every real argument, the dilogarithm of the library returns the real part of the dilogarithm (the integral of -ln|1-t|/t from zero), with an absolute error below 1e-14 before rounding; no argument is divided by zero or is the logarithm of a number that is not positive.", "quantifier": "all real arguments", "why_tests_cant": "Nine branches with different transformations and a rational function with thirteen literals; a test compares some arguments with other libraries, an error in a literal or at the edge of a branch shows at some arguments only.", "anchors": ["src/PROPOSAL/detail/PROPOSAL/math/MathMethods.cxx: dilog"]}
{"id": "C91", "title": "The medium never enhances electron pairs", "statement": "With the Landau-Pomeranchuk-Migdal effect switched on, the cross section for an electron pair is, for every asymmetry, a number that is not greater than without the effect, positive if that one is, not greater in a denser medium, and equal to it up to one part in 10^10 where the effect is neglected.", "quantifier": "all charged particles, elements, energies, shares of the energy strictly between zero and one (for the parametrization for electrons: more than two electron masses), asymmetries, densities and energy scales of the medium, for all three parametrizations", "why_tests_cant": "The factor is a difference of logarithms and arc tangents with large cancellations in five variables; tests compare a few numbers with stored ones of the same code.", "anchors": ["src/PROPOSAL/detail/PROPOSAL/crosssection/parametrization/EpairProduction.cxx: EpairLPM::suppression_factor, EpairKelnerKokoulinPetrukhin::FunctionToIntegral, EpairSandrockSoedingreksoRhode::FunctionToIntegral, EpairForElectronPositron::FunctionToIntegral"]}
{"id": "C92", "title": "The quadrature rule used when Romberg's method fails", "statement": "The 21-point rule that integration falls back to gives the integral of every polynomial up to the degree 31 up to 10^-15 of its coefficients, a value between the bounds of any function on the interval times its length, and the opposite value with the same error estimate when the limits are swapped. Whatever is bisected afterwards, a result without a complaint is the sum of the rule over a subdivision of the interval whose reported errors add up to no more than requested. What is accepted after the first 21 evaluations without a complaint has a reported error within the requested one, polynomials up to the degree 19 without large cancellations are accepted, and the reported error is not less than the true one.", "quantifier": "all intervals, in both directions, all polynomials up to the degree and all functions with bounds, all requested accuracies", "why_tests_cant": "The rule consists of 27 numbers with 33 digits; a wrong digit changes results by less than the tolerance of tests, and only for integrals where Romberg's method gives up.", "anchors": ["src/PROPOSAL/detail/PROPOSAL/math/Integral.cxx: Integral::qags, Integral::q_gaus_kronrod_21"]}
