-Q theories Verif
theories/Prelude.v
theories/PreludeFacts.v
theories/Vec_Model.v
theories/Geometry_Model.v
theories/Propagator_Model.v
theories/Propagator_Spec.v
theories/Propagator_Proofs.v
theories/Overshoot_Proofs.v
theories/Propagate_Proofs.v
theories/Shapes_Model.v
theories/Shapes_Spec.v
theories/Shapes_Proofs.v
theories/Box_Proofs.v
theories/Cylinder_Proofs.v
theories/Hollow_Proofs.v
theories/Surface_Proofs.v
theories/Vec_Proofs.v
theories/Vec_Props.v
theories/Toy.v
theories/Numbers_Proofs.v
theories/Toy_Runs.v
theories/Propagator_Props.v
theories/Shapes_Examples.v
theories/Shapes_Props.v
theories/Secondaries_Model.v
theories/Secondaries_Spec.v
theories/Secondaries_Proofs.v
theories/Queries_Proofs.v
theories/Hit_Proofs.v
theories/Hit_Convex_Proofs.v
theories/HitHollow_Proofs.v
theories/Function_Model.v
theories/Math_Model.v
theories/Spline_Model.v
theories/Density_Model.v
theories/Queries_Examples.v
theories/Secondaries_Props.v
theories/Function_Spec.v
theories/Function_Proofs.v
theories/Polynom_Proofs.v
theories/Math_Spec.v
theories/Math_Proofs.v
theories/Spline_Spec.v
theories/Spline_Proofs.v
theories/Math_Examples.v
theories/Math_Props.v
theories/Density_Spec.v
theories/Density_Proofs.v
theories/DensityObj_Model.v
theories/DensityObj_Spec.v
theories/DensityObj_Proofs.v
theories/Density_Examples.v
theories/Density_Props.v
theories/Particle_Model.v
theories/Decay_Model.v
theories/Particle_Spec.v
theories/Particle_Proofs.v
theories/Decay_Spec.v
theories/Decay_Proofs.v
theories/ManyBody_Proofs.v
theories/Leptonic_Proofs.v
theories/DecayAll_Proofs.v
theories/DecayDraws_Proofs.v
theories/Decay_Examples.v
theories/Particle_Props.v
theories/Decay_Props.v
theories/Limits_Model.v
theories/Limits_Spec.v
theories/Limits_Proofs.v
theories/Products_Model.v
theories/Products_Spec.v
theories/Products_Proofs.v
theories/ProductsLimits_Proofs.v
theories/Limits_Props.v
theories/Products_Examples.v
theories/Products_Props.v
theories/Cross_Model.v
theories/Cross_Spec.v
theories/Cross_Proofs.v
theories/Transform_Proofs.v
theories/Components_Proofs.v
theories/Photo_Model.v
theories/Photo_Proofs.v
theories/Cross_Examples.v
theories/Cross_Props.v
theories/Integral_Model.v
theories/Integral_Spec.v
theories/Trapezoid_Proofs.v
theories/Neville_Proofs.v
theories/Expansion_Proofs.v
theories/Romberg_Proofs.v
theories/Integral_Proofs.v
theories/Values_Proofs.v
theories/Safety_Proofs.v
theories/Upper_Proofs.v
theories/Place_Proofs.v
theories/Overrun_Proofs.v
theories/Integral_Examples.v
theories/Integral_Props.v
theories/Utility_Model.v
theories/Utility_Spec.v
theories/Utility_Proofs.v
theories/Direct_Proofs.v
theories/Twin_Proofs.v
theories/Grammage_Proofs.v
theories/Inverse_Proofs.v
theories/Utility_Examples.v
theories/Utility_Props.v
theories/Deflection_Model.v
theories/Deflection_Spec.v
theories/Deflection_Proofs.v
theories/Borog_Proofs.v
theories/Ginneken_Proofs.v
theories/Deflector_Proofs.v
theories/Deflection_Examples.v
theories/Deflection_Props.v
theories/Ionization_Model.v
theories/Continuous_Model.v
theories/Continuous_Spec.v
theories/Ionization_Proofs.v
theories/Continuous_Proofs.v
theories/Continuous_Examples.v
theories/Continuous_Props.v
theories/Differential_Model.v
theories/Differential_Spec.v
theories/Differential_Proofs.v
theories/Brems_Proofs.v
theories/Screening_Proofs.v
theories/Light_Proofs.v
theories/Differential_Examples.v
theories/Differential_Props.v
theories/Photopair_Model.v
theories/Photopair_Spec.v
theories/Lpm_Proofs.v
theories/LpmBound_Proofs.v
theories/Photopair_Proofs.v
theories/Photopair_Examples.v
theories/Photopair_Props.v
theories/Nuclear_Model.v
theories/Nuclear_Spec.v
theories/Nuclear_Proofs.v
theories/Nuclear_Examples.v
theories/Nuclear_Props.v
theories/Medium_Model.v
theories/Medium_Spec.v
theories/Pairs_Model.v
theories/Pairs_Spec.v
theories/Pairs_Proofs.v
theories/Rho_Proofs.v
theories/Multiple_Model.v
theories/Multiple_Spec.v
theories/Log_Proofs.v
theories/Reduced_Proofs.v
theories/Multiple_Proofs.v
theories/Gauss_Proofs.v
theories/Moliere_Proofs.v
theories/MoliereAngle_Proofs.v
theories/MoliereSample_Proofs.v
theories/MoliereDensity_Proofs.v
theories/Multiple_Examples.v
theories/Multiple_Props.v
theories/Medium_Proofs.v
theories/Medium_Examples.v
theories/Medium_Props.v
theories/Pairs_Examples.v
theories/Pairs_Props.v
theories/Keys_Model.v
theories/Keys_Spec.v
theories/Keys_Proofs.v
theories/Keys_Examples.v
theories/Kronrod_Model.v
theories/Kronrod_Spec.v
theories/Kronrod_Proofs.v
theories/Kronrod_Props.v
theories/Kronrod_Examples.v
theories/Bisect_Model.v
theories/Bisect_Spec.v
theories/Bisect_Proofs.v
theories/Bisect_Props.v
theories/Bisect_Examples.v
theories/Keys_Props.v
theories/Integrands_Spec.v
theories/Integrands_Proofs.v
theories/Integrands_Props.v
theories/Interpolant_Model.v
theories/Interpolant_Spec.v
theories/Interpolant_Proofs.v
theories/Table_Proofs.v
theories/Bilinear_Proofs.v
theories/Tabulated_Tables.v
theories/Tabulated_Model.v
theories/Tabulated_Spec.v
theories/Crossing_Proofs.v
theories/Tabulated_Proofs.v
theories/Tabulated_Examples.v
theories/Tabulated_Props.v
theories/Interpolant_Examples.v
theories/Interpolant_Props.v
theories/Axis_Model.v
theories/Axis_Spec.v
theories/Axis_Proofs.v
theories/Axis_Examples.v
theories/Axis_Props.v
theories/Transfer_Model.v
theories/Transfer_Spec.v
theories/Transfer_Proofs.v
theories/Transfer_Examples.v
theories/Transfer_Props.v
theories/Config_Model.v
theories/Config_Spec.v
theories/Config_Proofs.v
theories/Config_Examples.v
theories/Config_Props.v
theories/Catalogue_Model.v
theories/Catalogue_Spec.v
theories/Catalogue_Proofs.v
theories/CatalogueDrop_Proofs.v
theories/FrejusDrop_Proofs.v
theories/Catalogue_Examples.v
theories/Catalogue_Props.v
theories/Factory_Model.v
theories/Factory_Spec.v
theories/Factory_Proofs.v
theories/Factory_Examples.v
theories/Factory_Props.v
theories/Course_Model.v
theories/Course_Spec.v
theories/Course_Proofs.v
theories/Clock_Proofs.v
theories/CourseTable_Proofs.v
theories/Course_Examples.v
theories/Course_Props.v
theories/Standard_Model.v
theories/Standard_Spec.v
theories/Standard_Proofs.v
theories/Standard_Examples.v
theories/Standard_Props.v
theories/Sampling_Model.v
theories/Sampling_Spec.v
theories/Sampling_Proofs.v
theories/SamplingDirect_Proofs.v
theories/Sampling_Examples.v
theories/Sampling_Props.v
theories/Random_Model.v
theories/Random_Spec.v
theories/Random_Proofs.v
theories/Random_Examples.v
theories/Random_Props.v
theories/Registry_Model.v
theories/Registry_Spec.v
theories/Registry_Proofs.v
theories/Registry_Examples.v
theories/Registry_Props.v
theories/Weights_Model.v
theories/Weights_Spec.v
theories/Weights_Proofs.v
theories/Weights_Examples.v
theories/Weights_Props.v
theories/Rhode_Model.v
theories/Rhode_Proofs.v
theories/Weak_Tables.v
theories/Weak_Model.v
theories/Weak_Spec.v
theories/Sheet_Proofs.v
theories/Weak_Proofs.v
theories/Weak_Examples.v
theories/Weak_Props.v
theories/Dilog_Model.v
theories/Dilog_Spec.v
theories/DilogEquations_Proofs.v
theories/DilogSeries_Proofs.v
theories/Dilog_Proofs.v
theories/Dilog_Examples.v
theories/Dilog_Props.v
theories/Saved_Model.v
theories/Saved_Spec.v
theories/Saved_Proofs.v
theories/Saved_Examples.v
theories/Saved_Props.v
theories/Sandrock_Model.v
theories/Sandrock_Spec.v
theories/Sandrock_Proofs.v
theories/Sandrock_Examples.v
theories/Sandrock_Props.v
theories/Suppression_Proofs.v
theories/Suppression_Examples.v
theories/Suppression_Props.v
