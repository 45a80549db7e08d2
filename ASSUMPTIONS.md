# Assumptions of the theorems

Generated by tools/assumptions.py from the `Print Assumptions` output of the Props files.

## Closed under the global context

Theorems: C58_hyperelastic, C58_hyperelastic_damage, C60_enough_memory_partial, C60_refuted, C36_causal, C39_hyperelastic_construction, C39_hyperelastic_evaluation, C39_damage_construction, C39_damage_evaluation, C59_efjc_isometric_asymptotic_alternative_legendre, C59_efjc_isometric_asymptotic_legendre, C59_efjc_isometric_asymptotic_reduced_legendre, C59_efjc_isotensional, C59_efjc_isotensional_asymptotic, C59_efjc_isotensional_asymptotic_alternative, C59_efjc_isotensional_asymptotic_alternative_legendre, C59_efjc_isotensional_asymptotic_legendre, C59_efjc_isotensional_asymptotic_reduced, C59_efjc_isotensional_asymptotic_reduced_legendre, C59_efjc_isotensional_legendre, C59_fjc_isometric, C59_fjc_isometric_legendre, C59_fjc_isotensional, C59_fjc_isotensional_legendre, C59_fjc_modified_canonical, C59_fjc_modified_canonical_asymptotic_strong_potential, C59_fjc_modified_canonical_asymptotic_weak_potential, C59_ideal_isometric, C59_ideal_isotensional, C59_swfjc_isometric_legendre, C59_swfjc_isotensional, C59_swfjc_isotensional_legendre, C59_lennard_jones_isometric_asymptotic_legendre, C59_lennard_jones_isometric_asymptotic_reduced_legendre, C59_lennard_jones_isotensional, C59_lennard_jones_isotensional_asymptotic, C59_lennard_jones_isotensional_asymptotic_legendre, C59_lennard_jones_isotensional_asymptotic_reduced, C59_lennard_jones_isotensional_asymptotic_reduced_legendre, C59_lennard_jones_isotensional_legendre, C59_log_squared_isometric_asymptotic_legendre, C59_log_squared_isometric_asymptotic_reduced_legendre, C59_log_squared_isotensional, C59_log_squared_isotensional_asymptotic, C59_log_squared_isotensional_asymptotic_legendre, C59_log_squared_isotensional_asymptotic_reduced, C59_log_squared_isotensional_asymptotic_reduced_legendre, C59_log_squared_isotensional_legendre, C59_morse_isometric_asymptotic_legendre, C59_morse_isometric_asymptotic_reduced_legendre, C59_morse_isotensional, C59_morse_isotensional_asymptotic, C59_morse_isotensional_asymptotic_legendre, C59_morse_isotensional_asymptotic_reduced, C59_morse_isotensional_asymptotic_reduced_legendre, C59_morse_isotensional_legendre, C59_wlc_isometric, C59_wlc_isometric_legendre, C59_wlc_isotensional, C59_wlc_isotensional_legendre, C61_functions_lennard_jones_isometric_asymptotic_reduced_legendre, C61_object_lennard_jones_isometric_asymptotic_reduced_legendre, C61_functions_lennard_jones_isotensional_asymptotic_reduced_legendre, C61_object_lennard_jones_isotensional_asymptotic_reduced_legendre, C61_functions_log_squared_isometric_asymptotic_reduced_legendre, C61_object_log_squared_isometric_asymptotic_reduced_legendre, C61_functions_log_squared_isotensional_asymptotic_reduced_legendre, C61_object_log_squared_isotensional_asymptotic_reduced_legendre, C61_functions_morse_isometric_asymptotic_reduced_legendre, C61_object_morse_isometric_asymptotic_reduced_legendre, C61_functions_morse_isotensional_asymptotic_reduced_legendre, C61_object_morse_isotensional_asymptotic_reduced_legendre, C61_functions_efjc_isometric_asymptotic_alternative_legendre, C61_object_efjc_isometric_asymptotic_alternative_legendre, C61_functions_efjc_isometric_asymptotic_reduced_legendre, C61_object_efjc_isometric_asymptotic_reduced_legendre, C61_functions_efjc_isotensional_asymptotic_alternative_legendre, C61_object_efjc_isotensional_asymptotic_alternative_legendre, C61_functions_efjc_isotensional_asymptotic_reduced_legendre, C61_object_efjc_isotensional_asymptotic_reduced_legendre, C61_functions_lennard_jones_isometric_asymptotic_legendre, C61_object_lennard_jones_isometric_asymptotic_legendre, C61_object_lennard_jones_isometric_asymptotic_reduced, C61_functions_lennard_jones_isotensional_asymptotic_legendre, C61_object_lennard_jones_isotensional_asymptotic_legendre, C61_functions_lennard_jones_isotensional_asymptotic_reduced, C61_object_lennard_jones_isotensional_asymptotic_reduced, C61_functions_log_squared_isometric_asymptotic_legendre, C61_object_log_squared_isometric_asymptotic_legendre, C61_object_log_squared_isometric_asymptotic_reduced, C61_functions_log_squared_isotensional_asymptotic_legendre, C61_object_log_squared_isotensional_asymptotic_legendre, C61_functions_log_squared_isotensional_asymptotic_reduced, C61_object_log_squared_isotensional_asymptotic_reduced, C61_functions_morse_isometric_asymptotic_legendre, C61_object_morse_isometric_asymptotic_legendre, C61_object_morse_isometric_asymptotic_reduced, C61_functions_morse_isotensional_asymptotic_legendre, C61_object_morse_isotensional_asymptotic_legendre, C61_functions_morse_isotensional_asymptotic_reduced, C61_object_morse_isotensional_asymptotic_reduced, C61_object_efjc_isometric_asymptotic_alternative, C61_functions_efjc_isometric_asymptotic_legendre, C61_object_efjc_isometric_asymptotic_legendre, C61_object_efjc_isometric_asymptotic_reduced, C61_functions_efjc_isotensional_asymptotic_alternative, C61_object_efjc_isotensional_asymptotic_alternative, C61_functions_efjc_isotensional_asymptotic_legendre, C61_object_efjc_isotensional_asymptotic_legendre, C61_functions_efjc_isotensional_asymptotic_reduced, C61_object_efjc_isotensional_asymptotic_reduced, C61_functions_fjc_modified_canonical_asymptotic_strong_potential, C61_object_fjc_modified_canonical_asymptotic_strong_potential, C61_functions_fjc_modified_canonical_asymptotic_weak_potential, C61_object_fjc_modified_canonical_asymptotic_weak_potential, C61_object_lennard_jones_isometric_asymptotic, C61_functions_lennard_jones_isotensional_asymptotic, C61_object_lennard_jones_isotensional_asymptotic, C61_functions_lennard_jones_isotensional_legendre, C61_object_lennard_jones_isotensional_legendre, C61_object_log_squared_isometric_asymptotic, C61_functions_log_squared_isotensional_asymptotic, C61_object_log_squared_isotensional_asymptotic, C61_functions_log_squared_isotensional_legendre, C61_object_log_squared_isotensional_legendre, C61_object_morse_isometric_asymptotic, C61_functions_morse_isotensional_asymptotic, C61_object_morse_isotensional_asymptotic, C61_functions_morse_isotensional_legendre, C61_object_morse_isotensional_legendre, C61_object_efjc_isometric_asymptotic, C61_functions_efjc_isotensional_asymptotic, C61_object_efjc_isotensional_asymptotic, C61_functions_efjc_isotensional_legendre, C61_object_efjc_isotensional_legendre, C61_functions_fjc_isometric_legendre, C61_functions_fjc_isotensional_legendre, C61_object_fjc_isotensional_legendre, C61_object_fjc_modified_canonical_asymptotic, C61_functions_swfjc_isometric_legendre, C61_functions_swfjc_isotensional_legendre, C61_object_swfjc_isotensional_legendre, C61_object_lennard_jones_isometric, C61_functions_lennard_jones_isotensional, C61_object_lennard_jones_isotensional, C61_object_log_squared_isometric, C61_functions_log_squared_isotensional, C61_object_log_squared_isotensional, C61_object_morse_isometric, C61_functions_morse_isotensional, C61_object_morse_isotensional, C61_functions_wlc_isometric_legendre, C61_object_wlc_isometric_legendre, C61_functions_wlc_isotensional_legendre, C61_object_wlc_isotensional_legendre, C61_object_efjc_isometric, C61_functions_efjc_isotensional, C61_object_efjc_isotensional, C61_functions_fjc_isometric, C61_functions_fjc_isotensional, C61_object_fjc_isotensional, C61_functions_fjc_modified_canonical, C61_object_fjc_modified_canonical, C61_functions_ideal_isometric, C61_object_ideal_isometric, C61_functions_ideal_isotensional, C61_object_ideal_isotensional, C61_functions_swfjc_isotensional, C61_object_swfjc_isotensional, C61_object_lennard_jones_thermodynamics, C61_object_log_squared_thermodynamics, C61_object_morse_thermodynamics, C61_functions_wlc_isometric, C61_functions_wlc_isotensional, C61_object_wlc_isotensional, C61_object_efjc_thermodynamics, C61_object_ideal_thermodynamics, C61_object_lennard_jones, C61_object_log_squared, C61_object_morse, C61_object_efjc, C61_object_ideal, C61_broadcast, C61_broadcast_fails, C61_entries, C61_wlc_distributions_refuted, C61_wlc_constructors_refuted, C19_exit_condition, C19_calls, C19_powered_calls, C24_grid_1d, C24_grid_square, C15_ideal, C15_ideal_thermodynamics, C15_ideal_isometric, C15_ideal_isotensional, C15_fjc, C15_fjc_thermodynamics, C15_fjc_isometric, C15_fjc_isometric_legendre, C15_fjc_isotensional, C15_fjc_isotensional_legendre, C15_fjc_modified_canonical, C15_fjc_modified_canonical_asymptotic, C15_fjc_modified_canonical_asymptotic_weak_potential, C15_fjc_modified_canonical_asymptotic_strong_potential, C15_swfjc, C15_swfjc_thermodynamics, C15_swfjc_isometric, C15_swfjc_isometric_legendre, C15_swfjc_isotensional, C15_swfjc_isotensional_legendre, C15_efjc, C15_efjc_thermodynamics, C15_efjc_isometric, C15_efjc_isometric_asymptotic, C15_efjc_isometric_asymptotic_alternative, C15_efjc_isometric_asymptotic_alternative_legendre, C15_efjc_isometric_asymptotic_reduced, C15_efjc_isometric_asymptotic_reduced_legendre, C15_efjc_isometric_asymptotic_legendre, C15_efjc_isotensional, C15_efjc_isotensional_asymptotic, C15_efjc_isotensional_asymptotic_alternative, C15_efjc_isotensional_asymptotic_alternative_legendre, C15_efjc_isotensional_asymptotic_reduced, C15_efjc_isotensional_asymptotic_reduced_legendre, C15_efjc_isotensional_asymptotic_legendre, C15_efjc_isotensional_legendre, C15_morse, C15_morse_thermodynamics, C15_morse_isometric, C15_morse_isometric_asymptotic, C15_morse_isometric_asymptotic_reduced, C15_morse_isometric_asymptotic_reduced_legendre, C15_morse_isometric_asymptotic_legendre, C15_morse_isotensional, C15_morse_isotensional_asymptotic, C15_morse_isotensional_asymptotic_reduced, C15_morse_isotensional_asymptotic_reduced_legendre, C15_morse_isotensional_asymptotic_legendre, C15_morse_isotensional_legendre, C15_lennard_jones, C15_lennard_jones_thermodynamics, C15_lennard_jones_isometric, C15_lennard_jones_isometric_asymptotic, C15_lennard_jones_isometric_asymptotic_reduced, C15_lennard_jones_isometric_asymptotic_reduced_legendre, C15_lennard_jones_isometric_asymptotic_legendre, C15_lennard_jones_isotensional, C15_lennard_jones_isotensional_asymptotic, C15_lennard_jones_isotensional_asymptotic_reduced, C15_lennard_jones_isotensional_asymptotic_reduced_legendre, C15_lennard_jones_isotensional_asymptotic_legendre, C15_lennard_jones_isotensional_legendre, C15_log_squared, C15_log_squared_thermodynamics, C15_log_squared_isometric, C15_log_squared_isometric_asymptotic, C15_log_squared_isometric_asymptotic_reduced, C15_log_squared_isometric_asymptotic_reduced_legendre, C15_log_squared_isometric_asymptotic_legendre, C15_log_squared_isotensional, C15_log_squared_isotensional_asymptotic, C15_log_squared_isotensional_asymptotic_reduced, C15_log_squared_isotensional_asymptotic_reduced_legendre, C15_log_squared_isotensional_asymptotic_legendre, C15_log_squared_isotensional_legendre, C15_wlc, C15_wlc_thermodynamics, C15_wlc_isometric, C15_wlc_isometric_legendre, C15_wlc_isotensional, C15_wlc_isotensional_legendre, C63_classes, C63_modules, C58_ideal, C58_ideal_thermodynamics, C58_ideal_isometric, C58_ideal_isotensional, C58_fjc, C58_fjc_thermodynamics, C58_fjc_isometric, C58_fjc_isometric_legendre, C58_fjc_isotensional, C58_fjc_isotensional_legendre, C58_fjc_modified_canonical, C58_fjc_modified_canonical_asymptotic, C58_fjc_modified_canonical_asymptotic_weak_potential, C58_fjc_modified_canonical_asymptotic_strong_potential, C58_swfjc, C58_swfjc_thermodynamics, C58_swfjc_isometric, C58_swfjc_isometric_legendre, C58_swfjc_isotensional, C58_swfjc_isotensional_legendre, C58_efjc, C58_efjc_thermodynamics, C58_efjc_isometric, C58_efjc_isometric_asymptotic, C58_efjc_isometric_asymptotic_alternative, C58_efjc_isometric_asymptotic_alternative_legendre, C58_efjc_isometric_asymptotic_reduced, C58_efjc_isometric_asymptotic_reduced_legendre, C58_efjc_isometric_asymptotic_legendre, C58_efjc_isotensional, C58_efjc_isotensional_asymptotic, C58_efjc_isotensional_asymptotic_alternative, C58_efjc_isotensional_asymptotic_alternative_legendre, C58_efjc_isotensional_asymptotic_reduced, C58_efjc_isotensional_asymptotic_reduced_legendre, C58_efjc_isotensional_asymptotic_legendre, C58_efjc_isotensional_legendre, C58_morse, C58_morse_thermodynamics, C58_morse_isometric, C58_morse_isometric_asymptotic, C58_morse_isometric_asymptotic_reduced, C58_morse_isometric_asymptotic_reduced_legendre, C58_morse_isometric_asymptotic_legendre, C58_morse_isotensional, C58_morse_isotensional_asymptotic, C58_morse_isotensional_asymptotic_reduced, C58_morse_isotensional_asymptotic_reduced_legendre, C58_morse_isotensional_asymptotic_legendre, C58_morse_isotensional_legendre, C58_lennard_jones, C58_lennard_jones_thermodynamics, C58_lennard_jones_isometric, C58_lennard_jones_isometric_asymptotic, C58_lennard_jones_isometric_asymptotic_reduced, C58_lennard_jones_isometric_asymptotic_reduced_legendre, C58_lennard_jones_isometric_asymptotic_legendre, C58_lennard_jones_isotensional, C58_lennard_jones_isotensional_asymptotic, C58_lennard_jones_isotensional_asymptotic_reduced, C58_lennard_jones_isotensional_asymptotic_reduced_legendre, C58_lennard_jones_isotensional_asymptotic_legendre, C58_lennard_jones_isotensional_legendre, C58_log_squared, C58_log_squared_thermodynamics, C58_log_squared_isometric, C58_log_squared_isometric_asymptotic, C58_log_squared_isometric_asymptotic_reduced, C58_log_squared_isometric_asymptotic_reduced_legendre, C58_log_squared_isometric_asymptotic_legendre, C58_log_squared_isotensional, C58_log_squared_isotensional_asymptotic, C58_log_squared_isotensional_asymptotic_reduced, C58_log_squared_isotensional_asymptotic_reduced_legendre, C58_log_squared_isotensional_asymptotic_legendre, C58_log_squared_isotensional_legendre, C58_wlc, C58_wlc_thermodynamics, C58_wlc_isometric, C58_wlc_isometric_legendre, C58_wlc_isotensional, C58_wlc_isotensional_legendre.

## 2 assumptions

* `ClassicalDedekindReals.sig_forall_dec`
* `FunctionalExtensionality.functional_extensionality_dep`

Theorems: C34_integral, C34_nonnegative, C67_mean_average, C82_below_hooke.

## 3 assumptions

* `ClassicalDedekindReals.sig_forall_dec`
* `ClassicalDedekindReals.sig_not_dec`
* `FunctionalExtensionality.functional_extensionality_dep`

Theorems: C70_walk_three, C68_normal_average_unique, C67_mean_unique, C67_mean_le, C67_integral_unique, C66_average_unique, C45_I0_exists, C45_I1_exists.

## 4 assumptions

* `ClassicalDedekindReals.sig_forall_dec`
* `ClassicalDedekindReals.sig_not_dec`
* `Classical_Prop.classic`
* `FunctionalExtensionality.functional_extensionality_dep`

Theorems: C85_wlc_partial, C85_wlc_nondimensional_partial, C57_wlc_flexible, C75_wlc_slope, C85_wlc_refuted, C85_wlc_nondimensional_refuted, C70_walk, C70_force, C70_force_dimensional, C70_force_three, C70_distribution, C70_distribution_dimensional, C70_distribution_three, C70_free_energy, C70_free_energy_dimensional, C70_two_links_soften, C70_three_links_soften, C58_damage_shape_refuted, C79_fjc, C79_efjc, C79_efjc_alternative, C79_swfjc, C79_morse, C79_lennard_jones, C79_log_squared, C79_ideal, C01_ideal_isotensional_conjugate, C01_fjc_isotensional_conjugate, C02_swfjc_isotensional_conjugate, C03_efjc_asymptotic_conjugate, C05_morse_conjugate, C05_lennard_jones_conjugate, C05_log_squared_conjugate, C06_morse_asymptotic_conjugate, C07_lennard_jones_defect, C07_log_squared_defect, C07_lennard_jones, C07_lennard_jones_differentiable, C08_ideal_isometric_conjugate, C10_wlc_isometric_defect_partial, C36_accepted_histories, C36_outputs, C36_only_maximum, C37_breaking_irreversible, C37_irreversible_refuted, C38_intact_fraction, C38_undamaged, C38_nonnegative, C38_critical_extension_monotone, C40_equibiaxial_uniaxial, C40_linear_in_table, C41_erf_erfc, C41_erfcx, C41_reflection, C41_odd, C42_positive, C42_zero, C42_negative_partial, C42_refuted, C42_limit_refuted, C43_erfc_exists, C43_erfcx, C43_erfc, C43_erf, C71_fjc_isometric, C71_fjc_isometric_positive, C71_fjc_isometric_work, C71_fjc_tail, C71_fjc_tail_force, C71_fjc, C71_swfjc, C71_efjc_asymptotic, C71_morse, C71_morse_asymptotic, C71_lennard_jones, C71_log_squared, C78_ideal, C78_fjc, C78_swfjc, C78_wlc, C78_efjc, C78_morse, C78_lennard_jones, C78_log_squared, C78_alternative_partial, C78_alternative_refuted, C78_entropic, C78_fjc_entropic, C75_hooke, C75_ideal, C75_fjc, C75_swfjc, C75_morse, C75_log_squared, C75_lennard_jones, C75_wlc, C75_anharmonicity, C75_asymptotic, C75_reduced, C75_alternative, C75_efjc_refuted, C76_fjc, C76_swfjc, C76_morse, C76_log_squared, C76_lennard_jones, C76_efjc, C76_alternative_refuted, C29_normalised, C29_radial, C29_free_energy, C29_nondimensional_free_energy, C12_ideal_dimensionless, C12_fjc_dimensionless, C12_swfjc_dimensionless, C12_efjc_dimensionless, C12_morse_dimensionless, C12_lennard_jones_dimensionless, C12_log_squared_dimensionless, C12_wlc_dimensionless, C13_ideal_extensive, C13_fjc_extensive, C13_swfjc_extensive, C13_efjc_extensive, C13_morse_extensive, C13_lennard_jones_extensive, C13_log_squared_extensive, C13_wlc_extensive, C14_ideal_relative, C14_fjc_relative, C14_swfjc_relative, C14_efjc_relative, C14_morse_relative, C14_lennard_jones_relative, C14_log_squared_relative, C14_wlc_relative, C14_swfjc_reference, C14_efjc_reference, C14_morse_reference, C14_lennard_jones_reference, C14_log_squared_reference, C14_wlc_reference, C11_fjc_legendre, C11_swfjc_legendre, C11_efjc_legendre, C11_morse_legendre, C11_lennard_jones_legendre, C11_log_squared_legendre, C11_wlc_legendre, C21_langevin, C21_lennard_jones_stretch, C21_log_squared_slope, C47_efjc, C47_morse, C47_lennard_jones, C47_lennard_jones_reduced, C47_log_squared, C47_log_squared_reduced, C47_swfjc, C47_swfjc_linear, C47_legendre_efjc, C47_legendre_efjc_alternative, C47_legendre_efjc_reduced, C47_legendre_morse, C47_legendre_morse_reduced, C47_legendre_lennard_jones, C47_legendre_lennard_jones_reduced, C47_legendre_log_squared, C47_legendre_log_squared_reduced, C47_legendre_swfjc, C25_density, C25_density_dimensional, C25_axis, C26_nondimensional, C26_dimensional, C27_positive, C28_force_domain, C28_distribution_domain, C28_release_wrong, C09_nondimensional, C09_dimensional, C09_three_links_refuted, C61_object_fjc_isometric_legendre, C61_object_swfjc_isometric_legendre, C61_object_fjc_isometric, C61_object_swfjc_isometric, C61_object_fjc_thermodynamics, C61_object_swfjc_thermodynamics, C61_object_fjc, C61_object_swfjc, C61_efjc_isotensional_asymptotic_legendre_per_link, C46_stiff, C46_narrow_well, C46_weak_force, C46_longer_efjc, C46_longer_swfjc, C46_longer_morse, C46_longer_lennard_jones, C46_longer_log_squared, C51_limit, C53_lennard_jones_stretch, C53_log_squared_stretch, C16_odd, C16_increasing, C16_range, C16_limit, C16_length, C17_accuracy, C17_terminates_by_tolerance, C18_odd_refuted, C18_odd_partial, C18_negative, C19_root_is_fixed, C19_powered_is_damped, C20_from_below, C20_any_start, C20_iterates, C22_linear, C22_monotone, C22_affine_exact, C22_split, C22_reverse, C23_error_bound, C23_converges, C24_iterated, C24_square, C24_grid_2d, C24_midpoints, C62_weak_gibbs, C62_weak_length, C62_asymptotic_weak, C62_length_bounds, C62_length_increasing, C62_asymptotic_strong, C62_strong_grid_refuted, C62_strong_force_refuted, C30_nondimensional, C30_dimensional, C30_lengths, C30_gibbs, C30_dimensionless, C30_extensive, C50_nondimensional, C50_dimensional, C31_weak, C31_weak_identities, C31_weak_force, C31_weak_leading, C31_strong, C31_strong_dimensional, C31_strong_leading, C73_uniaxial_partial, C73_equibiaxial_partial, C73_growth_refuted, C83_fjc_nondimensional, C83_fjc, C83_ideal_nondimensional, C83_ideal, C83_ideal_peak, C83_ideal_peak_nondimensional, C83_response, C32_fjc_links, C32_fjc_unit, C32_efjc_links, C32_efjc_lengths, C32_frc_links, C32_efrc_links, C33_fjc_length, C33_frc_length, C34_fjc_histogram, C34_scaled_histogram, C34_frc_histogram, C34_efjc_histogram, C34_efrc_histogram, C34_single_link, C35_even_never_panics, C35_never_panics_refuted, C35_single_link_panics, C56_uniaxial, C56_equibiaxial, C56_damaged, C68_fjc, C68_efjc_square, C68_efjc_spring, C68_efjc_refuted, C49_fjc, C49_swfjc, C49_wlc, C49_wlc_positive, C15_efjc_isotensional_asymptotic_legendre_per_link, C12_fjc_isometric, C12_wlc_isotensional, C13_fjc_isometric, C13_wlc_isotensional, C14_fjc_isometric, C14_wlc_isotensional, C14_ideal_reference, C14_fjc_reference, C11_fjc_isometric, C11_wlc_isotensional, C04_refuted, C04_soft_links_diverge, C04_stiff_links_negative, C04_moderate_partial, C54_fjc, C54_swfjc, C54_ideal, C54_efjc, C54_efjc_stiff_refuted, C54_morse, C54_lennard_jones, C54_log_squared, C55_ideal, C55_fjc, C58_efjc_isotensional_asymptotic_legendre_per_link, C74_ideal, C74_fjc, C74_swfjc_partial, C74_efjc_asymptotic, C74_fjc_isometric_force, C74_fjc_isometric_energy, C74_fjc_isometric_distribution, C74_wlc_partial, C74_wlc_stiff_refuted, C74_wlc_refuted, C74_modified, C74_modified_nondimensional, C74_weak, C74_strong, C74_three_links_refuted, C74_morse_refuted, C74_efjc_refuted, C67_walk, C67_distribution, C67_histogram, C67_histogram_law, C67_histogram_converges, C66_fjc_isotropic, C66_fjc_mean, C66_fjc_square, C66_fjc_characteristic, C66_fjc_isotensional, C66_fjc_distribution, C66_efjc_generating, C66_efjc_square, C66_frc_mean, C66_frc_square, C66_efrc_square, C77_efjc, C77_efjc_alternative, C77_efjc_reduced, C77_efjc_units, C77_morse_stiffer, C77_morse_deeper, C77_lennard_jones, C77_log_squared, C77_swfjc, C77_swfjc_rigid, C77_swfjc_units, C72_terminates, C72_force, C72_root, C72_round_trip, C72_helmholtz, C72_work, C44_principal_branch, C44_fixed_point, C44_step, C44_bracket, C44_accuracy, C44_negative, C44_negative_accuracy, C44_iterations, C44_loop, C45_I0_accuracy, C45_I1_accuracy, C45_I0_large_accuracy, C45_I1_large_accuracy, C45_even_partial, C45_odd_partial, C45_other_orders, C45_negative_refuted, C57_ideal, C57_fjc, C57_swfjc, C57_efjc_asymptotic, C57_morse, C57_morse_asymptotic, C57_lennard_jones, C57_log_squared, C57_lennard_jones_asymptotic, C57_log_squared_asymptotic, C57_wlc, C57_efjc_refuted, C82_ideal, C82_fjc, C82_swfjc, C82_efjc, C82_fjc_units, C82_swfjc_units, C82_efjc_units, C82_below_ideal, C82_morse, C82_lennard_jones, C82_log_squared, C84_fjc_nondimensional, C84_fjc, C84_fjc_legendre_nondimensional, C84_fjc_legendre, C84_wlc_nondimensional, C84_wlc, C80_ideal, C80_fjc, C80_swfjc, C80_efjc_asymptotic, C80_efjc_reduced, C80_morse, C80_lennard_jones, C80_log_squared, C80_entropy, C80_ideal_isometric, C80_fjc_isometric, C80_wlc_isometric, C81_ideal_isometric, C81_ideal_isotensional, C81_fjc_isometric_legendre, C81_fjc_isotensional, C81_fjc_isotensional_legendre, C81_swfjc_isometric_legendre, C81_swfjc_isotensional, C81_swfjc_isotensional_legendre, C81_efjc_isometric_asymptotic_alternative_legendre, C81_efjc_isometric_asymptotic_legendre, C81_efjc_isometric_asymptotic_reduced_legendre, C81_efjc_isotensional, C81_efjc_isotensional_asymptotic, C81_efjc_isotensional_asymptotic_alternative, C81_efjc_isotensional_asymptotic_alternative_legendre, C81_efjc_isotensional_asymptotic_legendre, C81_efjc_isotensional_asymptotic_reduced, C81_efjc_isotensional_asymptotic_reduced_legendre, C81_efjc_isotensional_legendre, C81_morse_isometric_asymptotic_legendre, C81_morse_isometric_asymptotic_reduced_legendre, C81_morse_isotensional, C81_morse_isotensional_asymptotic, C81_morse_isotensional_asymptotic_legendre, C81_morse_isotensional_asymptotic_reduced, C81_morse_isotensional_asymptotic_reduced_legendre, C81_morse_isotensional_legendre, C81_lennard_jones_isometric_asymptotic_legendre, C81_lennard_jones_isometric_asymptotic_reduced_legendre, C81_lennard_jones_isotensional, C81_lennard_jones_isotensional_asymptotic, C81_lennard_jones_isotensional_asymptotic_legendre, C81_lennard_jones_isotensional_asymptotic_reduced, C81_lennard_jones_isotensional_asymptotic_reduced_legendre, C81_lennard_jones_isotensional_legendre, C81_log_squared_isometric_asymptotic_legendre, C81_log_squared_isometric_asymptotic_reduced_legendre, C81_log_squared_isotensional, C81_log_squared_isotensional_asymptotic, C81_log_squared_isotensional_asymptotic_legendre, C81_log_squared_isotensional_asymptotic_reduced, C81_log_squared_isotensional_asymptotic_reduced_legendre, C81_log_squared_isotensional_legendre, C81_wlc_isometric, C81_ideal_densities, C81_fjc_densities, C81_swfjc_densities, C81_wlc_densities, C81_fjc_isometric, C81_wlc_isotensional, C81_fjc_isometric_absolute, C81_modified, C81_weak, C81_strong_force, C81_strong, C81_efjc_absolute_refuted, C48_gibbs, C48_length, C10_wlc_isometric_conjugate, C10_wlc_stiff_refuted.

## 16 assumptions

* `PrimFloat.abs`
* `PrimFloat.opp`
* `PrimInt63.int`
* `PrimInt63.lor`
* `PrimInt63.lsl`
* `PrimInt63.sub`
* `add`
* `div`
* `float`
* `ldshiftexp`
* `leb`
* `ltb`
* `mul`
* `of_uint63`
* `sqrt`
* `sub`

Theorems: C42_binary64_refuted.

## 16 assumptions

* `PrimInt63.int`
* `PrimInt63.lor`
* `PrimInt63.lsl`
* `PrimInt63.sub`
* `abs`
* `add`
* `div`
* `float`
* `ldshiftexp`
* `leb`
* `ltb`
* `mul`
* `of_uint63`
* `opp`
* `sqrt`
* `sub`

Theorems: C36_binary64_nan.

## 16 assumptions

* `PrimFloat.abs`
* `PrimFloat.leb`
* `PrimFloat.opp`
* `PrimFloat.sqrt`
* `PrimInt63.int`
* `PrimInt63.lor`
* `PrimInt63.lsl`
* `PrimInt63.sub`
* `add`
* `div`
* `float`
* `ldshiftexp`
* `ltb`
* `mul`
* `of_uint63`
* `sub`

Theorems: C51_swfjc_refuted, C52_inverse_langevin_refuted.

## 17 assumptions

* `PrimFloat.abs`
* `PrimFloat.opp`
* `PrimInt63.int`
* `PrimInt63.lor`
* `PrimInt63.lsl`
* `PrimInt63.sub`
* `add`
* `div`
* `eqb`
* `float`
* `ldshiftexp`
* `leb`
* `ltb`
* `mul`
* `of_uint63`
* `sqrt`
* `sub`

Theorems: C19_powered_root_refuted.

## 24 assumptions

* `PrimFloat.abs`
* `PrimFloat.leb`
* `PrimFloat.opp`
* `PrimFloat.sqrt`
* `PrimInt63.eqb`
* `PrimInt63.int`
* `PrimInt63.land`
* `PrimInt63.lor`
* `PrimInt63.lsl`
* `PrimInt63.lsr`
* `PrimInt63.sub`
* `SF2Prim_Prim2SF`
* `add`
* `div`
* `eqb`
* `float`
* `frshiftexp`
* `ldshiftexp`
* `ltb`
* `mul`
* `mul_spec`
* `normfr_mantissa`
* `of_uint63`
* `sub`

Theorems: C51_length_refuted.

## 25 assumptions

* `ClassicalDedekindReals.sig_forall_dec`
* `ClassicalDedekindReals.sig_not_dec`
* `Classical_Prop.classic`
* `FunctionalExtensionality.functional_extensionality_dep`
* `Prim2SF_SF2Prim`
* `Prim2SF_valid`
* `PrimInt63.eqb`
* `PrimInt63.int`
* `PrimInt63.land`
* `PrimInt63.lor`
* `PrimInt63.lsl`
* `PrimInt63.lsr`
* `PrimInt63.sub`
* `SF2Prim_Prim2SF`
* `abs`
* `div`
* `div_spec`
* `eqb`
* `float`
* `frshiftexp`
* `ldshiftexp`
* `ltb`
* `normfr_mantissa`
* `of_uint63`
* `opp`

Theorems: C64_ideal.

## 25 assumptions

* `PrimFloat.abs`
* `PrimFloat.leb`
* `PrimFloat.opp`
* `PrimFloat.sqrt`
* `PrimInt63.eqb`
* `PrimInt63.int`
* `PrimInt63.land`
* `PrimInt63.lor`
* `PrimInt63.lsl`
* `PrimInt63.lsr`
* `PrimInt63.sub`
* `SF2Prim_Prim2SF`
* `add`
* `add_spec`
* `div`
* `eqb`
* `float`
* `frshiftexp`
* `ldshiftexp`
* `ltb`
* `mul`
* `normfr_mantissa`
* `of_uint63`
* `sub`
* `sub_spec`

Theorems: C51_refuted.

## 26 assumptions

* `ClassicalDedekindReals.sig_forall_dec`
* `ClassicalDedekindReals.sig_not_dec`
* `Classical_Prop.classic`
* `FunctionalExtensionality.functional_extensionality_dep`
* `PrimInt63.eqb`
* `PrimInt63.int`
* `PrimInt63.land`
* `PrimInt63.lor`
* `PrimInt63.lsl`
* `PrimInt63.lsr`
* `PrimInt63.sub`
* `abs`
* `add`
* `div`
* `eqb`
* `float`
* `frshiftexp`
* `ldshiftexp`
* `leb`
* `ltb`
* `mul`
* `normfr_mantissa`
* `of_uint63`
* `opp`
* `sqrt`
* `sub`

Theorems: C86_accurate_refuted.

## 27 assumptions

* `PrimInt63.eqb`
* `PrimInt63.int`
* `PrimInt63.land`
* `PrimInt63.lor`
* `PrimInt63.lsl`
* `PrimInt63.lsr`
* `PrimInt63.sub`
* `SF2Prim_Prim2SF`
* `abs`
* `add`
* `add_spec`
* `div`
* `div_spec`
* `eqb`
* `float`
* `frshiftexp`
* `ldshiftexp`
* `leb`
* `ltb`
* `mul`
* `mul_spec`
* `normfr_mantissa`
* `of_uint63`
* `opp`
* `sqrt`
* `sub`
* `sub_spec`

Theorems: C87_efrc_refuted, C87_frc_refuted.

## 27 assumptions

* `PrimFloat.abs`
* `PrimFloat.leb`
* `PrimFloat.opp`
* `PrimFloat.sqrt`
* `PrimInt63.eqb`
* `PrimInt63.int`
* `PrimInt63.land`
* `PrimInt63.lor`
* `PrimInt63.lsl`
* `PrimInt63.lsr`
* `PrimInt63.sub`
* `SF2Prim_Prim2SF`
* `add`
* `add_spec`
* `div`
* `div_spec`
* `eqb`
* `float`
* `frshiftexp`
* `ldshiftexp`
* `ltb`
* `ltb_spec`
* `mul`
* `normfr_mantissa`
* `of_uint63`
* `sub`
* `sub_spec`

Theorems: C52_efjc_refuted.

## 27 assumptions

* `PrimFloat.leb`
* `PrimFloat.sqrt`
* `PrimInt63.eqb`
* `PrimInt63.int`
* `PrimInt63.land`
* `PrimInt63.lor`
* `PrimInt63.lsl`
* `PrimInt63.lsr`
* `PrimInt63.sub`
* `SF2Prim_Prim2SF`
* `abs`
* `add`
* `add_spec`
* `div`
* `div_spec`
* `eqb`
* `float`
* `frshiftexp`
* `ldshiftexp`
* `ltb`
* `mul`
* `mul_spec`
* `normfr_mantissa`
* `of_uint63`
* `opp`
* `sub`
* `sub_spec`

Theorems: C74_logarithm_refuted.

## 28 assumptions

* `ClassicalDedekindReals.sig_forall_dec`
* `ClassicalDedekindReals.sig_not_dec`
* `Classical_Prop.classic`
* `FunctionalExtensionality.functional_extensionality_dep`
* `PrimInt63.eqb`
* `PrimInt63.int`
* `PrimInt63.land`
* `PrimInt63.lor`
* `PrimInt63.lsl`
* `PrimInt63.lsr`
* `PrimInt63.sub`
* `SF2Prim_Prim2SF`
* `abs`
* `add`
* `div`
* `div_spec`
* `eqb`
* `float`
* `frshiftexp`
* `ldshiftexp`
* `leb`
* `ltb`
* `mul`
* `normfr_mantissa`
* `of_uint63`
* `opp`
* `sqrt`
* `sub`

Theorems: C64_gibbs_refuted.

## 28 assumptions

* `PrimInt63.eqb`
* `PrimInt63.int`
* `PrimInt63.land`
* `PrimInt63.lor`
* `PrimInt63.lsl`
* `PrimInt63.lsr`
* `PrimInt63.sub`
* `SF2Prim_Prim2SF`
* `abs`
* `add`
* `add_spec`
* `div`
* `div_spec`
* `eqb`
* `float`
* `frshiftexp`
* `ldshiftexp`
* `leb`
* `ltb`
* `ltb_spec`
* `mul`
* `mul_spec`
* `normfr_mantissa`
* `of_uint63`
* `opp`
* `sqrt`
* `sub`
* `sub_spec`

Theorems: C64_swfjc_refuted.

## 29 assumptions

* `ClassicalDedekindReals.sig_forall_dec`
* `ClassicalDedekindReals.sig_not_dec`
* `Classical_Prop.classic`
* `FunctionalExtensionality.functional_extensionality_dep`
* `Prim2SF_SF2Prim`
* `Prim2SF_valid`
* `PrimInt63.eqb`
* `PrimInt63.int`
* `PrimInt63.land`
* `PrimInt63.lor`
* `PrimInt63.lsl`
* `PrimInt63.lsr`
* `PrimInt63.sub`
* `SF2Prim_Prim2SF`
* `abs`
* `add`
* `div`
* `eqb`
* `float`
* `frshiftexp`
* `ldshiftexp`
* `leb`
* `ltb`
* `mul`
* `normfr_mantissa`
* `of_uint63`
* `opp`
* `sqrt`
* `sub`

Theorems: C57_binary64_refuted.

## 30 assumptions

* `ClassicalDedekindReals.sig_forall_dec`
* `FunctionalExtensionality.functional_extensionality_dep`
* `PrimInt63.eqb`
* `PrimInt63.int`
* `PrimInt63.land`
* `PrimInt63.lor`
* `PrimInt63.lsl`
* `PrimInt63.lsr`
* `PrimInt63.sub`
* `SF2Prim_Prim2SF`
* `abs`
* `add`
* `add_spec`
* `div`
* `div_spec`
* `eqb`
* `float`
* `frshiftexp`
* `ldshiftexp`
* `leb`
* `ltb`
* `ltb_spec`
* `mul`
* `mul_spec`
* `normfr_mantissa`
* `of_uint63`
* `opp`
* `sqrt`
* `sub`
* `sub_spec`

Theorems: C87_efrc_distribution_refuted, C87_frc_distribution_refuted.

## 30 assumptions

* `ClassicalDedekindReals.sig_forall_dec`
* `ClassicalDedekindReals.sig_not_dec`
* `Classical_Prop.classic`
* `FunctionalExtensionality.functional_extensionality_dep`
* `Prim2SF_SF2Prim`
* `Prim2SF_valid`
* `PrimInt63.eqb`
* `PrimInt63.int`
* `PrimInt63.land`
* `PrimInt63.lor`
* `PrimInt63.lsl`
* `PrimInt63.lsr`
* `PrimInt63.sub`
* `SF2Prim_Prim2SF`
* `abs`
* `add`
* `div`
* `div_spec`
* `eqb`
* `float`
* `frshiftexp`
* `ldshiftexp`
* `leb`
* `ltb`
* `mul`
* `normfr_mantissa`
* `of_uint63`
* `opp`
* `sqrt`
* `sub`

Theorems: C57_ideal_binary64.

## 30 assumptions

* `ClassicalDedekindReals.sig_forall_dec`
* `ClassicalDedekindReals.sig_not_dec`
* `Classical_Prop.classic`
* `FunctionalExtensionality.functional_extensionality_dep`
* `Prim2SF_SF2Prim`
* `Prim2SF_valid`
* `PrimInt63.eqb`
* `PrimInt63.int`
* `PrimInt63.land`
* `PrimInt63.lor`
* `PrimInt63.lsl`
* `PrimInt63.lsr`
* `PrimInt63.sub`
* `SF2Prim_Prim2SF`
* `abs`
* `add`
* `add_spec`
* `div`
* `eqb`
* `float`
* `frshiftexp`
* `ldshiftexp`
* `leb`
* `ltb`
* `mul`
* `normfr_mantissa`
* `of_uint63`
* `opp`
* `sqrt`
* `sub`

Theorems: C65_sum.

## 30 assumptions

* `ClassicalDedekindReals.sig_forall_dec`
* `ClassicalDedekindReals.sig_not_dec`
* `Classical_Prop.classic`
* `FunctionalExtensionality.functional_extensionality_dep`
* `Prim2SF_SF2Prim`
* `Prim2SF_valid`
* `PrimInt63.eqb`
* `PrimInt63.int`
* `PrimInt63.land`
* `PrimInt63.lor`
* `PrimInt63.lsl`
* `PrimInt63.lsr`
* `PrimInt63.sub`
* `SF2Prim_Prim2SF`
* `abs`
* `add`
* `div`
* `eqb`
* `float`
* `frshiftexp`
* `ldshiftexp`
* `leb`
* `leb_spec`
* `ltb`
* `mul`
* `normfr_mantissa`
* `of_uint63`
* `opp`
* `sqrt`
* `sub`

Theorems: C36_binary64_accepted.

## 30 assumptions

* `ClassicalDedekindReals.sig_forall_dec`
* `ClassicalDedekindReals.sig_not_dec`
* `Classical_Prop.classic`
* `FunctionalExtensionality.functional_extensionality_dep`
* `Prim2SF_SF2Prim`
* `Prim2SF_valid`
* `PrimInt63.eqb`
* `PrimInt63.int`
* `PrimInt63.land`
* `PrimInt63.lor`
* `PrimInt63.lsl`
* `PrimInt63.lsr`
* `PrimInt63.sub`
* `SF2Prim_Prim2SF`
* `abs`
* `add`
* `div`
* `eqb`
* `float`
* `frshiftexp`
* `ldshiftexp`
* `leb`
* `ltb`
* `ltb_spec`
* `mul`
* `normfr_mantissa`
* `of_uint63`
* `opp`
* `sqrt`
* `sub`

Theorems: C36_binary64_outputs, C36_binary64_only_maximum.

## 31 assumptions

* `ClassicalDedekindReals.sig_forall_dec`
* `ClassicalDedekindReals.sig_not_dec`
* `Classical_Prop.classic`
* `FunctionalExtensionality.functional_extensionality_dep`
* `Prim2SF_SF2Prim`
* `Prim2SF_valid`
* `PrimInt63.eqb`
* `PrimInt63.int`
* `PrimInt63.land`
* `PrimInt63.lor`
* `PrimInt63.lsl`
* `PrimInt63.lsr`
* `PrimInt63.sub`
* `SF2Prim_Prim2SF`
* `abs`
* `add`
* `div`
* `div_spec`
* `eqb`
* `float`
* `frshiftexp`
* `ldshiftexp`
* `leb`
* `ltb`
* `mul`
* `normfr_mantissa`
* `of_uint63`
* `opp`
* `sqrt`
* `sub`
* `sub_spec`

Theorems: C86_per_link, C64_fjc, C64_weak_refuted.

## 31 assumptions

* `ClassicalDedekindReals.sig_forall_dec`
* `ClassicalDedekindReals.sig_not_dec`
* `Classical_Prop.classic`
* `FunctionalExtensionality.functional_extensionality_dep`
* `Prim2SF_SF2Prim`
* `Prim2SF_valid`
* `PrimInt63.eqb`
* `PrimInt63.int`
* `PrimInt63.land`
* `PrimInt63.lor`
* `PrimInt63.lsl`
* `PrimInt63.lsr`
* `PrimInt63.sub`
* `SF2Prim_Prim2SF`
* `abs`
* `add`
* `div`
* `div_spec`
* `eqb`
* `float`
* `frshiftexp`
* `ldshiftexp`
* `leb`
* `ltb`
* `mul`
* `normfr_mantissa`
* `of_uint63`
* `opp`
* `opp_spec`
* `sqrt`
* `sub`

Theorems: C74_ideal_binary64, C64_gibbs.

## 31 assumptions

* `ClassicalDedekindReals.sig_forall_dec`
* `ClassicalDedekindReals.sig_not_dec`
* `Classical_Prop.classic`
* `FunctionalExtensionality.functional_extensionality_dep`
* `Prim2SF_SF2Prim`
* `Prim2SF_valid`
* `PrimInt63.eqb`
* `PrimInt63.int`
* `PrimInt63.land`
* `PrimInt63.lor`
* `PrimInt63.lsl`
* `PrimInt63.lsr`
* `PrimInt63.sub`
* `SF2Prim_Prim2SF`
* `abs`
* `add`
* `add_spec`
* `div`
* `eqb`
* `float`
* `frshiftexp`
* `ldshiftexp`
* `leb`
* `ltb`
* `mul`
* `mul_spec`
* `normfr_mantissa`
* `of_uint63`
* `opp`
* `sqrt`
* `sub`

Theorems: C65_grid, C65_grid_2d.

## 31 assumptions

* `ClassicalDedekindReals.sig_forall_dec`
* `ClassicalDedekindReals.sig_not_dec`
* `Classical_Prop.classic`
* `FunctionalExtensionality.functional_extensionality_dep`
* `Prim2SF_SF2Prim`
* `Prim2SF_valid`
* `PrimInt63.eqb`
* `PrimInt63.int`
* `PrimInt63.land`
* `PrimInt63.lor`
* `PrimInt63.lsl`
* `PrimInt63.lsr`
* `PrimInt63.sub`
* `SF2Prim_Prim2SF`
* `abs`
* `add`
* `div`
* `eqb`
* `float`
* `frshiftexp`
* `ldshiftexp`
* `leb`
* `ltb`
* `mul`
* `mul_spec`
* `normfr_mantissa`
* `of_uint63`
* `opp`
* `sqrt`
* `sub`
* `sub_spec`

Theorems: C87_link.

## 32 assumptions

* `ClassicalDedekindReals.sig_forall_dec`
* `ClassicalDedekindReals.sig_not_dec`
* `Classical_Prop.classic`
* `FunctionalExtensionality.functional_extensionality_dep`
* `Prim2SF_SF2Prim`
* `Prim2SF_valid`
* `PrimInt63.eqb`
* `PrimInt63.int`
* `PrimInt63.land`
* `PrimInt63.lor`
* `PrimInt63.lsl`
* `PrimInt63.lsr`
* `PrimInt63.sub`
* `SF2Prim_Prim2SF`
* `abs`
* `add`
* `add_spec`
* `div`
* `div_spec`
* `eqb`
* `float`
* `frshiftexp`
* `ldshiftexp`
* `leb`
* `ltb`
* `ltb_spec`
* `mul`
* `normfr_mantissa`
* `of_uint63`
* `opp`
* `sqrt`
* `sub`

Theorems: C91_fjc.

## 32 assumptions

* `ClassicalDedekindReals.sig_forall_dec`
* `ClassicalDedekindReals.sig_not_dec`
* `Classical_Prop.classic`
* `FunctionalExtensionality.functional_extensionality_dep`
* `Prim2SF_SF2Prim`
* `Prim2SF_valid`
* `PrimInt63.eqb`
* `PrimInt63.int`
* `PrimInt63.land`
* `PrimInt63.lor`
* `PrimInt63.lsl`
* `PrimInt63.lsr`
* `PrimInt63.sub`
* `SF2Prim_Prim2SF`
* `abs`
* `add`
* `div`
* `div_spec`
* `eqb`
* `float`
* `frshiftexp`
* `ldshiftexp`
* `leb`
* `ltb`
* `mul`
* `mul_spec`
* `normfr_mantissa`
* `of_uint63`
* `opp`
* `sqrt`
* `sub`
* `sub_spec`

Theorems: C86_total, C86_units, C64_fjc_units.

## 32 assumptions

* `ClassicalDedekindReals.sig_forall_dec`
* `ClassicalDedekindReals.sig_not_dec`
* `Classical_Prop.classic`
* `FunctionalExtensionality.functional_extensionality_dep`
* `Prim2SF_SF2Prim`
* `Prim2SF_valid`
* `PrimInt63.eqb`
* `PrimInt63.int`
* `PrimInt63.land`
* `PrimInt63.lor`
* `PrimInt63.lsl`
* `PrimInt63.lsr`
* `PrimInt63.sub`
* `SF2Prim_Prim2SF`
* `abs`
* `add`
* `div`
* `div_spec`
* `eqb`
* `float`
* `frshiftexp`
* `ldshiftexp`
* `leb`
* `ltb`
* `mul`
* `normfr_mantissa`
* `of_uint63`
* `opp`
* `opp_spec`
* `sqrt`
* `sub`
* `sub_spec`

Theorems: C74_fjc_binary64.

## 32 assumptions

* `ClassicalDedekindReals.sig_forall_dec`
* `ClassicalDedekindReals.sig_not_dec`
* `Classical_Prop.classic`
* `FunctionalExtensionality.functional_extensionality_dep`
* `Prim2SF_SF2Prim`
* `Prim2SF_valid`
* `PrimInt63.eqb`
* `PrimInt63.int`
* `PrimInt63.land`
* `PrimInt63.lor`
* `PrimInt63.lsl`
* `PrimInt63.lsr`
* `PrimInt63.sub`
* `SF2Prim_Prim2SF`
* `abs`
* `add`
* `add_spec`
* `div`
* `div_spec`
* `eqb`
* `float`
* `frshiftexp`
* `ldshiftexp`
* `leb`
* `ltb`
* `mul`
* `normfr_mantissa`
* `of_uint63`
* `opp`
* `sqrt`
* `sub`
* `sub_spec`

Theorems: C77_binary64, C64_efjc_reduced.

## 32 assumptions

* `ClassicalDedekindReals.sig_forall_dec`
* `ClassicalDedekindReals.sig_not_dec`
* `Classical_Prop.classic`
* `FunctionalExtensionality.functional_extensionality_dep`
* `Prim2SF_SF2Prim`
* `Prim2SF_valid`
* `PrimInt63.eqb`
* `PrimInt63.int`
* `PrimInt63.land`
* `PrimInt63.lor`
* `PrimInt63.lsl`
* `PrimInt63.lsr`
* `PrimInt63.sub`
* `SF2Prim_Prim2SF`
* `abs`
* `add`
* `div`
* `div_spec`
* `eqb`
* `float`
* `frshiftexp`
* `ldshiftexp`
* `leb`
* `ltb`
* `ltb_spec`
* `mul`
* `mul_spec`
* `normfr_mantissa`
* `of_uint63`
* `opp`
* `sqrt`
* `sub`

Theorems: C90_ideal.

## 32 assumptions

* `ClassicalDedekindReals.sig_forall_dec`
* `ClassicalDedekindReals.sig_not_dec`
* `Classical_Prop.classic`
* `FunctionalExtensionality.functional_extensionality_dep`
* `Prim2SF_SF2Prim`
* `Prim2SF_valid`
* `PrimInt63.eqb`
* `PrimInt63.int`
* `PrimInt63.land`
* `PrimInt63.lor`
* `PrimInt63.lsl`
* `PrimInt63.lsr`
* `PrimInt63.sub`
* `SF2Prim_Prim2SF`
* `abs`
* `add`
* `add_spec`
* `div`
* `eqb`
* `float`
* `frshiftexp`
* `ldshiftexp`
* `leb`
* `leb_spec`
* `ltb`
* `mul`
* `mul_spec`
* `normfr_mantissa`
* `of_uint63`
* `opp`
* `sqrt`
* `sub`

Theorems: C89_grid, C89_grid_2d.

## 33 assumptions

* `ClassicalDedekindReals.sig_forall_dec`
* `ClassicalDedekindReals.sig_not_dec`
* `Classical_Prop.classic`
* `FunctionalExtensionality.functional_extensionality_dep`
* `Prim2SF_SF2Prim`
* `Prim2SF_valid`
* `PrimInt63.eqb`
* `PrimInt63.int`
* `PrimInt63.land`
* `PrimInt63.lor`
* `PrimInt63.lsl`
* `PrimInt63.lsr`
* `PrimInt63.sub`
* `SF2Prim_Prim2SF`
* `abs`
* `add`
* `add_spec`
* `div`
* `div_spec`
* `eqb`
* `float`
* `frshiftexp`
* `ldshiftexp`
* `leb`
* `ltb`
* `ltb_spec`
* `mul`
* `mul_spec`
* `normfr_mantissa`
* `of_uint63`
* `opp`
* `sqrt`
* `sub`

Theorems: C91_efjc, C91_efrc.

## 33 assumptions

* `ClassicalDedekindReals.sig_forall_dec`
* `ClassicalDedekindReals.sig_not_dec`
* `Classical_Prop.classic`
* `FunctionalExtensionality.functional_extensionality_dep`
* `Prim2SF_SF2Prim`
* `Prim2SF_valid`
* `PrimInt63.eqb`
* `PrimInt63.int`
* `PrimInt63.land`
* `PrimInt63.lor`
* `PrimInt63.lsl`
* `PrimInt63.lsr`
* `PrimInt63.sub`
* `SF2Prim_Prim2SF`
* `abs`
* `add`
* `add_spec`
* `div`
* `div_spec`
* `eqb`
* `float`
* `frshiftexp`
* `ldshiftexp`
* `leb`
* `ltb`
* `mul`
* `mul_spec`
* `normfr_mantissa`
* `of_uint63`
* `opp`
* `sqrt`
* `sub`
* `sub_spec`

Theorems: C64_efjc, C65_midpoint, C65_integral, C89_points.

## 33 assumptions

* `ClassicalDedekindReals.sig_forall_dec`
* `ClassicalDedekindReals.sig_not_dec`
* `Classical_Prop.classic`
* `FunctionalExtensionality.functional_extensionality_dep`
* `Prim2SF_SF2Prim`
* `Prim2SF_valid`
* `PrimInt63.eqb`
* `PrimInt63.int`
* `PrimInt63.land`
* `PrimInt63.lor`
* `PrimInt63.lsl`
* `PrimInt63.lsr`
* `PrimInt63.sub`
* `SF2Prim_Prim2SF`
* `abs`
* `add`
* `add_spec`
* `div`
* `div_spec`
* `eqb`
* `float`
* `frshiftexp`
* `ldshiftexp`
* `leb`
* `ltb`
* `mul`
* `mul_spec`
* `normfr_mantissa`
* `of_uint63`
* `opp`
* `opp_spec`
* `sqrt`
* `sub`

Theorems: C69_density_positive_refuted, C69_density_sign_refuted, C69_force_refuted.

## 33 assumptions

* `ClassicalDedekindReals.sig_forall_dec`
* `ClassicalDedekindReals.sig_not_dec`
* `Classical_Prop.classic`
* `FunctionalExtensionality.functional_extensionality_dep`
* `Prim2SF_SF2Prim`
* `Prim2SF_valid`
* `PrimInt63.eqb`
* `PrimInt63.int`
* `PrimInt63.land`
* `PrimInt63.lor`
* `PrimInt63.lsl`
* `PrimInt63.lsr`
* `PrimInt63.sub`
* `SF2Prim_Prim2SF`
* `abs`
* `add`
* `add_spec`
* `div`
* `div_spec`
* `eqb`
* `float`
* `frshiftexp`
* `ldshiftexp`
* `leb`
* `leb_spec`
* `ltb`
* `mul`
* `mul_spec`
* `normfr_mantissa`
* `of_uint63`
* `opp`
* `sqrt`
* `sub`

Theorems: C38_binary64_critical_extension.

## 33 assumptions

* `ClassicalDedekindReals.sig_forall_dec`
* `ClassicalDedekindReals.sig_not_dec`
* `Classical_Prop.classic`
* `FunctionalExtensionality.functional_extensionality_dep`
* `Prim2SF_SF2Prim`
* `Prim2SF_valid`
* `PrimInt63.eqb`
* `PrimInt63.int`
* `PrimInt63.land`
* `PrimInt63.lor`
* `PrimInt63.lsl`
* `PrimInt63.lsr`
* `PrimInt63.sub`
* `SF2Prim_Prim2SF`
* `abs`
* `add`
* `add_spec`
* `div`
* `eqb`
* `float`
* `frshiftexp`
* `ldshiftexp`
* `leb`
* `ltb`
* `mul`
* `mul_spec`
* `normfr_mantissa`
* `of_uint63`
* `opp`
* `sqrt`
* `sqrt_spec`
* `sub`
* `sub_spec`

Theorems: C87_length, C87_efjc_length.

## 34 assumptions

* `ClassicalDedekindReals.sig_forall_dec`
* `ClassicalDedekindReals.sig_not_dec`
* `Classical_Prop.classic`
* `FunctionalExtensionality.functional_extensionality_dep`
* `Prim2SF_SF2Prim`
* `Prim2SF_valid`
* `PrimInt63.eqb`
* `PrimInt63.int`
* `PrimInt63.land`
* `PrimInt63.lor`
* `PrimInt63.lsl`
* `PrimInt63.lsr`
* `PrimInt63.sub`
* `SF2Prim_Prim2SF`
* `abs`
* `add`
* `add_spec`
* `div`
* `div_spec`
* `eqb`
* `float`
* `frshiftexp`
* `ldshiftexp`
* `leb`
* `ltb`
* `ltb_spec`
* `mul`
* `mul_spec`
* `normfr_mantissa`
* `of_uint63`
* `opp`
* `opp_spec`
* `sqrt`
* `sub`

Theorems: C90_fjc_legendre.

## 34 assumptions

* `ClassicalDedekindReals.sig_forall_dec`
* `ClassicalDedekindReals.sig_not_dec`
* `Classical_Prop.classic`
* `FunctionalExtensionality.functional_extensionality_dep`
* `Prim2SF_SF2Prim`
* `Prim2SF_valid`
* `PrimInt63.eqb`
* `PrimInt63.int`
* `PrimInt63.land`
* `PrimInt63.lor`
* `PrimInt63.lsl`
* `PrimInt63.lsr`
* `PrimInt63.sub`
* `SF2Prim_Prim2SF`
* `abs`
* `add`
* `add_spec`
* `div`
* `div_spec`
* `eqb`
* `float`
* `frshiftexp`
* `ldshiftexp`
* `leb`
* `ltb`
* `mul`
* `mul_spec`
* `normfr_mantissa`
* `of_uint63`
* `opp`
* `opp_spec`
* `sqrt`
* `sub`
* `sub_spec`

Theorems: C69_density_error.

## 34 assumptions

* `ClassicalDedekindReals.sig_forall_dec`
* `ClassicalDedekindReals.sig_not_dec`
* `Classical_Prop.classic`
* `FunctionalExtensionality.functional_extensionality_dep`
* `Prim2SF_SF2Prim`
* `Prim2SF_valid`
* `PrimInt63.eqb`
* `PrimInt63.int`
* `PrimInt63.land`
* `PrimInt63.lor`
* `PrimInt63.lsl`
* `PrimInt63.lsr`
* `PrimInt63.sub`
* `SF2Prim_Prim2SF`
* `abs`
* `add`
* `add_spec`
* `div`
* `div_spec`
* `eqb`
* `float`
* `frshiftexp`
* `ldshiftexp`
* `leb`
* `ltb`
* `ltb_spec`
* `mul`
* `mul_spec`
* `normfr_mantissa`
* `of_uint63`
* `opp`
* `sqrt`
* `sub`
* `sub_spec`

Theorems: C38_binary64_nonnegative.

## 34 assumptions

* `ClassicalDedekindReals.sig_forall_dec`
* `ClassicalDedekindReals.sig_not_dec`
* `Classical_Prop.classic`
* `FunctionalExtensionality.functional_extensionality_dep`
* `Prim2SF_SF2Prim`
* `Prim2SF_valid`
* `PrimInt63.eqb`
* `PrimInt63.int`
* `PrimInt63.land`
* `PrimInt63.lor`
* `PrimInt63.lsl`
* `PrimInt63.lsr`
* `PrimInt63.sub`
* `SF2Prim_Prim2SF`
* `abs`
* `add`
* `add_spec`
* `div`
* `div_spec`
* `eqb`
* `float`
* `frshiftexp`
* `ldshiftexp`
* `leb`
* `leb_spec`
* `ltb`
* `mul`
* `mul_spec`
* `normfr_mantissa`
* `of_uint63`
* `opp`
* `sqrt`
* `sub`
* `sub_spec`

Theorems: C89_order, C89_sign, C89_rectangle, C89_square.

## 35 assumptions

* `ClassicalDedekindReals.sig_forall_dec`
* `ClassicalDedekindReals.sig_not_dec`
* `Classical_Prop.classic`
* `FunctionalExtensionality.functional_extensionality_dep`
* `Prim2SF_SF2Prim`
* `Prim2SF_valid`
* `PrimInt63.eqb`
* `PrimInt63.int`
* `PrimInt63.land`
* `PrimInt63.lor`
* `PrimInt63.lsl`
* `PrimInt63.lsr`
* `PrimInt63.sub`
* `SF2Prim_Prim2SF`
* `abs`
* `add`
* `add_spec`
* `div`
* `div_spec`
* `eqb`
* `float`
* `frshiftexp`
* `ldshiftexp`
* `leb`
* `ltb`
* `ltb_spec`
* `mul`
* `mul_spec`
* `normfr_mantissa`
* `of_uint63`
* `opp`
* `sqrt`
* `sqrt_spec`
* `sub`
* `sub_spec`

Theorems: C91_frc, C88_histogram.

