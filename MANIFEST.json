{
 "claims": [
  {
   "property": "C01",
   "status": "proved",
   "theorems": [
    "C01_ideal_isotensional_conjugate",
    "C01_fjc_isotensional_conjugate"
   ],
   "note": ""
  },
  {
   "property": "C02",
   "status": "proved",
   "theorems": [
    "C02_swfjc_isotensional_conjugate"
   ],
   "note": ""
  },
  {
   "property": "C03",
   "status": "proved",
   "theorems": [
    "C03_efjc_asymptotic_conjugate"
   ],
   "note": ""
  },
  {
   "property": "C04",
   "status": "partial",
   "theorems": [
    "C04_refuted",
    "C04_soft_links_diverge",
    "C04_stiff_links_negative",
    "C04_moderate_partial"
   ],
   "note": "for moderately stiff links the extension is conjugate to the exact free energy up to 2e-10 (1 + 1/force)^2 (C04_moderate_partial); the property is false of the code: the extension misses an error function factor and divides by 1 + fraction instead of 1/2 + fraction; refuted at unit stiffness, with the size of the error for soft and for very stiff links"
  },
  {
   "property": "C05",
   "status": "proved",
   "theorems": [
    "C05_morse_conjugate",
    "C05_lennard_jones_conjugate",
    "C05_log_squared_conjugate"
   ],
   "note": ""
  },
  {
   "property": "C06",
   "status": "proved",
   "theorems": [
    "C06_morse_asymptotic_conjugate"
   ],
   "note": ""
  },
  {
   "property": "C07",
   "status": "proved",
   "theorems": [
    "C07_lennard_jones_defect",
    "C07_log_squared_defect",
    "C07_lennard_jones",
    "C07_lennard_jones_differentiable"
   ],
   "note": "real arithmetic"
  },
  {
   "property": "C08",
   "status": "proved",
   "theorems": [
    "C08_ideal_isometric_conjugate"
   ],
   "note": ""
  },
  {
   "property": "C09",
   "status": "proved",
   "theorems": [
    "C09_nondimensional",
    "C09_dimensional",
    "C09_three_links_refuted"
   ],
   "note": "the exception in the statement is shown to be one"
  },
  {
   "property": "C10",
   "status": "proved",
   "theorems": [
    "C10_wlc_isometric_conjugate",
    "C10_wlc_isometric_defect_partial",
    "C10_wlc_stiff_refuted"
   ],
   "note": "the _partial theorem is the exact defect for any persistence length; the _refuted theorem shows that the small bound fails for stiff chains, whose Bessel arguments lie far below -7.75"
  },
  {
   "property": "C11",
   "status": "proved",
   "theorems": [
    "C11_fjc_legendre",
    "C11_swfjc_legendre",
    "C11_efjc_legendre",
    "C11_morse_legendre",
    "C11_lennard_jones_legendre",
    "C11_log_squared_legendre",
    "C11_wlc_legendre",
    "C11_fjc_isometric",
    "C11_wlc_isotensional"
   ],
   "note": "modules whose functions may panic are stated on the calls that return"
  },
  {
   "property": "C12",
   "status": "proved",
   "theorems": [
    "C12_ideal_dimensionless",
    "C12_fjc_dimensionless",
    "C12_swfjc_dimensionless",
    "C12_efjc_dimensionless",
    "C12_morse_dimensionless",
    "C12_lennard_jones_dimensionless",
    "C12_log_squared_dimensionless",
    "C12_wlc_dimensionless",
    "C12_fjc_isometric",
    "C12_wlc_isotensional"
   ],
   "note": "all chain records of SpecChains.v, and the modules whose functions may panic (SpecPartial.v)"
  },
  {
   "property": "C13",
   "status": "proved",
   "theorems": [
    "C13_ideal_extensive",
    "C13_fjc_extensive",
    "C13_swfjc_extensive",
    "C13_efjc_extensive",
    "C13_morse_extensive",
    "C13_lennard_jones_extensive",
    "C13_log_squared_extensive",
    "C13_wlc_extensive",
    "C13_fjc_isometric",
    "C13_wlc_isotensional"
   ],
   "note": "all chain records of SpecChains.v, and the modules whose functions may panic (SpecPartial.v)"
  },
  {
   "property": "C14",
   "status": "proved",
   "theorems": [
    "C14_ideal_relative",
    "C14_fjc_relative",
    "C14_swfjc_relative",
    "C14_efjc_relative",
    "C14_morse_relative",
    "C14_lennard_jones_relative",
    "C14_log_squared_relative",
    "C14_wlc_relative",
    "C14_swfjc_reference",
    "C14_efjc_reference",
    "C14_morse_reference",
    "C14_lennard_jones_reference",
    "C14_log_squared_reference",
    "C14_wlc_reference",
    "C14_fjc_isometric",
    "C14_wlc_isotensional",
    "C14_ideal_reference",
    "C14_fjc_reference"
   ],
   "note": "closed forms of the ideal and freely jointed chains are referenced to zero force or extension, as the reworded property says"
  },
  {
   "property": "C15",
   "status": "proved",
   "theorems": [
    "C15_ideal",
    "C15_ideal_thermodynamics",
    "C15_ideal_isometric",
    "C15_ideal_isotensional",
    "C15_fjc",
    "C15_fjc_thermodynamics",
    "C15_fjc_isometric",
    "C15_fjc_isometric_legendre",
    "C15_fjc_isotensional",
    "C15_fjc_isotensional_legendre",
    "C15_fjc_modified_canonical",
    "C15_fjc_modified_canonical_asymptotic",
    "C15_fjc_modified_canonical_asymptotic_weak_potential",
    "C15_fjc_modified_canonical_asymptotic_strong_potential",
    "C15_swfjc",
    "C15_swfjc_thermodynamics",
    "C15_swfjc_isometric",
    "C15_swfjc_isometric_legendre",
    "C15_swfjc_isotensional",
    "C15_swfjc_isotensional_legendre",
    "C15_efjc",
    "C15_efjc_thermodynamics",
    "C15_efjc_isometric",
    "C15_efjc_isometric_asymptotic",
    "C15_efjc_isometric_asymptotic_alternative",
    "C15_efjc_isometric_asymptotic_alternative_legendre",
    "C15_efjc_isometric_asymptotic_reduced",
    "C15_efjc_isometric_asymptotic_reduced_legendre",
    "C15_efjc_isometric_asymptotic_legendre",
    "C15_efjc_isotensional",
    "C15_efjc_isotensional_asymptotic",
    "C15_efjc_isotensional_asymptotic_alternative",
    "C15_efjc_isotensional_asymptotic_alternative_legendre",
    "C15_efjc_isotensional_asymptotic_reduced",
    "C15_efjc_isotensional_asymptotic_reduced_legendre",
    "C15_efjc_isotensional_asymptotic_legendre",
    "C15_efjc_isotensional_legendre",
    "C15_morse",
    "C15_morse_thermodynamics",
    "C15_morse_isometric",
    "C15_morse_isometric_asymptotic",
    "C15_morse_isometric_asymptotic_reduced",
    "C15_morse_isometric_asymptotic_reduced_legendre",
    "C15_morse_isometric_asymptotic_legendre",
    "C15_morse_isotensional",
    "C15_morse_isotensional_asymptotic",
    "C15_morse_isotensional_asymptotic_reduced",
    "C15_morse_isotensional_asymptotic_reduced_legendre",
    "C15_morse_isotensional_asymptotic_legendre",
    "C15_morse_isotensional_legendre",
    "C15_lennard_jones",
    "C15_lennard_jones_thermodynamics",
    "C15_lennard_jones_isometric",
    "C15_lennard_jones_isometric_asymptotic",
    "C15_lennard_jones_isometric_asymptotic_reduced",
    "C15_lennard_jones_isometric_asymptotic_reduced_legendre",
    "C15_lennard_jones_isometric_asymptotic_legendre",
    "C15_lennard_jones_isotensional",
    "C15_lennard_jones_isotensional_asymptotic",
    "C15_lennard_jones_isotensional_asymptotic_reduced",
    "C15_lennard_jones_isotensional_asymptotic_reduced_legendre",
    "C15_lennard_jones_isotensional_asymptotic_legendre",
    "C15_lennard_jones_isotensional_legendre",
    "C15_log_squared",
    "C15_log_squared_thermodynamics",
    "C15_log_squared_isometric",
    "C15_log_squared_isometric_asymptotic",
    "C15_log_squared_isometric_asymptotic_reduced",
    "C15_log_squared_isometric_asymptotic_reduced_legendre",
    "C15_log_squared_isometric_asymptotic_legendre",
    "C15_log_squared_isotensional",
    "C15_log_squared_isotensional_asymptotic",
    "C15_log_squared_isotensional_asymptotic_reduced",
    "C15_log_squared_isotensional_asymptotic_reduced_legendre",
    "C15_log_squared_isotensional_asymptotic_legendre",
    "C15_log_squared_isotensional_legendre",
    "C15_wlc",
    "C15_wlc_thermodynamics",
    "C15_wlc_isometric",
    "C15_wlc_isometric_legendre",
    "C15_wlc_isotensional",
    "C15_wlc_isotensional_legendre",
    "C15_efjc_isotensional_asymptotic_legendre_per_link"
   ],
   "note": "over every scalar type, except the one method that repeats its formula, which is over the reals"
  },
  {
   "property": "C16",
   "status": "proved",
   "theorems": [
    "C16_odd",
    "C16_increasing",
    "C16_range",
    "C16_limit",
    "C16_length"
   ],
   "note": ""
  },
  {
   "property": "C17",
   "status": "proved",
   "theorems": [
    "C17_accuracy",
    "C17_terminates_by_tolerance"
   ],
   "note": "real arithmetic"
  },
  {
   "property": "C18",
   "status": "partial",
   "theorems": [
    "C18_odd_refuted",
    "C18_odd_partial",
    "C18_negative"
   ],
   "note": "false of the code: every negative argument takes the small-argument branch 3y; refuted at y = 0.9, true for |y| <= 1e-3"
  },
  {
   "property": "C19",
   "status": "proved",
   "theorems": [
    "C19_exit_condition",
    "C19_calls",
    "C19_powered_calls",
    "C19_root_is_fixed",
    "C19_powered_is_damped",
    "C19_powered_root_refuted"
   ],
   "note": "the fixed point clause holds for the plain solver; for the powered solver it holds in exact arithmetic and is refuted in binary64, where it divides zero by zero"
  },
  {
   "property": "C20",
   "status": "proved",
   "theorems": [
    "C20_from_below",
    "C20_any_start",
    "C20_iterates"
   ],
   "note": ""
  },
  {
   "property": "C21",
   "status": "proved",
   "theorems": [
    "C21_langevin",
    "C21_lennard_jones_stretch",
    "C21_log_squared_slope",
    "C47_efjc",
    "C47_morse",
    "C47_swfjc",
    "C47_log_squared",
    "C47_log_squared_reduced",
    "C47_lennard_jones",
    "C47_lennard_jones_reduced"
   ],
   "note": "real arithmetic; the derivative clause of inverted_by_newton is about the callback. Lennard-Jones links use a difference quotient for the stretch, which is stated as such"
  },
  {
   "property": "C22",
   "status": "proved",
   "theorems": [
    "C22_linear",
    "C22_monotone",
    "C22_affine_exact",
    "C22_split",
    "C22_reverse"
   ],
   "note": "real arithmetic"
  },
  {
   "property": "C23",
   "status": "proved",
   "theorems": [
    "C23_error_bound",
    "C23_converges"
   ],
   "note": "real arithmetic"
  },
  {
   "property": "C24",
   "status": "proved",
   "theorems": [
    "C24_iterated",
    "C24_square",
    "C24_grid_1d",
    "C24_grid_2d",
    "C24_grid_square",
    "C24_midpoints"
   ],
   "note": ""
  },
  {
   "property": "C25",
   "status": "proved",
   "theorems": [
    "C25_density",
    "C25_density_dimensional",
    "C25_axis"
   ],
   "note": ""
  },
  {
   "property": "C26",
   "status": "proved",
   "theorems": [
    "C26_nondimensional",
    "C26_dimensional"
   ],
   "note": ""
  },
  {
   "property": "C27",
   "status": "proved",
   "theorems": [
    "C27_positive"
   ],
   "note": ""
  },
  {
   "property": "C28",
   "status": "proved",
   "theorems": [
    "C28_force_domain",
    "C28_distribution_domain",
    "C28_release_wrong"
   ],
   "note": "real arithmetic, exact u8 and u128 arithmetic"
  },
  {
   "property": "C29",
   "status": "proved",
   "theorems": [
    "C29_normalised",
    "C29_radial",
    "C29_free_energy",
    "C29_nondimensional_free_energy"
   ],
   "note": ""
  },
  {
   "property": "C30",
   "status": "proved",
   "theorems": [
    "C30_nondimensional",
    "C30_dimensional",
    "C30_lengths",
    "C30_gibbs",
    "C30_dimensionless",
    "C30_extensive"
   ],
   "note": ""
  },
  {
   "property": "C31",
   "status": "proved",
   "theorems": [
    "C31_weak",
    "C31_weak_identities",
    "C31_weak_force",
    "C31_weak_leading",
    "C31_strong",
    "C31_strong_dimensional",
    "C31_strong_leading"
   ],
   "note": ""
  },
  {
   "property": "C32",
   "status": "proved",
   "theorems": [
    "C32_fjc_links",
    "C32_fjc_unit",
    "C32_efjc_links",
    "C32_efjc_lengths",
    "C32_frc_links",
    "C32_efrc_links"
   ],
   "note": "real arithmetic; streams on which the auxiliary direction is parallel to the current link (division of zero by zero) are excluded"
  },
  {
   "property": "C33",
   "status": "proved",
   "theorems": [
    "C33_fjc_length",
    "C33_frc_length"
   ],
   "note": "real arithmetic"
  },
  {
   "property": "C34",
   "status": "proved",
   "theorems": [
    "C34_fjc_histogram",
    "C34_frc_histogram",
    "C34_efjc_histogram",
    "C34_efrc_histogram",
    "C34_scaled_histogram",
    "C34_integral",
    "C34_nonnegative",
    "C34_single_link"
   ],
   "note": ""
  },
  {
   "property": "C35",
   "status": "partial",
   "theorems": [
    "C35_even_never_panics",
    "C35_never_panics_refuted",
    "C35_single_link_panics"
   ],
   "note": "false of the code for every odd number of links (refuted); proved for every even number of links"
  },
  {
   "property": "C36",
   "status": "proved",
   "theorems": [
    "C36_accepted_histories",
    "C36_outputs",
    "C36_causal",
    "C36_only_maximum",
    "C36_binary64_accepted",
    "C36_binary64_nan",
    "C36_binary64_outputs",
    "C36_binary64_only_maximum"
   ],
   "note": "real arithmetic and binary64 (C36_causal for any arithmetic)"
  },
  {
   "property": "C37",
   "status": "partial",
   "theorems": [
    "C37_breaking_irreversible",
    "C37_irreversible_refuted"
   ],
   "note": "the claim about the surviving probability is false of the code and refuted for every positive critical extension and swelling ratio; breaking of chains intact in the reference state is irreversible"
  },
  {
   "property": "C38",
   "status": "proved",
   "theorems": [
    "C38_intact_fraction",
    "C38_undamaged",
    "C38_nonnegative",
    "C38_critical_extension_monotone",
    "C38_binary64_nonnegative",
    "C38_binary64_critical_extension"
   ],
   "note": "real arithmetic, and the sign and the order in the critical extension in binary64, where the exponential function and pi of the library are assumed to have the sign +. In binary64 the fraction may be NaN when an intermediate result overflows"
  },
  {
   "property": "C39",
   "status": "proved",
   "theorems": [
    "C39_hyperelastic_construction",
    "C39_hyperelastic_evaluation",
    "C39_damage_construction",
    "C39_damage_evaluation"
   ],
   "note": ""
  },
  {
   "property": "C40",
   "status": "proved",
   "theorems": [
    "C40_equibiaxial_uniaxial",
    "C40_linear_in_table"
   ],
   "note": ""
  },
  {
   "property": "C41",
   "status": "proved",
   "theorems": [
    "C41_erf_erfc",
    "C41_erfcx",
    "C41_reflection",
    "C41_odd"
   ],
   "note": "real arithmetic"
  },
  {
   "property": "C42",
   "status": "partial",
   "theorems": [
    "C42_positive",
    "C42_zero",
    "C42_negative_partial",
    "C42_refuted",
    "C42_limit_refuted",
    "C42_binary64_refuted"
   ],
   "note": "false as stated: below -26.7 the code returns a positive value tending to +1; proved on [-26.7, oo) and refuted below, over the reals and in binary64 at -27"
  },
  {
   "property": "C43",
   "status": "proved",
   "theorems": [
    "C43_erfc_exists",
    "C43_erfcx",
    "C43_erfc",
    "C43_erf"
   ],
   "note": "real arithmetic; the table rows are compared with the defining differential equation by exact rational computation"
  },
  {
   "property": "C44",
   "status": "proved",
   "theorems": [
    "C44_principal_branch",
    "C44_fixed_point",
    "C44_step",
    "C44_bracket",
    "C44_accuracy",
    "C44_negative",
    "C44_negative_accuracy",
    "C44_iterations",
    "C44_loop"
   ],
   "note": "real arithmetic"
  },
  {
   "property": "C45",
   "status": "partial",
   "theorems": [
    "C45_I0_exists",
    "C45_I1_exists",
    "C45_I0_accuracy",
    "C45_I1_accuracy",
    "C45_I0_large_accuracy",
    "C45_I1_large_accuracy",
    "C45_even_partial",
    "C45_odd_partial",
    "C45_other_orders",
    "C45_negative_refuted"
   ],
   "note": "accuracy is proved for x > -7.75 and parity for |x| < 7.75; both are false for large negative x, where the polynomial branch is used outside its range (C45_negative_refuted)"
  },
  {
   "property": "C46",
   "status": "proved",
   "theorems": [
    "C46_stiff",
    "C46_narrow_well",
    "C46_weak_force",
    "C46_longer_efjc",
    "C46_longer_swfjc",
    "C46_longer_morse",
    "C46_longer_lennard_jones",
    "C46_longer_log_squared"
   ],
   "note": "real arithmetic; links that break: up to the breaking force"
  },
  {
   "property": "C47",
   "status": "proved",
   "theorems": [
    "C47_efjc",
    "C47_morse",
    "C47_lennard_jones",
    "C47_lennard_jones_reduced",
    "C47_log_squared",
    "C47_log_squared_reduced",
    "C47_swfjc",
    "C47_swfjc_linear",
    "C47_legendre_efjc",
    "C47_legendre_efjc_alternative",
    "C47_legendre_efjc_reduced",
    "C47_legendre_morse",
    "C47_legendre_morse_reduced",
    "C47_legendre_lennard_jones",
    "C47_legendre_lennard_jones_reduced",
    "C47_legendre_log_squared",
    "C47_legendre_log_squared_reduced",
    "C47_legendre_swfjc"
   ],
   "note": "real arithmetic"
  },
  {
   "property": "C48",
   "status": "proved",
   "theorems": [
    "C48_gibbs",
    "C48_length"
   ],
   "note": "the Gibbs energy for forces up to 100, as the property states; above 100 the code uses an asymptotic formula"
  },
  {
   "property": "C49",
   "status": "proved",
   "theorems": [
    "C49_fjc",
    "C49_swfjc",
    "C49_wlc",
    "C49_wlc_positive"
   ],
   "note": "the square-well chain keeps the hypothesis that its normalisation is non-zero, as in the quantifier"
  },
  {
   "property": "C50",
   "status": "proved",
   "theorems": [
    "C50_nondimensional",
    "C50_dimensional"
   ],
   "note": ""
  },
  {
   "property": "C51",
   "status": "partial",
   "theorems": [
    "C51_limit",
    "C51_refuted",
    "C51_length_refuted",
    "C51_swfjc_refuted"
   ],
   "note": "false of the code: in double precision every chain but the ideal one returns NaN at zero force; the limits are proved in real arithmetic for the ideal chain, FJC and EFJC"
  },
  {
   "property": "C52",
   "status": "partial",
   "theorems": [
    "C52_efjc_refuted",
    "C52_inverse_langevin_refuted"
   ],
   "note": "false of the code: NaN in double precision for every stiffness"
  },
  {
   "property": "C53",
   "status": "proved",
   "theorems": [
    "C53_lennard_jones_stretch",
    "C53_log_squared_stretch"
   ],
   "note": "real arithmetic"
  },
  {
   "property": "C54",
   "status": "partial",
   "theorems": [
    "C54_fjc",
    "C54_swfjc",
    "C54_ideal",
    "C54_efjc",
    "C54_efjc_stiff_refuted",
    "C54_morse",
    "C54_lennard_jones",
    "C54_log_squared"
   ],
   "note": "proved for every chain; for the EFJC only while the argument of the error function is at least -26.7 (stiffness up to about 1400), and refuted for stiffness 1500 and more, where the error function returns the wrong sign"
  },
  {
   "property": "C55",
   "status": "proved",
   "theorems": [
    "C55_ideal",
    "C55_fjc"
   ],
   "note": "real arithmetic; FJC for 2 <= N <= 26, where the distribution does not overflow"
  },
  {
   "property": "C56",
   "status": "proved",
   "theorems": [
    "C56_uniaxial",
    "C56_equibiaxial",
    "C56_damaged"
   ],
   "note": "real arithmetic; for any grid size"
  },
  {
   "property": "C57",
   "status": "partial",
   "theorems": [
    "C57_ideal",
    "C57_fjc",
    "C57_swfjc",
    "C57_efjc_asymptotic",
    "C57_morse",
    "C57_morse_asymptotic",
    "C57_lennard_jones",
    "C57_log_squared",
    "C57_lennard_jones_asymptotic",
    "C57_log_squared_asymptotic",
    "C57_wlc",
    "C57_wlc_flexible",
    "C57_efjc_refuted",
    "C57_binary64_refuted",
    "C57_ideal_binary64"
   ],
   "note": "proved in real arithmetic for every chain named except the exact EFJC, for which it is false: stiff links get a negative extension. In double precision it is false of the FJC too: two neighbouring forces near 2e-8 give extensions in the wrong order; the ideal chain keeps every order"
  },
  {
   "property": "C58",
   "status": "partial",
   "theorems": [
    "C58_ideal",
    "C58_ideal_thermodynamics",
    "C58_ideal_isometric",
    "C58_ideal_isotensional",
    "C58_fjc",
    "C58_fjc_thermodynamics",
    "C58_fjc_isometric",
    "C58_fjc_isometric_legendre",
    "C58_fjc_isotensional",
    "C58_fjc_isotensional_legendre",
    "C58_fjc_modified_canonical",
    "C58_fjc_modified_canonical_asymptotic",
    "C58_fjc_modified_canonical_asymptotic_weak_potential",
    "C58_fjc_modified_canonical_asymptotic_strong_potential",
    "C58_swfjc",
    "C58_swfjc_thermodynamics",
    "C58_swfjc_isometric",
    "C58_swfjc_isometric_legendre",
    "C58_swfjc_isotensional",
    "C58_swfjc_isotensional_legendre",
    "C58_efjc",
    "C58_efjc_thermodynamics",
    "C58_efjc_isometric",
    "C58_efjc_isometric_asymptotic",
    "C58_efjc_isometric_asymptotic_alternative",
    "C58_efjc_isometric_asymptotic_alternative_legendre",
    "C58_efjc_isometric_asymptotic_reduced",
    "C58_efjc_isometric_asymptotic_reduced_legendre",
    "C58_efjc_isometric_asymptotic_legendre",
    "C58_efjc_isotensional",
    "C58_efjc_isotensional_asymptotic",
    "C58_efjc_isotensional_asymptotic_alternative",
    "C58_efjc_isotensional_asymptotic_alternative_legendre",
    "C58_efjc_isotensional_asymptotic_reduced",
    "C58_efjc_isotensional_asymptotic_reduced_legendre",
    "C58_efjc_isotensional_asymptotic_legendre",
    "C58_efjc_isotensional_legendre",
    "C58_morse",
    "C58_morse_thermodynamics",
    "C58_morse_isometric",
    "C58_morse_isometric_asymptotic",
    "C58_morse_isometric_asymptotic_reduced",
    "C58_morse_isometric_asymptotic_reduced_legendre",
    "C58_morse_isometric_asymptotic_legendre",
    "C58_morse_isotensional",
    "C58_morse_isotensional_asymptotic",
    "C58_morse_isotensional_asymptotic_reduced",
    "C58_morse_isotensional_asymptotic_reduced_legendre",
    "C58_morse_isotensional_asymptotic_legendre",
    "C58_morse_isotensional_legendre",
    "C58_lennard_jones",
    "C58_lennard_jones_thermodynamics",
    "C58_lennard_jones_isometric",
    "C58_lennard_jones_isometric_asymptotic",
    "C58_lennard_jones_isometric_asymptotic_reduced",
    "C58_lennard_jones_isometric_asymptotic_reduced_legendre",
    "C58_lennard_jones_isometric_asymptotic_legendre",
    "C58_lennard_jones_isotensional",
    "C58_lennard_jones_isotensional_asymptotic",
    "C58_lennard_jones_isotensional_asymptotic_reduced",
    "C58_lennard_jones_isotensional_asymptotic_reduced_legendre",
    "C58_lennard_jones_isotensional_asymptotic_legendre",
    "C58_lennard_jones_isotensional_legendre",
    "C58_log_squared",
    "C58_log_squared_thermodynamics",
    "C58_log_squared_isometric",
    "C58_log_squared_isometric_asymptotic",
    "C58_log_squared_isometric_asymptotic_reduced",
    "C58_log_squared_isometric_asymptotic_reduced_legendre",
    "C58_log_squared_isometric_asymptotic_legendre",
    "C58_log_squared_isotensional",
    "C58_log_squared_isotensional_asymptotic",
    "C58_log_squared_isotensional_asymptotic_reduced",
    "C58_log_squared_isotensional_asymptotic_reduced_legendre",
    "C58_log_squared_isotensional_asymptotic_legendre",
    "C58_log_squared_isotensional_legendre",
    "C58_wlc",
    "C58_wlc_thermodynamics",
    "C58_wlc_isometric",
    "C58_wlc_isometric_legendre",
    "C58_wlc_isotensional",
    "C58_wlc_isotensional_legendre",
    "C58_efjc_isotensional_asymptotic_legendre_per_link",
    "C58_hyperelastic",
    "C58_hyperelastic_damage",
    "C58_damage_shape_refuted"
   ],
   "note": "proved for every method for every scalar (one method over the reals only, because its Rust counterpart repeats a formula); the part about shapes is false for the damage model, which returns one-dimensional arrays whatever the shape of its argument"
  },
  {
   "property": "C59",
   "status": "proved",
   "theorems": [
    "C59_efjc_isometric_asymptotic_alternative_legendre",
    "C59_efjc_isometric_asymptotic_legendre",
    "C59_efjc_isometric_asymptotic_reduced_legendre",
    "C59_efjc_isotensional",
    "C59_efjc_isotensional_asymptotic",
    "C59_efjc_isotensional_asymptotic_alternative",
    "C59_efjc_isotensional_asymptotic_alternative_legendre",
    "C59_efjc_isotensional_asymptotic_legendre",
    "C59_efjc_isotensional_asymptotic_reduced",
    "C59_efjc_isotensional_asymptotic_reduced_legendre",
    "C59_efjc_isotensional_legendre",
    "C59_fjc_isometric",
    "C59_fjc_isometric_legendre",
    "C59_fjc_isotensional",
    "C59_fjc_isotensional_legendre",
    "C59_fjc_modified_canonical",
    "C59_fjc_modified_canonical_asymptotic_strong_potential",
    "C59_fjc_modified_canonical_asymptotic_weak_potential",
    "C59_ideal_isometric",
    "C59_ideal_isotensional",
    "C59_swfjc_isometric_legendre",
    "C59_swfjc_isotensional",
    "C59_swfjc_isotensional_legendre",
    "C59_lennard_jones_isometric_asymptotic_legendre",
    "C59_lennard_jones_isometric_asymptotic_reduced_legendre",
    "C59_lennard_jones_isotensional",
    "C59_lennard_jones_isotensional_asymptotic",
    "C59_lennard_jones_isotensional_asymptotic_legendre",
    "C59_lennard_jones_isotensional_asymptotic_reduced",
    "C59_lennard_jones_isotensional_asymptotic_reduced_legendre",
    "C59_lennard_jones_isotensional_legendre",
    "C59_log_squared_isometric_asymptotic_legendre",
    "C59_log_squared_isometric_asymptotic_reduced_legendre",
    "C59_log_squared_isotensional",
    "C59_log_squared_isotensional_asymptotic",
    "C59_log_squared_isotensional_asymptotic_legendre",
    "C59_log_squared_isotensional_asymptotic_reduced",
    "C59_log_squared_isotensional_asymptotic_reduced_legendre",
    "C59_log_squared_isotensional_legendre",
    "C59_morse_isometric_asymptotic_legendre",
    "C59_morse_isometric_asymptotic_reduced_legendre",
    "C59_morse_isotensional",
    "C59_morse_isotensional_asymptotic",
    "C59_morse_isotensional_asymptotic_legendre",
    "C59_morse_isotensional_asymptotic_reduced",
    "C59_morse_isotensional_asymptotic_reduced_legendre",
    "C59_morse_isotensional_legendre",
    "C59_wlc_isometric",
    "C59_wlc_isometric_legendre",
    "C59_wlc_isotensional",
    "C59_wlc_isotensional_legendre"
   ],
   "note": "for every scalar and both build profiles"
  },
  {
   "property": "C60",
   "status": "partial",
   "theorems": [
    "C60_enough_memory_partial",
    "C60_refuted"
   ],
   "note": "false of the code: the functions ask for slices of 256 grids and 65536 tables; proved when that much memory happens to be readable"
  },
  {
   "property": "C61",
   "status": "partial",
   "theorems": [
    "C61_functions_lennard_jones_isometric_asymptotic_reduced_legendre",
    "C61_object_lennard_jones_isometric_asymptotic_reduced_legendre",
    "C61_functions_lennard_jones_isotensional_asymptotic_reduced_legendre",
    "C61_object_lennard_jones_isotensional_asymptotic_reduced_legendre",
    "C61_functions_log_squared_isometric_asymptotic_reduced_legendre",
    "C61_object_log_squared_isometric_asymptotic_reduced_legendre",
    "C61_functions_log_squared_isotensional_asymptotic_reduced_legendre",
    "C61_object_log_squared_isotensional_asymptotic_reduced_legendre",
    "C61_functions_morse_isometric_asymptotic_reduced_legendre",
    "C61_object_morse_isometric_asymptotic_reduced_legendre",
    "C61_functions_morse_isotensional_asymptotic_reduced_legendre",
    "C61_object_morse_isotensional_asymptotic_reduced_legendre",
    "C61_functions_efjc_isometric_asymptotic_alternative_legendre",
    "C61_object_efjc_isometric_asymptotic_alternative_legendre",
    "C61_functions_efjc_isometric_asymptotic_reduced_legendre",
    "C61_object_efjc_isometric_asymptotic_reduced_legendre",
    "C61_functions_efjc_isotensional_asymptotic_alternative_legendre",
    "C61_object_efjc_isotensional_asymptotic_alternative_legendre",
    "C61_functions_efjc_isotensional_asymptotic_reduced_legendre",
    "C61_object_efjc_isotensional_asymptotic_reduced_legendre",
    "C61_functions_lennard_jones_isometric_asymptotic_legendre",
    "C61_object_lennard_jones_isometric_asymptotic_legendre",
    "C61_object_lennard_jones_isometric_asymptotic_reduced",
    "C61_functions_lennard_jones_isotensional_asymptotic_legendre",
    "C61_object_lennard_jones_isotensional_asymptotic_legendre",
    "C61_functions_lennard_jones_isotensional_asymptotic_reduced",
    "C61_object_lennard_jones_isotensional_asymptotic_reduced",
    "C61_functions_log_squared_isometric_asymptotic_legendre",
    "C61_object_log_squared_isometric_asymptotic_legendre",
    "C61_object_log_squared_isometric_asymptotic_reduced",
    "C61_functions_log_squared_isotensional_asymptotic_legendre",
    "C61_object_log_squared_isotensional_asymptotic_legendre",
    "C61_functions_log_squared_isotensional_asymptotic_reduced",
    "C61_object_log_squared_isotensional_asymptotic_reduced",
    "C61_functions_morse_isometric_asymptotic_legendre",
    "C61_object_morse_isometric_asymptotic_legendre",
    "C61_object_morse_isometric_asymptotic_reduced",
    "C61_functions_morse_isotensional_asymptotic_legendre",
    "C61_object_morse_isotensional_asymptotic_legendre",
    "C61_functions_morse_isotensional_asymptotic_reduced",
    "C61_object_morse_isotensional_asymptotic_reduced",
    "C61_object_efjc_isometric_asymptotic_alternative",
    "C61_functions_efjc_isometric_asymptotic_legendre",
    "C61_object_efjc_isometric_asymptotic_legendre",
    "C61_object_efjc_isometric_asymptotic_reduced",
    "C61_functions_efjc_isotensional_asymptotic_alternative",
    "C61_object_efjc_isotensional_asymptotic_alternative",
    "C61_functions_efjc_isotensional_asymptotic_legendre",
    "C61_object_efjc_isotensional_asymptotic_legendre",
    "C61_functions_efjc_isotensional_asymptotic_reduced",
    "C61_object_efjc_isotensional_asymptotic_reduced",
    "C61_functions_fjc_modified_canonical_asymptotic_strong_potential",
    "C61_object_fjc_modified_canonical_asymptotic_strong_potential",
    "C61_functions_fjc_modified_canonical_asymptotic_weak_potential",
    "C61_object_fjc_modified_canonical_asymptotic_weak_potential",
    "C61_object_lennard_jones_isometric_asymptotic",
    "C61_functions_lennard_jones_isotensional_asymptotic",
    "C61_object_lennard_jones_isotensional_asymptotic",
    "C61_functions_lennard_jones_isotensional_legendre",
    "C61_object_lennard_jones_isotensional_legendre",
    "C61_object_log_squared_isometric_asymptotic",
    "C61_functions_log_squared_isotensional_asymptotic",
    "C61_object_log_squared_isotensional_asymptotic",
    "C61_functions_log_squared_isotensional_legendre",
    "C61_object_log_squared_isotensional_legendre",
    "C61_object_morse_isometric_asymptotic",
    "C61_functions_morse_isotensional_asymptotic",
    "C61_object_morse_isotensional_asymptotic",
    "C61_functions_morse_isotensional_legendre",
    "C61_object_morse_isotensional_legendre",
    "C61_object_efjc_isometric_asymptotic",
    "C61_functions_efjc_isotensional_asymptotic",
    "C61_object_efjc_isotensional_asymptotic",
    "C61_functions_efjc_isotensional_legendre",
    "C61_object_efjc_isotensional_legendre",
    "C61_functions_fjc_isometric_legendre",
    "C61_object_fjc_isometric_legendre",
    "C61_functions_fjc_isotensional_legendre",
    "C61_object_fjc_isotensional_legendre",
    "C61_object_fjc_modified_canonical_asymptotic",
    "C61_functions_swfjc_isometric_legendre",
    "C61_object_swfjc_isometric_legendre",
    "C61_functions_swfjc_isotensional_legendre",
    "C61_object_swfjc_isotensional_legendre",
    "C61_object_lennard_jones_isometric",
    "C61_functions_lennard_jones_isotensional",
    "C61_object_lennard_jones_isotensional",
    "C61_object_log_squared_isometric",
    "C61_functions_log_squared_isotensional",
    "C61_object_log_squared_isotensional",
    "C61_object_morse_isometric",
    "C61_functions_morse_isotensional",
    "C61_object_morse_isotensional",
    "C61_functions_wlc_isometric_legendre",
    "C61_object_wlc_isometric_legendre",
    "C61_functions_wlc_isotensional_legendre",
    "C61_object_wlc_isotensional_legendre",
    "C61_object_efjc_isometric",
    "C61_functions_efjc_isotensional",
    "C61_object_efjc_isotensional",
    "C61_functions_fjc_isometric",
    "C61_object_fjc_isometric",
    "C61_functions_fjc_isotensional",
    "C61_object_fjc_isotensional",
    "C61_functions_fjc_modified_canonical",
    "C61_object_fjc_modified_canonical",
    "C61_functions_ideal_isometric",
    "C61_object_ideal_isometric",
    "C61_functions_ideal_isotensional",
    "C61_object_ideal_isotensional",
    "C61_object_swfjc_isometric",
    "C61_functions_swfjc_isotensional",
    "C61_object_swfjc_isotensional",
    "C61_object_lennard_jones_thermodynamics",
    "C61_object_log_squared_thermodynamics",
    "C61_object_morse_thermodynamics",
    "C61_functions_wlc_isometric",
    "C61_functions_wlc_isotensional",
    "C61_object_wlc_isotensional",
    "C61_object_efjc_thermodynamics",
    "C61_object_fjc_thermodynamics",
    "C61_object_ideal_thermodynamics",
    "C61_object_swfjc_thermodynamics",
    "C61_object_lennard_jones",
    "C61_object_log_squared",
    "C61_object_morse",
    "C61_object_efjc",
    "C61_object_fjc",
    "C61_object_ideal",
    "C61_object_swfjc",
    "C61_efjc_isotensional_asymptotic_legendre_per_link",
    "C61_broadcast",
    "C61_broadcast_fails",
    "C61_entries",
    "C61_wlc_distributions_refuted",
    "C61_wlc_constructors_refuted"
   ],
   "note": "proved for 552 of the 554 functions and every object except the worm-like chain; false for two WLC functions, declared with a parameter the C function does not have, and so for the WLC constructors; in objects, a temperature that enters arithmetic outside of the broadcast is a number"
  },
  {
   "property": "C62",
   "status": "partial",
   "theorems": [
    "C62_weak_gibbs",
    "C62_weak_length",
    "C62_asymptotic_weak",
    "C62_length_bounds",
    "C62_length_increasing",
    "C62_asymptotic_strong",
    "C62_strong_grid_refuted",
    "C62_strong_force_refuted"
   ],
   "note": "The weak limit is that of a constant force, with the integral over the end-to-end length replaced by the midpoint rule of the library (C55 evaluates the integral itself). The strong limit holds for the strong-potential approach and is refuted for the exact one: the extension tends to the nearest of the 64 points of the rule and the force diverges."
  },
  {
   "property": "C63",
   "status": "proved",
   "theorems": [
    "C63_classes",
    "C63_modules"
   ],
   "note": "Modules are objects with attributes on a heap; the register_module functions of all 91 py.rs files are modelled in the order of their statements."
  },
  {
   "property": "C64",
   "status": "partial",
   "theorems": [
    "C64_ideal",
    "C64_fjc",
    "C64_fjc_units",
    "C64_efjc_reduced",
    "C64_efjc",
    "C64_gibbs",
    "C64_weak_refuted",
    "C64_gibbs_refuted",
    "C64_swfjc_refuted"
   ],
   "note": "Absolute errors are bounded for the ideal chain, the FJC (also in physical units) and the reduced and full asymptotic EFJC. False of the code in relative terms: the FJC extension is exactly 0 up to a force of 2^-28; its free energy is minus infinity above 720, and the SWFJC extension NaN once sinh and cosh overflow."
  },
  {
   "property": "C65",
   "status": "proved",
   "theorems": [
    "C65_sum",
    "C65_grid",
    "C65_grid_2d",
    "C65_midpoint",
    "C65_integral"
   ],
   "note": "The integrand is described by its error around the interval, which includes the effect of moving its argument by the rounding of the points."
  },
  {
   "property": "C66",
   "status": "proved",
   "theorems": [
    "C66_average_unique",
    "C66_fjc_isotropic",
    "C66_fjc_mean",
    "C66_fjc_square",
    "C66_fjc_characteristic",
    "C66_fjc_isotensional",
    "C66_fjc_distribution",
    "C66_efjc_generating",
    "C66_efjc_square",
    "C66_frc_mean",
    "C66_frc_square",
    "C66_efrc_square"
   ],
   "note": "Real arithmetic; the numbers are independent and uniform in (0,1), and averages are iterated Riemann integrals. The normal law of the link lengths of the extensible chains is left open: their theorems are for given lengths (positive for the EFRC). The radial distribution is compared for 2 <= N <= 26, where it does not overflow."
  },
  {
   "property": "C67",
   "status": "proved",
   "theorems": [
    "C67_mean_unique",
    "C67_mean_average",
    "C67_mean_le",
    "C67_walk",
    "C67_distribution",
    "C67_histogram",
    "C67_histogram_law",
    "C67_histogram_converges",
    "C67_integral_unique"
   ],
   "note": "Real arithmetic; the random numbers are independent and uniform in (0,1). The mean of a function that jumps is defined by approximation from functions with iterated Riemann integrals."
  },
  {
   "property": "C68",
   "status": "partial",
   "theorems": [
    "C68_fjc",
    "C68_efjc_square",
    "C68_normal_average_unique",
    "C68_efjc_spring",
    "C68_efjc_refuted"
   ],
   "note": "Proved for the FJC. False of the code for the EFJC: the link lengths are drawn from the normal distribution without the weight of the area of the sphere, so the samples are too short for every stiffness, and for each of the three approaches."
  },
  {
   "property": "C69",
   "status": "partial",
   "theorems": [
    "C69_density_error",
    "C69_density_positive_refuted",
    "C69_density_sign_refuted",
    "C69_force_refuted"
   ],
   "note": "The error bound is proved for every double. Positivity and a finite force are false of the code: close to no extension the terms cancel to zero for 4, 8 and 16 links, where the force is minus infinity, and to a negative density for ten other numbers of links (there with the repeated squaring of the model for powi)."
  },
  {
   "property": "C70",
   "status": "proved",
   "theorems": [
    "C70_walk",
    "C70_walk_three",
    "C70_force",
    "C70_force_dimensional",
    "C70_force_three",
    "C70_distribution",
    "C70_distribution_dimensional",
    "C70_distribution_three",
    "C70_free_energy",
    "C70_free_energy_dimensional",
    "C70_two_links_soften",
    "C70_three_links_soften"
   ],
   "note": "real arithmetic; C70_walk has no bound on the number of links. The last two theorems show that the force itself need not rise"
  },
  {
   "property": "C71",
   "status": "proved",
   "theorems": [
    "C71_fjc_isometric",
    "C71_fjc_isometric_positive",
    "C71_fjc_isometric_work",
    "C71_fjc_tail",
    "C71_fjc_tail_force",
    "C71_fjc",
    "C71_swfjc",
    "C71_efjc_asymptotic",
    "C71_morse",
    "C71_morse_asymptotic",
    "C71_lennard_jones",
    "C71_log_squared"
   ],
   "note": "real arithmetic. The modules whose extension is not conjugate to their Gibbs free energy (C04, C06) are outside the claim"
  },
  {
   "property": "C72",
   "status": "proved",
   "theorems": [
    "C72_terminates",
    "C72_force",
    "C72_root",
    "C72_round_trip",
    "C72_helmholtz",
    "C72_work"
   ],
   "note": "real arithmetic; the extension 1 is excluded because the first guess is then zero (C52)"
  },
  {
   "property": "C73",
   "status": "partial",
   "theorems": [
    "C73_uniaxial_partial",
    "C73_equibiaxial_partial",
    "C73_growth_refuted"
   ],
   "note": "real arithmetic. Proved: the initial stiffness of the network of harmonic chains (method 3). Missing: method 2, whose free energy is not differentiable because the number of Newton steps jumps. Refuted: the stress vanishes at large stretch, because the grid is fixed"
  },
  {
   "property": "C74",
   "status": "partial",
   "theorems": [
    "C74_ideal",
    "C74_fjc",
    "C74_swfjc_partial",
    "C74_efjc_asymptotic",
    "C74_fjc_isometric_force",
    "C74_fjc_isometric_energy",
    "C74_fjc_isometric_distribution",
    "C74_wlc_partial",
    "C74_wlc_stiff_refuted",
    "C74_wlc_refuted",
    "C74_modified",
    "C74_modified_nondimensional",
    "C74_weak",
    "C74_strong",
    "C74_three_links_refuted",
    "C74_morse_refuted",
    "C74_efjc_refuted",
    "C74_logarithm_refuted",
    "C74_ideal_binary64",
    "C74_fjc_binary64"
   ],
   "note": "Real arithmetic, except the last three theorems. Proved for the ideal chain, the FJC in all three ensembles, the asymptotic EFJC, the extension of the SWFJC, and the isometric WLC with a persistence length of at most 0.4 of its length. Missing: persistence lengths between 0.4 and 0.55 of the length. False of the code for every worm-like chain stiffer than that, for three links at a third of their length, for the asymptotic Morse chains, for the exact EFJC extension (a factor erf is missing), and wherever the logarithm of the force is taken, which is NaN for a negative force: SWFJC free energies, and the Morse, Lennard-Jones and log-squared integrals"
  },
  {
   "property": "C75",
   "status": "partial",
   "theorems": [
    "C75_hooke",
    "C75_ideal",
    "C75_fjc",
    "C75_swfjc",
    "C75_morse",
    "C75_log_squared",
    "C75_lennard_jones",
    "C75_wlc",
    "C75_wlc_slope",
    "C75_anharmonicity",
    "C75_asymptotic",
    "C75_reduced",
    "C75_alternative",
    "C75_efjc_refuted"
   ],
   "note": "Real arithmetic. False of the code for the exact expression of the EFJC with stiff links, which has no slope. Link lengths are those of the nodes of the quadrature."
  },
  {
   "property": "C76",
   "status": "partial",
   "theorems": [
    "C76_fjc",
    "C76_swfjc",
    "C76_morse",
    "C76_log_squared",
    "C76_lennard_jones",
    "C76_efjc",
    "C76_alternative_refuted"
   ],
   "note": "Real arithmetic. False of the code for the alternative asymptotic EFJC, which keeps an excess of 1/kap. The asymptotic approaches with breakable links have a largest force, and no limit is claimed."
  },
  {
   "property": "C77",
   "status": "proved",
   "theorems": [
    "C77_efjc",
    "C77_efjc_alternative",
    "C77_efjc_reduced",
    "C77_efjc_units",
    "C77_morse_stiffer",
    "C77_morse_deeper",
    "C77_lennard_jones",
    "C77_log_squared",
    "C77_swfjc",
    "C77_swfjc_rigid",
    "C77_swfjc_units",
    "C77_binary64"
   ],
   "note": "real arithmetic, and in double precision for the reduced EFJC (C77_binary64); the asymptotic approaches at forces the softer link bears, and the square-well chain at every force"
  },
  {
   "property": "C78",
   "status": "partial",
   "theorems": [
    "C78_ideal",
    "C78_fjc",
    "C78_swfjc",
    "C78_wlc",
    "C78_efjc",
    "C78_morse",
    "C78_lennard_jones",
    "C78_log_squared",
    "C78_alternative_partial",
    "C78_alternative_refuted",
    "C78_entropic",
    "C78_fjc_entropic"
   ],
   "note": "real arithmetic; refuted for the alternative asymptotic EFJC above the force k l, proved up to it; the exact (quadrature) chains with soft links are not covered"
  },
  {
   "property": "C79",
   "status": "proved",
   "theorems": [
    "C79_fjc",
    "C79_efjc",
    "C79_efjc_alternative",
    "C79_swfjc",
    "C79_morse",
    "C79_lennard_jones",
    "C79_log_squared",
    "C79_ideal"
   ],
   "note": "real arithmetic; the exact (quadrature) chains with soft links are not part of the claim"
  },
  {
   "property": "C80",
   "status": "proved",
   "theorems": [
    "C80_ideal",
    "C80_fjc",
    "C80_swfjc",
    "C80_efjc_asymptotic",
    "C80_efjc_reduced",
    "C80_morse",
    "C80_lennard_jones",
    "C80_log_squared",
    "C80_entropy",
    "C80_ideal_isometric",
    "C80_fjc_isometric",
    "C80_wlc_isometric"
   ],
   "note": "real arithmetic; the alternative asymptotic EFJC, the exact EFJC and the asymptotic chains with breakable links are not part of the claim"
  },
  {
   "property": "C81",
   "status": "partial",
   "theorems": [
    "C81_ideal_isometric",
    "C81_ideal_isotensional",
    "C81_fjc_isometric_legendre",
    "C81_fjc_isotensional",
    "C81_fjc_isotensional_legendre",
    "C81_swfjc_isometric_legendre",
    "C81_swfjc_isotensional",
    "C81_swfjc_isotensional_legendre",
    "C81_efjc_isometric_asymptotic_alternative_legendre",
    "C81_efjc_isometric_asymptotic_legendre",
    "C81_efjc_isometric_asymptotic_reduced_legendre",
    "C81_efjc_isotensional",
    "C81_efjc_isotensional_asymptotic",
    "C81_efjc_isotensional_asymptotic_alternative",
    "C81_efjc_isotensional_asymptotic_alternative_legendre",
    "C81_efjc_isotensional_asymptotic_legendre",
    "C81_efjc_isotensional_asymptotic_reduced",
    "C81_efjc_isotensional_asymptotic_reduced_legendre",
    "C81_efjc_isotensional_legendre",
    "C81_morse_isometric_asymptotic_legendre",
    "C81_morse_isometric_asymptotic_reduced_legendre",
    "C81_morse_isotensional",
    "C81_morse_isotensional_asymptotic",
    "C81_morse_isotensional_asymptotic_legendre",
    "C81_morse_isotensional_asymptotic_reduced",
    "C81_morse_isotensional_asymptotic_reduced_legendre",
    "C81_morse_isotensional_legendre",
    "C81_lennard_jones_isometric_asymptotic_legendre",
    "C81_lennard_jones_isometric_asymptotic_reduced_legendre",
    "C81_lennard_jones_isotensional",
    "C81_lennard_jones_isotensional_asymptotic",
    "C81_lennard_jones_isotensional_asymptotic_legendre",
    "C81_lennard_jones_isotensional_asymptotic_reduced",
    "C81_lennard_jones_isotensional_asymptotic_reduced_legendre",
    "C81_lennard_jones_isotensional_legendre",
    "C81_log_squared_isometric_asymptotic_legendre",
    "C81_log_squared_isometric_asymptotic_reduced_legendre",
    "C81_log_squared_isotensional",
    "C81_log_squared_isotensional_asymptotic",
    "C81_log_squared_isotensional_asymptotic_legendre",
    "C81_log_squared_isotensional_asymptotic_reduced",
    "C81_log_squared_isotensional_asymptotic_reduced_legendre",
    "C81_log_squared_isotensional_legendre",
    "C81_wlc_isometric",
    "C81_ideal_densities",
    "C81_fjc_densities",
    "C81_swfjc_densities",
    "C81_wlc_densities",
    "C81_fjc_isometric",
    "C81_wlc_isotensional",
    "C81_fjc_isometric_absolute",
    "C81_modified",
    "C81_weak",
    "C81_strong_force",
    "C81_strong",
    "C81_efjc_absolute_refuted"
   ],
   "note": "real arithmetic; proved for every length, force, relative energy and density of every chain record; the absolute energies of the EFJC, of the asymptotic approximations and of the exact isometric FJC depend on the unit of length, and the exact shift is proved"
  },
  {
   "property": "C82",
   "status": "proved",
   "theorems": [
    "C82_ideal",
    "C82_fjc",
    "C82_swfjc",
    "C82_efjc",
    "C82_fjc_units",
    "C82_swfjc_units",
    "C82_efjc_units",
    "C82_below_hooke",
    "C82_below_ideal",
    "C82_morse",
    "C82_lennard_jones",
    "C82_log_squared"
   ],
   "note": "real arithmetic; the exact EFJC, the numerically integrated chains and the worm-like chain are not part of the claim"
  },
  {
   "property": "C83",
   "status": "proved",
   "theorems": [
    "C83_fjc_nondimensional",
    "C83_fjc",
    "C83_ideal_nondimensional",
    "C83_ideal",
    "C83_ideal_peak",
    "C83_ideal_peak_nondimensional",
    "C83_response"
   ],
   "note": "real arithmetic; the FJC for 2 <= N <= 26, where its distribution does not overflow"
  },
  {
   "property": "C84",
   "status": "proved",
   "theorems": [
    "C84_fjc_nondimensional",
    "C84_fjc",
    "C84_fjc_legendre_nondimensional",
    "C84_fjc_legendre",
    "C84_wlc_nondimensional",
    "C84_wlc"
   ],
   "note": "real arithmetic; the square-well and extensible chains are not part of the claim"
  },
  {
   "property": "C85",
   "status": "partial",
   "theorems": [
    "C85_wlc_partial",
    "C85_wlc_nondimensional_partial",
    "C85_wlc_refuted",
    "C85_wlc_nondimensional_refuted"
   ],
   "note": "real arithmetic; false of the code: every function panics under a strong enough force, because the search overshoots and 100 steps do not bring it back. Proved to answer for chains of at least ten persistence lengths and every force up to 2e7 kT per persistence length. Missing: stronger forces that the search happens to survive, and stiffer chains"
  },
  {
   "property": "C86",
   "status": "proved",
   "theorems": [
    "C86_per_link",
    "C86_total",
    "C86_units",
    "C86_accurate_refuted"
   ],
   "note": "binary64; the correct rounding of tanh is a hypothesis at the force in question. C86_accurate_refuted shows that accuracy to one unit in the last place would not do"
  },
  {
   "property": "C87",
   "status": "proved",
   "theorems": [
    "C87_link",
    "C87_length",
    "C87_efjc_length",
    "C87_frc_refuted",
    "C87_frc_distribution_refuted",
    "C87_efrc_refuted",
    "C87_efrc_distribution_refuted"
   ],
   "note": "binary64; the FJC and EFJC samplers, and the stream on which the FRC and EFRC samplers fail. The EFJC bound assumes that the normal distribution returned bounded link lengths. The errors of sine and cosine and the ranges of the arc cosine and of pi are hypotheses on the library"
  },
  {
   "property": "C88",
   "status": "proved",
   "theorems": [
    "C88_histogram"
   ],
   "note": "binary64; the FJC sampler, with the hypotheses on the library of C87. The centres of the bins are not described"
  },
  {
   "property": "C89",
   "status": "proved",
   "theorems": [
    "C89_points",
    "C89_order",
    "C89_sign",
    "C89_grid",
    "C89_grid_2d",
    "C89_rectangle",
    "C89_square"
   ],
   "note": "binary64; results that overflow are excluded by hypothesis"
  },
  {
   "property": "C90",
   "status": "proved",
   "theorems": [
    "C90_ideal",
    "C90_fjc_legendre"
   ],
   "note": "binary64; the signs of the results of the library are hypotheses. The square-well and worm-like chains are not part of the claim"
  },
  {
   "property": "C91",
   "status": "proved",
   "theorems": [
    "C91_fjc",
    "C91_efjc",
    "C91_efrc",
    "C91_frc"
   ],
   "note": "binary64; for the FRC the cosines of the library are assumed to lie in [-1, 1] or be NaN"
  }
 ]
}