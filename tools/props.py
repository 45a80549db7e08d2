import json
P=[]
SC="src/physics/single_chain/"
def p(title,statement,quant,why,anchors):
    P.append(dict(id="C%02d"%(len(P)+1),title=title,statement=statement,quantifier=quant,why_tests_cant=why,anchors=anchors))
p("Isotensional extension is conjugate to the Gibbs free energy (ideal, FJC)",
  "For the ideal and freely jointed chain, end_to_end_length(N,l,f,T) equals minus the derivative with respect to force of gibbs_free_energy(N,l,m,f,T), and the same holds for the nondimensional per-link functions.",
  "every number of links, link length > 0, hinge mass, temperature > 0 and every force > 0",
  "a test compares a finite difference at sampled forces within a tolerance; the identity is about a derivative at every real force and parameter",
  [SC+"ideal/thermodynamics/isotensional/mod.rs: end_to_end_length, gibbs_free_energy",SC+"fjc/thermodynamics/isotensional/mod.rs: end_to_end_length, gibbs_free_energy"])
p("SWFJC extension is conjugate to its Gibbs free energy",
  "For the square-well freely jointed chain, nondimensional_end_to_end_length_per_link is minus the force derivative of nondimensional_gibbs_free_energy_per_link, and likewise dimensionally.",
  "every well width > 0, link length > 0, temperature > 0, force > 0",
  "derivative identity over a four-parameter continuum",
  [SC+"swfjc/thermodynamics/isotensional/mod.rs"])
p("EFJC asymptotic extension (full, alternative, reduced) is conjugate to its Gibbs free energy",
  "In each of the three asymptotic approaches of the EFJC model the returned extension is exactly minus the force derivative of the returned Gibbs free energy.",
  "every link stiffness > 0, link length > 0, temperature > 0, force > 0",
  "derivative identity over a continuum; the three closed forms differ by terms of order 1/stiffness which a tolerance test at one stiffness hides",
  [SC+"efjc/thermodynamics/isotensional/asymptotic/mod.rs",SC+"efjc/thermodynamics/isotensional/asymptotic/alternative/mod.rs",SC+"efjc/thermodynamics/isotensional/asymptotic/reduced/mod.rs"])
p("EFJC exact isotensional extension is conjugate to its Gibbs free energy",
  "The extension returned by the exact isotensional EFJC functions is minus the force derivative of the Gibbs free energy returned by the same module.",
  "every link stiffness > 0 and force > 0",
  "the repository's tests draw large stiffnesses where the two candidate expressions agree to many digits",
  [SC+"efjc/thermodynamics/isotensional/mod.rs: nondimensional_end_to_end_length_per_link, nondimensional_gibbs_free_energy_per_link"])
p("uFJC (Morse, Lennard-Jones, log-squared) quadrature extension is conjugate to its quadrature Gibbs free energy",
  "For each link potential the extension computed by quadrature is exactly minus the force derivative of the Gibbs free energy computed by quadrature: the discretisation does not break conjugacy.",
  "every stiffness > 0, link energy > 0, force > 0, any number of quadrature points >= 1",
  "the identity is exact for the discretised sums, at every real force; a test only sees the sum of discretisation, rounding and finite-difference errors",
  [SC+"ufjc/morse/thermodynamics/isotensional/mod.rs",SC+"ufjc/lennard_jones/thermodynamics/isotensional/mod.rs",SC+"ufjc/log_squared/thermodynamics/isotensional/mod.rs"])
p("Morse-FJC asymptotic and reduced extensions are conjugate to their Gibbs free energies",
  "Below the maximum force sqrt(stiffness*energy/8) the asymptotic and reduced asymptotic extension of the Morse-FJC model is minus the force derivative of the Gibbs free energy of the same approach.",
  "every stiffness, energy > 0 and every force in (0, maximum force)",
  "derivative identity on an open parameter region up to a singular end point",
  [SC+"ufjc/morse/thermodynamics/isotensional/asymptotic/mod.rs",SC+"ufjc/morse/thermodynamics/isotensional/asymptotic/reduced/mod.rs"])
p("Lennard-Jones-FJC and log-squared-FJC asymptotic extensions are conjugate to their Gibbs free energies when the link stretch solves the force balance",
  "The returned extension is minus the force derivative of the returned Gibbs free energy, up to the residual u'(stretch) - force of the link stretch computed by the root finder / Lambert W times the slope of that stretch; so exactly, if the stretch solves the force balance. For Lennard-Jones links the residual is at most 1e-6 of the force at every force a link can bear.",
  "every stiffness > 0, every force in the range where the link stretch is a differentiable solution of the force balance",
  "envelope-theorem identity over all differentiable stretch laws; tests only see the solver's floating point output",
  [SC+"ufjc/lennard_jones/thermodynamics/isotensional/asymptotic/mod.rs",SC+"ufjc/log_squared/thermodynamics/isotensional/asymptotic/mod.rs",SC+"ufjc/lennard_jones/thermodynamics/mod.rs: nondimensional_link_stretch"])
p("Isometric force is conjugate to the Helmholtz free energy (ideal chain)",
  "For the ideal chain force(N,l,xi,T) is the derivative of helmholtz_free_energy with respect to end-to-end length.",
  "every N >= 1, link length, mass, temperature > 0 and every end-to-end length",
  "derivative identity at every length",
  [SC+"ideal/thermodynamics/isometric/mod.rs"])
p("Isometric FJC force is conjugate to the Helmholtz free energy",
  "For the FJC in the isometric ensemble (Treloar sums) the returned force is the derivative of the returned Helmholtz free energy with respect to the end-to-end length, including across the points where the number of terms in the sum changes; the only exception is three links at one third of the contour length, where the free energy has no derivative.",
  "every number of links for which the functions return (2 to 26), every extension per link in (0,1)",
  "piecewise polynomial of N-dependent degree with N/2 breakpoints; the claim at each breakpoint is about one-sided limits",
  [SC+"fjc/thermodynamics/mod.rs: treloar_sums, treloar_sum_0_with_prefactor",SC+"fjc/thermodynamics/isometric/mod.rs: nondimensional_force, nondimensional_helmholtz_free_energy"])
p("Isometric WLC force is conjugate to its Helmholtz free energy up to the Bessel approximation",
  "For persistence lengths up to 0.4 contour lengths, the nondimensional WLC isometric force is the derivative of the WLC Helmholtz free energy per link to within 5e-14 times the extension divided by the number of links. For any persistence length the two differ exactly by the explicit contribution of the difference between the derivative of the library's I0 and the library's I1.",
  "every persistence length > 0, every extension per link in (0,1), every number of links, temperature and hinge mass",
  "derivative identity over a continuum with fitted constants",
  [SC+"wlc/thermodynamics/isometric/mod.rs"])
p("Legendre transformation identities",
  "Every isotensional/legendre module returns helmholtz = gibbs + force*end_to_end_length of its parent ensemble, and every isometric/legendre gibbs equals helmholtz - force*end_to_end_length, in dimensional and nondimensional, total and per-link form.",
  "every model, every parameter and every force or length in the domain",
  "the modules re-inline long formulas; equality must hold for all arguments",
  [SC+"*/thermodynamics/isotensional/**/legendre/mod.rs",SC+"*/thermodynamics/isometric/**/legendre/mod.rs"])
p("Dimensional and nondimensional functions agree",
  "Each dimensional function equals its nondimensional counterpart at force*l/kT, length/(N l), stiffness*l^2/kT or energy/kT, rescaled by l, kT or kT/l; in particular results depend on dimensional inputs only through those groups.",
  "every model and all positive dimensional inputs",
  "equality of two code paths for all inputs",
  [SC+"*/thermodynamics/**/mod.rs"])
p("Total equals number of links times per-link",
  "In every ensemble the total extension, Helmholtz and Gibbs free energy and their relative versions equal the number of links times the per-link function.",
  "every model, N >= 1, all arguments",
  "must hold for all N in u8 and all real arguments",
  [SC+"*/thermodynamics/**/mod.rs: *_per_link"])
p("Relative free energies are differences from the reference state",
  "Every relative free energy equals the absolute one minus the absolute one at the library's reference value (1e-6 in nondimensional units; zero for the closed forms of the ideal chain and the freely jointed chain), vanishes there, and does not depend on the hinge mass; its nondimensional version does not depend on the temperature or link length at which it is evaluated.",
  "every model, parameters, masses, temperatures",
  "independence from a parameter quantifies over all its values",
  [SC+"*/thermodynamics/**/mod.rs: relative_*, nondimensional_relative_*", SC+"mod.rs: ZERO"])
p("Model objects forward their parameters",
  "For each chain model, every method of every (nested) object obtained from init(...) returns what the free function returns at the parameters given to init.",
  "every init argument, every method argument",
  "about all argument values through up to five levels of nested structs",
  [SC+"*/mod.rs: init",SC+"*/thermodynamics/**/mod.rs: init"])
p("FJC extension is a sigmoid in force",
  "The isotensional FJC extension per link is odd, strictly increasing in force, positive and strictly less than one for positive force, tends to one for large force and is at most a third of the force (the ideal chain).",
  "every force > 0",
  "strict monotonicity and bounds over a continuum",
  [SC+"fjc/thermodynamics/isotensional/mod.rs: nondimensional_end_to_end_length_per_link"])
p("inverse_langevin inverts the Langevin function",
  "For every y in (0,1), L(inverse_langevin(y)) is within 1e-6 relative of y, where L(x)=coth x - 1/x; the root finder always meets its tolerance before its iteration cap.",
  "every y in (0,1)",
  "convergence of an iteration from a rational guess with a pole at y=1, for all y",
  ["src/math/mod.rs: inverse_langevin, inverse_newton_raphson"])
p("inverse_langevin is odd",
  "inverse_langevin(-y) = -inverse_langevin(y) (the Langevin function is odd, and the force for a negative extension is the negative of the force).",
  "every y in (-1,1)",
  "symmetry over a continuum; the tests only use positive arguments",
  ["src/math/mod.rs: inverse_langevin"])
p("Newton solvers: iteration cap, fixed point and exit condition",
  "Both solvers evaluate the function at most max_iters times for every function (even one returning NaN); if they return before the cap, the iterate before the last update has relative residual within the tolerance; they return a root unchanged when started on it; and the powered solver is the plain solver with the step divided by the power.",
  "every function, derivative, start, tolerance, cap 0..=255 and power >= 1",
  "universal over functions passed as arguments, including non-finite behaviour",
  ["src/math/mod.rs: inverse_newton_raphson, inverse_newton_raphson_powered"])
p("Newton iteration on an increasing concave function approaches the root from below monotonically",
  "For an increasing concave differentiable function the solver's result never exceeds the root after the first step and the residual never changes sign or grows.",
  "every increasing concave function, every start in its domain",
  "universal over functions",
  ["src/math/mod.rs: inverse_newton_raphson",SC+"efjc/thermodynamics/isometric/asymptotic/reduced/legendre/mod.rs"])
p("Derivative callbacks handed to the root finder are the derivatives",
  "At every call site of the Newton solvers with an analytic derivative, the derivative callback is the derivative of the function callback.",
  "every EFJC and Morse isometric Legendre module, every parameter and every iterate in the domain",
  "identity between two long formulas for all arguments; a wrong derivative only slows convergence and passes tests",
  [SC+"efjc/thermodynamics/isometric/asymptotic/**/legendre/mod.rs",SC+"ufjc/morse/thermodynamics/isometric/asymptotic/**/legendre/mod.rs","src/math/mod.rs: inverse_langevin"])
p("Midpoint quadrature is linear, monotone and exact on affine functions",
  "integrate_1d is linear and monotone in the integrand, integrates affine functions exactly, is additive under splitting into equal panels, and reverses sign when the limits are exchanged.",
  "every integrand, interval and number of points >= 1",
  "universal over integrands",
  ["src/math/mod.rs: integrate_1d"])
p("Midpoint quadrature error bound and convergence",
  "integrate_1d differs from the exact integral by at most (b-a)^3*M/(24 n^2) when the second derivative is bounded by M, and converges to the integral as the number of points grows for every continuous integrand.",
  "every twice differentiable (resp. continuous) integrand, every interval, every number of points",
  "asymptotic and universal statement",
  ["src/math/mod.rs: integrate_1d"])
p("Two-dimensional quadratures are iterated one-dimensional ones",
  "integrate_2d equals iterating integrate_1d, integrate_2d_symmetric equals integrate_2d on a square, and the grid variants equal the generated-grid variants when handed the midpoint grid.",
  "every integrand, rectangle and number of points",
  "universal over integrands",
  ["src/math/mod.rs: integrate_2d, integrate_2d_symmetric, integrate_1d_grid, integrate_2d_grid, integrate_2d_symmetric_grid"])
p("The isometric FJC equilibrium distribution is the density of the end-to-end vector of freely jointed links",
  "nondimensional_equilibrium_distribution(N, gamma) is the radial density of the sum of N independent uniformly distributed unit vectors divided by N (specified both through the recursive average over the sphere of one more link and through the recursive convolution of the uniform density of one projected link).",
  "every N from 2 to 26 (where the function returns) and every gamma in (0,1)",
  "Monte Carlo tests compare histograms statistically; the claim is an exact formula for every N",
  [SC+"fjc/thermodynamics/mod.rs: treloar_sum_0_with_prefactor",SC+"fjc/thermodynamics/isometric/mod.rs: nondimensional_equilibrium_distribution"])
p("The isometric FJC radial distribution integrates to one",
  "The integral over (0,1) of nondimensional_equilibrium_radial_distribution(N, .) equals 1, and over (0, N l) for the dimensional version.",
  "every N from 2 to 26 (where the function returns)",
  "for every N; the test integrates numerically for a few N",
  [SC+"fjc/thermodynamics/isometric/mod.rs: nondimensional_equilibrium_radial_distribution, equilibrium_radial_distribution"])
p("The isometric FJC distribution is non-negative, and zero only at full extension",
  "The equilibrium distribution is strictly positive for every extension strictly between zero and the contour length.",
  "every N from 2 to 26 (where the function returns) and gamma in (0,1)",
  "alternating sums of large terms: sign must be right for every N and gamma",
  [SC+"fjc/thermodynamics/mod.rs: treloar_sum_0_with_prefactor"])
p("Domain on which the Treloar functions return",
  "With overflow checks, the isometric FJC functions return a value exactly when the factorials and n^n fit in u128, i.e. 2<=N<=34 for the force and 2<=N<=26 for the distribution, with an extension per link from -1-2/N up to but excluding 1, and panic otherwise; without overflow checks the distribution of 27<=N<=34 silently is too small.",
  "every N in 0..=255 and every extension",
  "a finite but large set of N combined with a continuum of extensions and two build profiles",
  [SC+"fjc/thermodynamics/mod.rs: treloar_sums, treloar_sum_0_with_prefactor"])
p("Ideal chain distribution is normalised and its free energy is minus its logarithm",
  "The ideal chain radial distribution integrates to one over all lengths, and the Helmholtz free energy minus the momentum contribution is minus the logarithm of the equilibrium distribution.",
  "every N >= 1, link length > 0",
  "improper integral for every parameter",
  [SC+"ideal/thermodynamics/isometric/mod.rs"])
p("Modified canonical ensemble identities",
  "In the FJC modified canonical ensemble the expected force is the derivative of the Helmholtz free energy with respect to the potential distance, the end-to-end length is the potential distance minus force over stiffness, Gibbs equals Helmholtz minus half stiffness times distance squared, and these agree between dimensional and nondimensional versions.",
  "every N for which the functions return, every distance and stiffness > 0",
  "exact identities of discretised integrals over a continuum of parameters",
  [SC+"fjc/thermodynamics/modified_canonical/mod.rs"])
p("Asymptotic modified canonical approaches are self-consistent",
  "In the weak-potential approach the extension is minus the derivative of Gibbs with respect to the force stiffness*distance at fixed stiffness; in the strong-potential approach the force is the derivative of Helmholtz with respect to the distance, except at the kinks of chains of three to five links; the leading terms are the isotensional extension and the isometric force.",
  "weak potential: every N >= 1, distance and stiffness > 0; strong potential: every N for which the functions return, distance below the contour length (for N < 6 away from the extensions 1 - 2s/N), stiffness > 0",
  "derivative identities over a continuum",
  [SC+"fjc/thermodynamics/modified_canonical/asymptotic/weak_potential/mod.rs",SC+"fjc/thermodynamics/modified_canonical/asymptotic/strong_potential/mod.rs"])
p("Monte Carlo configurations have the right link geometry",
  "Every configuration produced for FJC has unit link lengths; for FRC unit links with consecutive links at the prescribed angle; for EFJC/EFRC links of the sampled length, EFRC at the prescribed angle up to orientation.",
  "every sequence of random numbers in [0,1) (outside the degenerate parallel draw), every number of links",
  "quantifies over all random streams",
  [SC+"fjc/thermodynamics/isometric/monte_carlo/mod.rs: random_configuration",SC+"frc/thermodynamics/isometric/monte_carlo/mod.rs: random_configuration, cross",SC+"efjc/thermodynamics/isometric/monte_carlo/mod.rs",SC+"efrc/thermodynamics/isometric/monte_carlo/mod.rs"])
p("Monte Carlo end-to-end length never exceeds the contour length",
  "The FJC and FRC random end-to-end length is at most the number of links, so the normalised extension is in [0,1].",
  "every random stream, every number of links",
  "quantifies over all random streams",
  [SC+"fjc/thermodynamics/isometric/monte_carlo/mod.rs: random_nondimensional_end_to_end_length",SC+"frc/thermodynamics/isometric/monte_carlo/mod.rs"])
p("Monte Carlo histograms count every sample at most once, in the right bin",
  "Each sample is counted in exactly the bin whose half-open interval contains it (or in none when it is not below the last edge); returned densities are non-negative and integrate to the fraction of samples below the last edge; bin centres are the midpoints.",
  "every sample sequence, number of bins >= 1, number of samples >= 1",
  "quantifies over all random streams and sizes",
  [SC+"fjc/thermodynamics/isometric/monte_carlo/mod.rs: nondimensional_equilibrium_radial_distribution"])
p("The FRC Monte Carlo sampler never panics",
  "The normalised end-to-end length of a freely rotating chain never exceeds the maximum used for binning, so the sampler does not panic.",
  "every number of links, bond angle and random stream",
  "a panic needs a rare configuration",
  [SC+"frc/thermodynamics/isometric/monte_carlo/mod.rs: nondimensional_equilibrium_radial_distribution"])
p("Damage history is causal and depends only on the running maximum",
  "The i-th output of the damage model depends only on the first i stretches, and on those only through the current stretch and the running maximum (at least one); the output has the requested length, and a stretch below one or too short an input panics.",
  "every stretch history of any length",
  "quantifies over histories",
  ["src/constitutive/hyperelastic_damage/buche_silberstein/mod.rs: BucheSilberstein::uniaxial_tension, uniaxial_tension"])
p("Chain breaking is irreversible",
  "A grid cell broken (excluded) at some point of a loading history stays excluded at every later point with the same current stretch, i.e. the surviving probability at a given stretch never increases with the history's maximum stretch.",
  "every pair of histories where one extends the other",
  "quantifies over histories; the breaking criterion is not monotone in the maximum stretch for every cell",
  ["src/constitutive/hyperelastic_damage/buche_silberstein/mod.rs: uniaxial_tension"])
p("Damage-free limit",
  "With no previous maximum larger than the current stretch, every cell of the sampled grid inside the critical extension survives, and the surviving fraction is non-negative; an outright larger critical extension never lowers it at a fixed grid.",
  "every stretch >= 1, every grid",
  "quantifies over grids and stretches",
  ["src/constitutive/hyperelastic_damage/buche_silberstein/mod.rs: uniaxial_tension"])
p("Constitutive method dispatch",
  "Methods 2 and 3 return a value, any other method number panics at construction and at evaluation, for both constitutive models.",
  "every method number in u8, every other argument",
  "all u8 values combined with all real parameters",
  ["src/constitutive/hyperelastic/buche_silberstein/mod.rs: init, uniaxial_tension, equibiaxial_tension","src/constitutive/hyperelastic_damage/buche_silberstein/mod.rs"])
p("Hyperelastic uniaxial and equibiaxial response are consistent",
  "Equibiaxial tension at stretch s is minus the uniaxial stress at stretch 1/s^2 (volume-preserving deformation equivalence), and the stress is finite combination linear in the element table.",
  "every stretch > 0, both methods, every grid and element table",
  "identity over a continuum of stretches",
  ["src/constitutive/hyperelastic/buche_silberstein/mod.rs: uniaxial_tension, equibiaxial_tension"])
p("erf, erfc and erfcx are mutually consistent",
  "erf + erfc = 1, erfcx(x) = exp(x^2) erfc(x), and the reflection erfc(x)+erfc(-x)=2 holds exactly for arguments up to 6.1 in magnitude, where the table is used for both signs.",
  "every real x",
  "piecewise definition with six branches",
  ["src/math/mod.rs: erf, erfc, erfcx"])
p("erf has the sign of its argument",
  "erf(x) is negative for negative x and tends to -1 for very negative x.",
  "every x < 0",
  "includes arguments far outside the tested range",
  ["src/math/mod.rs: erf, erfcx"])
p("erfcx approximates the scaled complementary error function",
  "For every non-negative x the table-driven erfcx differs from exp(x^2)*(2/sqrt(pi))*integral_x^inf exp(-t^2) dt by at most 1e-12; erfc then differs from the true one by at most 1e-12*exp(-x^2), and erf by at most 1e-12 for every x >= -26.7.",
  "every x >= 0, all one hundred table rows",
  "a wrong digit in one of 700 coefficients affects a sliver of the input range",
  ["src/math/mod.rs: erfcx, erfcx_helper"])
p("lambert_w iteration",
  "lambert_w(x) runs max(4, ceil(log10(x)/3)) Halley steps from 0.75 ln(x+1). Above -1 the principal branch W (W e^W = x) is the only fixed point of a step, every step moves towards W without passing it, so for every x > -1/e the result lies between W and the first guess; for 0 <= x <= 1e6 it is within 1e-10 of W, for -2/3 <= W <= 0 within 2e-14 |W|, and for all -1/e < x <= 0 the relative residual is below 1e-3.",
  "every x in the domain",
  "universal in x",
  ["src/math/mod.rs: lambert_w"])
p("Bessel approximations: parity and range",
  "bessel_i(0,.) and bessel_i(1,.) match the power series of I0 and I1 with relative error at most 1e-15 for |x|<7.75 and at most 2.5e-13 for x>=7.75 (both asymptotic branches), are even and odd, and any other order returns -1. Callers (the isometric worm-like chain) pass negative arguments, so the approximation must also hold for large negative x.",
  "every real x, every order",
  "parity over the whole real line crosses three branches",
  ["src/math/mod.rs: bessel_i, bessel_i0, bessel_i1"])
p("Limits between chain models",
  "The EFJC (asymptotic) extension tends to the FJC extension as stiffness grows, the SWFJC extension tends to the FJC extension as the well width vanishes, the ideal extension is the small-force limit of the FJC extension, and extensible chains are always longer than the FJC at the same force.",
  "every force > 0",
  "limits and strict inequalities over a continuum",
  [SC+"efjc/thermodynamics/isotensional/asymptotic/mod.rs",SC+"swfjc/thermodynamics/isotensional/mod.rs",SC+"ideal/thermodynamics/isotensional/mod.rs"])
p("Isometric Legendre solvers invert the isotensional extension",
  "When the root finder in an isometric/legendre module exits before its cap, the returned force reproduces the requested extension through the matching isotensional function up to the solver tolerance (exact statement on the last-but-one iterate), and the returned free energy is the Legendre transform at that force.",
  "every EFJC, Morse, LJ and log-squared isometric Legendre module, every extension > 0",
  "statement about every run of an iterative solver",
  [SC+"efjc/thermodynamics/isometric/asymptotic/**/legendre/mod.rs",SC+"ufjc/*/thermodynamics/isometric/asymptotic/**/legendre/mod.rs"])
p("WLC isotensional quadrature is conjugate and independent of the scaling shift",
  "Whenever the root finder does not panic, the overflow-avoiding shift cancels exactly from the extension and (for force <= 100) from the Gibbs energy, and the extension is minus the force derivative of the unshifted Gibbs energy.",
  "every persistence length, N, force > 0",
  "identity for any value of the shift",
  [SC+"wlc/thermodynamics/isotensional/mod.rs"])
p("Legendre approximations of the FJC distribution are self-normalised",
  "The distribution returned by the FJC, SWFJC (isometric Legendre) and WLC objects is normalised so that the library's own quadrature of the radial distribution is exactly one.",
  "every N, link length, well width, persistence length for which the normalisation is non-zero",
  "exact identity of the discretised normalisation for all parameters",
  [SC+"fjc/thermodynamics/isometric/legendre/mod.rs: init",SC+"swfjc/thermodynamics/isometric/legendre/mod.rs: init",SC+"wlc/thermodynamics/isometric/mod.rs: init"])
p("Modified canonical free energy is minus the logarithm of the partition function",
  "The Helmholtz free energy of the FJC in the modified canonical ensemble is minus kT times the logarithm of the Boltzmann factor of the harmonic potential, averaged over directions and over the random walk of the links with the library's midpoint rule, minus the momentum contribution.",
  "every N for which the functions return, every link length, mass, temperature, distance and stiffness > 0",
  "an identity with an integral over a continuum, for all parameters",
  [SC+"fjc/thermodynamics/modified_canonical/mod.rs"])
p("No force, no extension",
  "An unloaded chain has zero extension: the extension functions vanish at force 0 (and tend to 0 with the force).",
  "every chain model and its parameters",
  "a value at a removable singularity of the formula, for every parameter; the repository's tests never evaluate at 0",
  [SC+"*/thermodynamics/isotensional/mod.rs: nondimensional_end_to_end_length_per_link",SC+"ufjc/*/thermodynamics/isotensional/asymptotic/**/mod.rs: nondimensional_end_to_end_length_per_link"])
p("The isometric force of an extensible chain at its contour length is a number",
  "The isometric EFJC force functions, and the inverse Langevin function used for their first guess, return a number (not NaN) when the end-to-end length equals the contour length.",
  "every link stiffness",
  "a single point of the input range where the two branches of the first guess meet, for every stiffness; random tests never hit it",
  [SC+"efjc/thermodynamics/isometric/asymptotic/**/mod.rs: nondimensional_force","src/math/mod.rs: inverse_langevin"])
p("The link stretch found by iteration balances the applied force",
  "For every force below the one at which the link breaks, nondimensional_link_stretch converges within its iteration cap: the stretch returned is at least 1, below the stretch at break, and the link force at that stretch is within 1e-6 (relative) of the applied force and not above it. The stretch of a log-squared link balances its force within 1e-3 up to the force at which it breaks and within 2e-14 up to 0.34 times the stiffness, never above it.",
  "every stiffness > 0 and every force in [0, breaking force)",
  "global convergence of an iteration whose derivative vanishes at the end of the range",
  [SC+"ufjc/lennard_jones/thermodynamics/mod.rs: nondimensional_link_stretch"])
p("Isotensional free energies are minus logarithms of one-link partition functions",
  "The nondimensional Gibbs free energy per link equals minus the logarithm of the momentum factor of the hinge times the integral, over link lengths and directions, of exp(force times extension minus link energy): exactly for the ideal chain, the FJC and the SWFJC, to the accuracy of the error function for the EFJC (any stiffness), and with the integral replaced by the library's 64-panel midpoint rule for Morse, Lennard-Jones and log-squared links.",
  "every force > 0 and all parameters > 0",
  "an identity between a closed formula and an integral over a continuum, for all parameters",
  [SC+"*/thermodynamics/isotensional/mod.rs: nondimensional_gibbs_free_energy_per_link"])
p("Isometric and isotensional ensembles are Laplace transforms of each other",
  "The average of exp(force times extension along the force) over the isometric radial distribution of the chain equals exp(-relative Gibbs free energy) of the isotensional functions.",
  "ideal chain: every N >= 1 and every force; FJC: every N for which the distribution returns and every force > 0",
  "relates two modules by an integral over all extensions, for every force",
  [SC+"ideal/thermodynamics/isometric/mod.rs",SC+"ideal/thermodynamics/isotensional/mod.rs",SC+"fjc/thermodynamics/isometric/mod.rs",SC+"fjc/thermodynamics/isotensional/mod.rs"])
p("The network stress is the average chain tension over the deformed network",
  "uniaxial_tension and equibiaxial_tension of the network models return the average, over the chains of the network weighted by their probability in the undeformed network, of the difference between the axial and lateral stress carried by a chain (number of links times nondimensional force, resolved on the chain direction); with damage only the chains that never exceeded the critical extension contribute. The average is by the rectangle rule on the model's grid (uniform for the damage model, uniform after x = artanh w for the other).",
  "every grid size >= 2, method 2 or 3, stiffness, number of links, stretch and stretch history; critical extension; swelling ratio > 0",
  "a table is built at construction and combined with weights at every call; the repository's tests check only single values of one stretch",
  ["src/constitutive/hyperelastic/buche_silberstein/mod.rs: init, uniaxial_tension, equibiaxial_tension","src/constitutive/hyperelastic_damage/buche_silberstein/mod.rs: init, uniaxial_tension"])
p("Pulling harder makes a chain longer",
  "In the isotensional ensemble every end-to-end length function (total and per link, dimensional and not) is positive under a pulling force and strictly increasing in it: for the ideal, FJC and SWFJC chains, the three asymptotic EFJC approximations, Morse, Lennard-Jones and log-squared links, the asymptotic Morse, Lennard-Jones and log-squared approximations below the breaking force, the worm-like chain at forces for which the function returns, and the exact EFJC.",
  "every force > 0 (below the breaking force for the asymptotic Morse, Lennard-Jones and log-squared functions) and all parameters > 0",
  "monotonicity over a continuum of pairs of forces and all parameters; for the quadrature models it is a property of a 64-term sum, not of the integral it approximates",
  [SC+"*/thermodynamics/isotensional/mod.rs: end_to_end_length and variants",SC+"*/thermodynamics/isotensional/asymptotic/**/mod.rs: end_to_end_length and variants"])
p("The Python classes compute what the Rust objects compute",
  "A Python object built with the same parameters as a Rust object exposes the same attribute values, and each of its methods, applied to a numpy array of any shape, returns an array of the same shape whose entries are the values of the Rust method at the entries of the argument; the call fails exactly when the Rust method panics on some entry. For the damage model the entries are one loading history.",
  "every single-chain class and every object reachable from it, both constitutive classes; every method; every array, parameter value and build profile",
  "555 hand-written wrappers with up to seven positional arguments of the same type; the tests of the interface call few of them and a swapped pair of arguments type-checks",
  ["src/**/py.rs","src/constitutive/*/buche_silberstein/py.rs"])
p("The exported C functions compute the Rust functions their names spell",
  "Calling the exported symbol whose name is the path of a Rust function with :: replaced by _ returns what that function returns on the same arguments, and panics exactly when it panics.",
  "all 554 exported symbols of the single-chain models, every argument value and build profile",
  "wrappers pass up to eight positional arguments of the same type; no test calls them all at distinct values",
  ["src/physics/single_chain/**/ex.rs"])
p("The C functions of the hyperelastic model are memory safe on the buffers they document",
  "Calling the exported uniaxial and equibiaxial tension functions with pointers to the grid and to the table of elements of a model reads no memory outside those buffers and returns what the methods of the model return.",
  "every grid size >= 2, method, stiffness, number of links and stretch",
  "reading out of bounds is undefined behaviour that usually goes unnoticed when the program runs",
  ["src/constitutive/hyperelastic/buche_silberstein/ex.rs"])
p("The Julia functions and objects compute what the Rust ones compute",
  "A Julia function of a single-chain model, applied to numbers and arrays, returns the array that broadcasting gives (an exception exactly when two arguments have different sizes other than one along a dimension) whose entry at each index is what the Rust function with the same path returns for the entries of the arguments that meet there. A Julia object built with the same parameters as a Rust object stores the same numbers and sub-objects, and each function it stores does the same with the method of the same name.",
  "all 554 functions and 82 constructors of the Julia sources; arguments of any shape; every parameter value and build profile",
  "hand-written positional wrappers over positional C functions, where a swapped pair of arguments type-checks and a wrong declaration of a C function goes unnoticed; shapes are unbounded",
  ["src/physics/single_chain/**/mod.jl","src/physics/single_chain/**/ex.rs"])
p("The modified canonical ensemble interpolates between the other two",
  "The FJC in the modified canonical ensemble tends to the chain under a constant force when the potential is weakened at fixed force, its extension stays between zero and the contour length for every potential and increases with the distance of the potential, and it tends to the isometric ensemble (extension at the distance of the potential, isometric force) when the potential is stiffened; the weak- and strong-potential approaches have the same limits.",
  "every N for which the functions return, every force, distance and stiffness > 0; limits of vanishing and of infinite stiffness",
  "limits: no finite stiffness decides them, and the quadrature grid interacts with the width of the potential only at stiffnesses beyond those tried",
  ["src/physics/single_chain/fjc/thermodynamics/modified_canonical/mod.rs","src/physics/single_chain/fjc/thermodynamics/modified_canonical/asymptotic/weak_potential/mod.rs","src/physics/single_chain/fjc/thermodynamics/modified_canonical/asymptotic/strong_potential/mod.rs"])
p("The Python package publishes its classes along their directories",
  "After importing the package, a chain of attribute names leads to a class exactly if the class is defined below the directory of the same names (for the constitutive models: the directory above), and to a module exactly if it is the beginning of the chain of a class; nothing is missing, shadowed or published twice.",
  "every chain of attribute names of any length",
  "a class that is not registered, or registered in the wrong module or under the name of another, is only noticed by a test that imports exactly it",
  ["src/py.rs","src/physics/**/py.rs","src/constitutive/**/py.rs"])
p("The isotensional functions are accurate in double precision",
  "For a finite nondimensional force that is not extremely small or large, the nondimensional extension and relative Gibbs free energy per link that the library computes in double precision are finite numbers, and differ from the exact values by no more than a few roundings and the error of the platform's hyperbolic functions and logarithm.",
  "every double in the stated ranges, every mathematical library with the stated relative error",
  "2^64 inputs; cancellation and overflow only show at magnitudes that the tests, which draw moderate random numbers, do not reach",
  ["src/physics/single_chain/fjc/thermodynamics/isotensional/mod.rs:nondimensional_end_to_end_length_per_link","src/physics/single_chain/ideal/thermodynamics/isotensional/mod.rs","src/physics/single_chain/efjc/thermodynamics/isotensional/asymptotic/reduced/mod.rs","src/physics/single_chain/swfjc/thermodynamics/isotensional/mod.rs"])
p("Numerical integration is accurate in double precision for any number of points",
  "Sums of doubles and the integration routines return finite numbers that differ from the exact sums, and from the integral, by no more than the error of the midpoint rule plus a rounding error that grows linearly with the number of points.",
  "lists of doubles of any length; every interval, number of points up to 2^50 and integrand computed with a known error",
  "the rounding error accumulates over the points; no test compares more than a few grids",
  ["src/math/mod.rs:integrate_1d","src/math/mod.rs:integrate_1d_grid","src/math/mod.rs:integrate_2d_grid","src/math/mod.rs:integrate_2d","src/math/mod.rs:integrate_2d_symmetric"])
p("The Monte Carlo samplers sample the ensembles of the chains",
  "Averaged over independent uniform random numbers, a sampled link of the freely jointed chain points in every direction equally; the mean square end-to-end length of a sampled freely jointed chain is the number of links, its characteristic function is that of independent unit links, and the average of exp(force * extension) is the one the library computes in the isotensional ensemble and from its radial distribution.  The mean square lengths of the extensible and of the rotating chains are the textbook ones for the sampled link lengths and the given angle.",
  "every number of links, force vector, angle and list of link lengths; the average is over all random numbers",
  "a histogram of samples differs from the distribution by noise; a test can only detect a large bias, and none compares the samplers with the analytical functions",
  ["src/physics/single_chain/fjc/thermodynamics/isometric/monte_carlo/mod.rs","src/physics/single_chain/efjc/thermodynamics/isometric/monte_carlo/mod.rs","src/physics/single_chain/frc/thermodynamics/isometric/monte_carlo/mod.rs","src/physics/single_chain/efrc/thermodynamics/isometric/monte_carlo/mod.rs"])
p("The sampled histogram of the freely jointed chain converges to the radial distribution",
  "The probability that a sampled end-to-end length lies in an interval is the integral over it of the radial distribution that the library computes.  Each entry of the sampled histogram is, on average, the mean of that distribution over its bin; the number of samples in the bin follows the binomial law, so the entry deviates from that mean with a probability that vanishes with the number of samples.",
  "every interval, number of bins, number of samples and bin; every number of links for which the distribution does not overflow (every number of links for the probability in terms of the density of a random walk)",
  "the histogram is random: any single run may deviate, and the systematic error of a wrong bin edge or normalisation is hidden by the noise at the sample sizes that a test can afford",
  ["src/physics/single_chain/fjc/thermodynamics/isometric/monte_carlo/mod.rs:nondimensional_equilibrium_radial_distribution","src/physics/single_chain/fjc/thermodynamics/isometric/mod.rs:nondimensional_equilibrium_radial_distribution"])
p("Fluctuations of the sampled chains agree with the response to a weak force",
  "The mean square end-to-end length of the samples of a chain is three times the slope at zero force of the extension that the library computes for the same chain: both describe the same thermal equilibrium.",
  "every number of links and link stiffness; the average is over all random numbers, with normally distributed link lengths",
  "the two numbers come from different modules and differ by a few per cent for stiff links, which is within the noise of an affordable number of samples; no finite set of stiffnesses decides it",
  ["src/physics/single_chain/fjc/thermodynamics/isometric/monte_carlo/mod.rs","src/physics/single_chain/efjc/thermodynamics/isometric/monte_carlo/mod.rs","src/physics/single_chain/efjc/thermodynamics/isotensional/asymptotic/mod.rs:nondimensional_end_to_end_length_per_link"])
p("The isometric density of the freely jointed chain is accurate in double precision",
  "For every extension strictly between zero and full extension, the equilibrium distribution that the library computes in double precision is a finite number, positive like the exact density, and differs from it by no more than a few roundings of the terms of its sum; the computed force is finite.",
  "every double between 2^-800 and 1; 3 to 26 links; every mathematical library that rounds and alternates signs of small integers exactly",
  "the sum alternates and its terms cancel: whether the result has any correct digit depends on the number of links and on the last bits of the extension; the tests compare at random extensions and with tolerances",
  ["src/physics/single_chain/fjc/thermodynamics/isometric/mod.rs:nondimensional_equilibrium_distribution","src/physics/single_chain/fjc/thermodynamics/isometric/mod.rs:nondimensional_force","src/physics/single_chain/fjc/thermodynamics/mod.rs:treloar_sum_0_with_prefactor"])
p("Stretching a freely jointed chain costs free energy",
  "The isometric force of a freely jointed chain resists extension: it is positive at every extension between zero and the contour length, the equilibrium distribution falls strictly with the distance and every Helmholtz free energy rises strictly. The one exception is three links, which resist only beyond a third of their contour length.",
  "every extension or pair of extensions; 2 to 34 links for the force and 2 to 26 for the distribution and the free energies; every link length, mass and temperature; the underlying random walk for any number of links",
  "the force is a quotient of two alternating sums, one of which changes sign along the way; the tests sample a few random extensions and compare formulas with each other, not with zero",
  ["src/physics/single_chain/fjc/thermodynamics/isometric/mod.rs:nondimensional_force","src/physics/single_chain/fjc/thermodynamics/isometric/mod.rs:nondimensional_equilibrium_distribution","src/physics/single_chain/fjc/thermodynamics/isometric/mod.rs:nondimensional_helmholtz_free_energy","src/physics/single_chain/fjc/thermodynamics/mod.rs:treloar_sums"])
p("The Legendre free energies are Legendre transforms",
  "The Helmholtz free energy that a Legendre module computes for a stretched chain is the largest amount any force could account for: work minus what the freely pulled chain gives back. Between two states it grows by at least the work of the smaller force and by at most the work of the larger one. For the freely jointed chain held at a given extension this holds up to a millionth of the work, and its Boltzmann factor bounds the probability of finding the chain beyond that extension.",
  "every pair of positive forces, or of extensions between zero and one; every number of links, length, mass, temperature and link parameter (2 to 26 links for the probability); the freely jointed, square-well, Morse, Lennard-Jones and log-squared chains and the asymptotic approaches of the harmonic and Morse chains (below the fold of the Morse link)",
  "optimality compares one value with those at all other forces, and the supremum ranges over a continuum; the tests only repeat the defining formula",
  ["src/physics/single_chain/fjc/thermodynamics/isometric/legendre/mod.rs:nondimensional_relative_helmholtz_free_energy_per_link","src/physics/single_chain/fjc/thermodynamics/isotensional/legendre/mod.rs","src/physics/single_chain/swfjc/thermodynamics/isotensional/legendre/mod.rs","src/physics/single_chain/efjc/thermodynamics/isotensional/asymptotic/legendre/mod.rs","src/physics/single_chain/ufjc/morse/thermodynamics/isotensional/legendre/mod.rs","src/physics/single_chain/ufjc/lennard_jones/thermodynamics/isotensional/legendre/mod.rs","src/physics/single_chain/ufjc/log_squared/thermodynamics/isotensional/legendre/mod.rs"])
p("The force that holds an extensible chain is found at every extension",
  "The isometric (reduced, Legendre) functions of the harmonic chain compute their force with an iteration capped at one hundred steps. The cap is never reached: the force is positive, it is the only one that gives the prescribed extension up to two millionths, pulling the chain with it gives that extension back, and the free energy is the supremum over all forces up to a tolerance that is quadratic in that of the iteration.",
  "every extension other than exactly the contour length (where the iteration divides by zero, C52), however small or large; every link stiffness, number of links, link length, mass and temperature",
  "whether an iteration converges within its cap depends on the extension and the stiffness together, over many orders of magnitude; a test sees only the points it tries",
  ["src/physics/single_chain/efjc/thermodynamics/isometric/asymptotic/reduced/legendre/mod.rs:nondimensional_force","src/physics/single_chain/efjc/thermodynamics/isometric/asymptotic/reduced/legendre/mod.rs:force","src/physics/single_chain/efjc/thermodynamics/isometric/asymptotic/reduced/legendre/mod.rs:nondimensional_helmholtz_free_energy_per_link","src/math/mod.rs:inverse_newton_raphson"])
p("A network resists being stretched",
  "Stretching an undeformed network in uniaxial or equibiaxial tension raises its stress: the initial stiffness is positive. The stress goes on rising with the stretch.",
  "every grid, link stiffness and number of links; every stretch",
  "the sign of the stiffness is the sign of a double sum over the grid, for every stiffness; the tests of the constitutive models evaluate single stretches",
  ["src/constitutive/hyperelastic/buche_silberstein/mod.rs:uniaxial_tension","src/constitutive/hyperelastic/buche_silberstein/mod.rs:equibiaxial_tension","src/constitutive/hyperelastic/buche_silberstein/mod.rs:init"])
p("Reversing the pull reverses the response",
  "A chain pulled in the opposite direction is stretched in the opposite direction by the same amount, at the same cost: in every single-chain model extensions and forces are odd, and free energies and distribution functions even, in the applied force, in the imposed extension, or in the distance of the potential that holds the end.",
  "every model, ensemble and approximation; every positive set of parameters; every force or extension other than zero, of either sign",
  "Tests evaluate positive forces and extensions only; that a formula is odd or even, or returns a value at all on the other side, is a statement about all of its arguments.",
  ["src/physics/single_chain/fjc/thermodynamics/mod.rs:treloar_sums","src/physics/single_chain/fjc/thermodynamics/isometric/mod.rs:force","src/physics/single_chain/fjc/thermodynamics/modified_canonical/mod.rs:force","src/physics/single_chain/efjc/thermodynamics/isotensional/mod.rs:end_to_end_length","src/physics/single_chain/ufjc/morse/thermodynamics/isotensional/asymptotic/mod.rs:end_to_end_length","src/physics/single_chain/wlc/thermodynamics/isometric/mod.rs:force"])
p("Under a weak pull every chain is a linear spring",
  "The extension under a weak force obeys Hooke's law, with the slope that equilibrium demands: a third of the mean square length of a link (for the worm-like chain, of the whole chain). For the computed chains the deviation from the straight line is bounded at every force. In the asymptotic approaches the slope is that of rigid links plus the compliance of the link plus a term set by the anharmonicity of its potential.",
  "every positive force; every link stiffness, depth and width of the well; every number of links, persistence length, mass and temperature for the worm-like chain",
  "the slope is a limit, and it equals a ratio of integrals over the link potential; tests compare the extension at single forces with the straight line, with a tolerance",
  ["src/physics/single_chain/fjc/thermodynamics/isotensional/mod.rs:nondimensional_end_to_end_length_per_link","src/physics/single_chain/swfjc/thermodynamics/isotensional/mod.rs:nondimensional_end_to_end_length_per_link","src/physics/single_chain/ufjc/morse/thermodynamics/isotensional/mod.rs:nondimensional_end_to_end_length_per_link","src/physics/single_chain/ufjc/lennard_jones/thermodynamics/isotensional/asymptotic/mod.rs:nondimensional_end_to_end_length_per_link","src/physics/single_chain/ufjc/log_squared/thermodynamics/isotensional/asymptotic/mod.rs:nondimensional_end_to_end_length_per_link","src/physics/single_chain/efjc/thermodynamics/isotensional/mod.rs:nondimensional_end_to_end_length_per_link","src/physics/single_chain/wlc/thermodynamics/isotensional/mod.rs:nondimensional_end_to_end_length"])
p("Under a strong pull the links line up",
  "However strong the force, the extension per link stays below the length of the longest link the model allows, and comes as close to it as one likes. Links without a longest length line up and stretch like springs.",
  "every positive force and the limit of strong forces; every link stiffness, depth and width of the well",
  "a bound for all forces together with a limit; a test sees finitely many finite forces, and the strongest ones overflow",
  ["src/physics/single_chain/fjc/thermodynamics/isotensional/mod.rs:nondimensional_end_to_end_length_per_link","src/physics/single_chain/swfjc/thermodynamics/isotensional/mod.rs:nondimensional_end_to_end_length_per_link","src/physics/single_chain/ufjc/morse/thermodynamics/isotensional/mod.rs:nondimensional_end_to_end_length_per_link","src/physics/single_chain/efjc/thermodynamics/isotensional/asymptotic/alternative/mod.rs:nondimensional_end_to_end_length_per_link"])
p("Softer links make longer chains",
  "Under the same pulling force a chain of softer links is strictly longer: the extension decreases strictly with the link stiffness for the three asymptotic EFJC approaches and for both asymptotic approaches with Morse, Lennard-Jones and log-squared links, decreases strictly with the depth of the Morse well, and increases strictly with the width of the square well, whose chain is longer than the freely jointed chain. For Lennard-Jones and log-squared links this includes the iterations that find the stretch.",
  "every pair of stiffnesses, depths or widths and every positive force the softer link bears",
  "a comparison over all pairs of parameters and a continuum of forces; for links whose stretch an iteration finds, two runs with different numbers of steps are compared",
  ["src/physics/single_chain/efjc/thermodynamics/isotensional/asymptotic/mod.rs:nondimensional_end_to_end_length_per_link","src/physics/single_chain/ufjc/morse/thermodynamics/isotensional/asymptotic/mod.rs:nondimensional_end_to_end_length_per_link","src/physics/single_chain/ufjc/lennard_jones/thermodynamics/mod.rs:nondimensional_link_stretch","src/physics/single_chain/ufjc/log_squared/thermodynamics/isotensional/asymptotic/mod.rs:nondimensional_end_to_end_length_per_link","src/math/mod.rs:lambert_w","src/math/mod.rs:inverse_newton_raphson","src/physics/single_chain/swfjc/thermodynamics/isotensional/mod.rs:nondimensional_end_to_end_length_per_link"])
p("Heating a chain under tension shortens it",
  "Under a constant pulling force every chain gets strictly shorter when its temperature rises, because only the alignment of the links depends on the temperature while their stretch is set by the force. Held at a constant length instead, chains of rigid links, square-well links and worm-like chains pull back with a force proportional to the absolute temperature.",
  "every chain length, link length, stiffness and energy, every positive force the links bear, and every pair of temperatures",
  "a comparison over all pairs of temperatures at a continuum of forces; the alternative asymptotic approach obeys it up to the force k l and breaks it beyond, at temperatures a test is unlikely to pick",
  ["src/physics/single_chain/ideal/thermodynamics/isotensional/mod.rs:end_to_end_length","src/physics/single_chain/fjc/thermodynamics/isotensional/mod.rs:end_to_end_length","src/physics/single_chain/swfjc/thermodynamics/isotensional/mod.rs:end_to_end_length","src/physics/single_chain/wlc/thermodynamics/isotensional/mod.rs:end_to_end_length","src/physics/single_chain/efjc/thermodynamics/isotensional/asymptotic/mod.rs:end_to_end_length","src/physics/single_chain/efjc/thermodynamics/isotensional/asymptotic/alternative/mod.rs:end_to_end_length","src/physics/single_chain/ufjc/morse/thermodynamics/isotensional/asymptotic/mod.rs:end_to_end_length","src/physics/single_chain/ufjc/lennard_jones/thermodynamics/isotensional/asymptotic/mod.rs:end_to_end_length","src/physics/single_chain/ufjc/log_squared/thermodynamics/isotensional/asymptotic/mod.rs:end_to_end_length"])
p("A cold chain lies straight",
"Pull a chain with a fixed force f and cool it: its end-to-end length tends to that of its links laid straight, each stretched as far as f alone stretches it. For every temperature T, the freely jointed chain and the asymptotic and reduced asymptotic chains with extensible links are shorter than that, by less than kT/f per link. The stretch is 1 for rigid links, 1 + f/(k l) for harmonic links, and for Morse, Lennard-Jones and log-squared links the stretch at which the force in the bond is f (to one part in a million and in a thousand where the code iterates). The square-well chain tends to the full width of its well. The ideal chain grows without bound.",
"every link count, link length, hinge mass, stiffness, energy and well width, every positive force the links bear, every temperature",
"Tests use one temperature, and the zero-temperature limit cannot be sampled.",
["src/physics/single_chain/fjc/thermodynamics/isotensional/mod.rs:end_to_end_length","src/physics/single_chain/ufjc/morse/thermodynamics/isotensional/asymptotic/mod.rs:end_to_end_length","src/physics/single_chain/ufjc/lennard_jones/thermodynamics/isotensional/asymptotic/reduced/mod.rs:end_to_end_length_per_link","src/physics/single_chain/swfjc/thermodynamics/isotensional/mod.rs:end_to_end_length_per_link"])
p("Free energies are thermodynamically stable in force and temperature together",
"The Gibbs free energy of a chain is a concave function of force and temperature jointly: at any state between two states it lies on or above the chord, strictly above if the temperatures differ. So the compliance and the heat capacity are positive and the cross response cannot outweigh them; in particular the entropy of a chain under a fixed force increases strictly with the temperature. This holds for the ideal chain, the FJC, the SWFJC, the asymptotic and reduced asymptotic EFJC, and the chains with Morse, Lennard-Jones and log-squared links integrated numerically. At a fixed length, the entropy of the isometric ideal chain, FJC and WLC increases strictly with the temperature.",
"every link count, link length, hinge mass, stiffness, energy and well width, every pair of states (force, temperature) and every state between them",
"A statement about every pair of states in a plane and every state on the segment between them; a sampled second difference says nothing between the samples.",
["src/physics/single_chain/ideal/thermodynamics/isotensional/mod.rs:gibbs_free_energy","src/physics/single_chain/fjc/thermodynamics/isotensional/mod.rs:gibbs_free_energy","src/physics/single_chain/swfjc/thermodynamics/isotensional/mod.rs:gibbs_free_energy","src/physics/single_chain/efjc/thermodynamics/isotensional/asymptotic/mod.rs:gibbs_free_energy","src/physics/single_chain/ufjc/morse/thermodynamics/isotensional/mod.rs:gibbs_free_energy","src/physics/single_chain/ufjc/lennard_jones/thermodynamics/isotensional/mod.rs:gibbs_free_energy","src/physics/single_chain/ufjc/log_squared/thermodynamics/isotensional/mod.rs:gibbs_free_energy","src/physics/single_chain/wlc/thermodynamics/isometric/mod.rs:helmholtz_free_energy"])
p("Results do not depend on the system of units",
"Describe the same chain twice, the second time with every length multiplied by a > 0 and every energy and temperature by b > 0 (so forces by b/a, stiffnesses by b/a^2 and masses by 1/(a^2 b), which keeps the values of the Boltzmann and Planck constants). Then every function answers the same physical quantity: lengths come out a times, energies b times and forces b/a times as large, densities per volume and per length 1/a^3 and 1/a times, nondimensional results are unchanged, and a call that fails in one system of units fails in the other. This holds for every length, force, relative free energy and density of every model, and for the absolute free energies of the ideal, freely jointed (isotensional, Legendre and modified canonical), square-well and worm-like chains and of the numerically integrated chains with Morse, Lennard-Jones and log-squared links. The absolute free energies of the EFJC and of the asymptotic approximations put a length into a logarithm and shift by -kT ln a per link, and the exact isometric FJC shifts by 3 kT ln a.",
"every positive pair of conversion factors, every link count, link length, hinge mass, temperature, stiffness, energy, well width and persistence length, every force or end-to-end length",
"Tests run in a single system of units, so a function that mixes a length and its reciprocal, or a dimensional and a nondimensional quantity, passes them whenever the test parameters make the factor 1.",
["src/physics/single_chain/ideal/thermodynamics/isometric/mod.rs:equilibrium_distribution","src/physics/single_chain/fjc/thermodynamics/isometric/mod.rs:helmholtz_free_energy","src/physics/single_chain/swfjc/thermodynamics/isotensional/mod.rs:gibbs_free_energy","src/physics/single_chain/efjc/thermodynamics/isotensional/mod.rs:gibbs_free_energy_per_link","src/physics/single_chain/ufjc/morse/thermodynamics/isotensional/mod.rs:gibbs_free_energy","src/physics/single_chain/ufjc/lennard_jones/thermodynamics/isotensional/legendre/mod.rs:helmholtz_free_energy","src/physics/single_chain/ufjc/log_squared/thermodynamics/isotensional/asymptotic/mod.rs:gibbs_free_energy","src/physics/single_chain/wlc/thermodynamics/isotensional/mod.rs:gibbs_free_energy"])
p("Chains stiffen as they straighten, and give way before they break",
"The compliance of a chain under a force is its extension divided by the force. The ideal chain has the same compliance at every force. For the freely jointed chain, for the square-well chain of any width and for the three asymptotic approaches to the chain with harmonic links of any stiffness, a stronger force always meets a strictly smaller compliance, with and without units; hence these chains are shorter at every force than their response to weak forces predicts, and the freely jointed chain is shorter than the ideal chain. The asymptotic approaches for Morse, Lennard-Jones and log-squared links, whose bonds break at a largest force, do not stiffen throughout: whatever their parameters, their compliance grows again somewhere below the breaking force.",
"every pair of positive forces, every positive stiffness, bond energy and well width, every link count, link length and temperature",
"Compliance is a statement about every pair of forces and every parameter; a test compares finitely many, and a wrong sign in a correction term changes the compliance only at forces of a certain size.",
["src/physics/single_chain/ideal/thermodynamics/isotensional/mod.rs:nondimensional_end_to_end_length_per_link","src/physics/single_chain/fjc/thermodynamics/isotensional/mod.rs:end_to_end_length","src/physics/single_chain/swfjc/thermodynamics/isotensional/mod.rs:end_to_end_length","src/physics/single_chain/efjc/thermodynamics/isotensional/asymptotic/mod.rs:end_to_end_length","src/physics/single_chain/efjc/thermodynamics/isotensional/asymptotic/alternative/mod.rs:end_to_end_length","src/physics/single_chain/efjc/thermodynamics/isotensional/asymptotic/reduced/mod.rs:end_to_end_length","src/physics/single_chain/ufjc/morse/thermodynamics/isotensional/asymptotic/mod.rs:nondimensional_end_to_end_length_per_link","src/physics/single_chain/ufjc/lennard_jones/thermodynamics/isotensional/asymptotic/mod.rs:nondimensional_end_to_end_length_per_link","src/physics/single_chain/ufjc/log_squared/thermodynamics/isotensional/asymptotic/mod.rs:nondimensional_end_to_end_length_per_link"])
p("The mean square end-to-end length is that of a random walk",
"Averaged with the radial distribution that the library returns, the square of the end-to-end length is N l^2, for the ideal chain with any number of links and for the freely jointed chain wherever its distribution returns (1/N in units of the contour length). The radial distribution of the ideal chain rises up to l sqrt(2N/3) and falls beyond. The mean square of the free chain and the slope of the extension under a weak force, which come from different modules, obey the relation between fluctuation and response: the slope of the extension per link is N/3 times the mean square.",
"every link count (2 to 26 for the freely jointed chain, where the integers do not overflow), every link length, both build profiles",
"An average over a continuum of lengths; quadrature of the returned values gives it to some digits for one link count at a time.",
["src/physics/single_chain/fjc/thermodynamics/isometric/mod.rs:equilibrium_radial_distribution","src/physics/single_chain/fjc/thermodynamics/isometric/mod.rs:nondimensional_equilibrium_radial_distribution","src/physics/single_chain/ideal/thermodynamics/isometric/mod.rs:equilibrium_radial_distribution","src/physics/single_chain/ideal/thermodynamics/isometric/mod.rs:nondimensional_equilibrium_radial_distribution","src/physics/single_chain/fjc/thermodynamics/isotensional/mod.rs:nondimensional_end_to_end_length_per_link"])
p("Rigid and worm-like chains resist being pulled straight with a known divergence",
"Held close to its full length L = N l, a chain of rigid links pulls back with a force that grows without bound, in the way its physics prescribes. The exact freely jointed chain within two link lengths of L pulls with kT ((N-2)/(L - xi) + 1/xi), which stays finite for two links only. The Legendre method, which finds the force by iteration, pulls with N kT/(L - xi) to within 2 per cent over the last hundredth of its length, and never with more. The worm-like chain of persistence length p follows kT/(4 p (1 - xi/L)^2).",
"every link count (2 to 34 for the exact chain, where the integers do not overflow), link length, persistence length and temperature, every length in the stated range, both build profiles",
"A statement about a limit and about a continuum of lengths where the results blow up; a test at one length near the end of the range has to choose a tolerance that hides the law.",
["src/physics/single_chain/fjc/thermodynamics/isometric/mod.rs:force","src/physics/single_chain/fjc/thermodynamics/isometric/mod.rs:nondimensional_force","src/physics/single_chain/fjc/thermodynamics/isometric/legendre/mod.rs:force","src/math/mod.rs:inverse_langevin","src/physics/single_chain/wlc/thermodynamics/isometric/mod.rs:force","src/physics/single_chain/wlc/thermodynamics/isometric/mod.rs:nondimensional_force"])
p("The worm-like chain answers whatever the force",
"In the isotensional ensemble the worm-like chain returns an extension and free energies for every positive force; it does not panic because its internal root search failed.",
"every positive force, number of links, link length, persistence length, mass and temperature",
"The root search starts from one fixed guess; whether it ends inside the allowed interval depends on the force in a way that sampling a few forces does not reveal.",
["src/physics/single_chain/wlc/thermodynamics/isotensional/mod.rs:nondimensional_end_to_end_length","src/physics/single_chain/wlc/thermodynamics/isotensional/mod.rs:nondimensional_gibbs_free_energy","src/physics/single_chain/wlc/thermodynamics/isotensional/legendre/mod.rs","src/math/mod.rs:inverse_newton_raphson_powered"])
p("In double precision a freely jointed chain stays within its contour length",
"Pulled by a positive force, the freely jointed chain has an extension that is not negative and not above its contour length: the numbers returned obey both bounds exactly, not only up to rounding errors, when the hyperbolic tangent of the mathematical library is correctly rounded. An error of one unit in the last place of the hyperbolic tangent is enough to make the extension negative.",
"every double force from 2^-1000 up (in units of kT per link length), number of links, link length and temperature, every mathematical library",
"The extension is a difference of two nearly equal large numbers at weak forces and of numbers next to 1 at strong ones; the bounds could fail by one unit in the last place at any of 2^63 forces.",
["src/physics/single_chain/fjc/thermodynamics/isotensional/mod.rs:end_to_end_length","src/physics/single_chain/fjc/thermodynamics/isotensional/mod.rs:nondimensional_end_to_end_length","src/physics/single_chain/fjc/thermodynamics/isotensional/mod.rs:nondimensional_end_to_end_length_per_link"])
p("The sampled lengths are numbers, and no chain is sampled longer than rounding allows",
"In double precision, whatever numbers between 0 and 1 the random generator returns, the sampler of the freely jointed chain returns a length that is neither infinite nor NaN nor negative, and that exceeds the contour length only by the errors of the sine and the cosine of the mathematical library and by the rounding of the additions, with an explicit bound. So does the sampler of the chain with extensible links, in proportion to the longest link drawn. Each sampled link of the freely jointed chain is a vector of finite numbers whose length is 1 up to such errors; the accuracy of the arc cosine does not matter. The sampler of the freely rotating chain gives no such guarantee: on a stream of zeros it returns NaN and its histogram silently loses the sample.",
"every generator and every stream it produces, every mathematical library whose sine and cosine have a bounded error, every number of links up to 2^30",
"A Monte Carlo test sees finitely many streams; a NaN at an end of the range of the generator, or a drift in the length of the links, would not show in a histogram.",
["src/physics/single_chain/fjc/thermodynamics/isometric/monte_carlo/mod.rs:random_configuration","src/physics/single_chain/fjc/thermodynamics/isometric/monte_carlo/mod.rs:random_nondimensional_end_to_end_length","src/physics/single_chain/efjc/thermodynamics/isometric/monte_carlo/mod.rs:random_nondimensional_end_to_end_length","src/physics/single_chain/frc/thermodynamics/isometric/monte_carlo/mod.rs:random_nondimensional_end_to_end_length","src/physics/single_chain/frc/thermodynamics/isometric/monte_carlo/mod.rs:nondimensional_equilibrium_radial_distribution"])
p("In double precision the histogram of the freely jointed chain holds every sample below the contour length once",
"The distribution that the sampler of the freely jointed chain returns counts, bin by bin, the samples whose length per contour length lies between two neighbouring edges. In double precision the edges are the doubles nearest to i/bins, they do not decrease, the first is 0 and the last exactly 1; every sample below 1 is in exactly one bin, none is lost between bins or counted twice, and each entry is the count divided by the rounded normalisation.",
"every generator and every stream it produces, every mathematical library whose sine and cosine have a bounded error, every number of bins up to 2^53, of links up to 2^30 and of samples",
"A sample lost at an edge is one of millions; a last edge that rounds below 1 would need a particular number of bins.",
["src/physics/single_chain/fjc/thermodynamics/isometric/monte_carlo/mod.rs:nondimensional_equilibrium_radial_distribution"])
p("In double precision the numerical integration keeps order and sign",
"If one function is nowhere above another between the limits of integration, comparing the two integrals that the library returns with <= gives true in double precision, not only up to rounding errors, unless a result overflows; a function that is nowhere negative has an integral that is not negative. The function is called only at doubles between the limits. The same order holds for the variants that take given points and for the integrals over squares and rectangles.",
"every pair of functions on doubles, every pair of limits between -2^400 and 2^400 at least 2^-900 apart, every number of points up to 2^49, every mathematical library",
"The sums of thousands of rounded terms could be out of order for some pair of close functions, and a computed point could fall outside the interval for some particular number of points.",
["src/math/mod.rs:integrate_1d","src/math/mod.rs:integrate_1d_grid","src/math/mod.rs:integrate_2d_grid","src/math/mod.rs:integrate_2d","src/math/mod.rs:integrate_2d_symmetric"])
p("In double precision the densities of the ideal chain and of the Legendre freely jointed chain are never negative",
"The probability densities and radial distributions that the ideal chain and the freely jointed chain in the Legendre approximation return, in physical units and nondimensional, never compare below zero in double precision, whatever the argument and although the freely jointed chain divides by a normalisation that is itself a sum of such values and finds its force by iteration. (They may be NaN where an intermediate result overflows. The exact freely jointed chain does return negative densities, see C69.)",
"every number of links up to 2^53, every link length with the sign +, every double as argument, every mathematical library whose exponential, power and pi have the sign + and whose hyperbolic sine keeps the sign of its argument",
"A negative value could come from one rounding at one of 2^64 arguments, or from a Newton iterate on the wrong side of zero.",
["src/physics/single_chain/ideal/thermodynamics/isometric/mod.rs:equilibrium_distribution","src/physics/single_chain/ideal/thermodynamics/isometric/mod.rs:equilibrium_radial_distribution","src/physics/single_chain/fjc/thermodynamics/isometric/legendre/mod.rs:equilibrium_distribution","src/physics/single_chain/fjc/thermodynamics/isometric/legendre/mod.rs:nondimensional_equilibrium_radial_distribution"])
p("In double precision the sampled distributions are never negative, whatever the generator returns",
"The radial distributions that the four Monte Carlo samplers return (freely jointed, extensible freely jointed, freely rotating and extensible freely rotating chains), and the centres of their bins, never compare below zero in double precision, whatever doubles the random number generator and the normal distribution return. (A density is NaN when no samples are asked for.)",
"every generator and normal distribution as state machines over doubles, including NaN and infinities, every number of links, up to 2^53 bins and samples, every largest extension with the sign +, every mathematical library (for the freely rotating chain, one whose cosines lie between -1 and 1)",
"A test runs a few seeds of one generator; the claim covers every stream of numbers and every number of bins.",
["src/physics/single_chain/fjc/thermodynamics/isometric/monte_carlo/mod.rs:nondimensional_equilibrium_radial_distribution","src/physics/single_chain/efjc/thermodynamics/isometric/monte_carlo/mod.rs:nondimensional_equilibrium_radial_distribution","src/physics/single_chain/frc/thermodynamics/isometric/monte_carlo/mod.rs:nondimensional_equilibrium_radial_distribution","src/physics/single_chain/efrc/thermodynamics/isometric/monte_carlo/mod.rs:nondimensional_equilibrium_radial_distribution"])
json_lines="\n".join(json.dumps(x) for x in P)+"\n"
open("/verif/properties.jsonl","w").write(json_lines)
print(len(P))
