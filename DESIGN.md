# Design

Target: sandialabs/Polymers (Rust crate in /repo, read as text only).
Proof assistant: Coq 8.16.1 with Coquelicot. coq-interval is not used (it is a plugin).

## 1. What the model is

All physics functions of the crate are straight-line `f64` formulas plus a few
loops (Newton, Halley, quadrature sums, Treloar sums, Monte Carlo, histories).
The model is written **once, polymorphically in the scalar type**: a record of
operations `Scalar T` (`Scalar.v`: + - * / neg, powi, powf, exp, ln, log10,
sinh, cosh, tanh, sin, cos, acos, atanh, sqrt, ceil, literals, comparisons,
int->float and saturating float->int casts) with *no laws*.

* Theorems about **every** scalar structure need no algebra, so they hold of the
  machine `f64` as well (any rounding, any NaN/inf behaviour): struct methods
  forward to the free functions, control flow of the solvers, iteration caps.
* Theorems about the instance `R_scalar` (Coq's reals) are the analytic ones:
  derivatives, integrals, inequalities. They describe the formulas the code
  computes, not their rounding. A decimal literal is the exact rational.

`u8`/`u128` arithmetic is `Z` with an explicit build profile: in `Debug`
(overflow checks on) an overflow is `None` (a panic); in `Release` it wraps mod
2^8 / 2^128. Panics are `None` everywhere. Random number generators are explicit
streams of draws.

Files (`rocq/theories`):

* `Scalar.v` scalar class, real instance, checked integer arithmetic.
* `M*.v` the model, one Coq `Module` per Rust module, each definition commented
  with file:lines. `MMath.v` (math/mod.rs) and the Monte Carlo, Treloar and
  constitutive parts are written by hand; the regular thermodynamics modules are
  transcribed from the Rust text by a script that keeps the expression structure
  (`tools/translate.py`, output committed and reviewed).
* `Spec*.v` small independent specifications (Langevin function, convolution
  density of a random walk, potentials, error function, ...).
* `P*.v` proofs. * `Props*.v` the property theorems only: each is closed by
  `exact lemma` and followed by `Print Assumptions`, with `Example`s showing
  the hypotheses are met by concrete inputs.

## 2. Plan per property

| id | what is modelled | how it is proved |
|----|------------------|------------------|
| C01-C03, C06 | isotensional closed forms | `is_derive` in R by chain rule + field, lifted to dimensional functions by a generic lemma |
| C04 | exact EFJC isotensional formulas | false of the code; refuted at unit stiffness, with the size of the error for soft and for very stiff links |
| C05 | quadrature sums of the uFJC modules | derivative of a finite sum, termwise |
| C07 | asymptotic LJ/log-squared with the stretch law as parameter | envelope theorem |
| C08 | ideal chain | `is_derive` |
| C10 | WLC isometric | exact defect with I0 and I1 as parameters, then the polynomial branches of the library's Bessel functions: the defect polynomial is bounded on unit intervals with integer arithmetic |
| C09, C25-C27 | Treloar sums | truncated powers, finite differences; convolution recursion by induction on N |
| C11-C14 | all thermodynamics modules | algebra in R (`field`), or by computation for every scalar; modules that may panic are stated on the calls that return (SpecPartial.v) |
| C15 | nested structs | for every scalar |
| C16 | Langevin function | calculus in R |
| C17, C18, C20 | inverse_langevin, Newton | concavity argument + rational bounds on the initial guess |
| C19 | Newton loops | induction on the iteration counter, for every scalar |
| C21 | callbacks | `is_derive` |
| C22-C24 | quadrature | induction on sums; Taylor-Lagrange |
| C28 | checked u128 arithmetic | monotonicity of factorial/power + computation at the boundary |
| C29 | ideal distribution | Gaussian integral |
| C30, C31, C50 | modified canonical | as C05 |
| C32-C35 | Monte Carlo with explicit random streams | induction on links, vectors in R^3 |
| C36-C39 | damage model history fold | induction on histories; for C36 and C38 also over Coq's primitive floats (C38: NaN or sign + is closed under the operations, and rounding is monotone) |
| C40, C56 | constitutive sums over arbitrary grids | rewriting of sums; the stress as a chain average |
| C41-C43 | erf family | branch analysis; for the table of 100 rows, the residual of the differential equation of erfcx is bounded with rational arithmetic and a Gronwall argument turns it into an error bound |
| C44 | lambert_w | exit condition of the loop, positivity |
| C45 | bessel | for abs x < 7.75, power series remainder and integer arithmetic; for x >= 7.75, the scaled function solves v'' + 2v' = c v/x^2, the residual of the code's polynomial in 1/x is bounded by its Chebyshev coefficients, and a Gronwall estimate carries the error from 31/4 to infinity |
| C46 | limits | dominated sums, squeeze |
| C47 | isometric Legendre solvers | exit condition of the Newton loop + monotonicity |
| C48 | WLC isotensional | the shift factors out of the sums; derivative of a finite sum |
| C49 | normalisation constants | the constructor's quadrature sum divides itself |
| C51, C52 | zero force, contour length | limits in R; refutations by evaluation in binary64 (Coq's primitive floats) |
| C53 | Lennard-Jones and log-squared link stretch | monotone Newton and Halley iterations; a rate of contraction for each step that holds up to the branch point, a cubic one away from it |
| C54, C55 | partition functions | one-link integrals in closed form; quadrature sums; Laplace transform of the Gaussian and of the random walk density |

| C57 | all isotensional modules | log-convexity of partition functions and of quadrature sums; a slope of a convex function increases |
| C58 | py.rs classes: records, constructors, methods as maps over arrays | for every scalar, by unfolding, against the Rust objects; induction on histories for the damage model |
| C59 | ex.rs functions, each under its exported symbol | for every scalar, by unfolding, against the function the name spells |
| C60 | raw buffers with their readable length | arithmetic on lengths; refuted |
| C61 | mod.jl functions and constructors, `broadcast`, `ccall` with declared types | induction on the arguments for `broadcast`; unfolding for every scalar; refuted for the WLC |
| C62 | modified canonical, weak and strong potentials | the dependence on stiffness and distance in each term of the sums separates (weak) or is dominated by one point (strong); limits term by term; the exact strong limit is refuted |
| C63 | `register_module` of every py.rs on a heap of Python modules | a listing of all attributes is complete (induction on paths) and evaluates to the table of classes |
| C64 | the isotensional functions over Coq's primitive floats, libm an arbitrary record | rounding errors through Flocq's correctness theorems; overflow by the specification of the operations |
| C65 | the sums of `math` over Coq's primitive floats | induction on the list for the accumulated error; the points, spacing and product by Flocq; C23 for the integral |
| C66 | the samplers of C32 reading their numbers from a list; averages as iterated integrals | the sphere average of a function of one component is invariant under rotation (its derivative is a divergence); induction on the links |
| C67 | the histogram of C34 reading its numbers from a list; means of jumping functions by approximation with averages of C66 | averages of polynomials of the squared length by parts against the Irwin-Hall weights; Kuhn's polynomials approximate the step; induction on the samples |
| C68 | the samplers as in C66, link lengths averaged over a normal density (iterated improper integrals) | moments of the normal density by an explicit antiderivative; limits of the extension over the force; false of the code for extensible links |
| C69 | the binary64 instance of the Treloar sums; `exact_integers` and `nearest_pi` state what is assumed of the platform | relative errors of argument, powers (induction on the squaring), terms and sum; terms at the edge of the sum that only one of the two sums has; closed evaluation at tiny extensions, where the middle is exactly one half; positivity and finiteness false of the code |
| C70 | the isometric functions of the freely jointed chain, and the walk of SpecWalk | induction on the number of links, two at a time: with h(s) = s times the density, the function s h' - h is negative, near zero from the symmetry of h and beyond two link lengths by comparing h with its chord on both sides; three and four links by hand |
| C71 | the Legendre modules of every isotensional model, the isometric Legendre functions of the freely jointed chain | mean value theorem from the conjugacy theorems (C01-C06) and the monotone extension (C57); the isometric functions from the accuracy of the inverse Langevin function; the probability from the Laplace transform of the radial distribution (Chernoff bound) |
| C72 | the isometric reduced Legendre functions of the harmonic chain (`efjc_isometric_asymptotic_reduced_legendre`) and the root finder they call | 1/(1 - L) is convex for the Langevin function L (six-fold integration of an exponential polynomial), so that every Newton step halves the residual; the first step from the inverse Langevin guess lands below the root by C17; the free energy by the mean value theorem as in C71 |
| C73 | `hyperelastic.BucheSilberstein` with method 3 | termwise derivative of the stress as a sum over the grid (C56): a sum of squares weighted with the chain force, which is positive by C72; limits of the finite sum for large stretch. Partial: method 2 not differentiable; monotonicity refuted |
| C74 | `SpecReverse.v`: odd and even functions of the force, extension or distance | parity of the hyperbolic functions lifted through the identities C11-C14; mirror symmetry of the Irwin-Hall sums for the isometric FJC; exchange of the two Gaussian weights in the modified canonical integrals. Partial: refuted for three links at a third of their length, Morse links, the exact EFJC extension, and NaN wherever the logarithm of a negative force is taken; worm-like chains with a persistence length of at least 0.55 of the length, by more than kT from 5 times the length on; persistence lengths between 0.4 and 0.55 left open |
| C75 | `SpecHooke.v`: linear within a factor cosh, slope at zero force, mean square link length, anharmonicity | y <= sinh y <= y cosh y and the like, node by node through the quadrature; Derive_n of the potentials; the first steps of the Newton and Halley iterations for the Lennard-Jones and log-squared stretch are differentiated. Partial: refuted for the exact EFJC expression |
| C76 | `SpecHooke.v`: saturation | the node of the longest link dominates the quadrature exponentially; squeeze. Partial: the alternative asymptotic EFJC keeps an excess |
| C77 | `SpecSofter.v`: shorter with a larger parameter, longer with a larger parameter, pulls a link bears | the coupling term is monotone in k and c k; the Morse stretch relative to a spring grows with x / x_max; Halley's step is monotone in its start and its target; two runs of Newton's method advance in lockstep, the one with the larger target never having the smaller relative residual |
| C78 | `SpecHeating.v`: heating shortens, heating lengthens, force proportional to T | the load f / (k l) and with it the stretch of a link do not depend on T, the rest of the length increases with f l / (kB T) at a fixed load; for the alternative approach it is linear in the load, so the loads 0 and 1 decide, and above 1 two temperatures are given that refute it |
| C79 | `SpecCold.v`: N straight links stretched by lam, less than kT/f short of it; the limit T -> 0 | the load f / (k l) and with it the stretch do not depend on T; the rest is the Langevin function, within 1/x of 1, plus for the asymptotic approach a coupling term smaller than what it lacks; limits with explicit thresholds for the alternative approach and the square well |
| C80 | `SpecThermal.v`: jointly concave, entropy increases | the logarithm of the partition function is convex in (f l / kT, 1 / kT): a sum of exponentials of convex functions, by the inequality of Hoelder; its perspective is the free energy; the contribution T ln T of the hinges makes it strict |
| C81 | `SpecUnits.v`: same lengths, forces, energies and densities in other units; shifted energies | the nondimensional parameters kappa, epsilon, zeta and w/l and the argument of the logarithm of the momentum term are the same in both systems; lifted with the rescaling (C12) and extensivity (C13) identities to the dimensional functions; where a length stands alone in a logarithm the shift is computed |
| C82 | `SpecStiffens.v`: compliance f(x)/x falls, is constant, or grows somewhere below the breaking force | FJC and SWFJC: numerator and denominator of the compliance are power series in the squared force whose ratios of coefficients fall, so the ratio of the partial sums, and in the limit of the series, falls; harmonic links: Lazarevic's inequality for the coupling term; breakable links: two forces close to the break, with the residual bounds of the solvers (C53) |
| C83 | `SpecMoments.v`: the integral of the radial density times r^2; most probable length | FJC: the Laplace transform of the density (C55) is squeezed between 1 + x^2/6 and 1 + (x^2/6) cosh x as the force vanishes; ideal chain: integration by parts of the Maxwell density |
| C84 | `SpecTaut.v`: closed form, pole of first order within bounds, limit of (1 - x/L)^2 f | exact FJC: one term of the Treloar sum is left; Legendre: the first Newton step from the guess is already within 0.1 per cent and later steps only rise; WLC: the force times (1 - x)^2 is continuous at 1, with the Bessel polynomials of negative arguments |
| C85 | `SpecAnswers.v`: a call answers or panics | answers: the force is a part whose slope increases minus a part with the Bessel functions whose slope is a third of that at most, so each halved Newton step stays above the root, and every force in the range has a root by the intermediate value theorem; panics: one step from the guess goes as far as the force is strong, and out there the force is a cubic, so a step at most halves the position |
| C86 | the isotensional FJC over Coq's primitive floats, libm an arbitrary record | rounding is monotone and the double x is itself a candidate for tanh x, so 1/tanh is not below 1/x; above 32 the nearest double to tanh is 1; between, the error bound of C64 |
| C87 | the FJC, EFJC and FRC samplers over Coq's primitive floats, libm an arbitrary record, the generator an arbitrary state machine | the angles stay in range because rounding is monotone; sine and cosine of the computed angles give a unit vector up to the error of the library; induction over the links with the triangle inequality, each addition costing a factor 1 + u; Flocq's theorem on the square root; for the FRC and EFRC, NaN propagates from the first cross product |
| C88 | the histogram of the FJC sampler over Coq's primitive floats | the comparison of doubles is that of their values; induction over the edges for one sample and over the samples; the edges are correctly rounded quotients of exact integers, and rounding is monotone; C87 for the samples |
| C89 | the quadrature functions over Coq's primitive floats | a finite sum or product has finite operands and is the rounded exact one (case analysis on Flocq's operations); rounding is monotone, so induction over the list keeps the order; the four roundings of a point cost less than half a step when there are at most 2^49 points |
| C90 | the isometric ideal chain and the Legendre FJC over Coq's primitive floats | the set of doubles that are NaN or have the sign + is closed under sums, products, quotients and powers (Flocq's sign theorems); sinh(x)/x is in it whatever x, so nothing need be known of the Newton iteration |
| C91 | the histograms of the four samplers over Coq's primitive floats, generator and normal distribution arbitrary state machines | induction over the samples: a count lies between 0 and their number, so it converts to a double with the sign +; closure of those doubles under products and quotients (C90), and Flocq's theorems on the difference and the square root for the largest extension of the FRC |

## 3. Trusted base

* Coq's kernel, `vm_compute`, and coqchk.
* The axioms that `Print Assumptions` lists. ASSUMPTIONS.md gives them for every
  theorem. They are axioms of the standard library only:
  * the real numbers: `ClassicalDedekindReals.sig_forall_dec` and
    `ClassicalDedekindReals.sig_not_dec`;
  * `FunctionalExtensionality.functional_extensionality_dep`;
  * `Classical_Prop.classic` (through Coquelicot);
  * the theorems about binary64 also list Coq's primitive floats and machine
    integers (`PrimFloat.*`, `PrimInt63.*`) and the standard library's
    specifications of them (`FloatAxioms`: `add_spec`, `SF2Prim_Prim2SF`, ...).
* The C15 theorems and most theorems "for every scalar" use no axiom.
* The transcription from Rust to Gallina. It is checked only by reading. Each
  definition cites the lines it models.
* Over R, division by zero is zero, `ln` of a non-positive number is zero, and
  so on. Theorems state the domain on which the real function is the one meant.

## 4. What is modelled

All of `src/math/mod.rs`, and under `src/physics` every `mod.rs` with formulas:

* the single chain models `ideal`, `fjc`, `swfjc`, `efjc`, `ufjc/morse`,
  `ufjc/lennard_jones`, `ufjc/log_squared` and `wlc`, in all ensembles
  (isometric, isotensional, Legendre, modified canonical) with their asymptotic,
  reduced and alternative approaches;
* the Monte Carlo modules of the FJC, FRC, EFJC and EFRC;
* the constitutive models (`hyperelastic`, `hyperelastic_damage`);
* the model objects (structs with `init` and methods), for every scalar;
* the Python classes (`py.rs`) and the exported C functions (`ex.rs`), by
  `tools/gen_bindings.py`; an array is its shape and its entries (`MArray.v`);
* the Julia functions and constructors (`mod.jl`), by `tools/gen_julia.py`; a call of
  a C function with types other than those of its definition is undefined behaviour
  (`MJuliaBase.v`);
* the physical constants.

Simplifications:

* A Rust `&f64` is a value. Vectors are lists.
* The thread-local random number generator is a stream of draws given to the sampler.
* The Newton loops are recursive functions on the number of remaining iterations
  (`max_iters - iters`), which is the loop's own cap. No loop of the crate is
  unbounded.
* Every free function, constructor and method of the 1233 in the modelled files
  has a definition that cites its lines.
* `f64` functions of the platform's libm are parameters of the binary64 instance
  (`libm` record in F64.v).

## 5. What is not modelled

* Julia: dispatch on argument types, the order in which `sum` adds, and arrays as
  temperatures where a constructor divides by the temperature outside of a broadcast.
* The order in which Julia evaluates the modules: the imported constants are taken to
  be defined when they are used.
* The conversions PyO3 makes between Python and Rust values, the list `__all__` of a
  Python module, and the registers of the C calling convention.
* `test.rs` files and documentation.
* Rounding, except in theorems for every scalar and in the binary64 theorems.
* The quality of the random number generator.
