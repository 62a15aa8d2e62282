# Formal model of Odes-NG: design

The C++ templates of `/repo` are read as text and transcribed, function by function, into
total Gallina functions (Coq 8.16.1).  Each definition carries a comment with the file and
line range it transcribes and says what was simplified.  Nothing of `/repo` is compiled or run.

## Layout (`rocq/theories/`)

| files | contents |
|---|---|
| `Base.v`, `CMacros.v`, `ExtReal.v` | arithmetic structure (`num`), outcomes, loops, arrays; the C macros; extended reals |
| `*Model.v`, `VecFun.v`, `SympTables.v`, `Rock4Tab*.v` | transcription of the code; no proofs about properties |
| `Spec.v`, `PivotSpec.v`, `*Spec.v` | small independent specifications (what a textbook or a documentation would say) |
| `*Proofs.v`, `*Real.v`, `*Term.v`, `*Step.v`, ... | lemmas |
| `*Witness*.v`, `*Cases.v` | executed examples, refuting runs, instances of hypotheses |
| `Props_*.v` | property theorems only (`exact lemma`), each followed by `Print Assumptions` |

## Modelling conventions

* **Arithmetic.** Code using `double` is written over a record of operations `num`
  (`Base.v`: carrier, literals m*10^e, +, -, *, /, sqrt, pow, comparisons).  A theorem quantified over
  `K : num` holds for *every* arithmetic, IEEE doubles with NaN and infinities included.
  An algebraic theorem is stated for `Rnum` (the reals of the standard library, total division).
  Instances used for executed examples: `QNum` (rationals), `NanQ` (rationals with one NaN), `ExtR`.
  `F64 pow` (`F64.v`) is IEEE double arithmetic (Flocq's `binary_float 53 1024`, rounding to nearest even) with
  an arbitrary function `pow`; a literal m*10^e is rounded once (`f_lit`), the conversion to `int`
  (`f_toint`) is `UB` outside 32 bits. Theorems about doubles (C72-C75) use it; no theorem bounds the rounding
  error of a computed solution.
* **Outcomes.** `out A` is `Ok a`, `Throw msg` (an `OdesException`), `UB msg` (access outside an
  array, use of freed memory, double free) or `Diverge` (fuel exhausted).
* **Arrays** are total functions of an integer index with explicit bounds checked at each
  access (`rd`, `wr`, `rd2`, `wr2`); an access outside gives `UB`.  Uninitialised memory is an arbitrary value: theorems
  quantify over the previous content.
* **Unbounded loops** take fuel.  "The call terminates" is "some amount of fuel gives a result other than `Diverge`";
  "the call does not terminate" is "every amount of fuel gives `Diverge`".
* **External code** (LAPACK, the user's right-hand side, Jacobian, spectral radius and linear solver) is an
  argument of the model; what is assumed about it is a hypothesis of the theorem.
* **int** is unbounded (`Z`), except where a theorem says otherwise (`toint` in Rock4).

## What is modelled, and what is not

### common/include
* Modelled: `fortranArray`, `fortranComplexArray`, `fortranRectangularArray`, `fortranRectangularComplexArray`
  (offsets, sizes, `equal_minus`, `addDiag`, `set`, `Re`, `Im`), `fortranVector`/`fortranVectorF` over a heap of blocks
  (constructors, destructors, assignments, all elementwise operations, `switchadr`, `put`), `logger`,
  `Hessenberg.hpp` (everything), `Matrices.hpp` (full, banded, Hessenberg), `MatrixType.hpp`, `compat.hpp`
  (Radau5cc derives from it, Rodascc includes it without using it: there the constructor throws), `switchAdr.hpp`;
  the life of the matrices and of the Hessenberg work array, with both allocators (`AllocModel.v`).
* Not modelled: `print` methods, DEBUG index checks, alignment and vectorisation pragmas (`Ivdep.hpp`,
  `MacrosForCompilers.hpp`), `OdesException`'s text, the LAPACK routines themselves (given by their documented contract in `Spec.v`).

### Rodas-NG (`Rodascc.hpp`)
* Modelled: `rocoe` (the three methods), `Jacobian`, `DF_X`, `slvrod`, the six stages, error norm, the driver, the setters, the counters.
* Not modelled: dense-output coefficients (never used), `logger` calls, members only written (`xold`, `hopt`).
  `pow(v,2)` is `v*v`.

### Radau5-NG (`Radau5cc.hpp`)
* Modelled: constants, `Jacobian`, `doNewtonMatrices`, `slvrad`, `Newton`, `doScal`, `estrad`, starting values, driver,
  `setTestPolicy`, setters, counters.
* Not modelled: `logger` calls, members only written (`hhfac`, `xold`).  `startn` is constant false in the code.

### Rock4-NG (`Rock4.hpp`, `ToolOMP.hpp`, `Rock4Coeffs.hpp`)
* Modelled: `mdegre`, the table accessors and table sizes, `kernel` with its pointer exchanges, the driver, the destructor's
  frees, the loops of `ToolOMP` as interleavings of loads and stores, the tables `coeffs-rock4` digit for digit
  (`Rock4TabNG.v`; only C64 and C71 depend on their values, the other theorems hold for any table content).
* Not modelled: logging, OpenMP runtime.  The user's `operator()` and `rho()` do not throw.

### Rock4-L (`Rock4L.hpp`, `Rock4Coeffs.hpp`)
* Modelled: `makeHornerCoeffs`, `mdegre`, both kernels, both drivers, counters, the tables digit for digit (`Rock4TabL.v`).
* Not modelled: block splitting for caches (`sizesplit`, unused), `rock4.hpp` (not included by anything).

### SDIRKL
* Modelled: `Sdirkl.hpp` (constructor, both `step` methods, `doNew`, `cl`, `pluscl`, `plusa`, `minus`), the five methods.
  The printed tables are used exactly as printed (`SdirkTab.v`: steps and order; `SdirkStab.v`: stability, by exact decimal arithmetic).
  C95: `ConvSpec.v` says what a solution of u' = A u + phi is; `Conv.v`, `ConvPoly.v` bound exp minus its Taylor polynomial on the left
  half plane and the stability function minus exp (exact decimal arithmetic on the printed tables); `SdirkConv.v`, `SdirkConvTop.v` the runs.
* `Rock4ConvSpec.v`, `Rock4Acc.v`, `Rock4Conv.v`, `Rock4Affine.v` (with a source) (C97): the runs of Rock4 and Rock4-L against exp; `Rock4Acc.v` computes, with interval
  coefficients and a bound of the remainder on [-1,0], the polynomial of each degree up to 92 except 63 from the tables.
* `RodasConvSpec.v`, `RodasConv.v`, `RodasAffine.v` (C96): the same for the runs of Rodas on y' = J y + g; nothing more of the code is modelled for it.
* `RadauConvSpec.v`, `RadauAcc.v`, `RadauPert.v`, `RadauZero.v`, `RadauConv.v`, `RadauConvCase.v` (C98): the same for the runs of Radau5 on
  y' = J y + g; nothing more of the code is modelled for it. The proof shows that with the exact Jacobian every Newton iteration, wherever
  it starts and stops, gives the collocation values up to the rounding of T and TI.
* `Rock4Stages.v` (C100): `nb_stages`, what `Rock4::NbStages()` returns (line 167); the member `mdeg` is read from `u_mdego`, to
  which it is equal after every pass of the loop (lines 228-231). Before the first pass `mdeg` is not initialised; the theorems ask
  for one attempted step, or say nothing about the value then.
* `MainModel.v`, `MainProofs.v` (C99): the loops of `SymplecticRK/test/main.cc`, `Rodas-NG/test/main.cc` and
  `Radau5-NG/test/main.cc`, over any object and any step or call. Disagreements: the bound `years*365.25*h` (should be `/h`),
  `firstep` never false, `h` carried from one repetition to the next, `t` printed uninitialised.
* `SdirkMainModel.v`, `SdirkMainProofs.v`, `Gauss.v` (C101, C102): the main program of `SDIRKL/test/main.cpp` (lines 48-100) over the reals,
  with the step function of `SdirkModel.v`, `Lapl1d` of `LaplModel.v` and the class `exact` of `TestModel.v`; `pow(2,l)` is the integer
  power, the content of new memory is the argument `J`, the number of rows (8) and the constants are arguments; the file, the texts and the
  destruction of `S` are left out. `Gauss.v` is not a model: it is a solver that fulfils SuperLU's contract for every size.
  Disagreement (C102): with its constants the program compares stationary states and does not see that Crank-Nicolson covers half the time.
* `LMainModel.v`, `LMainProofs.v` (C103): the main program of `Rock4-L/test/main.cpp` (lines 36-118), `binit` and the functions of
  `FRadau5.hpp` it uses. The calls of Radau5 and Rock4L are arguments; after an exception of Radau5 `y` holds anything; the do-while loop
  has fuel. The branch `affine` (false), the counters printed, files and texts are left out. Disagreement: the written number is the
  difference of the last elements (C83).
* Modelled: the test code under `SDIRKL/test/Lapl` (`LaplModel.v`): `Premat.hpp`, `PrematOrder.hpp`, `csr.cpp`, `SuperLu.hpp/cpp`,
  `BuildMatt1d.hpp`, `Lapl1d.hpp`; the class `exact` of `SDIRKL/test/main.cpp` (`TestModel.v`).
* Not modelled: the SuperLU library (an argument with its contract), its options, `print`, `nblico`, `PrematColumnWise` (unused),
  the life of the arrays and of SuperLU's structures.

### The end of the interval in doubles (C92, C93, C94)
* `StepF64.v`, `RodasF64.v`: the driver model of `RodasModel.v` in the arithmetic `F64` (Flocq's binary64, round to nearest even), the
  rest of the step any function. `RodasF64Wit.v`: the runs that end beside xend or never end use the complete step of the code for y'=0.
  Disagreement: C93; the last step is recognised by a test that rounds (Rodascc.hpp:343).
* `RadauF64.v`, `RadauF64Run.v`, `RadauF64Newton.v` (C94): the same for the driver and the Newton iteration of `RadauModel.v`. Of pow only
  this is used: 0 <= pow(q,y) <= 1 for q >= 1, y <= 0. The run in `RadauF64Wit.v` uses three values of pow, stated there.

### Repeated calls (C91)
* `RepeatSpec.v` says what "the same result" means (`both`) and what is asked of the user's functions (they read n components, the
  Jacobian function assigns every entry of the layout) and of the linear algebra. `RepeatLapack.v` repeats the interface of
  `Matrices` for every arithmetic and both layouts. The Hessenberg class is not instantiated. `nfonccalled` is reset by the call
  (Radau5cc.hpp:454); the model starts from the `k_nfc` it is given, so C91_radau_partial assumes both equal.
* The user's object is assumed to be in the same state at the start of both calls.
* Rock4 and Rock4-L (`RepeatRock.v`, `RepeatRockL.v`): the work arrays of the two objects may hold anything and, for Rock4, may be
  permuted differently; the only thing that survives is hlast, which a call without an accepted step does not set.
* SymplecticRK (`RepeatSymp.v`): the compensation e and the residual kept by Ftest survive even when firstStep is true. In doubles
  e is up to half an ulp of the largest value integrated before; over the reals it is 0.

### SymplecticRK
* Modelled: `SymplecticRK.hpp`, `Extrap.hpp`, `Ftest.hpp`, `GaussianMethod.hpp` (`change_h`), the generated tables digit for digit.
* Not modelled: rounding of the tables to `double`, `verify`, `extrap.hpp` (not included by anything).

### Examples
* Modelled: the problems named in `ExModel.v` (KPP, heat, Oregonator, BZ, Kepler, outer planets); in `TestModel.v` the operators
  and `rho` of `Rock4-L/test/F.hpp`, `Rock4-NG/test/FKPPOMP.hpp`, `normdiff` of `Rock4-L/test/main.cpp`.
* `E5Model.v`, `AvcModel.v` (C87–C90): the right-hand sides of E5 and AvcF, function by function; AvcModel.v has one definition per
  local variable of the code, with its line, generated from the text of AvcF.hpp and read through. exp, log and sinh are parameters
  (any functions in C88; the real exp in C89; any function with exp(0)=1 in C90); pow(a,2), pow(a,3) are products. `FlowSpec.v` states what a
  solution is and the conserved quantities. Solutions are over the reals: nothing is said about how well the integrators keep the invariants.
* Not modelled: the `main` programs (but see C99, C101), the input and output of AvcF.

## Trusted base

* Coq's kernel (8.16.1); `coqchk` is run by the gate.
* The axioms printed by `Print Assumptions` under each theorem.  All of them belong to the standard library.
  Codes used in the table:
  * `0`: closed under the global context (no axiom).
  * `F`: `FunctionalExtensionality.functional_extensionality_dep`.
  * `R`: `ClassicalDedekindReals.sig_forall_dec` and `ClassicalDedekindReals.sig_not_dec` (construction of the reals).
  * `C`: `Classical_Prop.classic`.
* The reading of the C++ text: the model is tied to the code only by the citations.
* No axiom, parameter or section-less variable is declared in this development; no kernel check is switched off.

## Status per property

"refuted": the model of the code violates the property; a `_refuted` theorem gives the witness (or the general failure) and
the `_partial` theorems say what remains true.  "partly refuted": some parts hold as stated, others are refuted.

| id | property | status | theorems (assumptions) |
|---|---|---|---|
| C01 | Band matrix storage is LAPACK's band storage | proved | `C01_band_layout` (0), `C01_complex_band_layout` (0), `C01_band_access` (0) |
| C02 | Full real and complex matrix storage is column-major and collision free | proved | `C02_full_layout` (0), `C02_complex_full_layout` (0), `C02_full_access` (0) |
| C03 | The matrices handed to the factorisation are fac*I - J | proved | `C03_assembly_real` (0), `C03_assembly_complex` (0) |
| C04 | The Hessenberg LU factorisation and solve really solve the linear system | proved | `C04_hessenberg_solve` (RCF) |
| C05 | The Hessenberg factorisation reports singularity exactly | proved | `C05_hessenberg_singular_iff` (RCF) |
| C06 | The complex Hessenberg factorisation and solve really solve the linear system | refuted | `C06_complex_hessenberg_refuted` (RCF), `C06_complex_hessenberg_solve_partial` (RCF), `C06_complex_hessenberg_singular_partial` (RCF) |
| C07 | Householder transformations are inverted by their reversed application and are memory safe | refuted | `C07_householder_n1_refuted` (RCF), `C07_householder_inverse_partial` (RCF) |
| C08 | Copying a solver vector to a caller's array delivers the values | partly refuted | `C08_put_refuted` (0), `C08_put_never_writes` (0) |
| C09 | Elementwise vector operations give the mathematical result even when operands alias | proved | `C09_elementwise` (0), `C09_usable` (0), `C09_base_plus` (0) |
| C10 | Assigning a vector from another leaves both usable and never frees memory twice | partly refuted | `C10_assign_refuted` (0), `C10_assign_owning_always` (0), `C10_assign_nonowning_partial` (0) |
| C100 | NbStages() of Rock4 reports the number of stages used, both methods counted | partly refuted | `C100_stages_of_a_step` (0), `C100_stages_missed` (0), `C100_stages_refuted` (RCF), `C100_stages_partial` (0) |
| C101 | The SDIRKL test program shows the order of the method | proved | `C101_errors` (RCF), `C101_eigenvalue` (RCF), `C101_limit` (RCF), `C101_distance` (RCF), `C101_solver_exists` (RCF) |
| C102 | The SDIRKL test program reveals a method that integrates over the wrong time | partly refuted | `C102_solution_stationary` (RCF), `C102_wrong_time_refuted` (RCF) |
| C103 | The Rock4-L test program compares two integrations of the same problem and writes their distance | partly refuted | `C103_same_problem` (RCF), `C103_front` (RCF), `C103_rows` (RCF), `C103_endless` (RCF), `C103_distance_refuted` (RCF) |
| C11 | Log filtering is exact and order preserving | proved | `C11_log_filter` (0), `C11_names` (0) |
| C12 | The numerical Jacobian is exact on affine problems and restores the state | proved | `C12_jacobian_restores_state` (F), `C12_jacobian_exact_on_affine` (RCF) |
| C13 | Rodas delivers the solution to the caller | refuted | `C13_result_delivered_refuted` (RCF) |
| C14 | Rodas uses the i-th tolerance for the i-th component | refuted | `C14_vector_tolerances_refuted` (0), `C14_scalar_tolerances_partial` (0) |
| C15 | Rodas, going forward, stops exactly at the requested end and never evaluates beyond it | proved | `C15_forward` (RCF) |
| C16 | Rodas step-size changes stay within the documented factors | partly refuted | `C16_step_factors_refuted` (RCF), `C16_step_factors_partial` (RCF), `C16_rejected_step_unchanged` (0) |
| C17 | Rodas statistics are exact | refuted | `C17_statistics_refuted` (RCF), `C17_statistics_partial` (0) |
| C18 | Every Rodas call ends | partly refuted | `C18_terminates_refuted` (0), `C18_never_accepted_never_ends` (0), `C18_terminates_partial` (RCF) |
| C19 | The sign of the interval does not matter: backward integration works | partly refuted | `C19_rodas_backward_refuted` (RCF), `C19_rodas_backward_never_returns` (RCF), `C19_rodas_backward_partial` (RCF), `C19_radau_backward_refuted` (RCF), `C19_radau_backward_partial` (RCF) |
| C20 | Radau5 returns at the requested end point | refuted | `C20_reaches_end_refuted` (RCF), `C20_reaches_end_partial` (RCF) |
| C21 | Radau5 never accepts a step whose Newton iteration did not converge | refuted | `C21_accepts_only_converged_refuted` (RCF), `C21_accepts_only_converged_partial` (0) |
| C22 | Every Radau5 call ends within nmax steps | refuted | `C22_terminates_refuted` (0), `C22_nan_refuted` (0), `C22_terminates_partial` (RCF), `C22_newton_bounded_partial` (0) |
| C23 | Radau5 user settings take effect | refuted | `C23_setters_refuted` (0), `C23_setters_partial` (RCF), `C23_nmax_partial` (RCF) |
| C24 | Radau5 Newton linear algebra solves the transformed block system | proved | `C24_block_system` (RCF) |
| C25 | Radau5 statistics and failure handling are consistent | proved | `C25_statistics` (0), `C25_rejected_step_unchanged` (0) |
| C26 | Scalar and vector tolerances agree | proved | `C26_scalar_vector_tolerances` (0) |
| C27 | Rock4 stage-number selection is correct and table accesses are in bounds | proved | `C27_selection` (0), `C27_selection_in_runs` (0), `C27_accesses_in_bounds` (0) |
| C28 | Rock4's pointer juggling computes the ROCK4 step | proved | `C28_step` (RCF), `C28_distinct` (0) |
| C29 | Rock4: the stored derivative always matches the stored solution | proved | `C29_derivative_current` (0), `C29_accepted_step` (RCF) |
| C30 | Rock4 returns exactly at tend and never passes it | proved | `C30_time` (RCF), `C30_returns_at_tend` (RCF) |
| C31 | Every Rock4 call ends | proved | `C31_ends` (RCF), `C31_ends_any_step` (RCF) |
| C32 | Rock4 statistics are exact | proved | `C32_steps` (0), `C32_evaluations` (0) |
| C33 | Rock4 uses enough stages for stability | proved | `C33_stability` (RCF) |
| C34 | Rock4 refreshes the spectral radius regularly | refuted | `C34_refresh_refuted` (RCF), `C34_odd_counter_refuted` (0), `C34_refresh_partial` (0) |
| C35 | Parallel Rock4 gives the sequential result | refuted | `C35_parallel_refuted` (RCF), `C35_all_loads_first_refuted` (0), `C35_parallel_partial` (F) |
| C36 | Rock4 leaves the caller the owner of the array they passed | refuted | `C36_owner_refuted` (RCF), `C36_one_step_refuted` (0), `C36_owner_partial` (0) |
| C37 | Rock4-L linear step equals the ROCK4 step of the linear problem | proved | `C37_linear_step` (RCF) |
| C38 | Rock4-L affine step equals the ROCK4 step of the affine problem | refuted | `C38_documented_contract_refuted` (RCF), `C38_affine_step_partial` (RCF) |
| C39 | Rock4-L integrates to tend and reports its work | partly refuted | `C39_funccal_refuted` (RCF), `C39_linear_run_partial` (RCF), `C39_affine_run_partial` (RCF), `C39_wrong_operator` (0) |
| C40 | SDIRKL step is the Runge-Kutta step | proved | `C40_linear_steps` (RCF), `C40_tabulated_steps` (RCF) |
| C41 | SDIRKL affine step is the Runge-Kutta step and keeps equilibria | proved | `C41_affine_steps` (RCF), `C41_equilibria` (RCF), `C41_tabulated_steps` (RCF), `C41_tabulated_equilibria` (RCF) |
| C42 | Every supplied SDIRK method is a consistent method of its stated order | partly refuted | `C42_crank_nicolson_refuted` (RCF), `C42_crank_nicolson_half_step` (RCF), `C42_methods_partial` (RCF), `C42_order_sharp` (RCF), `C42_tabulated_border` (RCF), `C42_tabulated_order` (RCF) |
| C43 | SDIRKL refuses the wrong step variant and leaves the state alone | proved | `C43_wrong_variant` (0) |
| C44 | Symplectic step: failure leaves the state unchanged, success advances it by the Gauss step | proved | `C44_failure_keeps` (0), `C44_gauss_step` (RCF) |
| C45 | Quadratic invariants are preserved by the symplectic integrator | proved | `C45_quadratic_invariants` (RCF), `C45_table_drift` (RCF) |
| C46 | The stage extrapolation of the symplectic integrator works for every problem size | refuted | `C46_extrapolation_refuted` (RCF), `C46_outside_refuted` (0), `C46_square_partial` (RCF), `C46_inside_partial` (0) |
| C47 | Symplectic fixed-point iteration is bounded | proved | `C47_bounded` (F) |
| C48 | Hessenberg path solves the original Newton system | proved | `C48_hessenberg_path` (RCF) |
| C49 | Example problems' analytic Jacobians are the derivatives of their right-hand sides | partly refuted | `C49_kpp_refuted` (RCF), `C49_kpp_partial` (RCF), `C49_heat_refuted` (RCF), `C49_heat_partial` (RCF), `C49_kpp_rodas_refuted` (RCF), `C49_kpp_rodas_partial` (RCF), `C49_oregonator_radau` (RCF), `C49_oregonator_rodas_refuted` (RCF), `C49_oregonator_rodas_partial` (RCF), `C49_bz_refuted` (RCF) |
| C50 | Example right-hand sides stay inside the arrays they are given | refuted | `C50_outer_refuted` (0), `C50_outer_partial` (RCF) |
| C51 | The Newton linear solves return the solution of the documented systems | proved | `C51_solve_real_full` (RCF), `C51_solve_real_band` (RCF), `C51_solve_complex_full` (RCF), `C51_solve_complex_band` (RCF) |
| C52 | Radau5 getLastTimeStep reports the last step used | refuted | `C52_last_step_refuted` (RCF) |
| C53 | Radau5 one-step mode advances time together with the solution | refuted | `C53_one_step_refuted` (0) |
| C54 | Radau5 step-size ratios are bounded | proved | `C54_step_ratios` (RCF), `C20_reaches_end_partial` (RCF) |
| C55 | Radau5 never uses a stale factorization | proved | `C55_factorizations_current` (0) |
| C56 | The Gauss tables are the coefficients of the symplectic Gauss methods | partly refuted | `C56_cooper_double` (RCF), `C56_cooper_long` (RCF), `C56_order` (RCF), `C56_double_precision_refuted` (RCF) |
| C57 | The extrapolation tables are exact for constant slopes | refuted | `C57_extrapolation_tables_refuted` (RCF) |
| C58 | The Hamiltonian reported by the planetary examples is a first integral of their right-hand side | partly refuted | `C58_kepler` (RCF), `C58_outer_refuted` (RCF), `C58_outer_partial` (RCF) |
| C59 | Complex Hessenberg path solves the complex Newton system or reports that it is singular | refuted | `C59_complex_path_refuted` (RCF), `C59_singular_not_reported_refuted` (RCF), `C59_complex_path_partial` (RCF) |
| C60 | maxIter reports the number of iterations performed | refuted | `C60_maxIter_refuted` (F) |
| C61 | The Hessenberg routines stay inside their arrays and store the documented pivots | partly refuted | `C61_real_safe` (0), `C61_complex_safe` (0), `C61_real_path` (0), `C61_complex_path_refuted` (0), `C61_complex_path_partial` (0) |
| C62 | A failure reported by LAPACK is never dropped | proved | `C62_decom_reports` (0), `C62_solve_reports` (0) |
| C63 | Incorrect bandwidths and options are refused; the others get the right storage | partly refuted | `C63_bandwidth_refuted` (0), `C63_bandwidth_all` (0), `C63_refused_partial` (0), `C63_compile_time` (0), `C63_storage` (0), `C63_stores` (0) |
| C64 | The tabulated ROCK4 methods are stable on the interval the driver assumes | refuted | `C64_step_refuted` (RCF), `C64_L_run_refuted` (RCF), `C64_step_partial` (RCF), `C64_run_partial` (RCF), `C64_L_run_partial` (RCF) |
| C65 | A Rodas run computes Rosenbrock steps with the chosen coefficients | proved | `C65_run_is_rosenbrock_chain` (RCF), `C65_algebra_full` (RCF), `C65_algebra_band` (RCF) |
| C66 | The Rodas coefficient sets define A-stable methods of order 4(3) that damp stiff components | proved | `C66_stability` (RCF), `C66_order` (RCF), `C66_nodes` (RCF), `C66_linear_runs` (RCF) |
| C67 | The constants of Radau5cc are those of the three-stage Radau IIA method | proved | `C67_nodes` (RCF), `C67_eigenvalues` (RCF), `C67_transformation` (RCF), `C67_estimate_weights` (RCF), `C67_fixed_points` (RCF) |
| C68 | Newton iterations start from the collocation polynomial of the last accepted step | partly refuted | `C68_start_refuted` (RCF), `C68_start_all` (RCF), `C68_start_partial` (RCF) |
| C69 | A Radau5 run computes steps of the Radau IIA method with simplified Newton iterations | proved | `C69_run` (RCF), `C69_algebra_full` (RCF), `C69_algebra_band` (RCF) |
| C70 | The counter of right-hand side evaluations of Radau5cc is exact | refuted | `C70_count_refuted` (RCF), `C70_count_partial` (0) |
| C71 | The ROCK4 methods of both codes are of order 4 with an error estimate of order 3 | proved | `C71_step` (RCF), `C71_run` (RCF), `C71_L_step` (RCF), `C71_L_run` (RCF) |
| C72 | In double precision a returned ROCK4 run is never before the end, nor further than the next double | proved | `C72_end` (RCF), `C72_L_end` (RCF) |
| C73 | In double precision a returned ROCK4 run ends at tend exactly | refuted | `C73_exact_end_refuted` (RCF), `C73_L_exact_end_refuted` (RCF), `C73_exact_end_partial` (RCF), `C73_L_exact_end_partial` (RCF) |
| C74 | In double precision a ROCK4 run whose steps are accepted returns | refuted | `C74_ends_refuted` (RCF), `C74_no_exception_refuted` (RCF), `C74_L_no_exception_refuted` (RCF), `C74_L_ends_refuted` (RCF), `C74_L_ends_partial` (RCF) |
| C75 | The conversion of the number of stages to int is defined | refuted | `C75_conversion_refuted` (RCF), `C75_conversion_partial` (RCF) |
| C76 | The sparse matrix given to SuperLU is the matrix assembled | refuted | `C76_compressed_columns_refuted` (RCF), `C76_overrun_refuted` (RCF), `C76_compressed_columns_partial` (0) |
| C77 | Lapl1d solves the implicit heat equation | partly refuted | `C77_laplace_solver_partial` (RCF), `C77_failures_reported` (RCF), `C77_heat_steps` (RCF), `C77_heat_source_steps` (RCF), `C77_smaller_problem_refuted` (RCF) |
| C78 | CSRLineWise stores the compressed rows of the matrix | refuted | `C78_compressed_rows_refuted` (RCF), `C78_overrun_refuted` (RCF), `C78_unset_refuted` (RCF), `C78_transposed_rows_partial` (0) |
| C79 | The reference solution of the SDIRKL test is the exact solution | proved | `C79_exact_solution` (RCF) |
| C80 | The operators of the Rock4-L test compute what they document | proved | `C80_operators` (RCF) |
| C81 | The spectral radius given to Rock4-L bounds the eigenvalues of the operator | refuted | `C81_spectral_radius_refuted` (RCF), `C81_spectral_radius_partial` (RCF) |
| C82 | The Fisher-KPP right-hand side stays in its arrays, points into [0,1], and its spectral radius bounds its slopes | proved | `C82_kpp_rhs` (RCF), `C82_lipschitz` (RCF), `C82_inward` (RCF) |
| C83 | The error reported by the Rock4-L test is the Euclidean distance | refuted | `C83_distance_refuted` (RCF), `C83_last_element_partial` (RCF) |
| C84 | The supplied SDIRK methods are A-stable; the stiffly accurate ones damp stiff components | proved | `C84_A_stable` (RCF), `C84_contractive` (RCF), `C84_stiff_damping` (RCF), `C84_crouzeix_not_damping` (RCF) |
| C85 | Matrix objects can be constructed, copied and destroyed | refuted | `C85_full_copy_refuted` (0), `C85_full_copy_spoils_refuted` (0), `C85_implicit_copy_refuted` (0), `C85_no_copies_partial` (0) |
| C86 | The work array of the Hessenberg reduction is large enough and released once by the matching function | refuted | `C86_work_array_refuted` (0), `C86_work_array_partial` (0) |
| C87 | E5 is the problem of the literature | proved | `C87_e5_field` (RCF), `C87_e5_invariant` (RCF), `C87_e5_positive` (RCF) |
| C88 | The stroke model conserves matter and charge | proved | `C88_amounts` (RCF), `C88_neuron_charge` (RCF), `C88_astrocyte_charge` (RCF) |
| C89 | A problem that is declared autonomous does not depend on t | partly refuted | `C89_e5_autonomous` (RCF), `C89_avc_depends_on_t_refuted` (RCF), `C89_avc_autonomous_refuted` (RCF) |
| C90 | The right-hand side of the stroke model is a number at every physical state | refuted | `C90_avc_finite_refuted` (RCF) |
| C91 | The result of a call does not depend on earlier calls of the same object | partly refuted | `C91_radau_refuted` (RCF), `C91_rodas` (0), `C91_radau_partial` (0), `C91_full_matrices` (0), `C91_band_matrices` (0), `C91_rock4` (0), `C91_rock4_last_step_refuted` (0), `C91_rock4L_linear` (0), `C91_rock4L_affine` (0), `C91_symplectic_refuted` (RCF), `C91_symplectic_failure_refuted` (RCF), `C91_symplectic_partial` (F), `C91_symplectic_exact_partial` (RCF) |
| C92 | In double precision Rodas stops at xend and never leaves the interval | partly refuted | `C92_end` (RCF), `C92_exact_end_refuted` (RCF), `C92_exact_end_partial` (RCF) |
| C93 | In double precision a call of Rodas ends | refuted | `C93_returns_refuted` (RCF) |
| C94 | In double precision Radau5 stops at xend and never leaves the interval | partly refuted | `C94_end` (RCF), `C94_exact_end_refuted` (RCF) |
| C95 | SDIRKL runs converge to the solution of the differential equation with the order of the method | partly refuted | `C95_source` (RCF), `C95_no_source` (RCF), `C95_crank_nicolson_half_time` (RCF), `C95_crank_nicolson_refuted` (RCF) |
| C96 | Rodas runs converge to the solution of the differential equation with the order of the method | proved | `C96_rodas_converges` (RCF) |
| C97 | Rock4 and Rock4-L runs converge to the solution of the differential equation with order four | partial | `C97_solution` (RCF), `C97_solution_affine` (RCF), `C97_rock4_partial` (RCF), `C97_rock4_affine_partial` (RCF), `C97_rock4L_partial` (RCF), `C97_rock4L_affine_partial` (RCF) |
| C98 | Radau5 runs converge to the solution of the differential equation with the order of the method | proved | `C98_radau_converges` (RCF) |
| C99 | The driver programs integrate over the time asked for and repeat the same computation | partly refuted | `C99_symplectic_time_refuted` (RCF), `C99_symplectic_time_partial` (RCF), `C99_symplectic_ends` (RCF), `C99_extrapolation_unused` (0), `C99_repeat_partial` (0), `C99_repeat_refuted` (RCF), `C99_report_refuted` (0) |

## Notes per property, including the disagreements between code and property

* **C01** all n, kl, ku and in-band (i,j).
* **C02** all n, i, j.
* **C03** for every arithmetic (also IEEE): full and banded; the Jacobian buffer is only read. The Hessenberg case is C48.
* **C04** dech/solh over the reals, all n>=1, all upper Hessenberg matrices; includes absence of out-of-bounds accesses.
* **C05** ret=0 iff the matrix has a trivial kernel; 0<=ret<=n.
* **C06** REFUTED (the code violates the property): Hessenberg.hpp:170 computes Ar(i,k)*tr instead of Ar(i,k)*ti. The two _partial theorems prove the property for every run that does not hit this case.
* **C07** REFUTED for n=1 (the loops run out of the arrays); proved for every n>=2.
* **C08** REFUTED (the code violates the property): put copies the vector onto itself; the destination is never written, for any input.
* **C09** all 16 elementwise operations, every aliasing pattern, every arithmetic.
* **C10** REFUTED (the code violates the property) for owning sources, always; the property is proved for non-owning sources.
* **C100** REFUTED (the code violates the property): NbStages() returns mdeg, the degree of the last attempted step, so it misses the four stages of the second method and forgets larger degrees; a step makes degree+4 evaluations. The member nstagesmax holds the announced number but no function returns it (Rock4-L returns it, C39). Runs without a step (mdeg is then not assigned) are not covered.
* **C101** Reals; tables as printed (the 10^-12 is the effect of their rounding); SuperLU by contract, Lapl1d::apply as the operator lapl_op (C77). The constant 4 of the bound is not sharp: with the eight rows and 1000 points of the program the bound exceeds the initial distance, it bites from about 2^9 steps on. Crank-Nicolson, which the program can also be compiled with, converges to the solution at half the time (C95). Files and texts written are left out.
* **C102** REFUTED (the code violates the property): with the constants of the program the solution has reached its stationary state before half the time, so Crank-Nicolson, which covers half the time (C95), is shown to converge with order one down to 10^-9. Reals, as C101.
* **C103** REFUTED (the code violates the property): the problem, the front, the search and the steps are as stated (C103_same_problem, C103_front, C103_rows), but the second number of a row is the difference of the last elements only (C83), zero whatever the other elements are. If Radau5 rejects all tolerances the search does not end. Reals; the two integrators are arguments whose effect depends on the n elements only; a Rock4L call that throws ends the program and is not covered. Files and texts are left out.
* **C11** number formatting (std::to_string) is a parameter.
* **C12** restoration for every right-hand side; exactness over the reals for affine right-hand sides, full and banded.
* **C13** REFUTED (the code violates the property): the final Y.put(y) copies the vector onto itself (C08), so the caller's array keeps its initial values; witness y'=1 run through the real step code.
* **C14** REFUTED (the code violates the property): for every n the vector branch reads element n of arrays of length n, and uses the tolerance of the next component. The scalar branch is proved.
* **C15** over the reals, every right-hand side, Jacobian, linear algebra and error estimate; for runs that return normally.
* **C16** REFUTED (the code violates the property) by the floor of line 341 for steps below 5e-15, and by the stretching of the last step (factor up to 6.0006); the _partial theorem gives the exact bounds that hold for every run.
* **C17** REFUTED (the code violates the property) for the rejected-step counter (rejections before the second acceptance are not counted); all other counters proved exact.
* **C18** REFUTED (the code violates the property): NaN, or an error estimate that stays above 1, loops for ever because nmax is only tested outside the loop over attempts. Termination proved when small steps pass the test.
* **C19** REFUTED (the code violates the property): the macro ABS(xend-x) expands to xend-x>=0?xend-x:-xend-x. Rodas never returns normally when x0+xend>=0; Radau5 returns at 2*x0+xend. Proved when x0+xend<0 (Rodas) and xend+x0(1+1e-15)<0 (Radau5, up to Newton failures).
* **C20** REFUTED (the code violates the property): a Newton iteration that exhausts nit halves h but keeps the flag 'last step'; witness with nit=2 stops at 1/2. Proved for every run without such a failure, up to the end test of the code.
* **C21** REFUTED (the code violates the property): redonewton keeps its value false after an exhausted iteration. The _partial theorem says exactly which passes may be accepted.
* **C22** REFUTED (the code violates the property): nit=1 always, and NaN, loop for ever in do..while(redonewton), where nmax is not tested. Termination proved when Newton converges for small steps.
* **C23** REFUTED (the code violates the property) for facr/facl: local constants shadow the members. The _partial theorems show where safe, nit and nmax enter.
* **C24** for exact real and complex solves, any constants and any n.
* **C25** any arithmetic. counted_rej: rejections after the first acceptance, the code counts only those.
* **C26** any arithmetic, also fnewt and tolst.
* **C27** any arithmetic, every run; the conversion of a double to int is assumed to be defined (it is not for NaN, which a user-supplied spectral radius can give).
* **C28** over the reals, every degree, table contents, size and right-hand side; buffers distinct in every run, any arithmetic.
* **C29** any arithmetic, for a right-hand side that is a function of its argument.
* **C30** reals with infinities and NaN; any behaviour of the error estimate and of the spectral radius.
* **C31** reals with infinities and NaN; every right-hand side, even one always returning NaN.
* **C32** any arithmetic.
* **C33** reals with infinities and NaN; s = degree of the recurrence + 4.
* **C34** REFUTED (the code violates the property): a rejected first step makes the counter nrho odd; then (nrho+2)%10 is never 0 and rho is not evaluated again before the next rejection. Without rejection it is evaluated every fifth step.
* **C35** REFUTED (the code violates the property): the accumulation of rpp2 has no reduction clause. All the other parallel loops are proved independent of the schedule.
* **C36** REFUTED (the code violates the property): after one accepted step y designates a work array, and the destructor frees the caller's array.
* **C37** over the reals; every linear operator, degree, table contents, object with state; also no array is input and output of one operator call.
* **C38** REFUTED (the code violates the property): with operators as documented (g added without factor) the step is wrong for all tables; with the contract of Rock4-L/test/F.hpp (g multiplied by a) it is the ROCK4 step.
* **C39** REFUTED (the code violates the property) for funccal, too large by one per step. All the rest (finitely many steps, t=tend, bounds on steps, stability of the degree, the solution is that of the sequence of ROCK4 steps, the other counters) is proved for every admissible call.
* **C40** Constructor plus any number of linear steps, over exact real numbers, with the pointer arithmetic, the work-array offsets and the final combination as in the code: each step is the Runge-Kutta step of the tableau; no undefined behaviour. The problem object is a function assumed to invert I - dt*a_00*A. The tableau must satisfy the headers' comments exactly (S row sums, D = B.A^-1, constant diagonal); RKMethod1/2 and RKRS satisfy them only up to 1e-13 (C42). C40_tabulated_steps has no such hypothesis: for the five tables as printed each step is exactly the Runge-Kutta step of the tableau with one more, explicit, stage that takes up S minus the row sums; its entries are below 1e-13 (C42_tabulated_border).
* **C41** Same for the affine variant, plus equilibria kept by any number of steps; also for the five tables as printed.
* **C42** REFUTED (the code violates the property) for CrN: D[0]=1 where B.A^-1 = 2, so the weight is 1/2 and the step of dt advances u'=phi by dt/2. The other methods satisfy all order conditions (1, 2, 4, 4) and the row sums up to 1e-13; implicit Euler and RKRS have no higher order. The same orders for the tableau that the printed tables really execute (C40_tabulated_steps).
* **C43** Both directions, any object and memory; the object, the vector and the work array are those before the call.
* **C44** Failure: any arithmetic. Success: exact real numbers, any object reachable by constructing it and making any steps (the compensation is then 0), n >= 1; not when a second step of the same size is made with n < number of stages (C46: undefined behaviour). The sum of the squares of the stage defects is at most the threshold of Ftest.hpp.
* **C45** For the code's step: the exact drift identity (defect of the stage equations, defect of Cooper's condition), and exact preservation when both vanish; size of the Cooper part for the tables of the code (C56).
* **C46** REFUTED (the code violates the property): the stage arrays are addressed with stride nsteps instead of n. Wrong for every n different from nsteps (nsteps >= 2); for n < nsteps elements outside the arrays are accessed. Partial: right for n = nsteps, and no undefined behaviour for n >= nsteps.
* **C47** Any arithmetic (NaN included): the loop makes at most itermax sweeps; exact count of right-hand-side evaluations in a ghost counter.
* **C48** dgehrd enters through its documented contract (hypothesis `reduction`).
* **C49** REFUTED (the code violates the property): the last statement of the KPP and heat Jacobians sets the wrong element (any number of points, every state), Rodas-NG's Oregonator has a sign error, BZ uses eps[1] for the third component. The other elements are right (partial theorems); Radau5-NG's Oregonator is right. Real numbers.
* **C50** REFUTED (the code violates the property): dpdt clears 3*n elements instead of n/2; any number of bodies, any arithmetic. With room for these writes the result is Newton's field with time reversed.
* **C51** LAPACK's factor/solve pairs enter through their documented contract.
* **C52** REFUTED (the code violates the property): hopt, uninitialised in a call consisting of one step, is returned.
* **C53** REFUTED (the code violates the property), for every run that returns: x is not advanced, the step not counted.
* **C54** over the reals, for the real step code with any user functions and linear algebra.
* **C55** any arithmetic; linear algebra abstract.
* **C56** REFUTED for double (the code violates the property): the double tables have 12 digits, Cooper's condition fails by more than 1e-14 (bounded by 3e-13) for every number of stages. All 30 tables, as decimal numbers, satisfy Cooper's condition to 3e-13 / 3e-34 and B(2s), C(s) to 2e-12 / 1e-16. The conversion of the literals to binary (initializer_list<double>, also for long double) is not modelled.
* **C57** REFUTED (the code violates the property): in all 30 tables some row sum is off by 0.04 or more (the matrix was transposed by the generating script).
* **C58** Kepler2: holds. Outer*: REFUTED (the code violates the property): H leaves out the pairs of neighbours (j<i-1); exact rate of change for any number of bodies. Real numbers; pow(x,2), pow(x,3) modelled as products.
* **C59** REFUTED (the code violates the property): a nonsingular 2x2 system gets a wrong solution (line 170 of Hessenberg.hpp) and decomc drops the value returned by dechc. Partial: every nonsingular system whose elimination avoids that branch is solved. Real numbers; dgehrd by its contract.
* **C60** REFUTED (the code violates the property): after every successful step maxIter() is one less than the number of sweeps; right after a failed step.
* **C61** Holds for dech/solh, dechc/solhc and the real path, for every arithmetic. REFUTED (the code violates the property) for the complex path: after a singular factorisation solvecomplex uses pivots never written.
* **C62** Any arithmetic, arbitrary LAPACK routines. The Hessenberg variant is C59/C61.
* **C63** REFUTED (the code violates the property): the constructor tests nsub>=n && nsup>=n, so one incorrect bandwidth is accepted, for every n. Partial: exact set of refused configurations; the others get the right storage.
* **C64** REFUTED (the code violates the property): with the tables of the repository the methods of degree 63, 129 and 148 amplify inside the interval (h*lambda=-1581.6 for 63, -8.36 for the two others), and the driver of Rock4-L chooses these degrees there. Partial: the 42 degrees up to 92 other than 63, on the whole interval, for the decimal tables and for every table within a relative 2^-53 of them (so for the doubles). Not decided: 98, 105, 112, 120, 138. Exact arithmetic in the steps.
* **C65** Real numbers; runs that return. The linear algebra is a parameter that solves its systems; proved to be so for full and band storage with LAPACK's contract. For the Hessenberg variant see C48.
* **C66** Real numbers; the coefficients are the decimal literals of the code.
* **C67** Real numbers; the constants are the expressions and decimal literals of the code.
* **C68** REFUTED (the code violates the property): line 623 of Radau5cc.hpp divides by C1-1 where it should divide by C1, so the cubic does not vanish at 0; the starting values are wrong whenever the first stage has moved. Partial: they come from the cubic through the three stages with value Z1/(1-C1) at 0. Only efficiency is affected. Real numbers.
* **C69** Real numbers; runs that return. The linear algebra is a parameter that solves its systems; proved for full and band storage with LAPACK's contract; the Hessenberg variant does not meet it (C59). RadauSpec.v lists what a pass does; after an exhausted iteration the code tests the error with the matrices of half the step size but advances by the whole step, and the specification says so. The step sizes tried are free in the specification except that newton_slow states the size proposed next; for step size control see C20 and C23. The cubic of the starting values is any cubic through the stages (C68).
* **C70** REFUTED (the code violates the property): the second evaluation in estrad (line 268) is not counted; a run with 5 calls reports 4. Partial, for every arithmetic: never too high, too low by at most one for each error test.
* **C71** Real arithmetic in the steps; tables: any numbers within a relative 2^-53 of the literals (so the doubles). The conditions themselves are the standard ones (autonomous systems); that they imply a local error O(h^5) is not proved here.
* **C72** IEEE doubles (Flocq, round to nearest even), any pow. For every kernel, whatever it computes.
* **C73** REFUTED (the code violates the property): the last step is tend-t rounded, and t + (tend-t) may round to the double after tend: from 0.06 to 0.9 with first step 1 a run returns past tend (zero right-hand side; any tables with small entries). Partial: the end is exact if tend <= 2*t0.
* **C74** REFUTED (the code violates the property): t0=1e9, tend=t0+1, h0=1, rho=2e11 loops for ever in Rock4 (the step cut to 152 stages is below half a unit of t, and the test 'too small' compares with an absolute number); h0=1e-8 does in Rock4-L; from 0.13 to 1.7 with first step 2, after one accepted step t is one unit short of tend and 'step too small' is thrown. Partial: Rock4-L ends (returns or throws) if h0 is at least one unit in the last place of the double after tend.
* **C75** REFUTED (the code violates the property): rho=1e11, h=1e8 gives a number of stages above 2^31 converted to int, before the test against 152. Partial: defined whenever 0 <= h*rho <= 1e18.
* **C76** REFUTED (the code violates the property): SuperLu.cpp:28 advances the column by one whatever the column of the element is. A column without element shifts the following ones (a singular 3x3 matrix is delivered as the identity); with more columns than rows colptr is overrun. Partial, for every arithmetic: right if every column has an element, the last row too, and the map was not used before for more rows. A std::map is modelled as the sorted list of its elements.
* **C77** PARTLY REFUTED (the code violates the property in one case): Premat::clear does not reset maxIndiceLig, so after init(3,..) init(2,..) keeps order 3 and apply reads past the arrays of 2 elements. Otherwise proved, in real numbers, with SuperLU's contract (superlu in LaplTop.v: a regular matrix in compressed columns is factored and solved) as hypothesis; for n = 2 a solver that meets it is exhibited.
* **C78** REFUTED (the code violates the property): the keys are ordered by column (PrematOrder.hpp:25-29), and first() is the column, so the rows stored are the columns of the matrix; ia is overrun if there are more columns than rows, and not completely set if the last columns are empty. Partial, for every arithmetic: the compressed rows of the transposed matrix. The class is not used by the test program.
* **C79** Real numbers; cos, exp, atan are the real functions.
* **C80** Real numbers; the arrays are different; parallel loops sequential.
* **C81** REFUTED (the code violates the property): F.hpp:17 divides by Size instead of Size-1, so rho() is less than the modulus 4/h^2 of the largest eigenvalue, for every n. Partial: rho()+10 bounds the operator in the maximum norm; since the driver adds 3 to h*rho, the number of stages is still sufficient for time steps up to 0.3. Real numbers; pi is the literal of the code.
* **C82** Real numbers.
* **C83** REFUTED (the code violates the property): Rock4-L/test/main.cpp:24 assigns instead of adding, so only the last element counts. Partial: it returns the modulus of the last difference.
* **C84** With the coefficients as printed, real numbers, any number of steps: the component along every left eigenvector with dt*Re(lambda) <= 0 does not grow; same for the difference of two affine runs. Stiff components are damped by implicit Euler, CrN (because of its wrong weight, C42), RKRS and RKMethod1; RKMethod2 keeps at least half of their modulus.
* **C85** REFUTED (the code violates the property): fortranArray's copy constructor (fortranArray.hpp:27-33) writes through a pointer that it never sets, so { fortranArray A; fortranArray B(A); } is undefined for every n and every content of the pointer; the complex and band classes have no copy constructor, so a copy shares the array and it is released twice. Partial: without copies every block of code leaves the memory clean, in both builds. The library itself never copies a matrix.
* **C86** REFUTED (the code violates the property) in the build with ALIGN_BLOCKED: Matrices.hpp:232 allocates with _mm_malloc, line 253 releases with delete[]; undefined as soon as dgehrd_ asks for more than n elements. Partial: in the ordinary build, or if dgehrd_ never asks for more than n, every access is inside the array and it is released exactly once.
* **C87** Real numbers; the invariant along every solution (derivative at every point of an interval).
* **C88** Real numbers; every solution along which the three volumes are not 0. exp, log and sinh may be any functions: the balance does not depend on the formulas of the currents, only on how they enter the equations. Ca counts twice, Cl and glutamate negatively.
* **C89** REFUTED (the code violates the property) for AvcF: fdepol(t, .) enters the calcium pump of the astrocytes, so component 7 differs at any two times; with autonomous=true Rodas does not use df/dt. E5 is autonomous.
* **C90** REFUTED (the code violates the property): in double precision component 2 and 15 (7 and 16) are NaN when the membrane potential of the neurons (astrocytes) is +0 or -0: 0/0 or infinity*0 in the constant-field formula; likewise component 0 and 15 at a potential of exactly 8.
* **C91** REFUTED (the code violates the property) for Radau5: faccon survives from one call to the next, and after a call on which Newton converged at once the next call accepts its first iterate: y'=1+max(y,0)^2, y(0)=0, tolerances 1e-3 gives y(1)=1.00 where every solution has y(1)>=4/3. Radau5 with equal faccon (partial) and Rodas: proved in every arithmetic, for the full and banded classes Matrices with any LAPACK reading only the matrix; the Hessenberg class is not instantiated. REFUTED also for SymplecticRK in doubles (the compensation e is not reset by firstStep: y'=1, y(0)=0, h=1 gives 2 instead of 1 after a step from 2^53; a failed step makes the next one fail) and for Rock4's LastAcceptedTimeStep without an accepted step; otherwise Rock4 and Rock4-L are proved in every arithmetic, SymplecticRK with equal e and residual (partial).
* **C92** Double precision, any right-hand side, matrices and error estimates (also NaN): if the call returns, x is finite and between the neighbours of xend, exactly xend if xend <= 2*x0; all steps stay between x0 and the double after xend. REFUTED: x = xend exactly (from 0.06 to 0.9, first step 1).
* **C93** REFUTED (the code violates the property): y'=0 from 1000000000 to 1000000000.0001 with the default options never ends, for each of the three methods. On an interval shorter than about 5000 units in the last place the test (x+h*1.0001-xend)*posneg>0 is false by rounding although x+h = xend; the loop goes on with a step of size 0, whose error estimate is NaN, and the inner do-while has no bound (nmax is tested outside).
* **C94** Double precision, the complete model of the step and the driver, any right-hand side and linear algebra (also results that are not numbers); pow(q,y) assumed between 0 and 1 for q>=1, y<=0. If the call returns, x is finite, between x0 and the double after xend; it is not before the double before xend, or short of it by 2e-15*x + 2^-1000 at most (the end test of the code), or a Newton iteration was not converged in nit passes (then C20 shows that the call may stop early). All steps stay in the interval. REFUTED: x = xend exactly (from 0.06 to 0.9, first step 1).
* **C95** Reals. EulerImp: order 1, RKRS: 2, RKMethod1 and RKMethod2: 4; the 10^-12 is the effect of the rounded digits in the tables. REFUTED for CrN: the table advances by half a step per call (see C42), the runs converge to the solution at half the time; u'=-u from 0 to 1 is wrong by 0.18 for every k>=100.
* **C96** Reals; runs that return; the coefficients as printed (the 10^-12 is the effect of their rounding). The right-hand side is affine with constant coefficients; the linear algebra is a parameter that solves its systems (C65: so do the full and band classes with LAPACK's contract).
* **C97** Reals; the numbers of the tables as stored (relative error 2^-53). Missing: runs with steps of degree 63 or above 92 (the stability of which is not proved or false, C64); a source b is decomposed as b0 - A ys with A b0 = 0, which is possible for every b if A is diagonalizable; Rock4-L with the condition h0*rho below about 1384 never needs them.
* **C98** Reals; runs that return; the constants as printed (the 10^-12 is the effect of the rounding of the transformation T, TI). The right-hand side is affine with constant coefficients; the linear algebra is a parameter that solves its systems (C69: so do the full and band classes with LAPACK's contract).
* **C99** REFUTED (the code violates the property): the loop of the symplectic driver has the bound years*365.25*h instead of /h, so it covers years*365.25*h^2 days (right only for h = 1, the value in the file); firstep stays true, so the extrapolation of the starting values is never used, whatever its table; Rodas and Radau5 drivers pass h by reference, a repetition starts with the step left by the previous one, which for Radau5 is an uninitialised variable when the problem is solved in one step; without repetition the Rodas driver prints t uninitialised. The loops are modelled for any object and step function; files, messages and clocks are left out.

## Wrong programs

`seeded/LOG.jsonl` records edits made to the model in a scratch copy, the claim each breaks, the
lemmas and property theorems that stopped proving, and the theorems added or tightened when an
edit went unnoticed.

## Limits

* Real-number theorems say nothing about rounding; theorems "for every arithmetic" and C72-C75 (IEEE doubles) do.
* Statements about termination use real (exact) arithmetic where the step size matters.
* C06/C59: `dechc_clean`/`path_clean` is a condition on the run, not only on the input.
