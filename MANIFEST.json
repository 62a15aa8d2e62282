{
 "claims": [
  {
   "property": "C04",
   "status": "proved",
   "theorems": [
    "C04_hessenberg_solve"
   ],
   "note": "dech/solh over the reals, all n>=1, all upper Hessenberg matrices; includes absence of out-of-bounds accesses."
  },
  {
   "property": "C05",
   "status": "proved",
   "theorems": [
    "C05_hessenberg_singular_iff"
   ],
   "note": "ret=0 iff the matrix has a trivial kernel; 0<=ret<=n."
  },
  {
   "property": "C06",
   "status": "proved",
   "theorems": [
    "C06_complex_hessenberg_refuted",
    "C06_complex_hessenberg_solve_partial",
    "C06_complex_hessenberg_singular_partial"
   ],
   "note": "REFUTED (the code violates the property): Hessenberg.hpp:170 computes Ar(i,k)*tr instead of Ar(i,k)*ti. The two _partial theorems prove the property for every run that does not hit this case."
  },
  {
   "property": "C07",
   "status": "proved",
   "theorems": [
    "C07_householder_n1_refuted",
    "C07_householder_inverse_partial"
   ],
   "note": "REFUTED for n=1 (the loops run out of the arrays); proved for every n>=2."
  },
  {
   "property": "C48",
   "status": "proved",
   "theorems": [
    "C48_hessenberg_path"
   ],
   "note": "dgehrd enters through its documented contract (hypothesis `reduction`)."
  },
  {
   "property": "C01",
   "status": "proved",
   "theorems": [
    "C01_band_layout",
    "C01_complex_band_layout",
    "C01_band_access"
   ],
   "note": "all n, kl, ku and in-band (i,j)."
  },
  {
   "property": "C02",
   "status": "proved",
   "theorems": [
    "C02_full_layout",
    "C02_complex_full_layout",
    "C02_full_access"
   ],
   "note": "all n, i, j."
  },
  {
   "property": "C03",
   "status": "proved",
   "theorems": [
    "C03_assembly_real",
    "C03_assembly_complex"
   ],
   "note": "for every arithmetic (also IEEE): full and banded; the Jacobian buffer is only read. The Hessenberg case is C48."
  },
  {
   "property": "C08",
   "status": "proved",
   "theorems": [
    "C08_put_refuted",
    "C08_put_never_writes"
   ],
   "note": "REFUTED (the code violates the property): put copies the vector onto itself; the destination is never written, for any input."
  },
  {
   "property": "C09",
   "status": "proved",
   "theorems": [
    "C09_elementwise",
    "C09_usable",
    "C09_base_plus"
   ],
   "note": "all 16 elementwise operations, every aliasing pattern, every arithmetic."
  },
  {
   "property": "C10",
   "status": "proved",
   "theorems": [
    "C10_assign_refuted",
    "C10_assign_owning_always",
    "C10_assign_nonowning_partial"
   ],
   "note": "REFUTED (the code violates the property) for owning sources, always; the property is proved for non-owning sources."
  },
  {
   "property": "C11",
   "status": "proved",
   "theorems": [
    "C11_log_filter",
    "C11_names"
   ],
   "note": "number formatting (std::to_string) is a parameter."
  },
  {
   "property": "C51",
   "status": "proved",
   "theorems": [
    "C51_solve_real_full",
    "C51_solve_real_band",
    "C51_solve_complex_full",
    "C51_solve_complex_band"
   ],
   "note": "LAPACK's factor/solve pairs enter through their documented contract."
  },
  {
   "property": "C12",
   "status": "proved",
   "theorems": [
    "C12_jacobian_restores_state",
    "C12_jacobian_exact_on_affine"
   ],
   "note": "restoration for every right-hand side; exactness over the reals for affine right-hand sides, full and banded."
  },
  {
   "property": "C13",
   "status": "proved",
   "theorems": [
    "C13_result_delivered_refuted"
   ],
   "note": "REFUTED (the code violates the property): the final Y.put(y) copies the vector onto itself (C08), so the caller's array keeps its initial values; witness y'=1 run through the real step code."
  },
  {
   "property": "C14",
   "status": "proved",
   "theorems": [
    "C14_vector_tolerances_refuted",
    "C14_scalar_tolerances_partial"
   ],
   "note": "REFUTED (the code violates the property): for every n the vector branch reads element n of arrays of length n, and uses the tolerance of the next component. The scalar branch is proved."
  },
  {
   "property": "C15",
   "status": "proved",
   "theorems": [
    "C15_forward"
   ],
   "note": "over the reals, every right-hand side, Jacobian, linear algebra and error estimate; for runs that return normally."
  },
  {
   "property": "C16",
   "status": "proved",
   "theorems": [
    "C16_step_factors_refuted",
    "C16_step_factors_partial",
    "C16_rejected_step_unchanged"
   ],
   "note": "REFUTED (the code violates the property) by the floor of line 341 for steps below 5e-15, and by the stretching of the last step (factor up to 6.0006); the _partial theorem gives the exact bounds that hold for every run."
  },
  {
   "property": "C17",
   "status": "proved",
   "theorems": [
    "C17_statistics_refuted",
    "C17_statistics_partial"
   ],
   "note": "REFUTED (the code violates the property) for the rejected-step counter (rejections before the second acceptance are not counted); all other counters proved exact."
  },
  {
   "property": "C18",
   "status": "proved",
   "theorems": [
    "C18_terminates_refuted",
    "C18_never_accepted_never_ends",
    "C18_terminates_partial"
   ],
   "note": "REFUTED (the code violates the property): NaN, or an error estimate that stays above 1, loops for ever because nmax is only tested outside the loop over attempts. Termination proved when small steps pass the test."
  },
  {
   "property": "C19",
   "status": "proved",
   "theorems": [
    "C19_rodas_backward_refuted",
    "C19_rodas_backward_never_returns",
    "C19_rodas_backward_partial",
    "C19_radau_backward_refuted",
    "C19_radau_backward_partial"
   ],
   "note": "REFUTED (the code violates the property): the macro ABS(xend-x) expands to xend-x>=0?xend-x:-xend-x. Rodas never returns normally when x0+xend>=0; Radau5 returns at 2*x0+xend. Proved when x0+xend<0 (Rodas) and xend+x0(1+1e-15)<0 (Radau5, up to Newton failures)."
  },
  {
   "property": "C20",
   "status": "proved",
   "theorems": [
    "C20_reaches_end_refuted",
    "C20_reaches_end_partial"
   ],
   "note": "REFUTED (the code violates the property): a Newton iteration that exhausts nit halves h but keeps the flag 'last step'; witness with nit=2 stops at 1/2. Proved for every run without such a failure, up to the end test of the code."
  },
  {
   "property": "C21",
   "status": "proved",
   "theorems": [
    "C21_accepts_only_converged_refuted",
    "C21_accepts_only_converged_partial"
   ],
   "note": "REFUTED (the code violates the property): redonewton keeps its value false after an exhausted iteration. The _partial theorem says exactly which passes may be accepted."
  },
  {
   "property": "C22",
   "status": "proved",
   "theorems": [
    "C22_terminates_refuted",
    "C22_nan_refuted",
    "C22_terminates_partial",
    "C22_newton_bounded_partial"
   ],
   "note": "REFUTED (the code violates the property): nit=1 always, and NaN, loop for ever in do..while(redonewton), where nmax is not tested. Termination proved when Newton converges for small steps."
  },
  {
   "property": "C23",
   "status": "proved",
   "theorems": [
    "C23_setters_refuted",
    "C23_setters_partial",
    "C23_nmax_partial"
   ],
   "note": "REFUTED (the code violates the property) for facr/facl: local constants shadow the members. The _partial theorems show where safe, nit and nmax enter."
  },
  {
   "property": "C24",
   "status": "proved",
   "theorems": [
    "C24_block_system"
   ],
   "note": "for exact real and complex solves, any constants and any n."
  },
  {
   "property": "C25",
   "status": "proved",
   "theorems": [
    "C25_statistics",
    "C25_rejected_step_unchanged"
   ],
   "note": "any arithmetic. counted_rej: rejections after the first acceptance, the code counts only those."
  },
  {
   "property": "C26",
   "status": "proved",
   "theorems": [
    "C26_scalar_vector_tolerances"
   ],
   "note": "any arithmetic, also fnewt and tolst."
  },
  {
   "property": "C52",
   "status": "proved",
   "theorems": [
    "C52_last_step_refuted"
   ],
   "note": "REFUTED (the code violates the property): hopt, uninitialised in a call consisting of one step, is returned."
  },
  {
   "property": "C53",
   "status": "proved",
   "theorems": [
    "C53_one_step_refuted"
   ],
   "note": "REFUTED (the code violates the property), for every run that returns: x is not advanced, the step not counted."
  },
  {
   "property": "C54",
   "status": "proved",
   "theorems": [
    "C54_step_ratios",
    "C20_reaches_end_partial"
   ],
   "note": "over the reals, for the real step code with any user functions and linear algebra."
  },
  {
   "property": "C55",
   "status": "proved",
   "theorems": [
    "C55_factorizations_current"
   ],
   "note": "any arithmetic; linear algebra abstract."
  },
  {
   "property": "C27",
   "status": "proved",
   "theorems": [
    "C27_selection",
    "C27_selection_in_runs",
    "C27_accesses_in_bounds"
   ],
   "note": "any arithmetic, every run; the conversion of a double to int is assumed to be defined (it is not for NaN, which a user-supplied spectral radius can give)."
  },
  {
   "property": "C28",
   "status": "proved",
   "theorems": [
    "C28_step",
    "C28_distinct"
   ],
   "note": "over the reals, every degree, table contents, size and right-hand side; buffers distinct in every run, any arithmetic."
  },
  {
   "property": "C29",
   "status": "proved",
   "theorems": [
    "C29_derivative_current",
    "C29_accepted_step"
   ],
   "note": "any arithmetic, for a right-hand side that is a function of its argument."
  },
  {
   "property": "C30",
   "status": "proved",
   "theorems": [
    "C30_time",
    "C30_returns_at_tend"
   ],
   "note": "reals with infinities and NaN; any behaviour of the error estimate and of the spectral radius."
  },
  {
   "property": "C31",
   "status": "proved",
   "theorems": [
    "C31_ends",
    "C31_ends_any_step"
   ],
   "note": "reals with infinities and NaN; every right-hand side, even one always returning NaN."
  },
  {
   "property": "C32",
   "status": "proved",
   "theorems": [
    "C32_steps",
    "C32_evaluations"
   ],
   "note": "any arithmetic."
  },
  {
   "property": "C33",
   "status": "proved",
   "theorems": [
    "C33_stability"
   ],
   "note": "reals with infinities and NaN; s = degree of the recurrence + 4."
  },
  {
   "property": "C34",
   "status": "proved",
   "theorems": [
    "C34_refresh_refuted",
    "C34_odd_counter_refuted",
    "C34_refresh_partial"
   ],
   "note": "REFUTED (the code violates the property): a rejected first step makes the counter nrho odd; then (nrho+2)%10 is never 0 and rho is not evaluated again before the next rejection. Without rejection it is evaluated every fifth step."
  },
  {
   "property": "C35",
   "status": "proved",
   "theorems": [
    "C35_parallel_refuted",
    "C35_all_loads_first_refuted",
    "C35_parallel_partial"
   ],
   "note": "REFUTED (the code violates the property): the accumulation of rpp2 has no reduction clause. All the other parallel loops are proved independent of the schedule."
  },
  {
   "property": "C36",
   "status": "proved",
   "theorems": [
    "C36_owner_refuted",
    "C36_one_step_refuted",
    "C36_owner_partial"
   ],
   "note": "REFUTED (the code violates the property): after one accepted step y designates a work array, and the destructor frees the caller's array."
  },
  {
   "property": "C37",
   "status": "proved",
   "theorems": [
    "C37_linear_step"
   ],
   "note": "over the reals; every linear operator, degree, table contents, object with state; also no array is input and output of one operator call."
  },
  {
   "property": "C38",
   "status": "proved",
   "theorems": [
    "C38_documented_contract_refuted",
    "C38_affine_step_partial"
   ],
   "note": "REFUTED (the code violates the property): with operators as documented (g added without factor) the step is wrong for all tables; with the contract of Rock4-L/test/F.hpp (g multiplied by a) it is the ROCK4 step."
  },
  {
   "property": "C39",
   "status": "proved",
   "theorems": [
    "C39_funccal_refuted",
    "C39_linear_run_partial",
    "C39_affine_run_partial",
    "C39_wrong_operator"
   ],
   "note": "REFUTED (the code violates the property) for funccal, too large by one per step. All the rest (finitely many steps, t=tend, bounds on steps, stability of the degree, the solution is that of the sequence of ROCK4 steps, the other counters) is proved for every admissible call."
  },
  {
   "property": "C40",
   "status": "proved",
   "theorems": [
    "C40_linear_steps",
    "C40_tabulated_steps"
   ],
   "note": "Constructor plus any number of linear steps, over exact real numbers, with the pointer arithmetic, the work-array offsets and the final combination as in the code: each step is the Runge-Kutta step of the tableau; no undefined behaviour. The problem object is a function assumed to invert I - dt*a_00*A. The tableau must satisfy the headers' comments exactly (S row sums, D = B.A^-1, constant diagonal); RKMethod1/2 and RKRS satisfy them only up to 1e-13 (C42). C40_tabulated_steps has no such hypothesis: for the five tables as printed each step is exactly the Runge-Kutta step of the tableau with one more, explicit, stage that takes up S minus the row sums; its entries are below 1e-13 (C42_tabulated_border)."
  },
  {
   "property": "C41",
   "status": "proved",
   "theorems": [
    "C41_affine_steps",
    "C41_equilibria",
    "C41_tabulated_steps",
    "C41_tabulated_equilibria"
   ],
   "note": "Same for the affine variant, plus equilibria kept by any number of steps; also for the five tables as printed."
  },
  {
   "property": "C42",
   "status": "proved",
   "theorems": [
    "C42_crank_nicolson_refuted",
    "C42_crank_nicolson_half_step",
    "C42_methods_partial",
    "C42_order_sharp",
    "C42_tabulated_border",
    "C42_tabulated_order"
   ],
   "note": "REFUTED (the code violates the property) for CrN: D[0]=1 where B.A^-1 = 2, so the weight is 1/2 and the step of dt advances u'=phi by dt/2. The other methods satisfy all order conditions (1, 2, 4, 4) and the row sums up to 1e-13; implicit Euler and RKRS have no higher order. The same orders for the tableau that the printed tables really execute (C40_tabulated_steps)."
  },
  {
   "property": "C43",
   "status": "proved",
   "theorems": [
    "C43_wrong_variant"
   ],
   "note": "Both directions, any object and memory; the object, the vector and the work array are those before the call."
  },
  {
   "property": "C44",
   "status": "proved",
   "theorems": [
    "C44_failure_keeps",
    "C44_gauss_step"
   ],
   "note": "Failure: any arithmetic. Success: exact real numbers, any object reachable by constructing it and making any steps (the compensation is then 0), n >= 1; not when a second step of the same size is made with n < number of stages (C46: undefined behaviour). The sum of the squares of the stage defects is at most the threshold of Ftest.hpp."
  },
  {
   "property": "C45",
   "status": "proved",
   "theorems": [
    "C45_quadratic_invariants",
    "C45_table_drift"
   ],
   "note": "For the code's step: the exact drift identity (defect of the stage equations, defect of Cooper's condition), and exact preservation when both vanish; size of the Cooper part for the tables of the code (C56)."
  },
  {
   "property": "C46",
   "status": "proved",
   "theorems": [
    "C46_extrapolation_refuted",
    "C46_outside_refuted",
    "C46_square_partial",
    "C46_inside_partial"
   ],
   "note": "REFUTED (the code violates the property): the stage arrays are addressed with stride nsteps instead of n. Wrong for every n different from nsteps (nsteps >= 2); for n < nsteps elements outside the arrays are accessed. Partial: right for n = nsteps, and no undefined behaviour for n >= nsteps."
  },
  {
   "property": "C47",
   "status": "proved",
   "theorems": [
    "C47_bounded"
   ],
   "note": "Any arithmetic (NaN included): the loop makes at most itermax sweeps; exact count of right-hand-side evaluations in a ghost counter."
  },
  {
   "property": "C56",
   "status": "proved",
   "theorems": [
    "C56_cooper_double",
    "C56_cooper_long",
    "C56_order",
    "C56_double_precision_refuted"
   ],
   "note": "REFUTED for double (the code violates the property): the double tables have 12 digits, Cooper's condition fails by more than 1e-14 (bounded by 3e-13) for every number of stages. All 30 tables, as decimal numbers, satisfy Cooper's condition to 3e-13 / 3e-34 and B(2s), C(s) to 2e-12 / 1e-16. The conversion of the literals to binary (initializer_list<double>, also for long double) is not modelled."
  },
  {
   "property": "C57",
   "status": "proved",
   "theorems": [
    "C57_extrapolation_tables_refuted"
   ],
   "note": "REFUTED (the code violates the property): in all 30 tables some row sum is off by 0.04 or more (the matrix was transposed by the generating script)."
  },
  {
   "property": "C60",
   "status": "proved",
   "theorems": [
    "C60_maxIter_refuted"
   ],
   "note": "REFUTED (the code violates the property): after every successful step maxIter() is one less than the number of sweeps; right after a failed step."
  },
  {
   "property": "C49",
   "status": "proved",
   "theorems": [
    "C49_kpp_refuted",
    "C49_kpp_partial",
    "C49_heat_refuted",
    "C49_heat_partial",
    "C49_kpp_rodas_refuted",
    "C49_kpp_rodas_partial",
    "C49_oregonator_radau",
    "C49_oregonator_rodas_refuted",
    "C49_oregonator_rodas_partial",
    "C49_bz_refuted"
   ],
   "note": "REFUTED (the code violates the property): the last statement of the KPP and heat Jacobians sets the wrong element (any number of points, every state), Rodas-NG's Oregonator has a sign error, BZ uses eps[1] for the third component. The other elements are right (partial theorems); Radau5-NG's Oregonator is right. Real numbers."
  },
  {
   "property": "C50",
   "status": "proved",
   "theorems": [
    "C50_outer_refuted",
    "C50_outer_partial"
   ],
   "note": "REFUTED (the code violates the property): dpdt clears 3*n elements instead of n/2; any number of bodies, any arithmetic. With room for these writes the result is Newton's field with time reversed."
  },
  {
   "property": "C58",
   "status": "proved",
   "theorems": [
    "C58_kepler",
    "C58_outer_refuted",
    "C58_outer_partial"
   ],
   "note": "Kepler2: holds. Outer*: REFUTED (the code violates the property): H leaves out the pairs of neighbours (j<i-1); exact rate of change for any number of bodies. Real numbers; pow(x,2), pow(x,3) modelled as products."
  },
  {
   "property": "C59",
   "status": "proved",
   "theorems": [
    "C59_complex_path_refuted",
    "C59_singular_not_reported_refuted",
    "C59_complex_path_partial"
   ],
   "note": "REFUTED (the code violates the property): a nonsingular 2x2 system gets a wrong solution (line 170 of Hessenberg.hpp) and decomc drops the value returned by dechc. Partial: every nonsingular system whose elimination avoids that branch is solved. Real numbers; dgehrd by its contract."
  },
  {
   "property": "C61",
   "status": "proved",
   "theorems": [
    "C61_real_safe",
    "C61_complex_safe",
    "C61_real_path",
    "C61_complex_path_refuted",
    "C61_complex_path_partial"
   ],
   "note": "Holds for dech/solh, dechc/solhc and the real path, for every arithmetic. REFUTED (the code violates the property) for the complex path: after a singular factorisation solvecomplex uses pivots never written."
  },
  {
   "property": "C62",
   "status": "proved",
   "theorems": [
    "C62_decom_reports",
    "C62_solve_reports"
   ],
   "note": "Any arithmetic, arbitrary LAPACK routines. The Hessenberg variant is C59/C61."
  },
  {
   "property": "C63",
   "status": "proved",
   "theorems": [
    "C63_bandwidth_refuted",
    "C63_bandwidth_all",
    "C63_refused_partial",
    "C63_compile_time",
    "C63_storage",
    "C63_stores"
   ],
   "note": "REFUTED (the code violates the property): the constructor tests nsub>=n && nsup>=n, so one incorrect bandwidth is accepted, for every n. Partial: exact set of refused configurations; the others get the right storage."
  },
  {
   "property": "C64",
   "status": "proved",
   "theorems": [
    "C64_step_refuted",
    "C64_L_run_refuted",
    "C64_step_partial",
    "C64_run_partial",
    "C64_L_run_partial"
   ],
   "note": "REFUTED (the code violates the property): with the tables of the repository the methods of degree 63, 129 and 148 amplify inside the interval (h*lambda=-1581.6 for 63, -8.36 for the two others), and the driver of Rock4-L chooses these degrees there. Partial: the 42 degrees up to 92 other than 63, on the whole interval, for the decimal tables and for every table within a relative 2^-53 of them (so for the doubles). Not decided: 98, 105, 112, 120, 138. Exact arithmetic in the steps."
  },
  {
   "property": "C65",
   "status": "proved",
   "theorems": [
    "C65_run_is_rosenbrock_chain",
    "C65_algebra_full",
    "C65_algebra_band"
   ],
   "note": "Real numbers; runs that return. The linear algebra is a parameter that solves its systems; proved to be so for full and band storage with LAPACK's contract. For the Hessenberg variant see C48."
  },
  {
   "property": "C66",
   "status": "proved",
   "theorems": [
    "C66_stability",
    "C66_order",
    "C66_nodes",
    "C66_linear_runs"
   ],
   "note": "Real numbers; the coefficients are the decimal literals of the code."
  },
  {
   "property": "C67",
   "status": "proved",
   "theorems": [
    "C67_nodes",
    "C67_eigenvalues",
    "C67_transformation",
    "C67_estimate_weights",
    "C67_fixed_points"
   ],
   "note": "Real numbers; the constants are the expressions and decimal literals of the code."
  },
  {
   "property": "C68",
   "status": "proved",
   "theorems": [
    "C68_start_refuted",
    "C68_start_all",
    "C68_start_partial"
   ],
   "note": "REFUTED (the code violates the property): line 623 of Radau5cc.hpp divides by C1-1 where it should divide by C1, so the cubic does not vanish at 0; the starting values are wrong whenever the first stage has moved. Partial: they come from the cubic through the three stages with value Z1/(1-C1) at 0. Only efficiency is affected. Real numbers."
  },
  {
   "property": "C69",
   "status": "proved",
   "theorems": [
    "C69_run",
    "C69_algebra_full",
    "C69_algebra_band"
   ],
   "note": "Real numbers; runs that return. The linear algebra is a parameter that solves its systems; proved for full and band storage with LAPACK's contract; the Hessenberg variant does not meet it (C59). RadauSpec.v lists what a pass does; after an exhausted iteration the code tests the error with the matrices of half the step size but advances by the whole step, and the specification says so. The step sizes tried are free in the specification except that newton_slow states the size proposed next; for step size control see C20 and C23. The cubic of the starting values is any cubic through the stages (C68)."
  },
  {
   "property": "C70",
   "status": "proved",
   "theorems": [
    "C70_count_refuted",
    "C70_count_partial"
   ],
   "note": "REFUTED (the code violates the property): the second evaluation in estrad (line 268) is not counted; a run with 5 calls reports 4. Partial, for every arithmetic: never too high, too low by at most one for each error test."
  },
  {
   "property": "C71",
   "status": "proved",
   "theorems": [
    "C71_step",
    "C71_run",
    "C71_L_step",
    "C71_L_run"
   ],
   "note": "Real arithmetic in the steps; tables: any numbers within a relative 2^-53 of the literals (so the doubles). The conditions themselves are the standard ones (autonomous systems); that they imply a local error O(h^5) is not proved here."
  },
  {
   "property": "C72",
   "status": "proved",
   "theorems": [
    "C72_end",
    "C72_L_end"
   ],
   "note": "IEEE doubles (Flocq, round to nearest even), any pow. For every kernel, whatever it computes."
  },
  {
   "property": "C73",
   "status": "proved",
   "theorems": [
    "C73_exact_end_refuted",
    "C73_L_exact_end_refuted",
    "C73_exact_end_partial",
    "C73_L_exact_end_partial"
   ],
   "note": "REFUTED (the code violates the property): the last step is tend-t rounded, and t + (tend-t) may round to the double after tend: from 0.06 to 0.9 with first step 1 a run returns past tend (zero right-hand side; any tables with small entries). Partial: the end is exact if tend <= 2*t0."
  },
  {
   "property": "C74",
   "status": "proved",
   "theorems": [
    "C74_ends_refuted",
    "C74_no_exception_refuted",
    "C74_L_no_exception_refuted",
    "C74_L_ends_refuted",
    "C74_L_ends_partial"
   ],
   "note": "REFUTED (the code violates the property): t0=1e9, tend=t0+1, h0=1, rho=2e11 loops for ever in Rock4 (the step cut to 152 stages is below half a unit of t, and the test 'too small' compares with an absolute number); h0=1e-8 does in Rock4-L; from 0.13 to 1.7 with first step 2, after one accepted step t is one unit short of tend and 'step too small' is thrown. Partial: Rock4-L ends (returns or throws) if h0 is at least one unit in the last place of the double after tend."
  },
  {
   "property": "C75",
   "status": "proved",
   "theorems": [
    "C75_conversion_refuted",
    "C75_conversion_partial"
   ],
   "note": "REFUTED (the code violates the property): rho=1e11, h=1e8 gives a number of stages above 2^31 converted to int, before the test against 152. Partial: defined whenever 0 <= h*rho <= 1e18."
  },
  {
   "property": "C76",
   "status": "proved",
   "theorems": [
    "C76_compressed_columns_refuted",
    "C76_overrun_refuted",
    "C76_compressed_columns_partial"
   ],
   "note": "REFUTED (the code violates the property): SuperLu.cpp:28 advances the column by one whatever the column of the element is. A column without element shifts the following ones (a singular 3x3 matrix is delivered as the identity); with more columns than rows colptr is overrun. Partial, for every arithmetic: right if every column has an element, the last row too, and the map was not used before for more rows. A std::map is modelled as the sorted list of its elements."
  },
  {
   "property": "C77",
   "status": "proved",
   "theorems": [
    "C77_laplace_solver_partial",
    "C77_failures_reported",
    "C77_heat_steps",
    "C77_heat_source_steps",
    "C77_smaller_problem_refuted"
   ],
   "note": "PARTLY REFUTED (the code violates the property in one case): Premat::clear does not reset maxIndiceLig, so after init(3,..) init(2,..) keeps order 3 and apply reads past the arrays of 2 elements. Otherwise proved, in real numbers, with SuperLU's contract (superlu in LaplTop.v: a regular matrix in compressed columns is factored and solved) as hypothesis; for n = 2 a solver that meets it is exhibited."
  },
  {
   "property": "C78",
   "status": "proved",
   "theorems": [
    "C78_compressed_rows_refuted",
    "C78_overrun_refuted",
    "C78_unset_refuted",
    "C78_transposed_rows_partial"
   ],
   "note": "REFUTED (the code violates the property): the keys are ordered by column (PrematOrder.hpp:25-29), and first() is the column, so the rows stored are the columns of the matrix; ia is overrun if there are more columns than rows, and not completely set if the last columns are empty. Partial, for every arithmetic: the compressed rows of the transposed matrix. The class is not used by the test program."
  },
  {
   "property": "C79",
   "status": "proved",
   "theorems": [
    "C79_exact_solution"
   ],
   "note": "Real numbers; cos, exp, atan are the real functions."
  },
  {
   "property": "C80",
   "status": "proved",
   "theorems": [
    "C80_operators"
   ],
   "note": "Real numbers; the arrays are different; parallel loops sequential."
  },
  {
   "property": "C81",
   "status": "proved",
   "theorems": [
    "C81_spectral_radius_refuted",
    "C81_spectral_radius_partial"
   ],
   "note": "REFUTED (the code violates the property): F.hpp:17 divides by Size instead of Size-1, so rho() is less than the modulus 4/h^2 of the largest eigenvalue, for every n. Partial: rho()+10 bounds the operator in the maximum norm; since the driver adds 3 to h*rho, the number of stages is still sufficient for time steps up to 0.3. Real numbers; pi is the literal of the code."
  },
  {
   "property": "C82",
   "status": "proved",
   "theorems": [
    "C82_kpp_rhs",
    "C82_lipschitz",
    "C82_inward"
   ],
   "note": "Real numbers."
  },
  {
   "property": "C83",
   "status": "proved",
   "theorems": [
    "C83_distance_refuted",
    "C83_last_element_partial"
   ],
   "note": "REFUTED (the code violates the property): Rock4-L/test/main.cpp:24 assigns instead of adding, so only the last element counts. Partial: it returns the modulus of the last difference."
  },
  {
   "property": "C84",
   "status": "proved",
   "theorems": [
    "C84_A_stable",
    "C84_contractive",
    "C84_stiff_damping",
    "C84_crouzeix_not_damping"
   ],
   "note": "With the coefficients as printed, real numbers, any number of steps: the component along every left eigenvector with dt*Re(lambda) <= 0 does not grow; same for the difference of two affine runs. Stiff components are damped by implicit Euler, CrN (because of its wrong weight, C42), RKRS and RKMethod1; RKMethod2 keeps at least half of their modulus."
  },
  {
   "property": "C85",
   "status": "proved",
   "theorems": [
    "C85_full_copy_refuted",
    "C85_full_copy_spoils_refuted",
    "C85_implicit_copy_refuted",
    "C85_no_copies_partial"
   ],
   "note": "REFUTED (the code violates the property): fortranArray's copy constructor (fortranArray.hpp:27-33) writes through a pointer that it never sets, so { fortranArray A; fortranArray B(A); } is undefined for every n and every content of the pointer; the complex and band classes have no copy constructor, so a copy shares the array and it is released twice. Partial: without copies every block of code leaves the memory clean, in both builds. The library itself never copies a matrix."
  },
  {
   "property": "C86",
   "status": "proved",
   "theorems": [
    "C86_work_array_refuted",
    "C86_work_array_partial"
   ],
   "note": "REFUTED (the code violates the property) in the build with ALIGN_BLOCKED: Matrices.hpp:232 allocates with _mm_malloc, line 253 releases with delete[]; undefined as soon as dgehrd_ asks for more than n elements. Partial: in the ordinary build, or if dgehrd_ never asks for more than n, every access is inside the array and it is released exactly once."
  },
  {
   "property": "C87",
   "status": "proved",
   "theorems": [
    "C87_e5_field",
    "C87_e5_invariant",
    "C87_e5_positive"
   ],
   "note": "Real numbers; the invariant along every solution (derivative at every point of an interval)."
  },
  {
   "property": "C88",
   "status": "proved",
   "theorems": [
    "C88_amounts",
    "C88_neuron_charge",
    "C88_astrocyte_charge"
   ],
   "note": "Real numbers; every solution along which the three volumes are not 0. exp, log and sinh may be any functions: the balance does not depend on the formulas of the currents, only on how they enter the equations. Ca counts twice, Cl and glutamate negatively."
  },
  {
   "property": "C89",
   "status": "proved",
   "theorems": [
    "C89_e5_autonomous",
    "C89_avc_depends_on_t_refuted",
    "C89_avc_autonomous_refuted"
   ],
   "note": "REFUTED (the code violates the property) for AvcF: fdepol(t, .) enters the calcium pump of the astrocytes, so component 7 differs at any two times; with autonomous=true Rodas does not use df/dt. E5 is autonomous."
  },
  {
   "property": "C90",
   "status": "proved",
   "theorems": [
    "C90_avc_finite_refuted"
   ],
   "note": "REFUTED (the code violates the property): in double precision component 2 and 15 (7 and 16) are NaN when the membrane potential of the neurons (astrocytes) is +0 or -0: 0/0 or infinity*0 in the constant-field formula; likewise component 0 and 15 at a potential of exactly 8."
  },
  {
   "property": "C91",
   "status": "proved",
   "theorems": [
    "C91_radau_refuted",
    "C91_rodas",
    "C91_radau_partial",
    "C91_full_matrices",
    "C91_band_matrices",
    "C91_rock4",
    "C91_rock4_last_step_refuted",
    "C91_rock4L_linear",
    "C91_rock4L_affine",
    "C91_symplectic_refuted",
    "C91_symplectic_failure_refuted",
    "C91_symplectic_partial",
    "C91_symplectic_exact_partial"
   ],
   "note": "REFUTED (the code violates the property) for Radau5: faccon survives from one call to the next, and after a call on which Newton converged at once the next call accepts its first iterate: y'=1+max(y,0)^2, y(0)=0, tolerances 1e-3 gives y(1)=1.00 where every solution has y(1)>=4/3. Radau5 with equal faccon (partial) and Rodas: proved in every arithmetic, for the full and banded classes Matrices with any LAPACK reading only the matrix; the Hessenberg class is not instantiated. REFUTED also for SymplecticRK in doubles (the compensation e is not reset by firstStep: y'=1, y(0)=0, h=1 gives 2 instead of 1 after a step from 2^53; a failed step makes the next one fail) and for Rock4's LastAcceptedTimeStep without an accepted step; otherwise Rock4 and Rock4-L are proved in every arithmetic, SymplecticRK with equal e and residual (partial)."
  },
  {
   "property": "C92",
   "status": "proved",
   "theorems": [
    "C92_end",
    "C92_exact_end_refuted",
    "C92_exact_end_partial"
   ],
   "note": "Double precision, any right-hand side, matrices and error estimates (also NaN): if the call returns, x is finite and between the neighbours of xend, exactly xend if xend <= 2*x0; all steps stay between x0 and the double after xend. REFUTED: x = xend exactly (from 0.06 to 0.9, first step 1)."
  },
  {
   "property": "C93",
   "status": "proved",
   "theorems": [
    "C93_returns_refuted"
   ],
   "note": "REFUTED (the code violates the property): y'=0 from 1000000000 to 1000000000.0001 with the default options never ends, for each of the three methods. On an interval shorter than about 5000 units in the last place the test (x+h*1.0001-xend)*posneg>0 is false by rounding although x+h = xend; the loop goes on with a step of size 0, whose error estimate is NaN, and the inner do-while has no bound (nmax is tested outside)."
  },
  {
   "property": "C94",
   "status": "proved",
   "theorems": [
    "C94_end",
    "C94_exact_end_refuted"
   ],
   "note": "Double precision, the complete model of the step and the driver, any right-hand side and linear algebra (also results that are not numbers); pow(q,y) assumed between 0 and 1 for q>=1, y<=0. If the call returns, x is finite, between x0 and the double after xend; it is not before the double before xend, or short of it by 2e-15*x + 2^-1000 at most (the end test of the code), or a Newton iteration was not converged in nit passes (then C20 shows that the call may stop early). All steps stay in the interval. REFUTED: x = xend exactly (from 0.06 to 0.9, first step 1)."
  },
  {
   "property": "C95",
   "status": "proved",
   "theorems": [
    "C95_source",
    "C95_no_source",
    "C95_crank_nicolson_half_time",
    "C95_crank_nicolson_refuted"
   ],
   "note": "Reals. EulerImp: order 1, RKRS: 2, RKMethod1 and RKMethod2: 4; the 10^-12 is the effect of the rounded digits in the tables. REFUTED for CrN: the table advances by half a step per call (see C42), the runs converge to the solution at half the time; u'=-u from 0 to 1 is wrong by 0.18 for every k>=100."
  },
  {
   "property": "C96",
   "status": "proved",
   "theorems": [
    "C96_rodas_converges"
   ],
   "note": "Reals; runs that return; the coefficients as printed (the 10^-12 is the effect of their rounding). The right-hand side is affine with constant coefficients; the linear algebra is a parameter that solves its systems (C65: so do the full and band classes with LAPACK's contract)."
  },
  {
   "property": "C97",
   "status": "partial",
   "theorems": [
    "C97_solution",
    "C97_solution_affine",
    "C97_rock4_partial",
    "C97_rock4_affine_partial",
    "C97_rock4L_partial",
    "C97_rock4L_affine_partial"
   ],
   "note": "Reals; the numbers of the tables as stored (relative error 2^-53). Missing: runs with steps of degree 63 or above 92 (the stability of which is not proved or false, C64); a source b is decomposed as b0 - A ys with A b0 = 0, which is possible for every b if A is diagonalizable; Rock4-L with the condition h0*rho below about 1384 never needs them."
  },
  {
   "property": "C98",
   "status": "proved",
   "theorems": [
    "C98_radau_converges"
   ],
   "note": "Reals; runs that return; the constants as printed (the 10^-12 is the effect of the rounding of the transformation T, TI). The right-hand side is affine with constant coefficients; the linear algebra is a parameter that solves its systems (C69: so do the full and band classes with LAPACK's contract)."
  },
  {
   "property": "C99",
   "status": "proved",
   "theorems": [
    "C99_symplectic_time_refuted",
    "C99_symplectic_time_partial",
    "C99_symplectic_ends",
    "C99_extrapolation_unused",
    "C99_repeat_partial",
    "C99_repeat_refuted",
    "C99_report_refuted"
   ],
   "note": "REFUTED (the code violates the property): the loop of the symplectic driver has the bound years*365.25*h instead of /h, so it covers years*365.25*h^2 days (right only for h = 1, the value in the file); firstep stays true, so the extrapolation of the starting values is never used, whatever its table; Rodas and Radau5 drivers pass h by reference, a repetition starts with the step left by the previous one, which for Radau5 is an uninitialised variable when the problem is solved in one step; without repetition the Rodas driver prints t uninitialised. The loops are modelled for any object and step function; files, messages and clocks are left out."
  },
  {
   "property": "C100",
   "status": "proved",
   "theorems": [
    "C100_stages_of_a_step",
    "C100_stages_missed",
    "C100_stages_refuted",
    "C100_stages_partial"
   ],
   "note": "REFUTED (the code violates the property): NbStages() returns mdeg, the degree of the last attempted step, so it misses the four stages of the second method and forgets larger degrees; a step makes degree+4 evaluations. The member nstagesmax holds the announced number but no function returns it (Rock4-L returns it, C39). Runs without a step (mdeg is then not assigned) are not covered."
  },
  {
   "property": "C101",
   "status": "proved",
   "theorems": [
    "C101_errors",
    "C101_eigenvalue",
    "C101_limit",
    "C101_distance",
    "C101_solver_exists"
   ],
   "note": "Reals; tables as printed (the 10^-12 is the effect of their rounding); SuperLU by contract, Lapl1d::apply as the operator lapl_op (C77). The constant 4 of the bound is not sharp: with the eight rows and 1000 points of the program the bound exceeds the initial distance, it bites from about 2^9 steps on. Crank-Nicolson, which the program can also be compiled with, converges to the solution at half the time (C95). Files and texts written are left out."
  },
  {
   "property": "C102",
   "status": "proved",
   "theorems": [
    "C102_solution_stationary",
    "C102_wrong_time_refuted"
   ],
   "note": "REFUTED (the code violates the property): with the constants of the program the solution has reached its stationary state before half the time, so Crank-Nicolson, which covers half the time (C95), is shown to converge with order one down to 10^-9. Reals, as C101."
  },
  {
   "property": "C103",
   "status": "proved",
   "theorems": [
    "C103_same_problem",
    "C103_front",
    "C103_rows",
    "C103_endless",
    "C103_distance_refuted"
   ],
   "note": "REFUTED (the code violates the property): the problem, the front, the search and the steps are as stated (C103_same_problem, C103_front, C103_rows), but the second number of a row is the difference of the last elements only (C83), zero whatever the other elements are. If Radau5 rejects all tolerances the search does not end. Reals; the two integrators are arguments whose effect depends on the n elements only; a Rock4L call that throws ends the program and is not covered. Files and texts are left out."
  }
 ]
}