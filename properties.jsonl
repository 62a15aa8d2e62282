{"id": "C01", "title": "Band matrix storage is LAPACK's band storage", "statement": "For a banded Jacobian, writing the element (i,j) of the user's matrix stores it at exactly the place where LAPACK's general-band routines look for element (i,j); every element inside the band lies inside the allocated storage, and two different in-band elements never share storage. The same holds for the real and imaginary parts of the complex band matrix.", "quantifier": "for every size n>=1, every number of sub- and super-diagonals, and every in-band pair (i,j)", "why_tests_cant": "Wrong cells are only noticed when some particular n, bandwidth and element collide; the space of (n, kl, ku, i, j) is unbounded and out-of-bounds writes frequently go unnoticed in a run.", "anchors": ["common/include/fortranRectangularArray.hpp:fortranRectangularArray", "common/include/fortranRectangularComplexArray.hpp:fortranRectangularComplexArray", "common/include/MatrixType.hpp:Matrixtype"]}
{"id": "C02", "title": "Full real and complex matrix storage is column-major and collision free", "statement": "For a full Jacobian, element (i,j) is stored column-major as LAPACK expects (complex elements as interleaved real/imaginary pairs); every element with 1<=i,j<=n lies in the allocated storage and distinct elements (and the real and imaginary parts) never share storage.", "quantifier": "for every n>=1 and all 1<=i,j<=n", "why_tests_cant": "A run only checks the sizes tried; injectivity and bounds are universally quantified over sizes and indices.", "anchors": ["common/include/fortranArray.hpp:fortranArray", "common/include/fortranComplexArray.hpp:fortranComplexArray"]}
{"id": "C03", "title": "The matrices handed to the factorisation are fac*I - J", "statement": "When a solver prepares its real Newton matrix, the matrix given to the LU factorisation is exactly fac*I - J on every element (full) or on every in-band element (banded), and the complex one is exactly (alpha + i*beta)*I - J; the stored Jacobian itself is left unchanged in the non-Hessenberg case.", "quantifier": "for every n, every bandwidth, every Jacobian and all factors", "why_tests_cant": "The assembly works with raw flat buffers and pointer arithmetic; a mistaken element only shows up as slow or no Newton convergence, which tests tolerate.", "anchors": ["common/include/Matrices.hpp:decomr", "common/include/Matrices.hpp:decomc", "common/include/fortranArray.hpp:equal_minus", "common/include/fortranArray.hpp:addDiag"]}
{"id": "C04", "title": "The Hessenberg LU factorisation and solve really solve the linear system", "statement": "For an upper Hessenberg real matrix A, if the factorisation routine returns 0 then applying the solve routine to a right-hand side b produces x with A x = b (in exact arithmetic), without reading or writing outside the arrays.", "quantifier": "for every n>=1, every real upper-Hessenberg matrix and every right-hand side", "why_tests_cant": "Correctness for all sizes, all pivot sequences and all values cannot be sampled; tests only see a residual for a few matrices.", "anchors": ["common/include/Hessenberg.hpp:dech", "common/include/Hessenberg.hpp:solh"]}
{"id": "C05", "title": "The Hessenberg factorisation reports singularity exactly", "statement": "The real Hessenberg factorisation returns 0 if and only if the matrix is non singular (exact arithmetic), and when it reports a position that position is in 1..n.", "quantifier": "for every n>=1 and every real upper-Hessenberg matrix", "why_tests_cant": "Singular matrices are a measure-zero set that random tests never hit; the if-and-only-if ranges over all matrices.", "anchors": ["common/include/Hessenberg.hpp:dech"]}
{"id": "C06", "title": "The complex Hessenberg factorisation and solve really solve the linear system", "statement": "For a complex upper Hessenberg matrix, if the complex factorisation routine returns 0 then the complex solve routine produces the solution of the linear system (exact arithmetic).", "quantifier": "for every n>=1, every complex upper-Hessenberg matrix and every right-hand side", "why_tests_cant": "Special-cased branches (pivot-row element purely real / purely imaginary) are exercised only by special values that ordinary test problems never generate.", "anchors": ["common/include/Hessenberg.hpp:dechc", "common/include/Hessenberg.hpp:solhc"]}
{"id": "C07", "title": "Householder transformations are inverted by their reversed application and are memory safe", "statement": "Applying the stored reflections in direct order and then in reversed order gives back the original vector when the stored scale factors make each of them a reflection, and neither application touches memory outside the arrays, for every problem size for which the library accepts the Hessenberg option.", "quantifier": "for every n>=1, every stored matrix/scale factors describing reflections, and every vector", "why_tests_cant": "Sizes 1 and 2 are degenerate and a run-away loop bound at one size is invisible in tests at other sizes.", "anchors": ["common/include/Hessenberg.hpp:householder"]}
{"id": "C08", "title": "Copying a solver vector to a caller's array delivers the values", "statement": "The operation that copies an internal vector into a plain C array makes the array equal to the vector.", "quantifier": "for every n and all contents of the vector and the array", "why_tests_cant": "A copy that silently writes elsewhere passes any test that does not compare the destination with the source.", "anchors": ["common/include/fortranVector.hpp:fortranVectorF::put"]}
{"id": "C09", "title": "Elementwise vector operations give the mathematical result even when operands alias", "statement": "Each linear-combination operation of the vector class sets the target to the documented combination of the operands' values before the call, also when one or several operands are the target itself.", "quantifier": "for every n, all coefficients, all contents and every aliasing pattern between target and operands", "why_tests_cant": "The number of aliasing patterns times values is unbounded; an in-place hazard depends on the pattern.", "anchors": ["common/include/fortranVector.hpp:fortranVectorF"]}
{"id": "C10", "title": "Assigning a vector from another leaves both usable and never frees memory twice", "statement": "After assigning one vector to another of the same length the target has the source's values, the source still owns live memory, and destroying both later frees each buffer exactly once.", "quantifier": "for every combination of owning / non-owning vectors and all contents", "why_tests_cant": "Use-after-free and double frees are undefined behaviour which may or may not be visible in a given run.", "anchors": ["common/include/fortranVector.hpp:fortranVector::operator=", "common/include/fortranVector.hpp:~fortranVector"]}
{"id": "C11", "title": "Log filtering is exact and order preserving", "statement": "Asking the event log for one kind of event gives exactly the recorded events of this kind, in recording order, numbered 1,2,3,...; asking for all gives every event.", "quantifier": "for every sequence of recorded events and every kind", "why_tests_cant": "Histories are unbounded sequences.", "anchors": ["common/include/logger.hpp:logger::put", "common/include/logger.hpp:logger::tostring"]}
{"id": "C12", "title": "The numerical Jacobian is exact on affine problems and restores the state", "statement": "When the right-hand side is affine with a banded (or full) matrix A, the finite-difference Jacobian stores A on every (in-band) element in exact arithmetic; in every case the state vector is bit-for-bit restored afterwards and the right-hand side is evaluated exactly n times.", "quantifier": "for every n, bandwidth, affine right-hand side, and state (restoration and call count: every right-hand side)", "why_tests_cant": "Universally quantified over matrices and states; restoration to the very same bits is a property of every path.", "anchors": ["Radau5-NG/include/Radau5cc.hpp:Jacobian", "Rodas-NG/include/Rodascc.hpp:Jacobian", "common/include/Matrices.hpp:Ibegin", "common/include/Matrices.hpp:Iend"]}
{"id": "C13", "title": "Rodas delivers the solution to the caller", "statement": "When the Rodas integrator returns normally after at least one accepted step, the caller's array contains the computed solution at the returned abscissa.", "quantifier": "for every problem, initial value, tolerance and interval", "why_tests_cant": "The bundled test prints only statistics, and no finite set of runs shows that the array is never written on any path.", "anchors": ["Rodas-NG/include/Rodascc.hpp:operator()", "common/include/fortranVector.hpp:fortranVectorF::put"]}
{"id": "C14", "title": "Rodas uses the i-th tolerance for the i-th component", "statement": "With vector tolerances, component i of the error test uses the tolerances the caller supplied for component i, and only the n supplied values are read.", "quantifier": "for every n and all tolerance arrays of length n", "why_tests_cant": "An off-by-one read past the end usually yields plausible numbers; tests with equal tolerances cannot see it.", "anchors": ["Rodas-NG/include/Rodascc.hpp:setTestPolicy"]}
{"id": "C15", "title": "Rodas, going forward, stops exactly at the requested end and never evaluates beyond it", "statement": "For a forward integration in exact arithmetic, a normal return (not in one-step mode) has x equal to xend, every accepted x is increasing and never exceeds xend, and the right-hand side is never evaluated at an abscissa outside [x0, xend] except for the tiny time-derivative increment.", "quantifier": "for every problem, every behaviour of the error estimator, every initial step, x0 < xend, and every number of steps", "why_tests_cant": "The claim ranges over every possible sequence of error estimates and step changes.", "anchors": ["Rodas-NG/include/Rodascc.hpp:operator()"]}
{"id": "C16", "title": "Rodas step-size changes stay within the documented factors", "statement": "Between two consecutive attempted steps the step size is multiplied by a factor between 0.2 and 6 (exact arithmetic), never exceeds hmax in size, is at most not increased after a rejection, and a rejected step leaves solution and abscissa unchanged.", "quantifier": "for every attempted step of every run (every error estimate, both with and without predictive control)", "why_tests_cant": "Needs all possible error values and controller histories.", "anchors": ["Rodas-NG/include/Rodascc.hpp:operator()"]}
{"id": "C17", "title": "Rodas statistics are exact", "statement": "On return: number of decompositions = number of attempted steps, number of Jacobians = number of accepted steps (when the run ended normally), number of linear solves = 6 x attempted steps, accepted + rejected = attempted.", "quantifier": "for every run", "why_tests_cant": "Requires counting along every control path.", "anchors": ["Rodas-NG/include/Rodascc.hpp:operator()"]}
{"id": "C18", "title": "Every Rodas call ends", "statement": "A call always terminates: either it returns or it raises the library exception after at most nmax attempted steps, whatever the right-hand side returns (including NaN).", "quantifier": "for every problem (including right-hand sides producing NaN), every nmax", "why_tests_cant": "Non-termination cannot be observed by a finite test.", "anchors": ["Rodas-NG/include/Rodascc.hpp:operator()"]}
{"id": "C19", "title": "The sign of the interval does not matter: backward integration works", "statement": "Calling the implicit solvers (Radau5, Rodas) with xend < x integrates backward: steps are negative and, on normal return, x = xend.", "quantifier": "for every pair x, xend with xend < x", "why_tests_cant": "Which half-plane (x>0, x<0, |xend|>|x|...) triggers the fault depends on the real values.", "anchors": ["Radau5-NG/include/Radau5cc.hpp:ABS", "Rodas-NG/include/Rodascc.hpp:ABS", "Radau5-NG/include/Radau5cc.hpp:operator()", "Rodas-NG/include/Rodascc.hpp:operator()"]}
{"id": "C20", "title": "Radau5 returns at the requested end point", "statement": "When the Radau5 integrator returns normally (not in one-step mode), the returned abscissa is xend (forward integration, exact arithmetic).", "quantifier": "for every problem and every behaviour of the Newton iteration", "why_tests_cant": "Depends on a Newton failure occurring exactly on the last step, a timing tests do not reach.", "anchors": ["Radau5-NG/include/Radau5cc.hpp:operator()"]}
{"id": "C21", "title": "Radau5 never accepts a step whose Newton iteration did not converge", "statement": "Whenever the integrator advances the solution, the stage values used come from a Newton iteration which satisfied its convergence test for the current step size.", "quantifier": "for every run", "why_tests_cant": "Requires a Newton failure after a previous success, over all histories.", "anchors": ["Radau5-NG/include/Radau5cc.hpp:operator()", "Radau5-NG/include/Radau5cc.hpp:NewtonIterationTest"]}
{"id": "C22", "title": "Every Radau5 call ends within nmax steps", "statement": "A call always terminates: it returns, or raises the library exception once more than nmax steps were attempted.", "quantifier": "for every problem and every nmax", "why_tests_cant": "Non-termination cannot be observed by a finite test.", "anchors": ["Radau5-NG/include/Radau5cc.hpp:operator()", "Radau5-NG/include/Radau5cc.hpp:setNmax"]}
{"id": "C23", "title": "Radau5 user settings take effect", "statement": "Values set with the documented setters (step-ratio limits facl and facr, safety factor, number of Newton iterations, nmax) are the ones used by the next integration.", "quantifier": "for every setter value and every subsequent call", "why_tests_cant": "A setter overwritten later is invisible unless one inspects behaviour at extreme error estimates.", "anchors": ["Radau5-NG/include/Radau5cc.hpp:setFacrFacl", "Radau5-NG/include/Radau5cc.hpp:operator()"]}
{"id": "C24", "title": "Radau5 Newton linear algebra solves the transformed block system", "statement": "One simplified-Newton correction, as computed through one real and one complex n-dimensional solve, is exactly the solution of the 3n-dimensional block system it stands for.", "quantifier": "for every n, Jacobian, step size and residual for which the linear solvers are exact", "why_tests_cant": "An identity over all vectors and matrices.", "anchors": ["Radau5-NG/include/Radau5cc.hpp:slvrad", "Radau5-NG/include/Radau5cc.hpp:Newton", "common/include/Matrices.hpp:solvecomplex"]}
{"id": "C25", "title": "Radau5 statistics and failure handling are consistent", "statement": "accepted + rejected never exceeds attempted steps, attempted and accepted are counted exactly; a rejected step leaves the solution and abscissa unchanged.", "quantifier": "for every run", "why_tests_cant": "Requires counting along every control path.", "anchors": ["Radau5-NG/include/Radau5cc.hpp:operator()"]}
{"id": "C26", "title": "Scalar and vector tolerances agree", "statement": "Giving Radau5 vector tolerances whose components are all equal to (atol, rtol) is equivalent to giving the scalars: the same error weights are used for every state.", "quantifier": "for every n, every pair of positive tolerances and every state", "why_tests_cant": "All real tolerance values and states.", "anchors": ["Radau5-NG/include/Radau5cc.hpp:setTestPolicy", "Radau5-NG/include/Radau5cc.hpp:doScal"]}
{"id": "C27", "title": "Rock4 stage-number selection is correct and table accesses are in bounds", "statement": "For every requested number of internal stages the method selects the smallest tabulated degree at least as large, the coefficient block belonging to this degree, and every coefficient access made while performing a step lies within the tables.", "quantifier": "for every requested degree >= 1 that the driver can produce, including the caching of the previous selection", "why_tests_cant": "Reading a wrong block or past a table gives plausible numbers; the selection is cached across steps so histories matter.", "anchors": ["Rock4-NG/include/Rock4.hpp:mdegre", "Rock4-NG/include/Rock4Coeffs.hpp:recf", "Rock4-NG/include/coeffs-rock4"]}
{"id": "C28", "title": "Rock4's pointer juggling computes the ROCK4 step", "statement": "One attempted step computes exactly the textbook object: the three-term recurrence followed by the four-stage finishing method and its embedded error estimate, whatever buffers the pointers currently designate; all the work buffers and the caller's array stay pairwise distinct.", "quantifier": "for every degree, size, right-hand side, state and starting assignment of distinct buffers", "why_tests_cant": "Pointer rotations differ with the parity of the degree and with the history of accepted steps.", "anchors": ["Rock4-NG/include/Rock4.hpp:kernel", "Rock4-NG/include/ToolOMP.hpp", "common/include/switchAdr.hpp:switchAdr"]}
{"id": "C29", "title": "Rock4: the stored derivative always matches the stored solution", "statement": "At the beginning of every attempted step the stored derivative equals the right-hand side evaluated at the current solution, and a rejected step leaves the solution unchanged.", "quantifier": "for every run, every number of accepted/rejected steps", "why_tests_cant": "A first-same-as-last reuse error depends on the accept/reject history.", "anchors": ["Rock4-NG/include/Rock4.hpp:operator()"]}
{"id": "C30", "title": "Rock4 returns exactly at tend and never passes it", "statement": "In exact arithmetic, with t0 < tend, time increases strictly with each accepted step, never passes tend, and equals tend on normal return.", "quantifier": "for every run and every behaviour of the error estimator", "why_tests_cant": "All possible error sequences.", "anchors": ["Rock4-NG/include/Rock4.hpp:operator()"]}
{"id": "C31", "title": "Every Rock4 call ends", "statement": "Every call terminates in exact arithmetic, either by returning or by the 'step too small' exception, even if the error estimate is never acceptable (or is NaN).", "quantifier": "for every right-hand side, including error estimates that never become acceptable", "why_tests_cant": "Termination is a liveness claim.", "anchors": ["Rock4-NG/include/Rock4.hpp:operator()"]}
{"id": "C32", "title": "Rock4 statistics are exact", "statement": "The reported number of right-hand-side evaluations is the number actually performed and steps = accepted + rejected.", "quantifier": "for every run", "why_tests_cant": "Requires counting along every control path.", "anchors": ["Rock4-NG/include/Rock4.hpp:NbRhsComputed", "Rock4-NG/include/Rock4.hpp:operator()"]}
{"id": "C33", "title": "Rock4 uses enough stages for stability", "statement": "Every attempted step satisfies the stability requirement h*rho <= 0.353*s^2 - 3 where rho is the current spectral-radius estimate and s the total number of stages used (exact arithmetic).", "quantifier": "for every step of every run", "why_tests_cant": "All real values of h and rho.", "anchors": ["Rock4-NG/include/Rock4.hpp:operator()"]}
{"id": "C34", "title": "Rock4 refreshes the spectral radius regularly", "statement": "The spectral radius supplied by the problem is re-evaluated at least once every ten accepted steps.", "quantifier": "for every accept/reject history", "why_tests_cant": "Depends on the parity of a counter after a rejection.", "anchors": ["Rock4-NG/include/Rock4.hpp:operator()"]}
{"id": "C35", "title": "Parallel Rock4 gives the sequential result", "statement": "With OpenMP enabled, every parallel loop gives the same result as its sequential execution, under every scheduling.", "quantifier": "for every thread count, every interleaving, every size and contents", "why_tests_cant": "Data races are schedule dependent and may never appear in a test.", "anchors": ["Rock4-NG/include/ToolOMP.hpp:rpp2", "Rock4-NG/include/ToolOMP.hpp"]}
{"id": "C36", "title": "Rock4 leaves the caller the owner of the array they passed", "statement": "After a call the caller still holds the array they passed (holding the solution), and destroying the solver does not free the caller's array.", "quantifier": "for every number of accepted steps", "why_tests_cant": "Depends on the parity/number of accepted steps; freeing foreign memory is undefined behaviour.", "anchors": ["Rock4-NG/include/Rock4.hpp:operator()", "Rock4-NG/include/Rock4.hpp:~Rock4"]}
{"id": "C37", "title": "Rock4-L linear step equals the ROCK4 step of the linear problem", "statement": "On du/dt = A u a Rock4-L step equals the textbook ROCK4 step (same recurrence, same finishing method) for every tabulated degree.", "quantifier": "for every degree, linear operator, state and step", "why_tests_cant": "An algebraic identity over all operators and states.", "anchors": ["Rock4-L/include/Rock4L.hpp:kernel1", "Rock4-L/include/Rock4L.hpp:makeHornerCoeffs"]}
{"id": "C38", "title": "Rock4-L affine step equals the ROCK4 step of the affine problem", "statement": "On du/dt = A u + b a Rock4-L affine step equals the textbook ROCK4 step, for every operator object that satisfies the documented contract.", "quantifier": "for every degree, linear operator, b, state and step", "why_tests_cant": "An algebraic identity over all operators and states; the only test has b = 0.", "anchors": ["Rock4-L/include/Rock4L.hpp:kernel2", "Rock4-L/test/F.hpp:F"]}
{"id": "C39", "title": "Rock4-L integrates to tend and reports its work", "statement": "In exact arithmetic a call with h >= 1e-13 and t0 < tend (and enough admissible stages) performs finitely many steps, ends with t = tend, never passes it, each step is at most 1.01 times the requested one, and reports the number of operator applications actually performed.", "quantifier": "for every t0, tend, h", "why_tests_cant": "All reals; accumulated step counts are unbounded.", "anchors": ["Rock4-L/include/Rock4L.hpp:operator()"]}
{"id": "C40", "title": "SDIRKL step is the Runge-Kutta step", "statement": "On du/dt = A u, a step equals the diagonally implicit Runge-Kutta step of the method's tableau, given that the problem's solver inverts I - dt*gamma*A.", "quantifier": "for every linear operator, state, step and every tableau with constant diagonal", "why_tests_cant": "An algebraic identity over all operators, tableaux and states.", "anchors": ["SDIRKL/include/Sdirkl.hpp:step"]}
{"id": "C41", "title": "SDIRKL affine step is the Runge-Kutta step and keeps equilibria", "statement": "On du/dt = A u + phi a step equals the diagonally implicit Runge-Kutta step; a state with A u + phi = 0 is left unchanged.", "quantifier": "for every linear operator, forcing, state, step and every tableau with constant diagonal", "why_tests_cant": "An algebraic identity over all operators and states.", "anchors": ["SDIRKL/include/Sdirkl.hpp:step"]}
{"id": "C42", "title": "Every supplied SDIRK method is a consistent method of its stated order", "statement": "Each supplied method (implicit Euler, Crank-Nicolson, RKMethod1, RKMethod2, RKRS) satisfies the order conditions of its documented order up to the rounding of its printed coefficients; in particular it is consistent.", "quantifier": "for every supplied method and every order condition up to its order", "why_tests_cant": "A run with a few step sizes shows an error but not which condition is violated; consistency is a statement on the coefficients for all problems.", "anchors": ["SDIRKL/include/CrN.hpp", "SDIRKL/include/EulerImp.hpp", "SDIRKL/include/RKMethod1.hpp", "SDIRKL/include/RKMethod2.hpp", "SDIRKL/include/RKRS.hpp"]}
{"id": "C43", "title": "SDIRKL refuses the wrong step variant and leaves the state alone", "statement": "Calling the linear step on an object built for the affine problem (or conversely) raises the exception and leaves the caller's vector unchanged.", "quantifier": "for every method and state", "why_tests_cant": "All states.", "anchors": ["SDIRKL/include/Sdirkl.hpp:step"]}
{"id": "C44", "title": "Symplectic step: failure leaves the state unchanged, success advances it by the Gauss step", "statement": "If a step returns false the caller's vector is unchanged; if it returns true, in exact arithmetic the vector (plus the carried compensation) advances by h*sum b_i f(Y_i), where the Y_i reproduce themselves under one sweep of the stage equations up to the documented threshold.", "quantifier": "for every right-hand side, state, step, number of stages and iteration limit", "why_tests_cant": "All right-hand sides and convergence histories.", "anchors": ["SymplecticRK/include/SymplecticRK.hpp:step", "SymplecticRK/include/Ftest.hpp:Ftest"]}
{"id": "C45", "title": "Quadratic invariants are preserved by the symplectic integrator", "statement": "For a converged step with coefficients satisfying Cooper's condition, every quadratic first integral of the problem is exactly preserved; for general coefficients the drift is exactly the defect of Cooper's condition summed against the stage slopes.", "quantifier": "for every problem with a quadratic first integral, every state and step, every number of stages", "why_tests_cant": "A conservation law over all states.", "anchors": ["SymplecticRK/include/SymplecticRK.hpp:step", "SymplecticRK/include/GaussianMethod.hpp"]}
{"id": "C46", "title": "The stage extrapolation of the symplectic integrator works for every problem size", "statement": "The extrapolated starting stage values are u + sum of the extrapolation coefficients times the previous stage slopes of the same component, and only the stage arrays are accessed.", "quantifier": "for every problem size n and number of stages", "why_tests_cant": "Only configurations with n = number of stages are right; out-of-bounds writes may stay unnoticed.", "anchors": ["SymplecticRK/include/Extrap.hpp:operator()"]}
{"id": "C47", "title": "Symplectic fixed-point iteration is bounded", "statement": "A step performs at most itermax sweeps, hence at most itermax*stages right-hand-side evaluations, whatever the right-hand side does.", "quantifier": "for every right-hand side (including NaN-producing), every itermax", "why_tests_cant": "Termination over all inputs.", "anchors": ["SymplecticRK/include/SymplecticRK.hpp:step"]}
{"id": "C48", "title": "Hessenberg path solves the original Newton system", "statement": "With the Hessenberg option, the real Newton solve returns x with (fac*I - J) x = b for the original Jacobian J, given LAPACK's documented contract of the reduction; repeated factorisations for new factors reuse the reduction.", "quantifier": "for every n>=2, J, fac and b", "why_tests_cant": "Identity over all matrices.", "anchors": ["common/include/Matrices.hpp:Matrices<true,true>", "common/include/Hessenberg.hpp"]}
{"id": "C49", "title": "Example problems' analytic Jacobians are the derivatives of their right-hand sides", "statement": "For each bundled example with an analytic Jacobian (Oregonator, KPP, heat equation), the element (i,j) supplied equals the partial derivative of the i-th right-hand-side component with respect to y_j.", "quantifier": "for every state (and every number of points for the PDE examples)", "why_tests_cant": "A wrong Jacobian only slows convergence.", "anchors": ["Radau5-NG/test/KPP.hpp:KPP::Jacobian", "Rodas-NG/test/KPP.hpp:KPP::Jacobian", "Rodas-NG/test/Oregonator.hpp:Oregonator::Jacobian", "Radau5-NG/test/Oregonator.hpp:Oregonator::Jacobian", "Rock4-L/test/FRadau5.hpp:FRadau5::Jacobian"]}
{"id": "C50", "title": "Example right-hand sides stay inside the arrays they are given", "statement": "The bundled planetary examples write only the n output values.", "quantifier": "for every state", "why_tests_cant": "Out-of-bounds writes may stay unnoticed.", "anchors": ["SymplecticRK/test/Outer.hpp:Outer::dpdt"]}
{"id": "C51", "title": "The Newton linear solves return the solution of the documented systems", "statement": "For full and banded Jacobians: preparing the real matrix throws exactly when fac*I-J is singular, and otherwise every later real solve returns the vector X with (fac*I-J)X=Z; likewise the complex preparation and solve for ((alpha+i*beta)I-J)(Xr+i*Xi)=Zr+i*Zi, including the interleaving of real and imaginary parts.", "quantifier": "for every n, bandwidths, Jacobian, factors and right-hand side, given that LAPACK meets its documentation", "why_tests_cant": "The claim is over all matrices and right-hand sides; an index slip in packing or band layout shows up only as degraded Newton convergence.", "anchors": ["common/include/Matrices.hpp:decomr", "common/include/Matrices.hpp:decomc", "common/include/Matrices.hpp:solvereal", "common/include/Matrices.hpp:solvecomplex"]}
{"id": "C52", "title": "Radau5 getLastTimeStep reports the last step used", "statement": "After a normal return, getLastTimeStep() (documented: get last time step used) returns a step size the integrator used or proposed during that call.", "quantifier": "for every problem", "why_tests_cant": "The value can be left over from an earlier object state, which looks plausible in a test.", "anchors": ["Radau5-NG/include/Radau5cc.hpp:getLastTimeStep", "Radau5-NG/include/Radau5cc.hpp:operator()"]}
{"id": "C53", "title": "Radau5 one-step mode advances time together with the solution", "statement": "With performOnlyOneStep, the abscissa returned corresponds to the solution returned, and the step is counted as accepted.", "quantifier": "for every problem", "why_tests_cant": "The solution looks right; only the pair (x, Y) is inconsistent.", "anchors": ["Radau5-NG/include/Radau5cc.hpp:performOnlyOneStep", "Radau5-NG/include/Radau5cc.hpp:operator()"]}
{"id": "C54", "title": "Radau5 step-size ratios are bounded", "statement": "Consecutive step sizes have the sign of the direction, grow at most by the factor 8, shrink at most by the factor 20 except for the closing step, and strictly shrink after a failed attempt; steps and evaluation points stay within the interval.", "quantifier": "for every run, every error estimate and every Newton behaviour", "why_tests_cant": "The factors depend on real-valued estimates over all histories.", "anchors": ["Radau5-NG/include/Radau5cc.hpp:operator()", "Radau5-NG/include/Radau5cc.hpp:NewtonIterationTest"]}
{"id": "C55", "title": "Radau5 never uses a stale factorization", "statement": "Each Newton iteration and each error estimate use factorizations computed for the current step size and Jacobian matrix.", "quantifier": "for every run, in any arithmetic", "why_tests_cant": "The factorization is reused across steps under conditions on real-valued ratios.", "anchors": ["Radau5-NG/include/Radau5cc.hpp:operator()", "Radau5-NG/include/Radau5cc.hpp:decomr"]}
{"id": "C56", "title": "The Gauss tables are the coefficients of the symplectic Gauss methods", "statement": "For every provided number of stages and both precisions the tables satisfy Cooper's (symplecticity) condition b_i a_ij + b_j a_ji = b_i b_j and the order conditions B(2s) and C(s) up to the precision of the type they are for.", "quantifier": "for every table (2 to 16 stages, double and long double) and all indices", "why_tests_cant": "A wrong digit in one of several thousand coefficients only changes a drift rate.", "anchors": ["SymplecticRK/sage/generated_coeffs.hpp:icoeffs", "SymplecticRK/include/GaussianMethod.hpp"]}
{"id": "C57", "title": "The extrapolation tables are exact for constant slopes", "statement": "The coefficients used to predict the stages of the next step from the slopes of the last one sum, in each row, to the abscissa of the stage (so that a constant slope is extrapolated exactly).", "quantifier": "for every table (2 to 16 stages, double and long double)", "why_tests_cant": "The prediction only serves as a starting value: a wrong one costs iterations, no test sees it.", "anchors": ["SymplecticRK/sage/generated_coeffs_co.hpp:extrapcoeffs", "SymplecticRK/include/Extrap.hpp", "SymplecticRK/sage/compco.sage"]}
{"id": "C60", "title": "maxIter reports the number of iterations performed", "statement": "After a step, maxIter() (documented: number of iterations performed) is the number of sweeps made by the step.", "quantifier": "for every right-hand side, state, step and iteration limit", "why_tests_cant": "Off by one in a statistic.", "anchors": ["SymplecticRK/include/SymplecticRK.hpp:maxIter"]}
{"id": "C58", "title": "The Hamiltonian reported by the planetary examples is a first integral of their right-hand side", "statement": "Along the vector field computed by operator(), the derivative of the function returned by H is zero (Kepler2, Outer, OuterNeptune, OuterUranus), so that a drift of H measures the integrator and not the example.", "quantifier": "for every state with no two bodies at the same place, every number of bodies, all masses", "why_tests_cant": "A wrong H drifts slowly and looks like an integration error.", "anchors": ["SymplecticRK/test/Outer.hpp:Outer::H", "SymplecticRK/test/OuterNeptune.hpp:OuterNeptune::H", "SymplecticRK/test/OuterUranus.hpp:OuterUranus::H", "SymplecticRK/test/Kepler2.hpp:Kepler2::H"]}
{"id": "C59", "title": "Complex Hessenberg path solves the complex Newton system or reports that it is singular", "statement": "With the Hessenberg option, the complex Newton factorisation and solve return xr+i*xi with ((alpha+i*beta)I-J)(xr+i*xi)=br+i*bi for the original Jacobian J, given LAPACK's documented contract of the reduction, and a singular matrix is reported (as decomr does).", "quantifier": "for every n>=2, J, alpha, beta, br, bi and every earlier content of the work arrays", "why_tests_cant": "Identity over all matrices; the wrong branch needs an exact zero in the pivot row.", "anchors": ["common/include/Matrices.hpp:Matrices<true,true>::decomc", "common/include/Matrices.hpp:Matrices<true,true>::solvecomplex", "common/include/Hessenberg.hpp:dechc"]}
{"id": "C61", "title": "The Hessenberg routines stay inside their arrays and store the documented pivots", "statement": "dech, solh, dechc, solhc, householder and the decom/solve methods of the Hessenberg option access only elements of their arrays whatever the numbers are (NaN and infinities included), terminate, return a value in 0..n, and after a return value of 0 ip holds the pivot rows and, in its last element, (-1) to the number of interchanges.", "quantifier": "for every arithmetic, every n (>=2 for the decom/solve methods), every matrix, vector and earlier content of the work arrays", "why_tests_cant": "A comparison with NaN steers the pivoting; a stale pivot index is only seen when the heap holds a bad value.", "anchors": ["common/include/Hessenberg.hpp:dech", "common/include/Hessenberg.hpp:solh", "common/include/Hessenberg.hpp:dechc", "common/include/Hessenberg.hpp:solhc", "common/include/Matrices.hpp:Matrices<true,true>"]}
{"id": "C62", "title": "A failure reported by LAPACK is never dropped", "statement": "In Matrices<full,false> and Matrices<band,false>, decomr, decomc, solvereal and solvecomplex throw whenever the LAPACK routine they call returns a nonzero status, and otherwise return what LAPACK computed, unpacked to the right elements.", "quantifier": "for every arithmetic, every n, bandwidths, matrix and right-hand side, and every value LAPACK may return", "why_tests_cant": "The failing branches need a singular matrix or a broken LAPACK; the numbers LAPACK may return are unbounded.", "anchors": ["common/include/Matrices.hpp:Matrices<true,false>", "common/include/Matrices.hpp:Matrices<false,false>"]}
{"id": "C63", "title": "Incorrect bandwidths and options are refused; the others get the right storage", "statement": "A problem class with nsub>=n or nsup>=n, or with the Hessenberg option and a matrix that is not full, is refused (at compile time or by the constructor's exception 'incorrect nsub or nsup'); any other gets full storage exactly if nsub=nsup=n-1, the Hessenberg variant exactly if asked for, and a storage in which every element of the declared band can be written and read back.", "quantifier": "for every n>=1, nsub, nsup>=0, Hessenberg flag and both solvers", "why_tests_cant": "A test instantiates a few template arguments; the claim is over all of them.", "anchors": ["common/include/Matrices.hpp:Matrices<false,false>::Matrices", "common/include/compat.hpp:compat", "common/include/MatrixType.hpp:Matrixtype", "Radau5-NG/include/Radau5cc.hpp:Radau5cc", "Rodas-NG/include/Rodascc.hpp:Rodascc"]}
{"id": "C64", "title": "The tabulated ROCK4 methods are stable on the interval the driver assumes", "statement": "The drivers choose the degree d so that h*rho <= 0.353*(d+4)^2-3. For each of the 50 tabulated degrees d, with the coefficients of coeffs-rock4, a step of length h on a linear problem whose eigenvalues lambda are real with -(0.353*(d+4)^2-3) <= h*lambda <= 0 multiplies each eigenvector component by a factor of modulus at most 1; hence no component grows in a run whose spectral radius is not underestimated.", "quantifier": "for every tabulated degree, every real h*lambda in the interval (a continuum), every linear problem of any dimension that has these eigenvectors, every run", "why_tests_cant": "The polynomial of degree d+4 touches modulus close to 1 about d times in the interval; tests sample some points of some degrees, and the violations are narrow (about 0.02 wide at degree 63).", "anchors": ["Rock4-NG/include/coeffs-rock4", "Rock4-NG/include/Rock4.hpp:kernel", "Rock4-L/include/coeffs-rock4", "Rock4-L/include/Rock4L.hpp:kernel"]}
{"id": "C65", "title": "A Rodas run computes Rosenbrock steps with the chosen coefficients", "statement": "Every attempt of Rodascc is a step of the six-stage Rosenbrock method (Hairer & Wanner IV.7, formula 7.25) whose coefficients are A21..GAMMA: each stage solves (I/(h*gamma) - J) u_i = f(x+alpha_i h, y + sum a_ij u_j) + sum (c_ij/h) u_j + gamma_i h f_x, with J and f_x the user's derivatives or the forward difference quotients taken at the current (x,y), the result is y + sum m_i u_i and the error is the weighted root mean square of u_6; the accepted attempts are chained from the initial value to the returned state.", "quantifier": "for every user function, dimension, storage, option (numerical Jacobian, autonomous, DF_t), coefficient set, tolerance, initial value and run that returns, with linear algebra that solves the systems it is given (proved for Matrices with LAPACK's contract)", "why_tests_cant": "A wrong stage argument or a forgotten term only lowers the order of convergence or the quality of the error estimate; the results still look right within the tolerances.", "anchors": ["Rodas-NG/include/Rodascc.hpp:operator()", "Rodas-NG/include/Rodascc.hpp:slvrod", "Rodas-NG/include/Rodascc.hpp:DF_X", "Rodas-NG/include/Rodascc.hpp:Jacobian", "common/include/Matrices.hpp:Matrices"]}
{"id": "C66", "title": "The Rodas coefficient sets define A-stable methods of order 4(3) that damp stiff components", "statement": "For methods 1, 2 and 3 of rocoe the coefficients satisfy, to the precision to which they are given (4e-15), the conditions for order 4, for an embedded result of order 3, and the row sum conditions for the nodes and for the factors of f_x; the methods are A-stable, and a component with eigenvalue lambda is reduced by a factor 10/|h lambda| at least. Hence on y'=Jy no component along an eigenvector whose eigenvalue has a nonpositive real part grows in a forward run, whatever the step sizes.", "quantifier": "for every method, every complex h*lambda in the left half plane (a continuum), every linear problem of any dimension, every forward run", "why_tests_cant": "A wrong digit in one of 90 coefficients changes results by less than the tolerances; stability is a claim on an unbounded continuum.", "anchors": ["Rodas-NG/include/Rodascc.hpp:rocoe"]}
{"id": "C67", "title": "The constants of Radau5cc are those of the three-stage Radau IIA method", "statement": "C1, C2 and 1 are the nodes of the Radau quadrature formula of order 5; U1 and ALPH +- i BETA are exactly the eigenvalues of the inverse of the Runge-Kutta matrix; T and TI are inverse to each other and T Lambda TI is the inverse of the Runge-Kutta matrix up to 1e-19; DD1, DD2, DD3 applied to the stages of a cubic give minus its derivative at 0; where the Newton iteration stands still the stages satisfy the collocation equations up to 1e-17.", "quantifier": "for every cubic, every right-hand side, dimension, Jacobian, step size and point at which the iteration stands still", "why_tests_cant": "A wrong digit of T or TI slows the Newton iteration down or shifts its limit by less than the tolerances; results still look right.", "anchors": ["Radau5-NG/include/Radau5cc.hpp:Radau5cc"]}
{"id": "C68", "title": "Newton iterations start from the collocation polynomial of the last accepted step", "statement": "After an accepted step of size hold with stages Z1, Z2, Z3, the Newton iteration of the next step of size h starts from the stages u(1+c_k h/hold)-u(1), u being the cubic with u(0)=0, u(C1)=Z1, u(C2)=Z2, u(1)=Z3 (Hairer & Wanner IV.8).", "quantifier": "for all stages, all components, all ratios of step sizes", "why_tests_cant": "Wrong starting values are corrected by the iteration: only the number of iterations changes, which no test of the results sees.", "anchors": ["Radau5-NG/include/Radau5cc.hpp:operator()", "Radau5-NG/include/Radau5cc.hpp:Newton"]}
{"id": "C69", "title": "A Radau5 run computes steps of the Radau IIA method with simplified Newton iterations", "statement": "Every pass of a run of Radau5cc that returns is: starting values (zero, or from a cubic through the last accepted stages), simplified Newton iterations with a Jacobian evaluated at a point of the run, stopped by the documented tests (converged, too slow, exhausted, with the step size proposed when too slow), error estimate by Hairer & Wanner IV.8 (8.19) and, for a first step or after a failure, (8.20), acceptance exactly when the estimate is below 1, and y+Z3 as the new value; the accepted passes are chained from the initial value to the returned state.", "quantifier": "for every user function, dimension, storage, Jacobian option, tolerance, Newton option, initial value and run that returns, with linear algebra that solves the systems it is given (proved for Matrices, full and band, with LAPACK's contract)", "why_tests_cant": "Mistakes in the stopping tests, in the error estimate or in the reuse of Jacobians change efficiency and accuracy slightly, in rare situations; a test compares final values within tolerances.", "anchors": ["Radau5-NG/include/Radau5cc.hpp:operator()", "Radau5-NG/include/Radau5cc.hpp:Newton", "Radau5-NG/include/Radau5cc.hpp:slvrad", "Radau5-NG/include/Radau5cc.hpp:estrad", "Radau5-NG/include/Radau5cc.hpp:doScal", "common/include/Matrices.hpp:Matrices"]}
{"id": "C70", "title": "The counter of right-hand side evaluations of Radau5cc is exact", "statement": "After a run, the number of function evaluations reported equals the number of times the user's function was called during the run.", "quantifier": "for every user function, dimension, option and run", "why_tests_cant": "Only runs in which an error estimate at a first step or after a rejection reaches 1 show the difference; nobody compares the counter with the true number of calls.", "anchors": ["Radau5-NG/include/Radau5cc.hpp:estrad", "Radau5-NG/include/Radau5cc.hpp:operator()"]}
{"id": "C71", "title": "The ROCK4 methods of both codes are of order 4 with an error estimate of order 3", "statement": "For each of the 50 tabulated degrees d, the step computed by Rock4 (and by Rock4-L) is the step of an explicit Runge-Kutta method with d+4 stages (plus the derivative at the new point, for the error estimate only) whose coefficients satisfy the eight conditions for order 4; the error estimate of Rock4 is the weighted difference to an embedded result satisfying the four conditions for order 3. The stored coefficients being rounded, each condition holds within 2e-14.", "quantifier": "for every tabulated degree, every table within the rounding to double of the literals, every right-hand side, state, step size, tolerance and run", "why_tests_cant": "A wrong digit in one of 4382+550 numbers lowers the order of one degree only; a run uses few degrees, and convergence tests measure an order over a narrow range of step sizes.", "anchors": ["Rock4-NG/include/coeffs-rock4", "Rock4-NG/include/Rock4.hpp:kernel", "Rock4-L/include/coeffs-rock4", "Rock4-L/include/Rock4L.hpp:kernel"]}
{"id": "C72", "title": "In double precision a returned ROCK4 run is never before the end, nor further than the next double", "statement": "With IEEE double arithmetic, whenever operator() of Rock4 or Rock4L returns for 0 <= t0 <= tend, the time reached is a finite double, at least tend and at most the next double after tend.", "quantifier": "for all doubles t0 <= tend with a finite successor, every step size, right-hand side, spectral radius, tolerance, table and run", "why_tests_cant": "The end of the interval depends on the rounding of one difference and one sum; the pairs (t,h) met in a test are a handful out of 2^128.", "anchors": ["Rock4-NG/include/Rock4.hpp:operator()", "Rock4-L/include/Rock4L.hpp:operator()"]}
{"id": "C73", "title": "In double precision a returned ROCK4 run ends at tend exactly", "statement": "With IEEE double arithmetic, whenever operator() of Rock4 or Rock4L returns, the time reached is tend.", "quantifier": "for all doubles t0 < tend, step sizes, right-hand sides and runs", "why_tests_cant": "The usual tests use t0 = 0 or round end times for which the last addition is exact.", "anchors": ["Rock4-NG/include/Rock4.hpp:operator()", "Rock4-L/include/Rock4L.hpp:operator()"]}
{"id": "C74", "title": "In double precision a ROCK4 run whose steps are accepted returns", "statement": "With IEEE double arithmetic, a call with a positive first step, t0 < tend, and every step accepted returns: it neither loops for ever nor throws 'step too small' after the interval has been covered.", "quantifier": "for all doubles t0 < tend, h0 > 0, spectral radii", "why_tests_cant": "A run that does not progress shows only when the step falls below half a unit in the last place of t; a spurious exception only for particular pairs of end points.", "anchors": ["Rock4-NG/include/Rock4.hpp:operator()", "Rock4-L/include/Rock4L.hpp:operator()"]}
{"id": "C75", "title": "The conversion of the number of stages to int is defined", "statement": "The double sqrt((3+h*rho)/0.353)+1 converted to int in the choice of the degree is within the range of int.", "quantifier": "for all step sizes h and spectral radii rho met by a run", "why_tests_cant": "The conversion of a large double gives some number on each machine; the undefined behaviour is not visible as a failure.", "anchors": ["Rock4-NG/include/Rock4.hpp:operator()", "Rock4-L/include/Rock4L.hpp:operator()"]}
{"id": "C76", "title": "The sparse matrix given to SuperLU is the matrix assembled", "statement": "SuperLu::init passes to SuperLU the compressed-column form of the matrix whose elements were assigned in the PrematLineWise object: column pointers, row numbers and values.", "quantifier": "for all sizes and all sequences of assignments of elements", "why_tests_cant": "A wrong column pointer makes SuperLU solve another system without any error; tests assemble matrices in which every column has an element.", "anchors": ["SDIRKL/test/Lapl/SuperLu.cpp:init", "SDIRKL/test/Lapl/Premat.hpp:operator()", "SDIRKL/test/Lapl/PrematOrder.hpp"]}
{"id": "C77", "title": "Lapl1d solves the implicit heat equation", "statement": "After init(n,alpha), apply(rhs,x) solves (I - alpha*Delta) x = rhs, Delta being the finite difference Laplace operator with Neumann conditions on n points of [0,1], whatever the object was used for before; with it SDIRKL computes Runge-Kutta steps of the heat equation.", "quantifier": "for all n >= 2, alpha >= 0, right-hand sides and previous uses", "why_tests_cant": "A test compares one size with one exact solution; it cannot show that the operator is inverted for every size and right-hand side, nor reuse of the object.", "anchors": ["SDIRKL/test/Lapl/Lapl1d.hpp", "SDIRKL/test/Lapl/BuildMatt1d.hpp:BuildMat", "SDIRKL/test/Lapl/SuperLu.hpp:solve"]}
{"id": "C78", "title": "CSRLineWise stores the compressed rows of the matrix", "statement": "CSRLineWise::init stores, in Fortran numbering, the compressed-row form of the matrix assembled.", "quantifier": "for all sizes and all sequences of assignments of elements", "why_tests_cant": "The class is not used by the test program; symmetric patterns hide a transposition and unset pointers depend on the allocator.", "anchors": ["SDIRKL/test/Lapl/csr.cpp:init", "SDIRKL/test/Lapl/PrematOrder.hpp"]}
{"id": "C79", "title": "The reference solution of the SDIRKL test is the exact solution", "statement": "exactsolAtt(t,e,beta) gives, at every time, the solution of the semi-discrete heat equation u' = Delta u + beta*u0 with the initial value of cinit.", "quantifier": "for all n >= 2, all t and all beta", "why_tests_cant": "A test that compares the integrator with a wrong reference fails or passes for the wrong reason; only the differential equation tells that the reference is right.", "anchors": ["SDIRKL/test/main.cpp:exact"]}
{"id": "C80", "title": "The operators of the Rock4-L test compute what they document", "statement": "The four operators of F compute a*Delta*in+b*s, a*Delta*in+b*in+c*s, a*(Delta*in+g)+b*s and a*(Delta*in+g)+b*in+c*s for the Laplace operator with Neumann conditions, and write only the n elements of out.", "quantifier": "for all n >= 2, all vectors and coefficients", "why_tests_cant": "The integrator uses combinations of coefficients that a test of one run does not separate.", "anchors": ["Rock4-L/test/F.hpp:operator()"]}
{"id": "C81", "title": "The spectral radius given to Rock4-L bounds the eigenvalues of the operator", "statement": "F::rho() is at least the modulus of every eigenvalue of the operator.", "quantifier": "for all n >= 2", "why_tests_cant": "The number of stages is rounded up, so a radius that is slightly too small is not seen in a run.", "anchors": ["Rock4-L/test/F.hpp:rho"]}
{"id": "C82", "title": "The Fisher-KPP right-hand side stays in its arrays, points into [0,1], and its spectral radius bounds its slopes", "statement": "operator() computes the finite difference Fisher-KPP right-hand side inside the arrays; it points into [0,1] on the boundary of [0,1]^n; rho() is a Lipschitz constant of it in the maximum norm.", "quantifier": "for all n >= 2 and all vectors", "why_tests_cant": "The bound has to hold for every state met by the integration; tests see one initial value.", "anchors": ["Rock4-NG/test/FKPPOMP.hpp:operator()", "Rock4-NG/test/FKPPOMP.hpp:rho"]}
{"id": "C83", "title": "The error reported by the Rock4-L test is the Euclidean distance", "statement": "normdiff(n,x,y) returns the Euclidean norm of x-y.", "quantifier": "for all n >= 1 and all vectors", "why_tests_cant": "The function is what the test itself uses to measure the error.", "anchors": ["Rock4-L/test/main.cpp:normdiff"]}
{"id": "C84", "title": "The supplied SDIRK methods are A-stable; the stiffly accurate ones damp stiff components", "statement": "On du/dt = A u a run of a supplied method, with its coefficients as printed, never increases the component along an eigenvector of A whose eigenvalue has a non-positive real part, whatever the time step; with a source term the difference of two runs behaves the same way. Implicit Euler, RKRS and RKMethod1 reduce a component with |dt*lambda| large to O(1/|dt*lambda|) in one step; the Crouzeix method RKMethod2 does not.", "quantifier": "for every linear operator, eigenvector, state, time step and number of steps, for the five tables as printed", "why_tests_cant": "Stability is a statement about the whole half-plane dt*lambda; the printed coefficients are rounded, so that the textbook result does not apply to them.", "anchors": ["SDIRKL/include/Sdirkl.hpp:step", "SDIRKL/include/RKMethod1.hpp", "SDIRKL/include/RKMethod2.hpp", "SDIRKL/include/RKRS.hpp", "SDIRKL/include/EulerImp.hpp", "SDIRKL/include/CrN.hpp"]}
{"id": "C85", "title": "Matrix objects can be constructed, copied and destroyed", "statement": "A block of code that constructs matrices (full, complex, banded, complex banded), copies them and lets them go out of scope performs only valid memory operations, leaves other memory untouched and releases everything it allocated.", "quantifier": "for every class, size, content of uninitialised memory and build option", "why_tests_cant": "What an uninitialised pointer contains and whether a double free is noticed depends on the run.", "anchors": ["common/include/fortranArray.hpp", "common/include/fortranComplexArray.hpp", "common/include/fortranRectangularArray.hpp", "common/include/fortranRectangularComplexArray.hpp", "common/include/AllocateDestroyVector.hpp"]}
{"id": "C86", "title": "The work array of the Hessenberg reduction is large enough and released once by the matching function", "statement": "In any sequence of factorisations dgehrd_ gets a work array at least as long as the length passed to it, and the array is released exactly once, with the function that matches its allocation.", "quantifier": "for every n, every sequence of work sizes asked for by LAPACK, both build options", "why_tests_cant": "A mismatch of the allocation functions shows, if at all, only with one build option and one LAPACK; it is undefined behaviour.", "anchors": ["common/include/Matrices.hpp:229-257", "common/include/AllocateDestroyVector.hpp"]}
{"id": "C87", "title": "E5 is the problem of the literature", "statement": "The right-hand side of E5 is that of Hairer & Wanner (IV.10); y2 - y3 - y4 is an invariant of its solutions, and a component that is 0 while the others are not negative does not decrease.", "quantifier": "for every state, time and solution", "why_tests_cant": "A test samples states; the invariant is about all solutions.", "anchors": ["Radau5-NG/test/E5.hpp", "Rodas-NG/test/E5.hpp"]}
{"id": "C88", "title": "The stroke model conserves matter and charge", "statement": "Along every solution of AvcF the amounts of potassium, sodium, calcium, chloride and glutamate summed over neurons, astrocytes and extracellular space are constant, and the charge of each membrane is the charge that left the cells.", "quantifier": "for every solution with non-empty volumes, both builds, all functions in place of exp, log and sinh", "why_tests_cant": "A wrong sign in one of some hundred terms changes curves that nobody knows; the balance holds only up to discretisation errors in a run.", "anchors": ["Rodas-NG/test/AvcF.hpp", "Radau5-NG/test/AvcF.hpp"]}
{"id": "C89", "title": "A problem that is declared autonomous does not depend on t", "statement": "If a problem sets autonomous=true, its right-hand side does not depend on t (Rodas then leaves out the terms with the derivative with respect to t).", "quantifier": "for every state and pair of times; E5 and AvcF", "why_tests_cant": "A run gives plausible results; only the order is lost.", "anchors": ["Rodas-NG/test/E5.hpp:22", "Rodas-NG/test/AvcF.hpp:57", "Rodas-NG/test/AvcF.hpp:41-47"]}
{"id": "C90", "title": "The right-hand side of the stroke model is a number at every physical state", "statement": "For every state with positive concentrations and volumes and finite potentials AvcF computes finite values.", "quantifier": "for every such state in double precision", "why_tests_cant": "The exceptional states are isolated.", "anchors": ["Rodas-NG/test/AvcF.hpp:263-274", "Rodas-NG/test/AvcF.hpp:237-240"]}
{"id": "C91", "title": "The result of a call does not depend on earlier calls of the same object", "statement": "Calling a solver object twice with the same arguments, settings and user data gives the same result, statistics and error, whatever was integrated with the object before: no member carries information from one call to the next.", "quantifier": "for every right-hand side, every size, every arithmetic, every content of the members left by earlier calls", "why_tests_cant": "The test drivers repeat one call with one object, where a leftover value that is wrong for another problem is harmless; the leftover values and problems are unbounded.", "anchors": ["Radau5-NG/include/Radau5cc.hpp:179-184", "Radau5-NG/include/Radau5cc.hpp:447-500", "Rodas-NG/include/Rodascc.hpp:313-476", "common/include/Matrices.hpp:47-205", "Rock4-NG/include/Rock4.hpp:190-291", "Rock4-L/include/Rock4L.hpp:283-372", "SymplecticRK/include/SymplecticRK.hpp:53-149", "SymplecticRK/include/Ftest.hpp:20-37"]}
{"id": "C92", "title": "In double precision Rodas stops at xend and never leaves the interval", "statement": "If a call of Rodas returns, the abscissa reached is xend (exactly, or at worst a neighbouring double), and no step attempted on the way starts before the first abscissa or ends after xend (or the double after it).", "quantifier": "for every right-hand side, step-size history, first step, option and pair of doubles 0 <= x0 < xend <= 2^1020", "why_tests_cant": "The rounding of x+h and xend-x depends on every bit of the history of the steps.", "anchors": ["Rodas-NG/include/Rodascc.hpp:323-350", "Rodas-NG/include/Rodascc.hpp:425-470"]}
{"id": "C93", "title": "In double precision a call of Rodas ends", "statement": "A call of Rodas on a problem whose steps are all accepted returns or throws after finitely many passes, whatever the interval.", "quantifier": "for every interval of doubles and each of the three methods", "why_tests_cant": "The interval must be a few thousand units in the last place of x long; the failure is an endless loop.", "anchors": ["Rodas-NG/include/Rodascc.hpp:335-349", "Rodas-NG/include/Rodascc.hpp:467-473"]}
{"id": "C94", "title": "In double precision Radau5 stops at xend and never leaves the interval", "statement": "If a call of Radau5 returns, the abscissa reached is xend (exactly, or at worst a neighbouring double, or short of it by the tolerance of the end test), and no step on the way starts before the first abscissa or ends after xend (or the double after it).", "quantifier": "for every right-hand side, linear algebra, step-size history, first step and pair of doubles 0 <= x0 < xend <= 2^1020", "why_tests_cant": "The rounding of x+h, xend-x and of the ratios of steps depends on every bit of the history of the steps.", "anchors": ["Radau5-NG/include/Radau5cc.hpp:447-500", "Radau5-NG/include/Radau5cc.hpp:582-711", "Radau5-NG/include/Radau5cc.hpp:131-172"]}
{"id": "C95", "title": "SDIRKL runs converge to the solution of the differential equation with the order of the method", "statement": "For every method of SDIRKL, k steps of length dt on u' = A u + phi give, along every eigenvector of A whose eigenvalue has a nonpositive real part, a value whose distance to the exact solution at time k*dt is at most k*dt*(10^-12 + 4*(dt*|lambda|)^p) times the initial derivative, p the order of the method; so refining dt at fixed k*dt converges with order p.", "quantifier": "for every dimension, linear operator A, source, initial value, step length, number of steps and eigenvector", "why_tests_cant": "A test observes the error on a few problems and a few step lengths; an order statement is about all of them, and the constant does not depend on the stiffness only if this is proved.", "anchors": ["SDIRKL/include/Sdirkl.hpp:33-150", "SDIRKL/include/EulerImp.hpp:10-21", "SDIRKL/include/RKRS.hpp:10-28", "SDIRKL/include/RKMethod1.hpp:10-46", "SDIRKL/include/RKMethod2.hpp:10-32", "SDIRKL/include/CrN.hpp:10-21"]}
{"id": "C96", "title": "Rodas runs converge to the solution of the differential equation with the order of the method", "statement": "For each of the three methods, if a call of Rodas on y' = J y + g returns, then along every eigenvector of J whose eigenvalue has a nonpositive real part the distance of the result to the exact solution at the abscissa reached (xend unless single steps are asked for) is at most (x-x0)*(10^-12 + 4*(H*|lambda|)^4) times the initial derivative, H being the longest accepted step.", "quantifier": "for every dimension, matrix, source, storage (full or band), Jacobian supplied or by differences, initial value, interval, first step, tolerances and eigenvector", "why_tests_cant": "A test observes the error on a few problems; the statement is that fourth order holds on all linear problems and all sequences of steps, also when h*lambda is large.", "anchors": ["Rodas-NG/include/Rodascc.hpp:71-200", "Rodas-NG/include/Rodascc.hpp:313-479"]}
{"id": "C97", "title": "Rock4 and Rock4-L runs converge to the solution of the differential equation with order four", "statement": "On u' = A u with real nonpositive eigenvalues not above the spectral radius in modulus, every state of a run of Rock4, and the result of a call of Rock4-L, is the sum of the initial eigencomponents multiplied by exp(lambda*(t-t0)) up to an error of (t-t0)*|lambda|*(10^-13 + 2*(H*|lambda|)^4), H the longest accepted step (for Rock4-L 1.01 times the requested one); on u' = A u + b likewise around a rest state, or, if b has a part in the kernel of A, around a state moving along it, up to a relative error 10^-13 of the time.", "quantifier": "for every linear operator, dimension, list of eigenvectors, interval, first step, tolerances and sequence of degrees the driver chooses", "why_tests_cant": "Each degree has its own block of coefficients in tables of more than four thousand numbers; a test exercises a few degrees on a few problems, and a wrong digit in one block lowers the order only when the driver happens to select it.", "anchors": ["Rock4-NG/include/Rock4.hpp:operator()", "Rock4-NG/include/Rock4.hpp:kernel", "Rock4-L/include/Rock4L.hpp:operator()", "Rock4-L/include/Rock4L.hpp:kernel1", "Rock4-L/include/Rock4L.hpp:kernel2"]}
{"id": "C98", "title": "Radau5 runs converge to the solution of the differential equation with the order of the method", "statement": "If a call of Radau5 on y' = J y + g returns, then along every eigenvector of J whose eigenvalue has a nonpositive real part the distance of the result to the exact solution at the abscissa reached (xend, up to rounding of the end test, unless single steps are asked for or a Newton iteration was given up) is at most (x-x0)*(2*10^-12 + 4*(H*|lambda|)^5)*exp((x-x0)*|lambda|/10^12) times the initial derivative, H being the longest accepted step.", "quantifier": "for every dimension, matrix, source, storage (full or band), Jacobian supplied or by differences, initial value, interval, first step, tolerances, Newton parameters and eigenvector", "why_tests_cant": "A test observes the error on a few problems; the statement is that fifth order holds on all linear problems and all sequences of steps, whatever starting values the Newton iterations are given and wherever they are stopped, also when h*lambda is large.", "anchors": ["Radau5-NG/include/Radau5cc.hpp:99-127", "Radau5-NG/include/Radau5cc.hpp:174-236", "Radau5-NG/include/Radau5cc.hpp:440-700"]}
{"id": "C99", "title": "The driver programs integrate over the time asked for and repeat the same computation", "statement": "SymplecticRK/test/main.cc: with step h (days) and integration time `years`, the number N of steps satisfies T <= N*h < T + h for T = years*365.25, and the starting values of the second and later steps are extrapolated from the previous one. Rodas-NG and Radau5-NG test/main.cc: every repetition solves the same problem from the same initial step, and the values printed at the end have been assigned.", "quantifier": "for every h > 0 and years > 0, every step function, table, number of repetitions, initial step and right-hand side", "why_tests_cant": "With h = 1 as written the wrong factor h instead of 1/h is invisible; a test run on one machine prints plausible values when the uninitialised variables happen to be harmless; that the extrapolation table has no influence is a statement about all tables.", "anchors": ["SymplecticRK/test/main.cc:29-46", "SymplecticRK/include/SymplecticRK.hpp:53-149", "Rodas-NG/test/main.cc:25-51", "Radau5-NG/test/main.cc:31-60"]}
{"id": "C100", "title": "NbStages() of Rock4 reports the number of stages used, both methods counted", "statement": "After a call of Rock4 that attempted at least one step, NbStages() is the largest number of stages of an attempted step, the stages of the Chebyshev recurrence and of the finishing method both counted (as the comment in the header announces).", "quantifier": "for every arithmetic, right-hand side, spectral radius, tables, tolerances, initial values and run", "why_tests_cant": "The value returned is plausible for every run; only comparing it with the evaluations made in every possible history of degrees shows that it is the degree of the last step and always misses four stages.", "anchors": ["Rock4-NG/include/Rock4.hpp:166-167", "Rock4-NG/include/Rock4.hpp:217-234", "Rock4-NG/include/Rock4.hpp:59-137"]}
{"id": "C101", "title": "The SDIRKL test program shows the order of the method", "statement": "SDIRKL/test/main.cpp writes, for l = 0, 1, ..., the step Tinteg/2^l and the distance (sum of moduli) between the computed and the exact solution; that distance is at most a constant times (Tinteg/2^l)^p plus the effect of the rounding of the tables, p being the order of the method the program is compiled with.", "quantifier": "for every number of points, final time, source factor beta, number of rows, method except Crank-Nicolson, content of uninitialised memory, and linear solver that fulfils SuperLU's contract", "why_tests_cant": "The program is itself the test: eight rows for 1000 points, judged by eye on a plot; whether the numbers plotted are errors of the method (same source, same time, same eigenvector on both sides) must be derived for all parameters.", "anchors": ["SDIRKL/test/main.cpp:48-54", "SDIRKL/test/main.cpp:55-100", "SDIRKL/test/Lapl/Lapl1d.hpp:13-23", "SDIRKL/include/Sdirkl.hpp:162-189"]}
{"id": "C102", "title": "The SDIRKL test program reveals a method that integrates over the wrong time", "statement": "If a method supplied with SDIRKL integrates over another time than the one asked for, the errors written by SDIRKL/test/main.cpp with its constants (1000 points, Tinteg = 0.01) do not tend to zero.", "quantifier": "for every supplied method, source factor, number of rows", "why_tests_cant": "It is a statement about what a test can detect: one needs the limit of the written errors for a wrong method and the exact solution at other times.", "anchors": ["SDIRKL/test/main.cpp:68-100", "SDIRKL/include/CrN.hpp:8-22", "SDIRKL/include/Sdirkl.hpp:162-189"]}
{"id": "C103", "title": "The Rock4-L test program compares two integrations of the same problem and writes their distance", "statement": "Rock4-L/test/main.cpp integrates the same discrete heat equation from the same front with Radau5 (with the first tolerance 1e-8*2^m it accepts) and with Rock4L, and writes for l = 0, 1, ... the step Tinteg/(2*1.25^(l+1)) and the Euclidean distance of the two results.", "quantifier": "for every number of points, final time, number of rows, content of uninitialised memory, behaviour of the two integrators (including exceptions of Radau5)", "why_tests_cant": "The program is itself the test; a run cannot show that the written number ignores all elements but one, nor that the search of tolerances ends only if some tolerance is accepted.", "anchors": ["Rock4-L/test/main.cpp:20-26", "Rock4-L/test/main.cpp:36-118", "Rock4-L/test/FRadau5.hpp:32-65", "Rock4-L/test/binit.hpp:4-8", "Rock4-L/test/F.hpp:38-51"]}
