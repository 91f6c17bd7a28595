#!/usr/bin/env python3
"""Writes /verif/properties.jsonl (one JSON object per line)."""
import json, os
P = []
def p(title, statement, quantifier, why, anchors):
    P.append(dict(id="C%02d" % (len(P)+1), title=title, statement=statement,
                  quantifier=quantifier, why_tests_cant=why, anchors=anchors))

# ---------------- grid numbering and ELL matrix ----------------
p("Node, element and internal-variable numbering never collide",
  "For every grid, distinct node coordinates get distinct node numbers in [0,nn), distinct element coordinates get distinct element numbers in [0,nelem), and distinct (element, Gauss point, variable) triples get distinct positions in [0,num_int_vars); every number in the range is hit.",
  "all grid sizes nx,ny,nz >= 1 and all coordinates", "A test fixes one grid size; a collision can appear only for some aspect ratio.",
  ["src/ell.cpp:nod_index", "src/assembly.cpp:nod_index", "include/micro.hpp:glo_elem3D", "include/micro.hpp:intvar_ix"])
p("3D sparsity structure names exactly the grid neighbours",
  "After ell_init_3D every row's 27*nFields column slots are all initialised, and slot s of a row of node (i,j,k) names the dof of the neighbour at the s-th stencil offset when that neighbour is inside the grid and the padding column 0 otherwise; hence every column index is a valid dof.",
  "all nx,ny,nz >= 2, nFields >= 1, all nodes, fields and slots", "729 hand-written table entries in 27 blocks; a wrong entry shows up only at one node class of some grids.",
  ["src/ell.cpp:ell_init_3D"])
p("2D sparsity structure names exactly the grid neighbours",
  "After ell_init_2D every row's 9*nFields column slots name the dof of the neighbour at that stencil offset when it is inside the grid and 0 otherwise.",
  "all nx,ny >= 2, nFields >= 1, all nodes, fields and slots", "Needs every node class of every grid size; the library's own tests never look at columns.",
  ["src/ell.cpp:ell_init_2D"])
p("Structure initialisation and matrix products stay inside their allocations",
  "ell_init_2D/3D, ell_set_zero_mat, ell_add_struct2D/3D, ell_set_bc_2D/3D and ell_mvp_2D never read or write outside the arrays allocated by ell_init and never read an uninitialised column, for vectors of nrow entries.",
  "all grid sizes >= 2 per direction, all element positions, all element matrices and vectors", "Out-of-bounds accesses on some grid shape need not crash a test.",
  ["src/ell.cpp:ell_init_2D", "src/ell.cpp:ell_init_3D", "src/ell.cpp:ell_add_struct2D", "src/ell.cpp:ell_add_struct3D", "src/ell.cpp:ell_set_bc_2D", "src/ell.cpp:ell_set_bc_3D", "src/ell.cpp:ell_mvp_2D"])
p("3D assembly plus product equals the sum of element operators",
  "Resetting a 3D matrix, adding one element matrix per cell and multiplying by any vector x gives, in exact arithmetic, the same vector as summing over the cells the element matrix times the cell's nodal values.",
  "all grids >= 2, all nFields, all families of element matrices, all vectors", "It is an equality of linear operators for every grid and every element matrix.",
  ["src/ell.cpp:ell_set_zero_mat", "src/ell.cpp:ell_add_struct3D", "src/ell.cpp:ell_mvp_2D"])
p("2D assembly plus product equals the sum of element operators",
  "Same as the 3D statement for ell_add_struct2D / ell_init_2D.",
  "all grids >= 2, all nFields, all families of element matrices, all vectors, all rows", "It is an equality of linear operators for every grid and every element matrix.",
  ["src/ell.cpp:ell_init_2D", "src/ell.cpp:ell_add_struct2D", "src/ell.cpp:ell_mvp_2D"])
p("3D boundary conditions: identity rows, eliminated columns, interior block untouched",
  "ell_set_bc_3D turns every row of a boundary node into an identity row, zeroes in every interior row exactly the entries that couple to boundary nodes, and leaves every other entry as it was; so a symmetric matrix stays symmetric.",
  "all grids >= 2 (including those with no interior), all nFields, all matrix contents", "Depends on the position of every node relative to six faces for every grid size.",
  ["src/ell.cpp:ell_set_bc_3D"])
p("2D boundary conditions: identity rows and untouched interior block",
  "ell_set_bc_2D turns every row of a boundary node into an identity row, and never changes an entry of an interior row that couples two interior nodes.",
  "all grids >= 2, all nFields, all matrix contents", "A wrong stencil row can damage interior couplings only on some grid sizes.",
  ["src/ell.cpp:ell_set_bc_2D"])
p("2D boundary conditions eliminate the boundary columns",
  "After ell_set_bc_2D no interior row has a non-zero entry in a column of a boundary node (so the matrix stays symmetric).",
  "all grids >= 3, all matrix contents", "Holds on 3x3 grids and fails on larger ones: a test on the smallest grid passes.",
  ["src/ell.cpp:ell_set_bc_2D"])
p("Assembling the matrix is independent of its previous contents",
  "The values left by the matrix assembly (reset, element additions, boundary conditions) do not depend on the values stored before, so re-assembling cannot accumulate.",
  "all previous contents, all grids, all element matrices; for every scalar arithmetic including IEEE doubles", "It quantifies over all histories of the matrix buffer.",
  ["src/ell.cpp:ell_set_zero_mat", "src/assembly.cpp:assembly_mat"])
# ---------------- solvers ----------------
p("A CG solver that reports convergence tells the truth",
  "When ell_solve_cgpd_2D/_struct returns before the iteration budget is exhausted, the reported err is below min_tol and equals the true residual norm |A x - b| of the returned x (exact arithmetic).",
  "all matrices, right-hand sides, initial guesses, tolerances, budgets", "The recursively updated residual must equal the true one after any number of iterations.",
  ["src/ell.cpp:ell_solve_cgpd_2D", "src/ell.cpp:ell_solve_cgpd_struct"])
p("CG respects its iteration budget",
  "The CG solvers perform at most max_its iterations, report the number actually performed, and always terminate.",
  "all matrices, vectors, tolerances and budgets (max_its any int)", "The do-while executes its body once whatever the budget is.",
  ["src/ell.cpp:ell_solve_cgpd_2D", "src/ell.cpp:ell_solve_cgpd_struct"])
p("CG's reported error is the residual of the returned vector",
  "Whatever the reason for returning, solver->err is the residual norm of the vector x that is returned.",
  "all matrices, vectors, tolerances, budgets", "Only a run that exhausts the budget shows the reported error is one iteration stale.",
  ["src/ell.cpp:ell_solve_cgpd_2D", "src/ell.cpp:ell_solve_cgpd_struct"])
p("The linear solve never moves a constrained dof",
  "If a row of the matrix is an identity row, the right-hand side is zero there and the initial guess is zero there, the CG solvers return exactly zero there: imposed boundary displacements survive every Newton update.",
  "all matrices with any set of identity rows, all right-hand sides, any number of iterations", "Holds by an invariant over all iterations, not for sampled systems.",
  ["src/ell.cpp:ell_solve_cgpd_2D", "src/ell.cpp:ell_solve_cgpd_struct", "src/solve.cpp:newton_raphson"])
p("Boundary columns that were not eliminated do not influence the solve",
  "Two matrices that agree except for columns of constrained dofs yield the same CG solution and iteration count when right-hand side and initial guess vanish at the constrained dofs.",
  "all pairs of such matrices and all right-hand sides", "Relational property over two runs of unbounded length.",
  ["src/ell.cpp:ell_solve_cgpd_2D", "src/ell.cpp:ell_set_bc_2D"])
p("CG decreases the energy and never divides by zero on SPD systems",
  "For a symmetric positive definite matrix with the diagonal preconditioner, every CG iteration is well defined (no zero divisor) and strictly decreases the energy error of the iterate.",
  "all SPD matrices on the free dofs, all right-hand sides, all iterations (exact arithmetic)", "Infinite family of matrices and iterations.",
  ["src/ell.cpp:ell_solve_cgpd_2D", "src/ell.cpp:ell_solve_cgpd_struct"])
p("CG reaches any tolerance within as many iterations as there are dofs",
  "For a symmetric positive definite matrix, in exact arithmetic, the CG solvers reach a zero residual after at most nrow iterations, so with max_its > nrow they return converged for every positive tolerance.",
  "all SPD matrices, all right-hand sides and initial guesses", "Finite termination is an argument about all Krylov sequences.",
  ["src/ell.cpp:ell_solve_cgpd_2D", "src/ell.cpp:ell_solve_cgpd_struct"])
p("The 2D relaxation solver that reports convergence tells the truth and frees its workspace",
  "When ell_solve_jacobi_2D returns before its budget is exhausted the returned x has residual norm equal to the reported err and below min_tol, and every buffer the call allocated has been freed.",
  "all matrices, vectors, budgets", "Leaks and stale errors are invisible to value tests.",
  ["src/ell.cpp:ell_solve_jacobi_2D"])
# ---------------- finite element kernel ----------------
p("Prescribed displacements are exactly the affine boundary field",
  "set_displ(eps) sets every boundary node (i,j[,k]) to the affine displacement of the macro strain at that node's position, and leaves every interior dof unchanged.",
  "all grids >= 2, all sizes lx,ly,lz, all macro strains, all previous displacement fields", "Edges and corners are written by different loops for different grid shapes.",
  ["src/assembly.cpp:set_displ"])
p("Affine displacement fields produce the exact uniform strain",
  "If all nodes of a cell carry the affine field of strain eps (plus any rigid translation), get_strain2D/3D returns exactly eps at every Gauss point.",
  "all strains, translations, cells, Gauss points, cell sizes dx,dy,dz <> 0", "Patch test over all affine fields and geometries in exact arithmetic.",
  ["src/assembly.cpp:get_strain2D", "src/assembly.cpp:get_strain3D", "src/assembly.cpp:calc_bmat_3D", "src/assembly.cpp:getElemDisp"])
p("2D average strain equals the imposed macro strain for any interior field",
  "After set_displ(eps), calc_ave_strain returns eps in 2D whatever the interior displacements are (converged or not).",
  "all grids >= 2, all sizes, all macro strains, all interior displacement fields", "Discrete divergence theorem over all interior fields.",
  ["src/assembly.cpp:calc_ave_strain", "src/assembly.cpp:set_displ"])
p("3D average strain equals the imposed macro strain for any interior field",
  "After set_displ(eps), calc_ave_strain returns eps in 3D whatever the interior displacements are.",
  "all grids >= 2, all lx,ly,lz, all macro strains, all interior fields", "The library's tests only use lz = 1, where a missing division by lz is invisible.",
  ["src/assembly.cpp:calc_ave_strain"])
p("The macro stress is the volume average of the Gauss-point stresses",
  "calc_ave_stress returns the volume average over the micro-structure of the Gauss-point stresses.",
  "all grids, sizes, displacement fields and internal variables", "Only geometries with lz <> 1 expose a wrong normalisation.",
  ["src/assembly.cpp:calc_ave_stress"])
p("Homogeneous linear microstructures homogenise exactly",
  "If both materials are linear and identical, the average stress after set_displ(eps) is exactly C:eps of that material in 2D (and lz times it in 3D), whatever the interior displacements are.",
  "all grids, sizes, macro strains, elastic constants, interior fields", "Quantifies over every unconverged interior field.",
  ["src/assembly.cpp:calc_ave_stress", "src/assembly.cpp:get_stress2D", "src/assembly.cpp:get_stress3D"])
p("Element stiffness matrices are symmetric",
  "get_elem_mat2D, and get_elem_mat3D for materials without plasticity, return symmetric matrices.",
  "all cells, material constants and cell sizes", "Infinite parameter space; exact-arithmetic claim.",
  ["src/assembly.cpp:get_elem_mat2D", "src/assembly.cpp:get_elem_mat3D"])
p("Element stiffness is the strain energy: positive semi-definite, zero exactly on zero strain",
  "For elastic constants with E > 0 and -1 < nu < 1/2 the quadratic form of the element matrix is the Gauss-quadrature strain energy, hence non-negative, and it vanishes exactly when the strain vanishes at all Gauss points.",
  "all nodal vectors, cell sizes > 0, admissible constants", "Infinite parameter space.",
  ["src/assembly.cpp:get_elem_mat2D", "src/assembly.cpp:get_elem_mat3D"])
p("Residual: zero on the boundary, minus the assembled internal force inside, norm returned",
  "assembly_rhs leaves in b zero at all boundary dofs and, at interior dofs, minus the sum over adjacent cells of the cell internal forces; it returns the Euclidean norm of b, and b does not depend on its previous contents.",
  "all grids >= 2, all displacement fields, internal variables, previous b", "Depends on all cells around every node of every grid.",
  ["src/assembly.cpp:assembly_rhs", "src/assembly.cpp:get_elem_rhs2D", "src/assembly.cpp:get_elem_rhs3D"])
p("For linear materials the assembled matrix is the exact derivative of the residual",
  "With linear materials, changing the displacement by du that vanishes on the boundary changes the residual by exactly -A du, so one Newton step whose linear solve has residual r leaves a nonlinear residual of norm |r|.",
  "all grids, linear material constants, displacement fields, updates du", "An identity between two differently coded loops for all inputs.",
  ["src/assembly.cpp:assembly_mat", "src/assembly.cpp:assembly_rhs", "src/solve.cpp:newton_raphson"])
p("The constrained 2D/3D stiffness is positive definite",
  "For linear materials with E > 0, -1 < nu < 1/2 and positive cell sizes the assembled matrix is positive definite on displacement updates that vanish on the boundary, so the equilibrium problem has at most one solution.",
  "all grids, both microstructures, all admissible constants", "Requires a propagation argument over every grid.",
  ["src/assembly.cpp:assembly_mat"])
p("Macro-homogeneity (Hill-Mandel)",
  "If the residual of assembly_rhs is zero, then the volume-averaged virtual work of the stresses on any displacement field with affine boundary values E equals (average stress) : E.",
  "all grids, all equilibrated states, all test fields", "Energy identity over all test fields.",
  ["src/assembly.cpp:assembly_rhs", "src/assembly.cpp:calc_ave_stress", "src/assembly.cpp:set_displ"])
p("The homogenised elastic tangent of equilibrated states is symmetric",
  "For linear materials, exactly equilibrated responses to macro strains E1 and E2 satisfy sigma(E1):E2 = sigma(E2):E1.",
  "all grids, linear materials, all pairs of macro strains", "Reciprocity for all microstructures.",
  ["src/homogenize.cpp:calc_ctan_lin", "src/assembly.cpp:calc_ave_stress"])
# ---------------- plasticity ----------------
p("Derived elastic constants are mutually consistent",
  "The constructor's bulk modulus, shear modulus and Lame constant satisfy k = lambda + 2 mu / 3 and are positive (lambda for nu > 0) for E > 0, -1 < nu < 1/2; so the plastic routine without plastic flow returns the same stress as the linear routine.",
  "all E, nu in the admissible range, all strains", "Real-parameter identity.",
  ["src/micro.cpp:micropp_t", "src/assembly.cpp:plastic_step", "src/assembly.cpp:get_stress3D"])
p("Plastic steps are admissible, dissipative and isochoric",
  "For mu > 0, Ka >= 0 and non-negative yield stress, the stress returned by a plastic step satisfies the yield inequality with the new hardening variable, the hardening variable never decreases, it stays unchanged exactly when no flow is flagged, and the trace of the plastic strain never changes.",
  "all strains, all previous internal variables", "Real-parameter inequality for all loads and histories.",
  ["src/assembly.cpp:plastic_step"])
p("Plastic flow returns the stress to the yield surface",
  "Whenever a plastic step flags flow, the returned stress lies on the yield surface of the updated hardening variable.",
  "all strains, internal variables, material constants with Ka >= 0", "Only Ka = 0 satisfies it; an example with perfect plasticity passes.",
  ["src/assembly.cpp:plastic_step"])
p("The returned stress is the elastic stress of the updated plastic strain",
  "After a plastic step the stress equals the elastic law applied to total strain minus the new plastic strain, so re-evaluating the same strain from the new internal variables gives the same stress.",
  "all strains (including shear), internal variables, constants", "Holds without shear; only shear loads expose the missing factor 2.",
  ["src/assembly.cpp:plastic_step", "src/assembly.cpp:get_stress3D"])
p("The nonlinear flag is raised exactly when some Gauss point yields",
  "assembly_rhs reports non-linear iff some Gauss point of some cell flows plastically.",
  "all displacement fields, internal variables, grids", "Requires a field in which only the first Gauss points of a cell yield.",
  ["src/assembly.cpp:assembly_rhs", "src/assembly.cpp:get_elem_rhs3D"])
p("Stress evaluation only writes the internal variables of plastic cells, and deterministically",
  "calc_ave_stress rewrites the trial internal variables of every Gauss point of every plastic cell as a function of the current displacements and committed variables only, and never writes those of non-plastic cells nor the committed variables.",
  "all grids, states and previous trial variables", "Frame property over all states.",
  ["src/assembly.cpp:calc_ave_stress", "src/assembly.cpp:get_stress3D"])
p("2D problems and problems without plastic phases are always linear",
  "In 2D, and in 3D without plastic phases, no load and no history of calls ever raises the nonlinear flag or creates internal variables.",
  "all 2D objects, all 3D objects without plastic phases, all call sequences", "Quantifies over all histories.",
  ["src/assembly.cpp:get_stress2D", "src/homogenize.cpp:homogenize", "src/micro.cpp:get_nl_flag"])
p("A damage material behaves as a linear one",
  "Material type 2 (damage) gives exactly the behaviour of material type 0.",
  "all states and strains", "Observational equivalence of two configurations.",
  ["src/micro.cpp:micropp_t", "src/assembly.cpp:get_material"])
# ---------------- API and histories ----------------
p("Gauss points form a keyed store",
  "For any sequence of set_macro_strain calls the stored strain of an id is the one of the last call with that id, ids never repeat, their order is the order of first use, and a call never affects another id.",
  "all sequences of calls and ids", "All histories.",
  ["src/homogenize.cpp:set_macro_strain"])
p("Queries of unknown Gauss points have no effect",
  "get_macro_stress, get_macro_ctan leave the caller's buffer unchanged for an id never set, get_nl_flag reports 0, and output writes no file; queries never change the object.",
  "all reachable states and ids", "All histories.",
  ["src/homogenize.cpp:get_macro_stress", "src/homogenize.cpp:get_macro_ctan", "src/micro.cpp:get_nl_flag", "src/output.cpp:output"])
p("Reading results before homogenising is reading uninitialised memory",
  "A Gauss point that was set but never homogenised has no defined stress or tangent: a query returns defined values only after a homogenize that completed after the id's first set_macro_strain.",
  "all call sequences", "Depends on order of calls over the whole history.",
  ["src/homogenize.cpp:set_macro_strain", "src/homogenize.cpp:get_macro_stress"])
p("Linear Gauss points get the precomputed tangent",
  "If a Gauss point has never been non-linear and its predicted stress invariant is below the threshold, homogenize returns exactly ctan_lin*strain and ctan_lin, without solving and without touching the displacement field.",
  "all states and strains; every scalar arithmetic", "All states.",
  ["src/homogenize.cpp:homogenize", "src/homogenize.cpp:is_linear"])
p("homogenize never changes the committed history",
  "homogenize keeps every id, every strain and the committed internal variables (absent counts as zero) of every Gauss point; only update_vars advances them.",
  "all reachable states, every arithmetic", "Frame property over all states.",
  ["src/homogenize.cpp:homogenize", "src/homogenize.cpp:update_vars"])
p("update_vars commits the state of the last homogenised strain",
  "After set_macro_strain, homogenize, update_vars, the committed internal variables of a Gauss point are those computed for its current strain by the last homogenize.",
  "all call sequences with any number of trial homogenize calls before update_vars", "Only a rejected non-linear trial followed by an elastic one exposes the stale copy.",
  ["src/homogenize.cpp:homogenize", "src/homogenize.cpp:update_vars"])
p("update_vars is idempotent and only touches committed variables",
  "Calling update_vars twice equals calling it once; it never changes strains, stresses, tangents, flags or ids.",
  "all states", "All states.",
  ["src/homogenize.cpp:update_vars"])
p("The nonlinear flag of a Gauss point is permanent",
  "get_nl_flag never goes back to 0 for an id, whatever calls follow; and once set the full problem is solved for that id at every homogenize.",
  "all call sequences", "All histories.",
  ["src/homogenize.cpp:homogenize", "src/micro.cpp:get_nl_flag"])
p("The threshold parameter controls the linear shortcut",
  "The linear/non-linear decision uses the threshold passed as micro_params[4].",
  "all constructor arguments and memory contents", "The constructor reads an uninitialised member; tests see whatever the allocator left there.",
  ["src/micro.cpp:micropp_t", "src/homogenize.cpp:is_linear"])
p("The linear shortcut is only taken when nothing yields",
  "If homogenize classifies a strain as linear then no Gauss point of the exact response yields.",
  "all strains and materials", "A pure-shear strain has zero trace and always passes the test.",
  ["src/homogenize.cpp:is_linear", "src/homogenize.cpp:get_inv_1"])
p("The Newton loop reports and limits its iterations",
  "newton_raphson performs at most 40 iterations, reports in its the number performed, and has no undefined behaviour.",
  "all states", "The defect (*its++) is undefined behaviour whose visible effect depends on neighbouring memory.",
  ["src/solve.cpp:newton_raphson"])
p("Newton returns a converged field when it stops by the residual test",
  "If newton_raphson returns with err below 1e-5, the residual of the returned displacement field has exactly that norm and the boundary values are those set before.",
  "all states, any number of iterations, any neighbouring memory", "Loop invariant.",
  ["src/solve.cpp:newton_raphson"])
p("Construction is defined by its arguments",
  "Two objects built from the same arguments have the same linear tangent, whatever the memory allocator returned.",
  "all arguments and all initial memory contents", "Depends on uninitialised memory that tests cannot control.",
  ["src/micro.cpp:micropp_t", "src/homogenize.cpp:calc_ctan_lin"])
p("Construction rejects or mishandles invalid arguments",
  "Construction completes only for a known dimension and microstructure type, arrays of at least the lengths it reads, and a known type of every material some cell has; otherwise it exits or is undefined. The type of a material that no cell has is not checked and has no effect.",
  "all arguments", "Undefined behaviour need not show in a test (the library's Fortran test triggers it).",
  ["src/micro.cpp:micropp_t", "test/test3d_3.f90"])
p("Cells are classified by their midpoint",
  "A cell is of type 1 exactly when its midpoint is inside the centred disc/sphere of the given radius (type 0 microstructure) or below the layer height (type 1); the classification has the mirror symmetries of the shape.",
  "all grids, sizes, radii and cells", "All geometries.",
  ["src/micro.cpp:get_elem_type2D", "src/micro.cpp:get_elem_type3D"])
# ---------------- output, wrapper, resources ----------------
p("VTU files are self-consistent",
  "write_vtu announces nn points and nelem cells and writes exactly that many; every cell line lists npe distinct valid points which are the corners of the cell whose data are written at the same position; offsets are the running totals.",
  "all grids", "All grid sizes.",
  ["src/output.cpp:write_vtu"])
p("Writing output does not change homogenised results",
  "output and write_info_files never change any strain, stress, tangent, flag, or committed variable of any Gauss point.",
  "all reachable states", "Frame property.",
  ["src/output.cpp:output", "src/output.cpp:write_info_files"])
p("Log files: one header, one record per call with one column group per Gauss point",
  "For any sequence of calls the convergence log has its header exactly once, before all records, and each write_info_files call appends one record with one group per Gauss point in order of first use, made of initialised values.",
  "all call sequences", "All histories; in 2D the strain/stress file prints uninitialised components.",
  ["src/output.cpp:write_info_files"])
p("The C/Fortran wrapper is the class behind one global object",
  "Every wrapper call before micropp_construct_ is undefined; after it, wrapper calls behave as the same calls on the object built by the most recent construct.",
  "all sequences of wrapper calls", "All histories.",
  ["src/wrapper.cpp"])
p("Destruction releases every buffer exactly once",
  "For any call history, the destructor frees each live buffer exactly once and leaves none allocated.",
  "all call sequences", "Leaks and double frees are not observable by value tests.",
  ["src/micro.cpp:~micropp_t", "src/ell.cpp:ell_free", "src/homogenize.cpp:homogenize"])
p("Index arithmetic does not overflow int",
  "Every int expression used to size or address the matrix stays within 32-bit int for all grids whose matrix has at most 2^31-1 entries; and the bound is tight.",
  "all grid sizes", "Overflow occurs only on grids of hundreds of millions of entries.",
  ["src/ell.cpp:ell_init_3D", "src/ell.cpp:ell_add_struct3D", "src/ell.cpp:ell_set_bc_3D"])
p("The second invariant is the second invariant",
  "get_inv_2 returns the second principal invariant of the symmetric tensor given in Voigt order.",
  "all tensors", "Diagonal tensors satisfy it; the sign of the shear terms is wrong.",
  ["src/homogenize.cpp:get_inv_2"])
p("Stress queries are a linear function of strain for linear objects",
  "In exact arithmetic the linear path of homogenize is additive and homogeneous in the macro strain.",
  "all strains and scalars", "Algebraic law.",
  ["src/homogenize.cpp:homogenize"])
p("Equilibrated states minimise the energy",
  "For linear materials, among all displacement fields with the boundary values of the macro strain the equilibrated one has the least strain energy (up to residual times distance when not fully converged); so the effective energy is at most that of the uniform strain field (Voigt bound).",
  "all grids, materials, strains and admissible fields", "An inequality over an infinite-dimensional family of fields.",
  ["src/assembly.cpp:assembly_rhs", "src/assembly.cpp:calc_ave_stress"])
p("Every macro strain has exactly one equilibrated state, with positive effective energy",
  "For linear materials with E > 0 and -1 < nu < 1/2 there is exactly one displacement field with the prescribed boundary values and zero residual, and the reported stress of a non-zero macro strain does positive work on it.",
  "all grids, materials and strains", "Existence and uniqueness for every grid and material distribution.",
  ["src/assembly.cpp:assembly_rhs", "src/assembly.cpp:assembly_mat", "src/assembly.cpp:calc_ave_stress"])
p("Committed variables are always initialised values",
  "The first commit of a Gauss point publishes internal variables that the solver wrote for that point.",
  "all objects and histories", "The values published for cells that are not plastic are whatever the allocator returned; a test sees some number.",
  ["src/micro.cpp:micropp_t", "src/homogenize.cpp:update_vars", "src/assembly.cpp:get_stress3D"])
p("For linear bodies the Newton loop needs one solve",
  "If no cell is plastic, the matrix is admissible and the grid is small enough for the conjugate-gradient budget, then the loop stops by the residual test after at most one linear solve.",
  "all linear bodies and all starting fields", "All grids and fields.",
  ["src/solve.cpp:newton_raphson", "src/ell.cpp:ell_solve_cgpd_struct"])
p("Cell fields are the cell averages",
  "calc_fields stores for every cell the average over its integration points of strain and of stress at the given displacement, and nothing of other cells.",
  "all grids, fields and committed variables", "All grids and fields.",
  ["src/assembly.cpp:calc_fields"])
p("Valid calls never read or write out of bounds",
  "From any object built with valid arguments, a call sequence fails only if a strain array is shorter than the number of components, results of a point never homogenised are read or logged (in 2D: logged at all), or the stray pointer read of the Newton loop fails or never ends; in particular no out-of-bounds access and no null dereference.",
  "all valid arguments and call sequences", "Memory errors need not be visible.",
  ["src/micro.cpp", "src/homogenize.cpp", "src/solve.cpp", "src/assembly.cpp", "src/ell.cpp"])
p("A converged response is an equilibrium state up to the tolerance",
  "If the response to a macro strain returns with err < 1e-5 then the displacement has the prescribed boundary values, the residual has norm err, and the reported stress is the average of the stresses of that displacement field.",
  "all bodies, strains and starting fields", "Composition of set_displ_bc, newton_raphson and calc_ave_stress.",
  ["src/homogenize.cpp:homogenize", "src/solve.cpp:newton_raphson"])
p("Grids without interior nodes respond exactly, without iteration",
  "If the grid has only two nodes in some direction, the response stops at once with err = 0, reports the material law at the macro strain in every cell, averaged, and flags plasticity iff some cell flows at its last integration point.",
  "all such grids, materials and strains", "All histories and materials.",
  ["src/homogenize.cpp:homogenize", "src/assembly.cpp:assembly_rhs"])
p("The linear tangent is the effective stiffness up to the solver tolerance",
  "For bodies without plastic cells every entry of the tangent the constructor computes is within an explicit bound (proportional to the Newton tolerance over the strain increment) of the stress of the exact equilibrium state for the unit strain; hence symmetric, and independent of the memory the object was built in, up to twice that bound.",
  "all admissible materials and grids up to 2000 unknowns", "Exact equilibrium of an arbitrary grid is not computable by a test.",
  ["src/homogenize.cpp:calc_ctan_lin"])
p("Constructing again through the wrapper releases the previous object",
  "The C and Fortran wrapper keeps one global object; a second construction releases everything the first one held.",
  "all sequences of wrapper calls and every heap", "A leak does not change any result; an unbounded number of constructions is needed to see it fail.",
  ["src/wrapper.cpp:micropp_construct_", "src/micro.cpp:~micropp_t"])
p("Sizes and indices of the buffers of the class do not overflow int",
  "The sizes of the displacement, force, element-field and internal-variable buffers and every index into them stay within 32-bit int for all grids whose matrix has at most 2^31-1 entries.",
  "all grid sizes", "Overflow occurs only on grids of tens of millions of cells.",
  ["src/micro.cpp:micropp_t", "include/micro.hpp:intvar_ix", "include/micro.hpp:glo_elem3D"])
p("A NaN strain component is never answered by numbers",
  "If a component of the last strain set for a Gauss point is NaN, every component of the stress and of the tangent that the next homogenize computes for it is NaN; in particular the linear shortcut is not taken.",
  "all objects computed with IEEE doubles, call sequences and NaN components", "A test would have to put a NaN in every component of every kind of body.",
  ["src/homogenize.cpp:homogenize", "src/homogenize.cpp:is_linear", "src/solve.cpp:newton_raphson"])
p("A NaN strain at one Gauss point does not change the answers for others",
  "The stress and tangent of a Gauss point do not depend on whether another Gauss point of the same object was homogenised with a NaN strain.",
  "all objects computed with IEEE doubles and call sequences", "The displacements are shared by all points and survive every later call.",
  ["src/homogenize.cpp:homogenize", "src/homogenize.cpp:set_displ_bc", "src/solve.cpp:newton_raphson"])
p("The element matrix is the exact strain energy of the interpolated displacement",
  "For a linear cell and any nodal displacements, the quadratic form of the element matrix equals the integral over the cell of the elastic energy density of the interpolated displacement, up to a relative error of 3e-15 from the fifteen digits of the Gauss coordinate.",
  "all grids, cell sizes, admissible materials and displacements", "An integral over a continuum is compared with a sum over eight points for all displacements; a wrong digit of the Gauss coordinate still gives plausible stiffness.",
  ["src/assembly.cpp:get_elem_mat3D", "src/assembly.cpp:get_elem_mat2D", "src/assembly.cpp:calc_bmat_3D"])
p("The invariant in the convergence log is the one that was decided with",
  "After homogenize, and any further calls but homogenize, the invariant the convergence log prints for a Gauss point is the absolute trace of the stress the linear tangent predicts for the strain that was homogenised, and the linear shortcut was open exactly when it is below the threshold.",
  "all objects and call sequences, for real arithmetic", "A log column is wrong silently; it has to be right after every call sequence.",
  ["src/homogenize.cpp:is_linear", "src/homogenize.cpp:homogenize", "src/output.cpp:write_info_files"])
p("The stress at a Gauss point is a monotone and no more than elastic function of the strain",
  "At a Gauss point with a given history, the work of the difference of two stresses on the difference of their strains is at least the elastic energy of the stress difference and at most the elastic energy of the strain difference.",
  "all bodies, histories with non-negative yield stress, materials and pairs of strains", "Quantifies over all pairs of strains on either side of the yield surface; a wrong radial return breaks it only for some pairs.",
  ["src/assembly.cpp:get_stress3D", "src/assembly.cpp:plastic_step"])
p("The perturbed tangent is bounded by the elastic tangent",
  "Every diagonal entry of the perturbed tangent of a plastic point lies between zero and the elastic entry and bounds the entries of its column; where nothing flows the tangent is the elastic one.",
  "all bodies, displacements, histories with non-negative yield stress and Gauss points", "The bound must hold also when the perturbation crosses the yield surface.",
  ["src/assembly.cpp:get_ctan_plast_pert"])
p("The homogenised stress of a plastic body does not depend on how equilibrium was reached",
  "Two equilibrium states with the same macro strain and history have the same stress at every Gauss point and report the same stress, states near equilibrium report stresses that differ by what the residual allows, and the macro stress is a monotone function of the macro strain no stiffer than the Voigt average.",
  "all bodies, materials, histories and pairs of states", "Compares all pairs of solutions of a nonlinear system.",
  ["src/assembly.cpp:assembly_rhs", "src/assembly.cpp:calc_ave_stress", "src/assembly.cpp:get_stress3D"])
p("A homogeneous plastic body answers the stress of its material",
  "A body of one plastic material with the same history at every Gauss point has an equilibrium state for every macro strain and every equilibrium state reports lz times the stress of one Gauss point at that strain.",
  "all grids, sizes, plastic materials, uniform histories and macro strains", "A test compares one strain on one grid; all equilibrium states have to be considered.",
  ["src/assembly.cpp:assembly_rhs", "src/assembly.cpp:calc_ave_stress", "src/assembly.cpp:get_stress3D"])
p("The tangents that get_elem_mat3D can be switched to are tangents of the stress",
  "get_ctan_plast_exact gives the derivative of the stress, and get_ctan_plast_sec the elastic tangent wherever the response is elastic.",
  "all bodies, displacements, histories and Gauss points", "Both functions are behind local switches that are off, so no test runs them.",
  ["src/assembly.cpp:get_ctan_plast_exact", "src/assembly.cpp:get_ctan_plast_sec", "src/assembly.cpp:get_elem_mat3D"])
p("The 3D test programs only fail in a Newton loop and print what they log",
  "For at least two nodes in each direction and a direction from 0 to 5, test3d_1 and test3d_7 only fail where a Newton loop does. Otherwise they return 0, print and log in every step the stress get_macro_stress gave them, log the strain of the loading history, and write one VTU file per step. Any direction is rejected or valid.",
  "all grids, numbers of steps, memory contents and arithmetics", "A test run is one grid and one length of the history.",
  ["test/test3d_1.cpp:main", "test/test3d_7.cpp:main"])
p("The 2D test program runs without undefined behaviour",
  "test2d_1 on at least two nodes in each direction runs to its end without reading memory that was not set.",
  "all grids, numbers of steps, memory contents and arithmetics", "Reading unset memory rarely shows in a run.",
  ["test/test2d_1.cpp:main", "src/output.cpp:write_info_files"])
p("The Fortran test program passes valid arguments",
  "The calls of test3d_3.f90 read no memory outside the arrays it passes.",
  "all memory contents and arithmetics", "A read past the end of an array rarely shows in a run.",
  ["test/test3d_3.f90:test3d_3", "src/micro.cpp:micropp_t"])
p("test3d_8 uses the two materials its source lists",
  "The second material of test3d_8 is the one of its initialiser (1e6, 0.3, 1e4, 0), and the program only fails where a Newton loop does.",
  "all grids, numbers of steps, memory contents and arithmetics", "The program prints averages, in which a layer without stiffness is not seen.",
  ["test/test3d_8.cpp:main", "src/micro.cpp:micropp_t"])
p("ell_print prints the matrix",
  "ell_print sends to cout the columns and the values row by row for every matrix of the library.",
  "all matrices, sizes and values", "No program of the repository calls the function.",
  ["src/ell.cpp:ell_print"])
p("A phase without stiffness does not spoil the answers",
  "With E = 0 in the second phase the nodes inside it move so that the residual drops below the tolerance, and homogenize gives a stress and a tangent without NaN.",
  "all grids, materials, calls and memory contents, in IEEE doubles", "test3d_8 has such a layer by accident; its standard output is not checked.",
  ["src/solve.cpp:newton_raphson", "src/ell.cpp:ell_solve_cgpd_struct", "src/homogenize.cpp:calc_ctan_lin", "test/test3d_8.cpp:main"])
p("Bodies with plastic cells have an equilibrium and one stress",
  "A body of linear and plastic cells has, from any history with positive yield stresses and for every macro strain, displacements with zero residual, and all of them report the same stress.",
  "all grids, sizes, admissible materials, histories with positive yield stresses and macro strains", "A test finds one approximate solution; that there is an exact one, with only one stress, is about all displacements.",
  ["src/assembly.cpp:assembly_rhs", "src/assembly.cpp:calc_ave_stress", "src/assembly.cpp:get_stress3D"])
p("The residual is the gradient of an energy",
  "The residual vanishes exactly at the displacements of least step energy with the given boundary values, a residual of norm n falls short of the least energy by at most n times a distance, and the reported stress is the slope of the least energy in the macro strain.",
  "all bodies with yield stresses that are not negative, all displacements and macro strains", "Compares the energy with that of all other displacements.",
  ["src/assembly.cpp:assembly_rhs", "src/assembly.cpp:calc_ave_stress", "src/assembly.cpp:get_stress3D", "src/assembly.cpp:set_displ"])
p("The equilibrium stress is Lipschitz in the macro strain",
  "From one history the stress of two equilibrium states differs in each component by at most lz times the largest modulus times the sum of the differences of the macro strains.",
  "all bodies, histories with yield stresses that are not negative, and pairs of macro strains", "Holds for all pairs of strains, with a constant that does not depend on the grid.",
  ["src/assembly.cpp:assembly_rhs", "src/assembly.cpp:calc_ave_stress", "src/assembly.cpp:get_stress3D"])
p("A small residual means a small error of the stress",
  "For every body, history with positive yield stresses and macro strain there are K and d such that displacements with residual norm n <= d report a stress within sqrt(K n) of the exact one and lie within K of the linear displacements.",
  "all bodies, histories, macro strains and displacements", "The Newton loop stops at a tolerance on the residual; the error of the stress is never seen.",
  ["src/assembly.cpp:assembly_rhs", "src/solve.cpp:newton_raphson", "src/assembly.cpp:calc_ave_stress"])
p("Committed hardening never decreases",
  "Along any sequence of calls on a constructed 3D object, at every plastic Gauss point of every stored point the committed hardening is never negative and never decreases, and the committed plastic strain has zero trace; so the history always has yield stresses that are not negative.",
  "all constructor arguments with admissible materials, all call sequences, converged or not", "An invariant of unbounded histories mixing failed solves, commits and changes of strain; tests run a few load steps.",
  ["src/homogenize.cpp:homogenize", "src/homogenize.cpp:update_vars", "src/assembly.cpp:get_stress3D"])
p("The stored stress is near the exact equilibrium stress",
  "For every stored point of every reachable 3D object there are an exact equilibrium stress s for its strain and committed history and bounds K, d such that a homogenize solving the full problem with reported error er below 1e-5 and d stores a stress within sqrt(K er) of s.",
  "all constructor arguments with admissible materials and positive yield stress, all call sequences, all solver runs", "The exact stress is not computed anywhere in the code.",
  ["src/homogenize.cpp:homogenize", "src/solve.cpp:newton_raphson", "src/assembly.cpp:calc_ave_stress"])
p("Without plastic phases every answer is near the exact effective stiffness",
  "On every 2D object, and every 3D object without plastic phases, homogenize returns after any calls, and each point with a strain e answers with flag 0, a stress whose component v is within (1e-5 + 1000 sum |e_i|) l of row v of the exact effective stiffness times e, and a tangent within 2000 l of that row, where l is the distance of the exact displacements for unit strain v from the linear ones, over the area of the cell.",
  "all admissible constructor arguments with fewer than 2000 unknowns, all call sequences, all strains", "The exact effective stiffness of the discrete body is not computed anywhere in the code.",
  ["src/homogenize.cpp:homogenize", "src/homogenize.cpp:calc_ctan_lin", "src/solve.cpp:newton_raphson", "src/assembly.cpp:calc_ave_stress"])
p("VTU files are well-formed XML",
  "The characters of the file an output call writes, ints in decimal and doubles in any spelling with digits, signs, points, e, inf and nan, form one well-formed XML document with a fixed tree of elements and attributes; the Piece counts are those of the grid and each data array holds exactly its numbers, none run together.",
  "all reachable objects and output calls, 2D and 3D, all spellings of doubles", "Covers every grid, field value and spelling of a number, inf and nan included; a viewer test opens a few files.",
  ["src/output.cpp:write_vtu", "src/output.cpp:output"])
p("Explicit bounds from the strains and the stiffness",
  "On every grid displacements that vanish on the boundary are bounded by the strains computed from them (cell volume times their squared norm is at most 5 lx^2, in 2D 8/5 lx^2, times the integral of twice the squared strain); hence the assembled matrix stretches every such update by at least m cellvolume / (10 lx^2), two displacement fields for one strain differ by at most 10 lx^2 / (m cellvolume) times the sum of their residuals, and exact displacements stay within an explicit distance of the linear ones, m and M bounding the moduli of the cells.",
  "all grids, boxes, displacement fields, material layouts with bounded moduli", "A constant that holds for all grids and all fields at once; a test sees the matrix of one grid.",
  ["src/assembly.cpp:get_strain2D", "src/assembly.cpp:get_strain3D", "src/assembly.cpp:assembly_mat", "src/assembly.cpp:assembly_rhs"])
p("Every answer is within an explicit distance of one effective stiffness",
  "Every 2D object, and every 3D object without plastic phases, has one symmetric effective stiffness K, the response of exact equilibrium; after any calls homogenize returns, and ly times the error of the stress is at most (1e-5 + 1000 sum |e_i|) c, that of the tangent at most 2000 c, with c = sqrt(10 cells M / m) (in 2D 4 for 10) from bounds m, M of the moduli given to the constructor.",
  "all admissible constructor arguments with fewer than 2000 unknowns, all call sequences, all strains", "The exact effective stiffness is not computed anywhere in the code, and the bound holds for all arguments.",
  ["src/homogenize.cpp:homogenize", "src/homogenize.cpp:calc_ctan_lin", "src/solve.cpp:newton_raphson", "src/assembly.cpp:calc_ave_stress"])
p("Scalar products and matrix rows in IEEE doubles",
  "In IEEE doubles rounded to nearest, a finite scalar product of n entries differs from the exact one of the same doubles by at most ((1+2^-53)^(n+1) - 1)(sum |a_i||b_i| + n 2^-1022), and a row of the matrix-vector product likewise.",
  "all arrays of doubles and all lengths", "The exact values are not doubles, and no test covers all arrays.",
  ["src/ell.cpp:ell_mvp_2D", "src/ell.cpp:ell_solve_cgpd_2D", "src/ell.cpp:ell_solve_cgpd_struct"])
p("The solver's error estimate in IEEE doubles",
  "In doubles the solver runs the recurrences of preconditioned conjugate gradients; if it stops before its budget with a finite vector, the reported error is below the tolerance and the true residual of the returned vector exceeds the reported one by at most the roundings of the norm and k+1 times those of one step, given by the sizes of the matrix rows, the iterates and the residuals.",
  "all matrices, right-hand sides, starts, budgets and tolerances of doubles", "The true residual of the returned doubles is not computed by the code: its recurrence drifts away from it.",
  ["src/ell.cpp:ell_solve_cgpd_struct", "src/ell.cpp:ell_solve_cgpd_2D", "src/ell.cpp:ell_mvp_2D"])
p("The geometry in IEEE doubles",
  "With side lengths from 2^-400 to 2^400 the class a cell gets in doubles is the class of its exact centre unless that is within 4 roundings of the layer's boundary, or its squared distance within 64 roundings of the squared sides (and 2 of the squared radius) of the squared radius; so a geometry symmetric in exact arithmetic is symmetric in doubles.",
  "all sizes up to 2^53 nodes a side, all side lengths in that range, all radii and widths", "Needs every size and every double.",
  ["src/micro.cpp:get_elem_type2D", "src/micro.cpp:get_elem_type3D"])
p("The strains of the test programs in IEEE doubles",
  "After k steps the strain of the test programs is the exact multiple of 1/100 up to 1.2 (k+1) 2^-53 (k/100), and is zero where that is zero.",
  "all numbers of steps up to 2^31", "A test prints six digits, which hide the difference.",
  ["test/test3d_1.cpp:main", "test/test2d_1.cpp:main", "test/test3d_8.cpp:main"])
p("Residuals and averages in IEEE doubles",
  "On a body of moderate data (in 3D without plastic phases) the residual, the average stress and the average strain that the code computes in doubles of a field up to 2^299 are finite, and differ from what the same code computes in real numbers on the exact body, for any reals near the field, by at most a fixed number of roundings of the largest term.",
  "all grids, box sizes, materials and fields of doubles in wide ranges", "The exact values are not doubles; the bound covers every field and grid.",
  ["src/assembly.cpp:assembly_rhs", "src/assembly.cpp:calc_ave_stress", "src/assembly.cpp:calc_ave_strain", "src/assembly.cpp:get_elem_rhs3D"])
p("An accepted equilibrium in IEEE doubles",
  "If the Newton loop in doubles ends with its error below 1e-5, the displacements and stresses are finite, the error is that of the returned displacements, and near them is a field of the exact body with the same boundary data, residual at most the error plus roundings and stress within roundings of the computed one.",
  "all fair bodies whose refinement and contrast of moduli are not too large for the precision (an explicit inequality), macro strains up to 2^100, solver runs and starting memory", "The exact residual of the computed displacements is not available to the code or to a test.",
  ["src/solve.cpp:newton_raphson", "src/assembly.cpp:set_displ", "src/assembly.cpp:assembly_rhs", "src/assembly.cpp:calc_ave_stress"])
p("Every accepted answer in IEEE doubles is near one effective stiffness",
  "For every object of doubles without plastic phases there is one symmetric matrix K, the effective stiffness of the exact body, such that after any calls every stress that homogenize stores with an error below 1e-5 is finite and differs from K times the strain by at most an explicit amount made of that error and of roundings.",
  "all constructor arguments in wide ranges whose refinement and contrast of moduli are not too large for the precision (an explicit inequality), all call sequences, all strains up to 2^100, all solver runs", "K is not computed anywhere, and rounding errors of a whole run cannot be measured by running it.",
  ["src/homogenize.cpp:homogenize", "src/solve.cpp:newton_raphson", "src/assembly.cpp:calc_ave_stress", "src/micro.cpp:micropp"])
p("The tangents of solved points in IEEE doubles",
  "For every object of doubles without plastic phases, with K the effective stiffness of the exact body: after any calls, every entry of the tangent of a point that homogenize solves, whose two stored errors are below 1e-5, is finite and differs from the entry of K by at most the gaps of its two stresses divided by the step 1e-8, the rounding of the moved strain divided by the step, and two roundings.",
  "all constructor arguments in wide ranges whose refinement and contrast of moduli are not too large for the precision (an explicit inequality), all call sequences, all strains up to 2^99, all solver runs", "A difference quotient with step 1e-8 amplifies errors by 1e8; how far it can be from the exact tangent needs a bound over all strains.",
  ["src/homogenize.cpp:homogenize", "src/solve.cpp:newton_raphson", "src/assembly.cpp:calc_ave_stress"])
p("The linear tangent and the shortcut in IEEE doubles",
  "In doubles every column of the linear tangent whose solve the constructor accepted is finite and is that of K up to the gap of its stress divided by the step 1e-8 and one rounding; when all columns were accepted, every point that takes the shortcut returns finite stresses that are K times its strain up to those gaps and seven roundings.",
  "the same arguments, all call sequences, all strains up to 2^60", "The exact tangent is not available to a test, and the errors of the constructor's solves are not stored anywhere.",
  ["src/homogenize.cpp:calc_ctan_lin", "src/homogenize.cpp:homogenize", "src/homogenize.cpp:is_linear"])
p("The text of the matrix product multiplies",
  "The syntax tree of ell_mvp_2D, run in exact arithmetic on any well-formed matrix in memory, stores the dense matrix times x in y and changes nothing else; in every arithmetic its outcome, errors included, is that of the model.",
  "all matrices, vectors, addresses and memories", "Ties the program text itself, statement by statement, to the function that the other claims are about, for every input.",
  ["src/ell.cpp:ell_mvp_2D"])
p("The text of the conjugate gradient solvers is truthful and leaves no memory behind",
  "The syntax trees of ell_solve_cgpd_2D and ell_solve_cgpd_struct, run in exact arithmetic from any memory holding a well-formed matrix and vectors, return 0; if the stored count is below the budget the stored error is below the tolerance and is the residual of the stored answer; every other address is as before, so everything allocated was released. In every arithmetic the outcome is that of the model. With a NULL matrix, right-hand side or answer they return 1 and change nothing.",
  "all matrices, right-hand sides, starting points, budgets, tolerances, addresses and memories", "Memory left behind is invisible to a test of results; the loop of the text is covered for every number of iterations.",
  ["src/ell.cpp:ell_solve_cgpd_2D", "src/ell.cpp:ell_solve_cgpd_struct"])
p("The text of the Jacobi solver leaves exactly its two arrays behind",
  "The syntax tree of ell_solve_jacobi_2D has the outcome of the model in every arithmetic; whenever it returns, the arrays k and e_i are still allocated (a leak), and every other address but the answer and the results is as before.",
  "all matrices, right-hand sides, starting points, budgets, tolerances, addresses and memories", "A leak does not change any result.",
  ["src/ell.cpp:ell_solve_jacobi_2D"])
p("The life of a matrix by the program text",
  "From any memory with an unset ell_matrix struct, the calls ell_init_3D, ell_set_zero_mat, ell_add_struct3D once for each listed cell, ell_mvp_2D and ell_free, run as syntax trees in exact arithmetic, all end without error; the vector computed is the sum of the element operators applied to x; the two arrays of the matrix are released and all other memory of the caller is as before.",
  "all grids, numbers of fields, element matrices, lists of cells, vectors, addresses and memories", "Every grid and list of cells at once, on the text of the functions.",
  ["src/ell.cpp:ell_init_3D", "src/ell.cpp:ell_set_zero_mat", "src/ell.cpp:ell_add_struct3D", "src/ell.cpp:ell_mvp_2D", "src/ell.cpp:ell_free"])
p("The texts that build and fill matrices do what the model says",
  "In every arithmetic the syntax trees of ell_set_zero_mat, ell_set_bc_2D, ell_set_bc_3D, ell_add_struct2D and ell_add_struct3D leave in the array of values what the model computes and change nothing else allocated before, and those of ell_init_2D and ell_init_3D fill the struct with two new arrays as the model says; an error of the one is an error of the other.",
  "all sizes (also invalid ones), matrices, element matrices, addresses and memories", "The 1000 lines of index arithmetic of ell_init_3D are covered for every grid size.",
  ["src/ell.cpp:ell_init_2D", "src/ell.cpp:ell_init_3D", "src/ell.cpp:ell_set_bc_2D", "src/ell.cpp:ell_set_bc_3D", "src/ell.cpp:ell_add_struct2D", "src/ell.cpp:ell_add_struct3D", "src/ell.cpp:ell_set_zero_mat"])
p("A matrix can be released once",
  "The syntax tree of ell_free releases the two arrays of the matrix and nothing else and leaves the fields of the struct pointing at them; a second call on the same struct frees memory that is already free.",
  "all matrices, addresses and memories", "A double free may go unnoticed at run time.",
  ["src/ell.cpp:ell_free"])
p("The text of the material law",
  "The syntax trees of get_stress3D, plastic_step and get_material, run from any memory that holds the object: at a Gauss point of a linear cell the isotropic stress of the strain is stored, the flag is cleared and the history is untouched; at any Gauss point the stresses stored by two calls with the same history respond monotonically to the strains and no more than elastically (exact arithmetic); in every arithmetic the stress, the flag and the new internal variables are those of the model wherever the model answers, and no other allocated memory changes.",
  "all bodies, cells, Gauss points, strains, histories, addresses and memories", "All memories and all histories, on the text of the functions.",
  ["src/assembly.cpp:get_stress3D", "src/assembly.cpp:plastic_step", "src/assembly.cpp:get_dev_tensor", "src/assembly.cpp:get_material"])
p("The text of the strain",
  "The syntax trees of get_strain3D, calc_bmat_3D and getElemDisp store the symmetric gradient, at the Gauss point, of the displacement interpolated trilinearly in the cell, and change nothing else (exact arithmetic); in every arithmetic they store what the model computes.",
  "all bodies, cells, Gauss points, displacements, addresses and memories", "The derivative is of the interpolated field, for every displacement.",
  ["src/assembly.cpp:get_strain3D", "src/assembly.cpp:calc_bmat_3D", "src/assembly.cpp:getElemDisp"])
p("The text of the residual of a cell",
  "The syntax tree of get_elem_rhs3D stores nodal forces whose work on the nodal values of any displacement field is the work of the stresses of the cell on the strains of that field, plastic cells included (exact arithmetic); in every arithmetic the forces, the flag and the new internal variables are those of the model wherever the model answers, and no other allocated memory changes.",
  "all bodies, cells, displacements, histories, virtual fields, addresses and memories", "Every virtual field at once.",
  ["src/assembly.cpp:get_elem_rhs3D"])
p("The text of the matrix of a cell",
  "The syntax tree of get_elem_mat3D stores, for a linear cell, a symmetric matrix whose quadratic form is the exact integral of the strain energy of the interpolated displacement up to a relative error of 3e-15 (exact arithmetic), and leaves all other memory as it was; in every arithmetic the matrix of any cell, by the finite-difference tangent of get_ctan_plast_pert in plastic cells, is that of the model wherever the model answers.",
  "all bodies, cells, displacements, histories, addresses and memories", "The energy is an integral over a continuum of points.",
  ["src/assembly.cpp:get_elem_mat3D", "src/assembly.cpp:get_ctan_plast_pert"])
p("The text of the residual of a body",
  "The syntax tree of assembly_rhs (3D), run from any memory that holds the object, stores in b the residual: zero at the faces, and for every field that vanishes on the faces minus the virtual work of the stresses on its strains; it returns the Euclidean norm of b, sets the flag exactly when the last Gauss point of some cell flows, and changes only b, the flag and the new internal variables (exact arithmetic, plastic cells included). In every arithmetic with 0.0 equal to 0 it stores and returns what the model computes.",
  "all 3D bodies, displacements, histories, virtual fields, addresses and memories", "All grid sizes and all virtual fields, on the loops of the text.",
  ["src/assembly.cpp:assembly_rhs"])
p("The text of the matrix of a body",
  "The syntax tree of assembly_mat (3D) on a linear body leaves in memory a symmetric matrix, positive definite on the fields that vanish on the faces and injective, and changes only the values of the matrix; the residual that the text of assembly_rhs stores after an increment is the one before minus this matrix times the increment (exact arithmetic). In every arithmetic it stores what the model computes, plastic cells and plane bodies included.",
  "all 3D bodies, displacements, histories, increments, addresses and memories", "Definiteness is a statement about all vectors.",
  ["src/assembly.cpp:assembly_mat", "src/assembly.cpp:assembly_rhs"])
p("The text of the solver call",
  "The syntax tree of solve (3D): from the residual and the matrix left by the texts of assembly_rhs and assembly_mat on a linear body with fewer than 2000 unknowns and a zero start, it stores an increment that vanishes on the faces and solves the system up to 1e-8, and changes nothing else (exact arithmetic); in every arithmetic it stores what the model computes.",
  "all 3D bodies, displacements, addresses and memories", "The number of iterations is bounded for all systems at once.",
  ["src/solve.cpp:solve"])
p("The text of the Newton loop",
  "The syntax tree of newton_raphson (3D) with a plain int behind its, as its callers have it, ends if the residual at entry is below 1e-5, changing only the residual, the flag, the new internal variables and the outputs; otherwise its loop condition, after `*its++` has moved the pointer, reads outside that int. Every linear body with a node inside has a displacement of a single degree of freedom from which every call does so. Where an int below 40 lies behind it, a call on a linear body with fewer than 2000 unknowns ends with a residual below 1e-5 and the displacements of the faces kept. In every arithmetic the text stores what the model computes.",
  "all 3D bodies, object states, addresses and memories", "The stray read gives plausible results on most machines.",
  ["src/solve.cpp:newton_raphson"])
p("The text of set_displ",
  "The syntax tree of set_displ, run from any memory that holds the object (2D or 3D), gives every node of the boundary the displacement that the prescribed strain prescribes there, leaves the displacements of interior nodes and all other memory as they were (exact arithmetic); in every arithmetic with 0.0 equal to 0 it stores what the model computes.",
  "all bodies, strains, displacements, addresses and memories", "All grid sizes, on the loops of the text; a missed edge or corner shows only on some grid.",
  ["src/assembly.cpp:set_displ"])
p("The text of the average strain",
  "Running the syntax tree of set_displ and then that of calc_ave_strain (3D) stores lz times the prescribed strain whatever the displacements inside the body were, and changes only the displacements and the average (exact arithmetic); in every arithmetic the text stores what the model computes.",
  "all 3D bodies, strains, interior displacements, addresses and memories", "A discrete divergence theorem for all interiors.",
  ["src/assembly.cpp:calc_ave_strain", "src/assembly.cpp:set_displ"])
p("The text of the average stress",
  "The syntax tree of calc_ave_stress (3D) stores lz times the volume average of the stresses at the Gauss points, linear or plastic, and changes only the average and the new internal variables; after the text of set_displ, on a body of one linear material, that is lz times Hooke's law of the prescribed strain whatever the displacements inside were (exact arithmetic). In every arithmetic the text stores what the model computes.",
  "all 3D bodies, displacements, histories, addresses and memories", "All interior displacements at once.",
  ["src/assembly.cpp:calc_ave_stress"])
p("The text of the cell fields",
  "The syntax tree of calc_fields (3D) stores for every cell, in elem_strain and elem_stress, the means over its eight Gauss points of the strains and of the stresses, and changes nothing else but the new internal variables (exact arithmetic); in every arithmetic it stores what the model computes.",
  "all 3D bodies, displacements, histories, cells, addresses and memories", "A wrong stride shows only on some grid.",
  ["src/assembly.cpp:calc_fields"])
p("The text of strain and stress in a plane cell",
  "The syntax tree of get_strain2D, run from any memory that holds the object, stores the symmetric gradient of the bilinear displacement at the Gauss point; that of get_stress2D stores the in-plane part of Hooke's law of a strain without components out of the plane, with the Lame constants of an admissible material, and clears the flag; neither changes other memory (exact arithmetic). In every arithmetic they store what the model computes wherever it answers.",
  "all plane bodies, cells, displacements, strains, addresses and memories", "All memories, on the statements of the text.",
  ["src/assembly.cpp:get_strain2D", "src/assembly.cpp:get_stress2D", "src/assembly.cpp:getElemDisp"])
p("The text of residual and matrix of a plane cell",
  "The syntax tree of get_elem_rhs2D stores the forces whose work on the nodal values of any field is the work of the stresses of the cell on the strains of that field; that of get_elem_mat2D stores a symmetric matrix whose quadratic form is the exact integral of the strain energy of the interpolated displacement up to a relative error of 2e-15; neither changes other memory, the flag apart (exact arithmetic). In every arithmetic they store what the model computes wherever it answers.",
  "all plane bodies, cells, displacements, virtual fields, addresses and memories", "All fields at once, and an integral over a continuum of points.",
  ["src/assembly.cpp:get_elem_rhs2D", "src/assembly.cpp:get_elem_mat2D"])
p("The text of the residual assembly of a plane body",
  "The syntax tree of assembly_rhs, run from any memory that holds a plane body, stores a residual that is zero on the edges and whose work on every field that vanishes on the edges is minus the work of the stresses; it returns the Euclidean norm of that residual, clears the flag, and changes only the residual and the flag (exact arithmetic). In every arithmetic it stores what the model computes (see C118).",
  "all plane bodies, displacements, virtual fields, addresses and memories", "All grids and all virtual fields at once.",
  ["src/assembly.cpp:assembly_rhs"])
p("The text of the matrix assembly of a plane body",
  "The syntax tree of assembly_mat on a plane body leaves in memory a matrix symmetric between the degrees of freedom of interior nodes, positive definite on the fields that vanish on the edges and injective, and changes only the values of the matrix; the residual that the text of assembly_rhs stores after an increment is the one before minus this matrix times the increment (exact arithmetic).",
  "all plane bodies, displacements, increments, addresses and memories", "Definiteness is a statement about all vectors.",
  ["src/assembly.cpp:assembly_mat", "src/assembly.cpp:assembly_rhs"])
p("The text of the solver call on a plane body",
  "The syntax tree of solve: from the residual and the matrix left by the texts of assembly_rhs and assembly_mat on a plane body with fewer than 2000 unknowns and a zero start, it stores an increment that vanishes on the edges and solves the system up to 1e-8, and changes nothing else (exact arithmetic).",
  "all plane bodies, displacements, addresses and memories", "The number of iterations is bounded for all systems at once.",
  ["src/solve.cpp:solve"])
p("The text of the Newton loop on a plane body",
  "The syntax tree of newton_raphson on a plane body with a plain int behind its, as its callers have it, ends if the residual at entry is below 1e-5; otherwise its loop condition reads outside that int. Every plane body with a node inside has a displacement of a single degree of freedom from which every call does so. Where an int below 40 lies behind it, a call on a body with fewer than 2000 unknowns ends with a residual below 1e-5 and the displacements of the edges kept (exact arithmetic).",
  "all plane bodies, object states, addresses and memories", "The stray read gives plausible results on most machines.",
  ["src/solve.cpp:newton_raphson"])
p("The text of the average strain of a plane body",
  "Running the syntax tree of set_displ and then that of calc_ave_strain on a plane body stores the prescribed strain whatever the displacements inside were, and changes only the displacements and the average (exact arithmetic; no factor lz here, unlike C123); in every arithmetic the text stores what the model computes.",
  "all plane bodies, strains, interior displacements, addresses and memories", "A discrete divergence theorem for all interiors.",
  ["src/assembly.cpp:calc_ave_strain", "src/assembly.cpp:set_displ"])
p("The text of the average stress of a plane body",
  "The syntax tree of calc_ave_stress on a plane body stores the average over the area of the stresses at the Gauss points and changes nothing else; after the text of set_displ, on a body of one admissible material, that is Hooke's law (plane strain) of the prescribed strain whatever the displacements inside were (exact arithmetic). In every arithmetic the text stores what the model computes.",
  "all plane bodies, displacements, addresses and memories", "All interior displacements at once.",
  ["src/assembly.cpp:calc_ave_stress"])
p("The text of the cell fields of a plane body",
  "The syntax tree of calc_fields on a plane body stores for every cell, in elem_strain and elem_stress, the means over its four Gauss points of the strains and of the stresses, and changes nothing else (exact arithmetic); in every arithmetic it stores what the model computes.",
  "all plane bodies, displacements, cells, addresses and memories", "A wrong stride shows only on some grid.",
  ["src/assembly.cpp:calc_fields"])
p("The text of the linear tangent",
  "Running the syntax tree of calc_ctan_lin, with those of set_displ, newton_raphson and calc_ave_stress it calls, on the arrays of an object leaves the working arrays and the tangent ctan_lin the model computes, whenever the model's run ends without reading an int behind a local, and changes nothing else; run on the arrays the constructor has just allocated it leaves those of the built object. In every arithmetic, in 2D and in 3D.",
  "all bodies, contents, addresses and memories", "Every column runs a Newton loop on what the one before left.",
  ["src/homogenize.cpp:calc_ctan_lin", "src/micropp.cpp:micropp_t"])
p("The text of the linearity test",
  "The syntax tree of is_linear, with that of get_inv_1 it calls, returns the model's answer, raises inv_max as the model does and changes nothing else; the trees of get_inv_1 and get_inv_2 return the model's values and store nothing, 0.0 / 0.0 for the second invariant of a plane body. In every arithmetic, in 2D and in 3D.",
  "all tangents, strains, tolerances, addresses and memories", "All tangents and strains at once.",
  ["src/homogenize.cpp:is_linear", "src/homogenize.cpp:get_inv_1", "src/homogenize.cpp:get_inv_2"])
p("The text of homogenize at a linear point",
  "Running the syntax tree of one pass of the loop of homogenize, with those of the functions it calls, on a Gauss point in the linear range ends and leaves the stress, tangent, iteration counts, errors and inv_max of the model's point, the old variables of the model's working arrays and the object's inv_max, and changes nothing else. Over a whole list of such points the loop leaves the answers of the model's list. In every arithmetic, in 2D and in 3D.",
  "all bodies, points, contents, addresses and memories with the point in the linear range", "All tangents, strains and memories at once.",
  ["src/homogenize.cpp:homogenize", "src/homogenize.cpp:is_linear"])
p("The text of update_vars",
  "Running the syntax tree of one pass of the loop of update_vars copies the trial variables of a Gauss point over its old ones, as the model does, and changes nothing else; a point without variables is left alone. Over the whole list the loop leaves the variables of the model's list. In every arithmetic, in 2D and in 3D.",
  "all bodies, points, contents, addresses and memories", "All contents and memories at once.",
  ["src/homogenize.cpp:update_vars"])
p("The text of the getters",
  "Running the syntax trees of the bodies of the loops of get_macro_stress and get_macro_ctan over the entries of a list of Gauss points, up to the first break, copies the stress or the tangent of the first point with the id to the caller's buffer, as the model answers, and changes nothing else; without such a point nothing changes. In every arithmetic, in 2D and in 3D.",
  "all lists, ids, contents, buffers, addresses and memories", "All lists and memories at once.",
  ["src/homogenize.cpp:get_macro_stress", "src/homogenize.cpp:get_macro_ctan"])
p("The text of get_nl_flag",
  "Running the syntax tree of what get_nl_flag does before its loop and then that of the body of its loop over the entries of a list of Gauss points, up to the first break, leaves in the caller's variable 1 if the first point with the id has old variables and 0 otherwise, whatever it held before, and changes nothing else. In every arithmetic.",
  "all lists, ids, addresses and memories", "All lists and memories at once.",
  ["src/micro.cpp:get_nl_flag"])
out = os.path.join(os.path.dirname(os.path.abspath(__file__)), "..", "properties.jsonl")
with open(out, "w") as f:
    for x in P:
        f.write(json.dumps(x, ensure_ascii=False) + "\n")
print(len(P))
