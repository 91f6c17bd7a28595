# Formal model of micropp in Rocq: design and trusted base

Source: `/repo` (C++), read as text. The model and its proofs are in
`rocq/theories`, logical prefix `Verif`. The properties are in
`properties.jsonl`; what is proved of each is in `MANIFEST.json`.

## 1. How the code is modelled

* **Scalars.** Every `double` expression is written once over a class `Ops T`
  (`Scalar.v`): `ofZ, +, -, *, /, opp, sqrt, fabs, <`. Expressions keep the
  association and the order of the C++ source. A decimal literal is
  `ofZ m / ofZ 10^e`.
  * Theorems quantified over every `Ops T` use no law of arithmetic. They hold
    for real numbers and for IEEE doubles alike.
  * Theorems that need algebra are stated at the instance `ROps` on the standard
    library's `R`. They are claims about exact arithmetic and say nothing about
    rounding.
  * `F64` (`FloatInst.v`) is IEEE 754 binary64 with rounding to nearest even,
    built on the standard library's `SpecFloat`. These are ordinary Coq functions:
    no primitive floats and no axioms about floats. All NaNs are one value
    (no payload); no fused multiply-add and no extended precision. It is used by
    C74 and C75 and is an instance of every theorem over all `Ops T`.
  * `B64` (`BinInst.v`) is the same arithmetic on Flocq's `binary_float 53 1024`,
    proved to agree with `F64` operation by operation (C99). C99-C107 bound its
    rounding errors against exact arithmetic on the same doubles.
  * `FixInst.v` is a fixed-point arithmetic for running the model on examples. No
    theorem rests on it.
* **Memory.** A heap array is a length plus a partial map from indices to values
  (`Base.v`). Reading or writing outside the length is the outcome `Err OOB`,
  reading a cell never written is `Err Uninit`. `malloc` gives cells that were
  never written and never fails. Where the code reads memory it did not write
  (the constructor reads `micro_params[4]`, `u`, `vars_old` and `vars_new`), the
  model takes an explicit argument `junk`: a missing entry is the strict C++
  reading (undefined), a present one is "the memory held this value".
* **Outcome.** `res A = Ok a | Err e` with `e` among `OOB`, `Uninit`, `NullDeref`,
  `BadPtr` (a pointer that left its object), `Abort` (a failed `assert`) and
  `Fuel` (the model's own step budget, never a behaviour of the code).
* **Loops.** Counting loops are folds over index lists in program order. Loop
  nests that only store are lists of stores run by a checked interpreter
  (`run_stores`); accumulations are lists of `(address, delta)`. The CG and
  relaxation loops recurse on their own iteration budget, which is proved to be
  enough. The Newton loop takes fuel as a parameter.
* **The Newton counter.** `newton_raphson` increments the pointer `its` instead of
  the value it points to, so its loop condition reads the memory behind a local
  variable. That memory is an oracle argument `peek`: for the k-th read it gives
  a value or an error. `strict` makes every such read an error. Theorems hold for
  every oracle unless they name one.
* **Local arrays** (`double x[6]`) are lists built by `ltab` and read by `lget`.
  A read outside gives 0 instead of an error; every index in the model is a
  literal loop bound below the declared size.
* **Integers** are `Z`. Overflow of `int` is a separate model (`IntModel.v`):
  each index expression is a syntax tree whose every sub-expression must fit in
  32 bits (C60, C73).
* **Files** are lists of tokens: strings, integers, doubles, line ends
  (`OutputModel.v`). How a number is printed is not modelled.
* **malloc and free** are a ledger of live blocks (`LedgerModel.v`) carried along
  by copies of the functions; erasing the ledger is proved to give the functions
  back (C59, C72).
* **Callers** pass arrays as lists; reading past the end of one is `OOB`. A host
  program is a list of calls (`run` on one object, `wrun` through the wrapper).
* **The column tables** of `ell_init_2D/3D` (9 + 27 blocks) are generated from the
  source text by `tools/gen_init.py` into `InitTables.v`.

Every definition of a model file carries a comment with the file and lines it
models. The theorems of the `Props_*.v` files are stated in terms of the model
functions and of the vocabulary in `EllSpec.v`, `AsmSpec.v` and `ApiSpec.v`,
which is written from the meaning of the properties and not from the code.

## 2. Proof ideas by group

| ids | modelled | proof idea |
|---|---|---|
| C01 | index formulas | mixed-radix uniqueness |
| C02-C04, C06 | `ell_init_2D/3D` as generated store tables | last-write lemma per region, finite check of the table against the neighbour specification |
| C05, C06 | `ell_add_struct*`, `ell_set_zero_mat`, `ell_mvp_2D` | a cell holds the sum of the deltas addressed to it; exchange of sums |
| C07-C10 | `ell_set_bc_*` | last-write characterisation per class of node |
| C11-C17 | the CG loop on arrays | invariant r = A x - b; support invariant; conjugacy; dimension argument |
| C18 | `ell_solve_jacobi_2D` | loop invariant; ledger |
| C19 | `set_displ` | last-write characterisation |
| C20-C24 | strains, stresses, averages | field arithmetic, discrete divergence theorem by telescoping |
| C25-C31, C63, C64 | element matrices, residual, assembly | finite sums, energy identity, Korn-type argument cell by cell |
| C32-C39 | constructor constants, `plastic_step`, `get_stress*` | real algebra |
| C40-C47, C56, C65, C68 | calls on an object | invariants over call sequences, for every arithmetic and every oracle |
| C48-C53, C70, C71 | constructor, Newton loop | case analysis, exact computation on thin grids, energy bounds |
| C54, C67 | cell classification, cell fields | real algebra |
| C55, C57 | output as token lists | reading the file back |
| C58, C59, C72 | wrapper, ledger | simulation, permutation of live blocks |
| C60, C73 | `int` expressions | interval bounds on every sub-expression |
| C61, C62, C77 | invariants, linear path | algebra, unfolding along the history of calls |
| C66, C69 | Newton loop on linear bodies, reported error | exactness of one solve |
| C74, C75 | IEEE doubles | an absorbing value spreads through every sum and is below nothing |
| C76 | element matrix | the Gauss rule integrates the energy density exactly |
| C78-C82 | plastic stress and tangents | the return mapping is a projection on a convex set |
| C83-C86 | the programs of `test/` | their loop is a call sequence on an object, then the object properties |
| C87 | `ell_print` | reading the rows back |
| C88 | IEEE doubles, a phase with E = 0 | zero stiffness row and zero residual give 1/0 * 0 in the preconditioner |
| C89-C92 | plastic equilibrium as a minimum | convexity of the step energy, compactness, Korn on the grid |
| C93-C94 | committed histories of objects under any calls, accuracy of the stored stress | invariant over the calls: growth from committed to trial variables |
| C95 | objects without plastic phases answer with the exact effective stiffness | reciprocity with the exact states of the unit strains, totality of the run |
| C96 | VTU files are well-formed XML | a character automaton run over constant heads and number bodies; its soundness by a stack invariant |
| C97 | explicit bounds from the strains and the stiffness | discrete Korn inequality: the cross derivatives telescope over the cells; discrete Poincare inequality along grid lines; energy identities |
| C98 | answers within an explicit distance of one effective stiffness | C95, reciprocity for the rows, C97 for the distance |
| C99 | dot products and matrix rows in doubles | Flocq's error of one operation; an induction over the sum |
| C100 | the solver's reported error in doubles | the recurrences, and the drift of the residual step by step |
| C101 | the geometry in doubles | error of the centre of a cell; a computed counterexample for the symmetry |
| C102 | the strains of the test programs in doubles | induction on the steps; a computed counterexample for the return to zero |
| C103 | residuals and averages in doubles | error counts of each formula against the same code in reals; bounds of all partial sums |
| C104 | one accepted equilibrium in doubles | a real field near the doubles; the discrete Korn bound (C97) turns a residual into a displacement |
| C105 | the answers in doubles, from arguments to stress | C104 along all calls; C98 for the exact body |
| C106-C107 | tangents, linear tangent and shortcut in doubles | difference quotients of C105's stresses |
| C108-C113 | the text of `src/ell.cpp` | syntax trees made by `tools/gen_ast.py`, a small C semantics (`Clite.v`), loop rules; trees that only fill an array are matched with the model's lists of stores (`CliteEmit.v`) |
| C114-C117 | the text of the routines of one cell in `src/assembly.cpp` | syntax trees made by `tools/gen_ast_asm.py`; a symbolic executor with a soundness proof (`Sym.v`, `SymStep.v`) runs the trees on memories with symbolic entries, loops with constant bounds unrolled; callees by their proved contracts |
| C118-C121 | the text of the 3D assembly, `solve` and `newton_raphson` | loops over cells as folds (`SymFold.v`, `AsmCalls.v`), callees by contract, then the model's theorems |
| C122-C125 | the text of `set_displ`, `calc_ave_strain`, `calc_ave_stress` and `calc_fields` | the same rules; the stores of `set_displ` as a list of writes, then the model's theorems |
| C126-C127 | the text of the cell routines of two dimensions | one symbolic run per routine, then the model's theorems |
| C128-C131 | the text of the assembly, the solver call and the Newton loop of two dimensions | the loop rules of C118-C121, then the model's theorems |
| C132-C134 | the text of the averages and the cell fields of two dimensions | as C123-C125 |
| C135-C136 | the text of calc_ctan_lin, is_linear and the invariants | as C114; the tree of HomAst.v (tools/gen_ast_hom.py) |
| C137-C138 | the text of one pass of homogenize at a linear point and of update_vars | as C114; the trees of GpAst.v (tools/gen_ast_gp.py), the body of the loop as a function of the object and the point; the arrays inside gp_t are blocks of their own |
| C139 | the text of get_macro_stress and get_macro_ctan | as C137; the trees of GetAst.v (tools/gen_ast_get.py); the range-for over the list is the relation walk of GetLit.v |
| C140 | the text of get_nl_flag | as C139; the trees of FlagAst.v (tools/gen_ast_flag.py): what comes before the loop, and its body |
| C141- | later additions | see section 6 |

Where the code violates a property, the property is stated in full and refuted by
a theorem named `..._refuted` with an explicit witness, and the part that does
hold is proved. Section 6 lists both.

## 3. Coverage

| source | modelled by |
|---|---|
| `include/ell.hpp`, `src/ell.cpp` | `EllModel.v` (all functions but the declared-only ones), `EllAst.v` (syntax trees of all but `ell_print`), `DriverModel.v` (`ell_print`), `LedgerModel.v` (`ell_free`, work arrays), `IntModel.v` |
| `src/assembly.cpp` | `AssemblyModel.v`, `TanModel.v` (the two tangents that are switched off), `AsmAst.v` (syntax trees) |
| `src/solve.cpp`, `src/homogenize.cpp` | `MicroModel.v` |
| `src/micro.cpp` | `MicroModel.v` (constructor, classification, `get_nl_flag`), `LedgerModel.v` (destructor) |
| `src/output.cpp`, `src/wrapper.cpp` | `OutputModel.v` |
| `test/test2d_1.cpp`, `test3d_1.cpp`, `test3d_7.cpp`, `test3d_8.cpp`, `test3d_3.f90` | `DriverModel.v` |
| `include/micro.hpp` | the records of `AssemblyModel.v` and `MicroModel.v`, macros in `Grid.v` |

Simplifications:

* `EllModel.v` reshapes some loops of `src/ell.cpp`: `x[i]` and `r[i]` of the CG loop
  are updated in two loops, `y[i]` of a product is summed in a scalar, NULL tests are
  dropped, matrices are filled from lists of stores. C108-C113 prove that none of this
  changes an outcome: the syntax trees of the functions give the same.
* In these trees `int` is unbounded (the range of the index arithmetic is C60 and
  C73), and an array declared in a function stays allocated
  when the function returns.
* In the trees of `src/assembly.cpp` and `src/solve.cpp` (`AsmAst.v`) the members of the
  class are fields of an object `this`, `A` and `material_list` are pointers to separate
  objects, and a scalar whose address is taken is an array of one element. C114-C140 relate
  the trees of the routines, in 2D and in 3D, to the model in one direction: where the model answers,
  the text runs and gives the same. They do not say that the text fails where the model does.
* A file is written as a whole, so an error while a file is written leaves no
  partial file.
* The unused locals of the C++ functions are dropped.

Not modelled: number formatting (C96 holds for any spelling of doubles with the characters of numbers), file-system errors, `malloc` returning NULL,
what a failed `assert` prints, builds with `NDEBUG`, the Fortran calling
convention, the text the test programs send to `cerr` and the destructor that runs
when `main` returns. `test/ell_solvers.cpp` calls functions that are no longer in
the library and is left out.

## 4. Trusted base

* Coq 8.16.1: the kernel, including its conversion and virtual machine
  (`vm_compute` is used in a few proofs and examples; `native_compute` is not).
* The standard library, with the axioms below and no others.
* Flocq (`Core`, `BinarySingleNaN`, `Relative`, `Plus_error`), used by C99-C107
  only. It adds no axiom of its own.
* The reading of the C++ source described in sections 1 and 3. Nothing checks that
  the model is what a C++ compiler would make of the source. For `src/ell.cpp`
  and the functions of `src/assembly.cpp`, `src/solve.cpp` and `src/homogenize.cpp` named in C114-C140 what
  is trusted is the translation of the text to trees by `tools/gen_ast.py`,
  `tools/gen_ast_asm.py`, `tools/gen_ast_hom.py`, `tools/gen_ast_gp.py`, `tools/gen_ast_get.py` and `tools/gen_ast_flag.py` (1000 lines, no knowledge of the functions) and the semantics in
  `Clite.v` (350 lines);
  `python3 tools/gen_ast.py > rocq/theories/EllAst.v`,
  `python3 tools/gen_ast_asm.py > rocq/theories/AsmAst.v`,
  `python3 tools/gen_ast_hom.py > rocq/theories/HomAst.v`,
  `python3 tools/gen_ast_gp.py > rocq/theories/GpAst.v`,
  `python3 tools/gen_ast_get.py > rocq/theories/GetAst.v` and
  `python3 tools/gen_ast_flag.py > rocq/theories/FlagAst.v` make the trees again. The rest is
  transcribed by hand.

`Print Assumptions` gives one of four answers for each theorem, abbreviated in
section 6:

* `none`: closed under the global context.
* `R`: `ClassicalDedekindReals.sig_forall_dec`, `ClassicalDedekindReals.sig_not_dec`
  and `FunctionalExtensionality.functional_extensionality_dep`. The standard
  library's real numbers use these three.
* `R-`: those without `sig_not_dec`.
* `R+c`: the three of `R` and `Classical_Prop.classic`.

`tools/gen_assumptions.py` asks Coq for them again. No axiom, `Parameter`,
section-less `Variable` or `Admitted` is in the sources.

## 5. Testing the theorems against wrong programs

In a scratch copy a definition of the model is edited the way a programmer might
get it wrong. The copy is rebuilt; a proof that no longer goes through is replaced
by `Admitted`, and `Print Assumptions` then tells which property theorems depend on
it. `seeded/LOG.jsonl` has one record per attempt: the definition, the edit, the
property it breaks, the theorems that failed (depend on a lemma whose proof broke)
and the theorems that were tightened because they had not noticed.

<!-- generated below by tools/gen_design.py -->

## 6. Properties, theorems and their assumptions

**C01. Node, element and internal-variable numbering never collide** (proved)

* `C01_numbering`: none

**C02. 3D sparsity structure names exactly the grid neighbours** (proved)

* `C02_structure_3D`: none

**C03. 2D sparsity structure names exactly the grid neighbours** (partial)

* `C03_structure_2D_partial`: none
* `C03_structure_2D_refuted`: none

Full statement REFUTED: on the open right edge (x = lx, away from the corners) the slot of the upper neighbour names the node itself (src/ell.cpp:840). Proved for every other node and slot.

**C04. Structure initialisation and matrix products stay inside their allocations** (proved)

* `C04_matrix_memory_3D`: none
* `C04_matrix_memory_2D`: none

**C05. 3D assembly plus product equals the sum of element operators** (proved)

* `C05_assembly_operator_3D`: R

**C06. 2D assembly plus product equals the sum of element operators** (partial)

* `C06_assembly_operator_2D_partial`: R
* `C06_assembly_operator_2D_refuted`: R

Full statement REFUTED for rows of the open right edge (consequence of C03). Proved for every other row; the boundary rows are overwritten by ell_set_bc_2D before every solve.

**C07. 3D boundary conditions: identity rows, eliminated columns, interior block untouched** (proved)

* `C07_bc_3D`: R
* `C07_bc_3D_entries`: none

**C08. 2D boundary conditions: identity rows and untouched interior block** (proved)

* `C08_bc_2D`: R

**C09. 2D boundary conditions eliminate the boundary columns** (partial)

* `C09_bc_2D_columns_refuted`: R
* `C09_bc_2D_columns_partial`: R

REFUTED on every 2D grid with more than one interior node (src/ell.cpp:464, 485, 519); proved for the 3x3 grid, the only grid with an interior where it holds. See C15 for why the solve is unaffected.

**C10. Assembling the matrix is independent of its previous contents** (proved)

* `C10_reassembly`: none

**C11. A CG solver that reports convergence tells the truth** (proved)

* `C11_matrices_are_well_formed`: none
* `C11_cg_truthful`: R

**C12. CG respects its iteration budget** (partial)

* `C12_cg_budget_partial`: none
* `C12_cg_budget_refuted`: R

Full statement REFUTED for budgets below 1: the do-while body runs once (src/ell.cpp). Proved: always terminates, at most max(1,max_its) iterations, reported count is exact.

**C13. CG's reported error is the residual of the returned vector** (partial)

* `C13_cg_err_refuted`: R
* `C13_cg_err_partial`: R

REFUTED: on budget exhaustion the reported error belongs to the iterate before the last update. Proved: it is the residual of that iterate; on convergence it is the residual of the returned vector.

**C14. The linear solve never moves a constrained dof** (proved)

* `C14_cg_keeps_constrained`: R

**C15. Boundary columns that were not eliminated do not influence the solve** (proved)

* `C15_cg_ignores_constrained_columns`: R+c

**C16. CG decreases the energy and never divides by zero on SPD systems** (proved)

* `C16_cg_no_division_by_zero`: R+c
* `C16_cg_energy_decreases`: R+c

**C17. CG reaches any tolerance within as many iterations as there are dofs** (proved)

* `C17_cg_converges`: R+c

**C18. The 2D relaxation solver that reports convergence tells the truth and frees its workspace** (partial)

* `C18_jacobi_truthful_partial`: R
* `C18_jacobi_no_budget_refuted`: none
* `C18_jacobi_leaks_refuted`: none

Truthfulness proved for every budget >= 1. REFUTED: for budgets <= 0 an uninitialised double is stored, and every call leaves its two work arrays allocated (src/ell.cpp:68-69).

**C19. Prescribed displacements are exactly the affine boundary field** (proved)

* `C19_displacements_3d`: R
* `C19_displacements_2d`: R

**C20. Affine displacement fields produce the exact uniform strain** (proved)

* `C20_affine_strain_3d`: R
* `C20_affine_strain_2d`: R
* `C20_strain_is_gradient_3d`: R
* `C20_strain_is_gradient_2d`: R

**C21. 2D average strain equals the imposed macro strain for any interior field** (proved)

* `C21_average_strain_2d`: R

**C22. 3D average strain equals the imposed macro strain for any interior field** (partial)

* `C22_average_strain_3d_partial`: R
* `C22_average_strain_3d_refuted`: R

Full statement REFUTED whenever lz <> 1: the sum is divided by lx*ly only (src/assembly.cpp:843). Proved: the result is lz times the macro strain, for any interior field.

**C23. The macro stress is the volume average of the Gauss-point stresses** (partial)

* `C23_average_stress_2d`: R
* `C23_average_stress_3d_partial`: R
* `C23_average_stress_3d_refuted`: R

Proved in 2D. REFUTED in 3D whenever lz <> 1 (src/assembly.cpp:787 divides by lx*ly); proved there: lz times the volume average.

**C24. Homogeneous linear microstructures homogenise exactly** (proved)

* `C24_uniform_2d`: R
* `C24_uniform_3d`: R

**C25. Element stiffness matrices are symmetric** (proved)

* `C25_symmetric_3d`: R
* `C25_symmetric_2d`: R

**C26. Element stiffness is the strain energy: positive semi-definite, zero exactly on zero strain** (proved)

* `C26_energy_3d`: R
* `C26_energy_2d`: R

**C27. Residual: zero on the boundary, minus the assembled internal force inside, norm returned** (proved)

* `C27_residual_3d`: R
* `C27_residual_2d`: R

**C28. For linear materials the assembled matrix is the exact derivative of the residual** (proved)

* `C28_newton_step_3d`: R
* `C28_newton_step_2d`: R

**C29. The constrained 2D/3D stiffness is positive definite** (proved)

* `C29_positive_definite_3d`: R
* `C29_positive_definite_2d`: R
* `C29_newton_solve_3d`: R+c
* `C29_newton_solve_2d`: R+c

**C30. Macro-homogeneity (Hill-Mandel)** (proved)

* `C30_hill_mandel_3d`: R
* `C30_hill_mandel_2d`: R

**C31. The homogenised elastic tangent of equilibrated states is symmetric** (proved)

* `C31_reciprocity_3d`: R
* `C31_reciprocity_2d`: R

**C32. Derived elastic constants are mutually consistent** (proved)

* `C32_constants`: R
* `C32_same_law`: R

**C33. Plastic steps are admissible, dissipative and isochoric** (proved)

* `C33_plastic_step`: R

**C34. Plastic flow returns the stress to the yield surface** (partial)

* `C34_yield_surface_partial`: R
* `C34_yield_surface_refuted`: R

REFUTED with hardening (Ka > 0): the increment is f/(2 mu), because the hardening term is multiplied by 0.0 (src/assembly.cpp:1041). Proved: with Ka = 0 the stress is on the new surface; with Ka > 0 it is strictly inside it and on the old one.

**C35. The returned stress is the elastic stress of the updated plastic strain** (partial)

* `C35_elastic_law_partial`: R
* `C35_reevaluation_partial`: R
* `C35_elastic_law_refuted`: R

REFUTED for shear: engineering shear strains are mixed with tensor plastic strains. Proved: the exact defect for every component, equality for the normal components and without flow; re-evaluation is idempotent when no shear is involved.

**C36. The nonlinear flag is raised exactly when some Gauss point yields** (partial)

* `C36_flag_last_point_partial`: R
* `C36_flag_refuted`: R

REFUTED: only the last Gauss point of each cell decides (src/assembly.cpp get_elem_rhs overwrites the flag). Proved: flagged iff Gauss point 7 of some cell flows.

**C37. Stress evaluation only writes the internal variables of plastic cells, and deterministically** (proved)

* `C37_internal_variables`: R

**C38. 2D problems and problems without plastic phases are always linear** (proved)

* `C38_always_linear_2d`: none
* `C38_always_linear_3d`: R+c

**C39. A damage material behaves as a linear one** (proved)

* `C39_damage_is_linear`: none

**C40. Gauss points form a keyed store** (proved)

* `C40_keyed_store`: none
* `C40_set_only_one`: none

**C41. Queries of unknown Gauss points have no effect** (proved)

* `C41_unknown_ids`: none
* `C41_queries_pure`: none

**C42. Reading results before homogenising is reading uninitialised memory** (proved)

* `C42_results_defined`: none

**C43. Linear Gauss points get the precomputed tangent** (proved)

* `C43_linear_point`: none
* `C43_all_linear`: none

**C44. homogenize never changes the committed history** (proved)

* `C44_homogenize_keeps`: none
* `C44_only_update_vars`: none

**C45. update_vars commits the state of the last homogenised strain** (partial)

* `C45_commit_partial`: none
* `C45_commit_refuted`: R

Proved: the committed variables are those of the last homogenize whenever that solve flagged plastic flow, and 0 for points that never were non-linear. REFUTED otherwise: an elastic solve (nl_flag false) does not store its variables, so update_vars publishes those of an earlier trial (src/homogenize.cpp).

**C46. update_vars is idempotent and only touches committed variables** (proved)

* `C46_update_commits`: none
* `C46_update_idempotent`: none
* `C46_update_frame`: none

**C47. The nonlinear flag of a Gauss point is permanent** (proved)

* `C47_flag_permanent`: none
* `C47_point_solved`: none

**C48. The threshold parameter controls the linear shortcut** (partial)

* `C48_parameter_ignored`: none
* `C48_threshold_refuted`: R

REFUTED: micro_params[4] is stored but never used; inv_tol is never written by the constructor, so the decision depends on fresh memory (src/micro.cpp, src/homogenize.cpp).

**C49. The linear shortcut is only taken when nothing yields** (partial)

* `C49_shortcut_refuted`: R

REFUTED: the test looks at the trace of the predicted stress only, so a pure shear beyond yield takes the linear path.

**C50. The Newton loop reports and limits its iterations** (partial)

* `C50_intended_limit_partial`: none
* `C50_stray_counter_partial`: none
* `C50_stray_read_refuted`: R+c

REFUTED: `*its++` (src/solve.cpp) moves the pointer, so the limit is tested on whatever lies behind the caller's int and the reported count is always 0. Proved: the exact behaviour for every content of that memory, and that the intended counter would bound the loop by 40 passes.

**C51. Newton returns a converged field when it stops by the residual test** (proved)

* `C51_converged_3d`: R
* `C51_converged_2d`: R

**C52. Construction is defined by its arguments** (partial)

* `C52_tangent_refuted`: R
* `C52_nan_memory_refuted`: none
* `C52_memory_3d_partial`: R+c
* `C52_memory_2d_partial`: R+c

REFUTED: the constructor solves for the tangent from uninitialised internal variables (3D, plastic). Proved for bodies without plastic cells up to an explicit bound given by the solver tolerance. With doubles a NaN in the fresh memory of the displacements spoils every entry of the tangent and every later answer.

**C53. Construction rejects or mishandles invalid arguments** (proved)

* `C53_demands`: none
* `C53_unused_type`: none

**C54. Cells are classified by their midpoint** (proved)

* `C54_cells_2d`: R
* `C54_cells_3d`: R
* `C54_mirror_2d`: R
* `C54_mirror_3d`: R

**C55. VTU files are self-consistent** (proved)

* `C55_output_adds_file`: none
* `C55_contents_3d`: none
* `C55_contents_2d`: none
* `C55_corners_valid`: none
* `C55_corners_distinct`: none

**C56. Writing output does not change homogenised results** (proved)

* `C56_output_keeps`: none

**C57. Log files: one header, one record per call with one column group per Gauss point** (partial)

* `C57_logs`: none
* `C57_works_3d`: none
* `C57_2d_refuted`: none

Proved: the exact content of the log files for every call sequence, with every printed value initialised, and success in 3D once every point is homogenised. REFUTED in 2D: write_info_files always prints components 3..5 of 3-component arrays (C57_2d_refuted). The headers list only the ids known at the first call.

**C58. The C/Fortran wrapper is the class behind one global object** (proved)

* `C58_null_before_construct`: none
* `C58_latest_object`: none

**C59. Destruction releases every buffer exactly once** (proved)

* `C59_object_releases_everything`: none
* `C59_cg_releases_workspace`: none

**C60. Index arithmetic does not overflow int** (proved)

* `C60_matrix_2d`: none
* `C60_matrix_3d`: none
* `C60_larger_matrices_overflow`: none

**C61. The second invariant is the second invariant** (partial)

* `C61_second_invariant_refuted`: R
* `C61_exact_when_diagonal_partial`: R
* `C61_first_invariant`: R

REFUTED: the squared shear components are added instead of subtracted (src/homogenize.cpp:77-88). Proved: correct exactly when all shear components are zero.

**C62. Stress queries are a linear function of strain for linear objects** (proved)

* `C62_superposition`: R
* `C62_convex`: R

**C63. Equilibrated states minimise the energy** (proved)

* `C63_energy_minimum_3d`: R
* `C63_energy_minimum_2d`: R
* `C63_voigt_3d`: R
* `C63_voigt_2d`: R

**C64. Every macro strain has exactly one equilibrated state, with positive effective energy** (proved)

* `C64_equilibrium_3d`: R+c
* `C64_equilibrium_2d`: R+c

**C65. Committed variables are always initialised values** (partial)

* `C65_garbage_committed_refuted`: R
* `C65_never_written`: none

REFUTED: the values of cells that are not plastic are never written, so a commit publishes the content of fresh memory; proved for every object and history.

**C66. For linear bodies the Newton loop needs one solve** (proved)

* `C66_one_solve_3d`: R+c
* `C66_one_solve_2d`: R+c

**C67. Cell fields are the cell averages** (proved)

* `C67_cell_means_3d`: R
* `C67_cell_means_2d`: R
* `C67_output_means_3d`: R
* `C67_output_means_2d`: R

**C68. Valid calls never read or write out of bounds** (proved)

* `C68_safe_calls`: none

**C69. A converged response is an equilibrium state up to the tolerance** (proved)

* `C69_response_3d`: R
* `C69_response_2d`: R

**C70. Grids without interior nodes respond exactly, without iteration** (proved)

* `C70_thin`: R

**C71. The linear tangent is the effective stiffness up to the solver tolerance** (proved)

* `C71_tangent_3d`: R+c
* `C71_tangent_2d`: R+c
* `C71_symmetric_3d`: R+c
* `C71_symmetric_2d`: R+c

**C72. Constructing again through the wrapper releases the previous object** (partial)

* `C72_wrapper_leaks_refuted`: none

REFUTED: the global pointer is overwritten (src/wrapper.cpp), so each construction leaves at least eleven live blocks whatever follows.

**C73. Sizes and indices of the buffers of the class do not overflow int** (partial)

* `C73_class_3d`: none
* `C73_class_2d_partial`: none
* `C73_int_vars_2d_refuted`: none

Proved in 3D. REFUTED in 2D: num_int_vars = nelem*8*7 is sized as in 3D and overflows for grids (e.g. 7000 x 7000) whose matrix still fits; every other size and index proved in range, and the internal variables exactly when 56*nelem <= 2^31-1.

**C74. A NaN strain component is never answered by numbers** (proved)

* `C74_nan_answer`: none

**C75. A NaN strain at one Gauss point does not change the answers for others** (partial)

* `C75_independent_of_nan_refuted`: none
* `C75_nan_for_ever`: none

REFUTED: the displacements at inner nodes are never reset, so one NaN strain makes every later answer NaN for all points of the object that do not take the linear shortcut; proved for all objects with a node inside.

**C76. The element matrix is the exact strain energy of the interpolated displacement** (proved)

* `C76_exact_energy_3d`: R+c
* `C76_exact_energy_2d`: R+c

**C77. The invariant in the convergence log is the one that was decided with** (proved)

* `C77_recorded`: R
* `C77_decided`: R

**C78. The stress at a Gauss point is a monotone and no more than elastic function of the strain** (proved)

* `C78_monotone_point`: R

**C79. The perturbed tangent is bounded by the elastic tangent** (proved)

* `C79_tangent_bounds`: R
* `C79_tangent_elastic`: R

**C80. The homogenised stress of a plastic body does not depend on how equilibrium was reached** (proved)

* `C80_unique_stress`: R
* `C80_near_stress`: R
* `C80_macro_monotone`: R

**C81. A homogeneous plastic body answers the stress of its material** (proved)

* `C81_homogeneous_plastic`: R

**C82. The tangents that get_elem_mat3D can be switched to are tangents of the stress** (partial)

* `C82_exact_is_elastic`: R
* `C82_exact_refuted`: R
* `C82_secant_partial`: R
* `C82_secant_refuted`: R

False of the code: the tangent called exact is the elastic one also where the point flows, and the secant one is negative at an unloaded point that has flowed. Proved: what the exact one is, and that the secant one is elastic at a point without plastic strain whose six one-component strains do not flow. Both functions are unreachable (local switches are false).

**C83. The 3D test programs only fail in a Newton loop and print what they log** (partial)

* `C83_test3d_1`: none
* `C83_test3d_7`: none
* `C83_ends`: none
* `C83_strain`: R
* `C83_direction_refuted`: none
* `C83_direction_oob_refuted`: none

Proved for directions 0 to 5: safety up to the stray reads of the Newton loop, the calls made, the text printed and logged, the loading history. False of the code: the direction argument is not checked, another one indexes eps out of bounds. The material file of test3d_1 has two numbers that the program never set.

**C84. The 2D test program runs without undefined behaviour** (partial)

* `C84_test2d_1_refuted`: none
* `C84_test2d_1_uninit_refuted`: none

False of the code: write_info_files prints 6 x 6 entries of a tangent of which a 2D object only sets 3 x 3, so every run with a step reads unset memory.

**C85. The Fortran test program passes valid arguments** (partial)

* `C85_test3d_3_refuted`: none

False of the code: micro_params has four entries and the constructor reads five.

**C86. test3d_8 uses the two materials its source lists** (partial)

* `C86_test3d_8_refuted`: none
* `C86_layer_void_refuted`: R

False of the code: the numbers are packed by four where the constructor takes ten per material, so the second material is 0 0 0 0 and the layer has no stress. Proved: safety up to the Newton loop, the calls made and the text printed.

**C87. ell_print prints the matrix** (partial)

* `C87_print`: none
* `C87_print_null`: none
* `C87_print_fresh_refuted`: none

Proved for every matrix with defined entries. False on a matrix as ell_init_3D leaves it: the values are not set.

**C88. A phase without stiffness does not spoil the answers** (partial)

* `C88_inside_refuted`: none
* `C88_answers_refuted`: none
* `C88_nan_refuted`: none
* `C88_case_refuted`: none
* `C88_test3d_8_refuted`: none

False of the code: the Jacobi preconditioner divides by the zero diagonal of such a node, so a solve makes every displacement NaN. Proved: the nodes inside never move or are NaN, what homogenize gives is NaN or was accepted unsolved, and an object on 3 x 5 nodes gives nothing but NaN. That the first residual of test3d_8 is above the tolerance is a hypothesis of its theorem.

**C89. Bodies with plastic cells have an equilibrium and one stress** (proved)

* `C89_equilibrium_exists`: R+c

**C90. The residual is the gradient of an energy** (proved)

* `C90_equilibrium_minimum`: R
* `C90_energy_bound`: R

**C91. The equilibrium stress is Lipschitz in the macro strain** (proved)

* `C91_effective_lipschitz`: R

**C92. A small residual means a small error of the stress** (proved)

* `C92_small_residual`: R+c

**C93. Committed hardening never decreases** (proved)

* `C93_hardening_grows`: R+c
* `C93_yield`: R+c

**C94. The stored stress is near the exact equilibrium stress** (proved)

* `C94_stress_accuracy`: R+c

**C95. Without plastic phases every answer is near the exact effective stiffness** (proved)

* `C95_linear_answers`: R+c
* `C95_linear_answers_2d`: R+c

**C96. VTU files are well-formed XML** (proved)

* `C96_output_is_xml`: none
* `C96_reader_sound`: none
* `C96_ints_read_back`: none

**C97. Explicit bounds from the strains and the stiffness** (proved)

* `C97_korn_poincare_3d`: R
* `C97_korn_poincare_2d`: R
* `C97_stiffness_bound_3d`: R
* `C97_stiffness_bound_2d`: R
* `C97_displacement_error_3d`: R
* `C97_displacement_error_2d`: R
* `C97_near_linear_3d`: R
* `C97_near_linear_2d`: R

**C98. Every answer is within an explicit distance of one effective stiffness** (proved)

* `C98_effective_stiffness_3d`: R+c
* `C98_effective_stiffness_2d`: R+c

**C99. Scalar products and matrix rows in IEEE doubles** (proved)

* `C99_same_doubles`: R+c
* `C99_dot`: R+c
* `C99_row`: R+c
* `C99_size`: R-

**C100. The solver's error estimate in IEEE doubles** (proved)

* `C100_cg_double`: R+c

**C101. The geometry in IEEE doubles** (partial)

* `C101_cells_2D`: R+c
* `C101_cells_3D`: R+c
* `C101_mirror_refuted`: R+c

Proved: the class is the exact one except within some roundings of the boundary. False: the symmetry; a disc of radius 1/5 in the unit cell with 6 nodes a side contains a cell but not its mirror image.

**C102. The strains of the test programs in IEEE doubles** (partial)

* `C102_strain`: R+c
* `C102_back_to_zero_refuted`: R+c

Proved: the error bound. False: after 60 steps the exact strain is 0 and that of the programs is about -3.1e-17.

**C103. Residuals and averages in IEEE doubles** (proved)

* `C103_fair`: R+c
* `C103_same_code_3D`: R+c
* `C103_same_code_2D`: R+c

**C104. An accepted equilibrium in IEEE doubles** (proved)

* `C104_respond_3D`: R+c
* `C104_respond_2D`: R+c

**C105. Every accepted answer in IEEE doubles is near one effective stiffness** (proved)

* `C105_answers_3D`: R+c
* `C105_answers_2D`: R+c

**C106. The tangents of solved points in IEEE doubles** (proved)

* `C106_tangents_3D`: R+c
* `C106_tangents_2D`: R+c

**C107. The linear tangent and the shortcut in IEEE doubles** (proved)

* `C107_linear_tangent_3D`: R+c
* `C107_linear_tangent_2D`: R+c

**C108. The text of the matrix product multiplies** (proved)

* `C108_product_text`: R
* `C108_product_refines`: none

**C109. The text of the conjugate gradient solvers is truthful and leaves no memory behind** (proved)

* `C109_cg_text`: R
* `C109_cg_2D_refines`: none
* `C109_cg_struct_refines`: none
* `C109_null_arguments`: none

**C110. The text of the Jacobi solver leaves exactly its two arrays behind** (proved)

* `C110_jacobi_leaks`: R
* `C110_jacobi_refines`: none

**C111. The life of a matrix by the program text** (proved)

* `C111_assembly_text_3D`: R

**C112. The texts that build and fill matrices do what the model says** (proved)

* `C112_fill_refines`: none
* `C112_init_refines`: none

**C113. A matrix can be released once** (proved)

* `C113_free_once`: none
* `C113_free_twice`: none

**C114. The text of the material law** (proved)

* `C114_linear_stress_text`: R
* `C114_monotone_text`: R
* `C114_stress_refines`: none
* `C114_plastic_step_refines`: none

**C115. The text of the strain** (proved)

* `C115_gradient_text`: R
* `C115_strain_refines`: none

**C116. The text of the residual of a cell** (proved)

* `C116_virtual_work_text`: R
* `C116_residual_refines`: none

**C117. The text of the matrix of a cell** (proved)

* `C117_energy_text`: R+c
* `C117_matrix_refines`: none
* `C117_tangent_refines`: none

**C118. The text of the residual of a body** (proved)

* `C118_residual_text`: R
* `C118_residual_refines`: none

**C119. The text of the matrix of a body** (proved)

* `C119_stiffness_text`: R
* `C119_newton_step_text`: R
* `C119_matrix_refines`: none

**C120. The text of the solver call** (proved)

* `C120_solve_text`: R+c
* `C120_solve_refines`: none

**C121. The text of the Newton loop** (proved)

* `C121_single_int_text`: R
* `C121_stray_text`: R
* `C121_linear_text`: R+c
* `C121_newton_refines`: none
* `C121_oob_refines`: none

**C122. The text of set_displ** (proved)

* `C122_displ_text_3d`: R
* `C122_displ_text_2d`: R
* `C122_displ_refines`: none

**C123. The text of the average strain** (proved)

* `C123_mean_strain_text`: R
* `C123_mean_strain_refines`: none

**C124. The text of the average stress** (proved)

* `C124_mean_stress_text`: R
* `C124_uniform_text`: R
* `C124_mean_stress_refines`: none

**C125. The text of the cell fields** (proved)

* `C125_fields_text`: R
* `C125_fields_refines`: none

**C126. The text of strain and stress in a plane cell** (proved)

* `C126_gradient_text_2d`: R
* `C126_plane_stress_text`: R
* `C126_strain_refines_2d`: none
* `C126_stress_refines_2d`: none

**C127. The text of residual and matrix of a plane cell** (proved)

* `C127_virtual_work_text_2d`: R
* `C127_energy_text_2d`: R+c
* `C127_residual_refines_2d`: none
* `C127_matrix_refines_2d`: none

**C128. The text of the residual assembly of a plane body** (proved)

* `C128_residual2_text`: R

**C129. The text of the matrix assembly of a plane body** (proved)

* `C129_stiffness2_text`: R
* `C129_newton_step2_text`: R

**C130. The text of the solver call on a plane body** (proved)

* `C130_solve2_text`: R+c

**C131. The text of the Newton loop on a plane body** (proved)

* `C131_single_int2_text`: R
* `C131_stray2_text`: R
* `C131_linear2_text`: R+c

**C132. The text of the average strain of a plane body** (proved)

* `C132_mean_strain2_text`: R
* `C132_mean_strain2_refines`: none

**C133. The text of the average stress of a plane body** (proved)

* `C133_mean_stress2_text`: R
* `C133_uniform2_text`: R
* `C133_mean_stress2_refines`: none

**C134. The text of the cell fields of a plane body** (proved)

* `C134_fields2_text`: R
* `C134_fields2_refines`: none

**C135. The text of the linear tangent** (proved)

* `C135_linear_tangent_refines`: none
* `C135_built_text`: none

**C136. The text of the linearity test** (proved)

* `C136_is_linear_refines`: none
* `C136_invariants_refine`: none

**C137. The text of homogenize at a linear point** (proved)

* `C137_linear_point_refines`: none
* `C137_linear_list_refines`: none

**C138. The text of update_vars** (proved)

* `C138_update_refines`: none
* `C138_update_list_refines`: none

**C139. The text of the getters** (proved)

* `C139_get_stress_refines`: none
* `C139_get_ctan_refines`: none

**C140. The text of get_nl_flag** (proved)

* `C140_flag_refines`: none

Total: 140 properties (109 proved, 31 partial), 314 theorems.
