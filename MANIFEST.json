{
 "claims": [
  {
   "property": "C01",
   "status": "proved",
   "theorems": [
    "C01_numbering"
   ],
   "note": ""
  },
  {
   "property": "C02",
   "status": "proved",
   "theorems": [
    "C02_structure_3D"
   ],
   "note": ""
  },
  {
   "property": "C03",
   "status": "partial",
   "theorems": [
    "C03_structure_2D_partial",
    "C03_structure_2D_refuted"
   ],
   "note": "Full statement REFUTED: on the open right edge (x = lx, away from the corners) the slot of the upper neighbour names the node itself (src/ell.cpp:840). Proved for every other node and slot."
  },
  {
   "property": "C04",
   "status": "proved",
   "theorems": [
    "C04_matrix_memory_3D",
    "C04_matrix_memory_2D"
   ],
   "note": ""
  },
  {
   "property": "C05",
   "status": "proved",
   "theorems": [
    "C05_assembly_operator_3D"
   ],
   "note": ""
  },
  {
   "property": "C06",
   "status": "partial",
   "theorems": [
    "C06_assembly_operator_2D_partial",
    "C06_assembly_operator_2D_refuted"
   ],
   "note": "Full statement REFUTED for rows of the open right edge (consequence of C03). Proved for every other row; the boundary rows are overwritten by ell_set_bc_2D before every solve."
  },
  {
   "property": "C07",
   "status": "proved",
   "theorems": [
    "C07_bc_3D",
    "C07_bc_3D_entries"
   ],
   "note": ""
  },
  {
   "property": "C08",
   "status": "proved",
   "theorems": [
    "C08_bc_2D"
   ],
   "note": ""
  },
  {
   "property": "C09",
   "status": "partial",
   "theorems": [
    "C09_bc_2D_columns_refuted",
    "C09_bc_2D_columns_partial"
   ],
   "note": "REFUTED on every 2D grid with more than one interior node (src/ell.cpp:464, 485, 519); proved for the 3x3 grid, the only grid with an interior where it holds. See C15 for why the solve is unaffected."
  },
  {
   "property": "C10",
   "status": "proved",
   "theorems": [
    "C10_reassembly"
   ],
   "note": ""
  },
  {
   "property": "C11",
   "status": "proved",
   "theorems": [
    "C11_matrices_are_well_formed",
    "C11_cg_truthful"
   ],
   "note": ""
  },
  {
   "property": "C12",
   "status": "partial",
   "theorems": [
    "C12_cg_budget_partial",
    "C12_cg_budget_refuted"
   ],
   "note": "Full statement REFUTED for budgets below 1: the do-while body runs once (src/ell.cpp). Proved: always terminates, at most max(1,max_its) iterations, reported count is exact."
  },
  {
   "property": "C13",
   "status": "partial",
   "theorems": [
    "C13_cg_err_refuted",
    "C13_cg_err_partial"
   ],
   "note": "REFUTED: on budget exhaustion the reported error belongs to the iterate before the last update. Proved: it is the residual of that iterate; on convergence it is the residual of the returned vector."
  },
  {
   "property": "C14",
   "status": "proved",
   "theorems": [
    "C14_cg_keeps_constrained"
   ],
   "note": ""
  },
  {
   "property": "C15",
   "status": "proved",
   "theorems": [
    "C15_cg_ignores_constrained_columns"
   ],
   "note": ""
  },
  {
   "property": "C16",
   "status": "proved",
   "theorems": [
    "C16_cg_no_division_by_zero",
    "C16_cg_energy_decreases"
   ],
   "note": ""
  },
  {
   "property": "C17",
   "status": "proved",
   "theorems": [
    "C17_cg_converges"
   ],
   "note": ""
  },
  {
   "property": "C18",
   "status": "partial",
   "theorems": [
    "C18_jacobi_truthful_partial",
    "C18_jacobi_no_budget_refuted",
    "C18_jacobi_leaks_refuted"
   ],
   "note": "Truthfulness proved for every budget >= 1. REFUTED: for budgets <= 0 an uninitialised double is stored, and every call leaves its two work arrays allocated (src/ell.cpp:68-69)."
  },
  {
   "property": "C19",
   "status": "proved",
   "theorems": [
    "C19_displacements_3d",
    "C19_displacements_2d"
   ],
   "note": ""
  },
  {
   "property": "C20",
   "status": "proved",
   "theorems": [
    "C20_affine_strain_3d",
    "C20_affine_strain_2d",
    "C20_strain_is_gradient_3d",
    "C20_strain_is_gradient_2d"
   ],
   "note": ""
  },
  {
   "property": "C21",
   "status": "proved",
   "theorems": [
    "C21_average_strain_2d"
   ],
   "note": ""
  },
  {
   "property": "C22",
   "status": "partial",
   "theorems": [
    "C22_average_strain_3d_partial",
    "C22_average_strain_3d_refuted"
   ],
   "note": "Full statement REFUTED whenever lz <> 1: the sum is divided by lx*ly only (src/assembly.cpp:843). Proved: the result is lz times the macro strain, for any interior field."
  },
  {
   "property": "C23",
   "status": "partial",
   "theorems": [
    "C23_average_stress_2d",
    "C23_average_stress_3d_partial",
    "C23_average_stress_3d_refuted"
   ],
   "note": "Proved in 2D. REFUTED in 3D whenever lz <> 1 (src/assembly.cpp:787 divides by lx*ly); proved there: lz times the volume average."
  },
  {
   "property": "C24",
   "status": "proved",
   "theorems": [
    "C24_uniform_2d",
    "C24_uniform_3d"
   ],
   "note": ""
  },
  {
   "property": "C25",
   "status": "proved",
   "theorems": [
    "C25_symmetric_3d",
    "C25_symmetric_2d"
   ],
   "note": ""
  },
  {
   "property": "C26",
   "status": "proved",
   "theorems": [
    "C26_energy_3d",
    "C26_energy_2d"
   ],
   "note": ""
  },
  {
   "property": "C27",
   "status": "proved",
   "theorems": [
    "C27_residual_3d",
    "C27_residual_2d"
   ],
   "note": ""
  },
  {
   "property": "C28",
   "status": "proved",
   "theorems": [
    "C28_newton_step_3d",
    "C28_newton_step_2d"
   ],
   "note": ""
  },
  {
   "property": "C29",
   "status": "proved",
   "theorems": [
    "C29_positive_definite_3d",
    "C29_positive_definite_2d",
    "C29_newton_solve_3d",
    "C29_newton_solve_2d"
   ],
   "note": ""
  },
  {
   "property": "C30",
   "status": "proved",
   "theorems": [
    "C30_hill_mandel_3d",
    "C30_hill_mandel_2d"
   ],
   "note": ""
  },
  {
   "property": "C31",
   "status": "proved",
   "theorems": [
    "C31_reciprocity_3d",
    "C31_reciprocity_2d"
   ],
   "note": ""
  },
  {
   "property": "C32",
   "status": "proved",
   "theorems": [
    "C32_constants",
    "C32_same_law"
   ],
   "note": ""
  },
  {
   "property": "C33",
   "status": "proved",
   "theorems": [
    "C33_plastic_step"
   ],
   "note": ""
  },
  {
   "property": "C34",
   "status": "partial",
   "theorems": [
    "C34_yield_surface_partial",
    "C34_yield_surface_refuted"
   ],
   "note": "REFUTED with hardening (Ka > 0): the increment is f/(2 mu), because the hardening term is multiplied by 0.0 (src/assembly.cpp:1041). Proved: with Ka = 0 the stress is on the new surface; with Ka > 0 it is strictly inside it and on the old one."
  },
  {
   "property": "C35",
   "status": "partial",
   "theorems": [
    "C35_elastic_law_partial",
    "C35_reevaluation_partial",
    "C35_elastic_law_refuted"
   ],
   "note": "REFUTED for shear: engineering shear strains are mixed with tensor plastic strains. Proved: the exact defect for every component, equality for the normal components and without flow; re-evaluation is idempotent when no shear is involved."
  },
  {
   "property": "C36",
   "status": "partial",
   "theorems": [
    "C36_flag_last_point_partial",
    "C36_flag_refuted"
   ],
   "note": "REFUTED: only the last Gauss point of each cell decides (src/assembly.cpp get_elem_rhs overwrites the flag). Proved: flagged iff Gauss point 7 of some cell flows."
  },
  {
   "property": "C37",
   "status": "proved",
   "theorems": [
    "C37_internal_variables"
   ],
   "note": ""
  },
  {
   "property": "C38",
   "status": "proved",
   "theorems": [
    "C38_always_linear_2d",
    "C38_always_linear_3d"
   ],
   "note": ""
  },
  {
   "property": "C39",
   "status": "proved",
   "theorems": [
    "C39_damage_is_linear"
   ],
   "note": ""
  },
  {
   "property": "C40",
   "status": "proved",
   "theorems": [
    "C40_keyed_store",
    "C40_set_only_one"
   ],
   "note": ""
  },
  {
   "property": "C41",
   "status": "proved",
   "theorems": [
    "C41_unknown_ids",
    "C41_queries_pure"
   ],
   "note": ""
  },
  {
   "property": "C42",
   "status": "proved",
   "theorems": [
    "C42_results_defined"
   ],
   "note": ""
  },
  {
   "property": "C43",
   "status": "proved",
   "theorems": [
    "C43_linear_point",
    "C43_all_linear"
   ],
   "note": ""
  },
  {
   "property": "C44",
   "status": "proved",
   "theorems": [
    "C44_homogenize_keeps",
    "C44_only_update_vars"
   ],
   "note": ""
  },
  {
   "property": "C45",
   "status": "partial",
   "theorems": [
    "C45_commit_partial",
    "C45_commit_refuted"
   ],
   "note": "Proved: the committed variables are those of the last homogenize whenever that solve flagged plastic flow, and 0 for points that never were non-linear. REFUTED otherwise: an elastic solve (nl_flag false) does not store its variables, so update_vars publishes those of an earlier trial (src/homogenize.cpp)."
  },
  {
   "property": "C46",
   "status": "proved",
   "theorems": [
    "C46_update_commits",
    "C46_update_idempotent",
    "C46_update_frame"
   ],
   "note": ""
  },
  {
   "property": "C47",
   "status": "proved",
   "theorems": [
    "C47_flag_permanent",
    "C47_point_solved"
   ],
   "note": ""
  },
  {
   "property": "C48",
   "status": "partial",
   "theorems": [
    "C48_parameter_ignored",
    "C48_threshold_refuted"
   ],
   "note": "REFUTED: micro_params[4] is stored but never used; inv_tol is never written by the constructor, so the decision depends on fresh memory (src/micro.cpp, src/homogenize.cpp)."
  },
  {
   "property": "C49",
   "status": "partial",
   "theorems": [
    "C49_shortcut_refuted"
   ],
   "note": "REFUTED: the test looks at the trace of the predicted stress only, so a pure shear beyond yield takes the linear path."
  },
  {
   "property": "C50",
   "status": "partial",
   "theorems": [
    "C50_intended_limit_partial",
    "C50_stray_counter_partial",
    "C50_stray_read_refuted"
   ],
   "note": "REFUTED: `*its++` (src/solve.cpp) moves the pointer, so the limit is tested on whatever lies behind the caller's int and the reported count is always 0. Proved: the exact behaviour for every content of that memory, and that the intended counter would bound the loop by 40 passes."
  },
  {
   "property": "C51",
   "status": "proved",
   "theorems": [
    "C51_converged_3d",
    "C51_converged_2d"
   ],
   "note": ""
  },
  {
   "property": "C52",
   "status": "partial",
   "theorems": [
    "C52_tangent_refuted",
    "C52_nan_memory_refuted",
    "C52_memory_3d_partial",
    "C52_memory_2d_partial"
   ],
   "note": "REFUTED: the constructor solves for the tangent from uninitialised internal variables (3D, plastic). Proved for bodies without plastic cells up to an explicit bound given by the solver tolerance. With doubles a NaN in the fresh memory of the displacements spoils every entry of the tangent and every later answer."
  },
  {
   "property": "C53",
   "status": "proved",
   "theorems": [
    "C53_demands",
    "C53_unused_type"
   ],
   "note": ""
  },
  {
   "property": "C54",
   "status": "proved",
   "theorems": [
    "C54_cells_2d",
    "C54_cells_3d",
    "C54_mirror_2d",
    "C54_mirror_3d"
   ],
   "note": ""
  },
  {
   "property": "C55",
   "status": "proved",
   "theorems": [
    "C55_output_adds_file",
    "C55_contents_3d",
    "C55_contents_2d",
    "C55_corners_valid",
    "C55_corners_distinct"
   ],
   "note": ""
  },
  {
   "property": "C56",
   "status": "proved",
   "theorems": [
    "C56_output_keeps"
   ],
   "note": ""
  },
  {
   "property": "C57",
   "status": "partial",
   "theorems": [
    "C57_logs",
    "C57_works_3d",
    "C57_2d_refuted"
   ],
   "note": "Proved: the exact content of the log files for every call sequence, with every printed value initialised, and success in 3D once every point is homogenised. REFUTED in 2D: write_info_files always prints components 3..5 of 3-component arrays (C57_2d_refuted). The headers list only the ids known at the first call."
  },
  {
   "property": "C58",
   "status": "proved",
   "theorems": [
    "C58_null_before_construct",
    "C58_latest_object"
   ],
   "note": ""
  },
  {
   "property": "C59",
   "status": "proved",
   "theorems": [
    "C59_object_releases_everything",
    "C59_cg_releases_workspace"
   ],
   "note": ""
  },
  {
   "property": "C60",
   "status": "proved",
   "theorems": [
    "C60_matrix_2d",
    "C60_matrix_3d",
    "C60_larger_matrices_overflow"
   ],
   "note": ""
  },
  {
   "property": "C61",
   "status": "partial",
   "theorems": [
    "C61_second_invariant_refuted",
    "C61_exact_when_diagonal_partial",
    "C61_first_invariant"
   ],
   "note": "REFUTED: the squared shear components are added instead of subtracted (src/homogenize.cpp:77-88). Proved: correct exactly when all shear components are zero."
  },
  {
   "property": "C62",
   "status": "proved",
   "theorems": [
    "C62_superposition",
    "C62_convex"
   ],
   "note": ""
  },
  {
   "property": "C63",
   "status": "proved",
   "theorems": [
    "C63_energy_minimum_3d",
    "C63_energy_minimum_2d",
    "C63_voigt_3d",
    "C63_voigt_2d"
   ],
   "note": ""
  },
  {
   "property": "C64",
   "status": "proved",
   "theorems": [
    "C64_equilibrium_3d",
    "C64_equilibrium_2d"
   ],
   "note": ""
  },
  {
   "property": "C65",
   "status": "partial",
   "theorems": [
    "C65_garbage_committed_refuted",
    "C65_never_written"
   ],
   "note": "REFUTED: the values of cells that are not plastic are never written, so a commit publishes the content of fresh memory; proved for every object and history."
  },
  {
   "property": "C66",
   "status": "proved",
   "theorems": [
    "C66_one_solve_3d",
    "C66_one_solve_2d"
   ],
   "note": ""
  },
  {
   "property": "C67",
   "status": "proved",
   "theorems": [
    "C67_cell_means_3d",
    "C67_cell_means_2d",
    "C67_output_means_3d",
    "C67_output_means_2d"
   ],
   "note": ""
  },
  {
   "property": "C68",
   "status": "proved",
   "theorems": [
    "C68_safe_calls"
   ],
   "note": ""
  },
  {
   "property": "C69",
   "status": "proved",
   "theorems": [
    "C69_response_3d",
    "C69_response_2d"
   ],
   "note": ""
  },
  {
   "property": "C70",
   "status": "proved",
   "theorems": [
    "C70_thin"
   ],
   "note": ""
  },
  {
   "property": "C71",
   "status": "proved",
   "theorems": [
    "C71_tangent_3d",
    "C71_tangent_2d",
    "C71_symmetric_3d",
    "C71_symmetric_2d"
   ],
   "note": ""
  },
  {
   "property": "C72",
   "status": "partial",
   "theorems": [
    "C72_wrapper_leaks_refuted"
   ],
   "note": "REFUTED: the global pointer is overwritten (src/wrapper.cpp), so each construction leaves at least eleven live blocks whatever follows."
  },
  {
   "property": "C73",
   "status": "partial",
   "theorems": [
    "C73_class_3d",
    "C73_class_2d_partial",
    "C73_int_vars_2d_refuted"
   ],
   "note": "Proved in 3D. REFUTED in 2D: num_int_vars = nelem*8*7 is sized as in 3D and overflows for grids (e.g. 7000 x 7000) whose matrix still fits; every other size and index proved in range, and the internal variables exactly when 56*nelem <= 2^31-1."
  },
  {
   "property": "C74",
   "status": "proved",
   "theorems": [
    "C74_nan_answer"
   ],
   "note": ""
  },
  {
   "property": "C75",
   "status": "partial",
   "theorems": [
    "C75_independent_of_nan_refuted",
    "C75_nan_for_ever"
   ],
   "note": "REFUTED: the displacements at inner nodes are never reset, so one NaN strain makes every later answer NaN for all points of the object that do not take the linear shortcut; proved for all objects with a node inside."
  },
  {
   "property": "C76",
   "status": "proved",
   "theorems": [
    "C76_exact_energy_3d",
    "C76_exact_energy_2d"
   ],
   "note": ""
  },
  {
   "property": "C77",
   "status": "proved",
   "theorems": [
    "C77_recorded",
    "C77_decided"
   ],
   "note": ""
  },
  {
   "property": "C78",
   "status": "proved",
   "theorems": [
    "C78_monotone_point"
   ],
   "note": ""
  },
  {
   "property": "C79",
   "status": "proved",
   "theorems": [
    "C79_tangent_bounds",
    "C79_tangent_elastic"
   ],
   "note": ""
  },
  {
   "property": "C80",
   "status": "proved",
   "theorems": [
    "C80_unique_stress",
    "C80_near_stress",
    "C80_macro_monotone"
   ],
   "note": ""
  },
  {
   "property": "C81",
   "status": "proved",
   "theorems": [
    "C81_homogeneous_plastic"
   ],
   "note": ""
  },
  {
   "property": "C82",
   "status": "partial",
   "theorems": [
    "C82_exact_is_elastic",
    "C82_exact_refuted",
    "C82_secant_partial",
    "C82_secant_refuted"
   ],
   "note": "False of the code: the tangent called exact is the elastic one also where the point flows, and the secant one is negative at an unloaded point that has flowed. Proved: what the exact one is, and that the secant one is elastic at a point without plastic strain whose six one-component strains do not flow. Both functions are unreachable (local switches are false)."
  },
  {
   "property": "C83",
   "status": "partial",
   "theorems": [
    "C83_test3d_1",
    "C83_test3d_7",
    "C83_ends",
    "C83_strain",
    "C83_direction_refuted",
    "C83_direction_oob_refuted"
   ],
   "note": "Proved for directions 0 to 5: safety up to the stray reads of the Newton loop, the calls made, the text printed and logged, the loading history. False of the code: the direction argument is not checked, another one indexes eps out of bounds. The material file of test3d_1 has two numbers that the program never set."
  },
  {
   "property": "C84",
   "status": "partial",
   "theorems": [
    "C84_test2d_1_refuted",
    "C84_test2d_1_uninit_refuted"
   ],
   "note": "False of the code: write_info_files prints 6 x 6 entries of a tangent of which a 2D object only sets 3 x 3, so every run with a step reads unset memory."
  },
  {
   "property": "C85",
   "status": "partial",
   "theorems": [
    "C85_test3d_3_refuted"
   ],
   "note": "False of the code: micro_params has four entries and the constructor reads five."
  },
  {
   "property": "C86",
   "status": "partial",
   "theorems": [
    "C86_test3d_8_refuted",
    "C86_layer_void_refuted"
   ],
   "note": "False of the code: the numbers are packed by four where the constructor takes ten per material, so the second material is 0 0 0 0 and the layer has no stress. Proved: safety up to the Newton loop, the calls made and the text printed."
  },
  {
   "property": "C87",
   "status": "partial",
   "theorems": [
    "C87_print",
    "C87_print_null",
    "C87_print_fresh_refuted"
   ],
   "note": "Proved for every matrix with defined entries. False on a matrix as ell_init_3D leaves it: the values are not set."
  },
  {
   "property": "C88",
   "status": "partial",
   "theorems": [
    "C88_inside_refuted",
    "C88_answers_refuted",
    "C88_nan_refuted",
    "C88_case_refuted",
    "C88_test3d_8_refuted"
   ],
   "note": "False of the code: the Jacobi preconditioner divides by the zero diagonal of such a node, so a solve makes every displacement NaN. Proved: the nodes inside never move or are NaN, what homogenize gives is NaN or was accepted unsolved, and an object on 3 x 5 nodes gives nothing but NaN. That the first residual of test3d_8 is above the tolerance is a hypothesis of its theorem."
  },
  {
   "property": "C89",
   "status": "proved",
   "theorems": [
    "C89_equilibrium_exists"
   ],
   "note": ""
  },
  {
   "property": "C90",
   "status": "proved",
   "theorems": [
    "C90_equilibrium_minimum",
    "C90_energy_bound"
   ],
   "note": ""
  },
  {
   "property": "C91",
   "status": "proved",
   "theorems": [
    "C91_effective_lipschitz"
   ],
   "note": ""
  },
  {
   "property": "C92",
   "status": "proved",
   "theorems": [
    "C92_small_residual"
   ],
   "note": ""
  },
  {
   "property": "C93",
   "status": "proved",
   "theorems": [
    "C93_hardening_grows",
    "C93_yield"
   ],
   "note": ""
  },
  {
   "property": "C94",
   "status": "proved",
   "theorems": [
    "C94_stress_accuracy"
   ],
   "note": ""
  },
  {
   "property": "C95",
   "status": "proved",
   "theorems": [
    "C95_linear_answers",
    "C95_linear_answers_2d"
   ],
   "note": ""
  },
  {
   "property": "C96",
   "status": "proved",
   "theorems": [
    "C96_output_is_xml",
    "C96_reader_sound",
    "C96_ints_read_back"
   ],
   "note": ""
  },
  {
   "property": "C97",
   "status": "proved",
   "theorems": [
    "C97_korn_poincare_3d",
    "C97_korn_poincare_2d",
    "C97_stiffness_bound_3d",
    "C97_stiffness_bound_2d",
    "C97_displacement_error_3d",
    "C97_displacement_error_2d",
    "C97_near_linear_3d",
    "C97_near_linear_2d"
   ],
   "note": ""
  },
  {
   "property": "C98",
   "status": "proved",
   "theorems": [
    "C98_effective_stiffness_3d",
    "C98_effective_stiffness_2d"
   ],
   "note": ""
  },
  {
   "property": "C99",
   "status": "proved",
   "theorems": [
    "C99_same_doubles",
    "C99_dot",
    "C99_row",
    "C99_size"
   ],
   "note": ""
  },
  {
   "property": "C100",
   "status": "proved",
   "theorems": [
    "C100_cg_double"
   ],
   "note": ""
  },
  {
   "property": "C101",
   "status": "partial",
   "theorems": [
    "C101_cells_2D",
    "C101_cells_3D",
    "C101_mirror_refuted"
   ],
   "note": "Proved: the class is the exact one except within some roundings of the boundary. False: the symmetry; a disc of radius 1/5 in the unit cell with 6 nodes a side contains a cell but not its mirror image."
  },
  {
   "property": "C102",
   "status": "partial",
   "theorems": [
    "C102_strain",
    "C102_back_to_zero_refuted"
   ],
   "note": "Proved: the error bound. False: after 60 steps the exact strain is 0 and that of the programs is about -3.1e-17."
  },
  {
   "property": "C103",
   "status": "proved",
   "theorems": [
    "C103_fair",
    "C103_same_code_3D",
    "C103_same_code_2D"
   ],
   "note": ""
  },
  {
   "property": "C104",
   "status": "proved",
   "theorems": [
    "C104_respond_3D",
    "C104_respond_2D"
   ],
   "note": ""
  },
  {
   "property": "C105",
   "status": "proved",
   "theorems": [
    "C105_answers_3D",
    "C105_answers_2D"
   ],
   "note": ""
  },
  {
   "property": "C106",
   "status": "proved",
   "theorems": [
    "C106_tangents_3D",
    "C106_tangents_2D"
   ],
   "note": ""
  },
  {
   "property": "C107",
   "status": "proved",
   "theorems": [
    "C107_linear_tangent_3D",
    "C107_linear_tangent_2D"
   ],
   "note": ""
  },
  {
   "property": "C108",
   "status": "proved",
   "theorems": [
    "C108_product_text",
    "C108_product_refines"
   ],
   "note": ""
  },
  {
   "property": "C109",
   "status": "proved",
   "theorems": [
    "C109_cg_text",
    "C109_cg_2D_refines",
    "C109_cg_struct_refines",
    "C109_null_arguments"
   ],
   "note": ""
  },
  {
   "property": "C110",
   "status": "proved",
   "theorems": [
    "C110_jacobi_leaks",
    "C110_jacobi_refines"
   ],
   "note": ""
  },
  {
   "property": "C111",
   "status": "proved",
   "theorems": [
    "C111_assembly_text_3D"
   ],
   "note": ""
  },
  {
   "property": "C112",
   "status": "proved",
   "theorems": [
    "C112_fill_refines",
    "C112_init_refines"
   ],
   "note": ""
  },
  {
   "property": "C113",
   "status": "proved",
   "theorems": [
    "C113_free_once",
    "C113_free_twice"
   ],
   "note": ""
  },
  {
   "property": "C114",
   "status": "proved",
   "theorems": [
    "C114_linear_stress_text",
    "C114_monotone_text",
    "C114_stress_refines",
    "C114_plastic_step_refines"
   ],
   "note": ""
  },
  {
   "property": "C115",
   "status": "proved",
   "theorems": [
    "C115_gradient_text",
    "C115_strain_refines"
   ],
   "note": ""
  },
  {
   "property": "C116",
   "status": "proved",
   "theorems": [
    "C116_virtual_work_text",
    "C116_residual_refines"
   ],
   "note": ""
  },
  {
   "property": "C117",
   "status": "proved",
   "theorems": [
    "C117_energy_text",
    "C117_matrix_refines",
    "C117_tangent_refines"
   ],
   "note": ""
  },
  {
   "property": "C118",
   "status": "proved",
   "theorems": [
    "C118_residual_text",
    "C118_residual_refines"
   ],
   "note": ""
  },
  {
   "property": "C119",
   "status": "proved",
   "theorems": [
    "C119_stiffness_text",
    "C119_newton_step_text",
    "C119_matrix_refines"
   ],
   "note": ""
  },
  {
   "property": "C120",
   "status": "proved",
   "theorems": [
    "C120_solve_text",
    "C120_solve_refines"
   ],
   "note": ""
  },
  {
   "property": "C121",
   "status": "proved",
   "theorems": [
    "C121_single_int_text",
    "C121_stray_text",
    "C121_linear_text",
    "C121_newton_refines",
    "C121_oob_refines"
   ],
   "note": ""
  },
  {
   "property": "C122",
   "status": "proved",
   "theorems": [
    "C122_displ_text_3d",
    "C122_displ_text_2d",
    "C122_displ_refines"
   ],
   "note": ""
  },
  {
   "property": "C123",
   "status": "proved",
   "theorems": [
    "C123_mean_strain_text",
    "C123_mean_strain_refines"
   ],
   "note": ""
  },
  {
   "property": "C124",
   "status": "proved",
   "theorems": [
    "C124_mean_stress_text",
    "C124_uniform_text",
    "C124_mean_stress_refines"
   ],
   "note": ""
  },
  {
   "property": "C125",
   "status": "proved",
   "theorems": [
    "C125_fields_text",
    "C125_fields_refines"
   ],
   "note": ""
  },
  {
   "property": "C126",
   "status": "proved",
   "theorems": [
    "C126_gradient_text_2d",
    "C126_plane_stress_text",
    "C126_strain_refines_2d",
    "C126_stress_refines_2d"
   ],
   "note": ""
  },
  {
   "property": "C127",
   "status": "proved",
   "theorems": [
    "C127_virtual_work_text_2d",
    "C127_energy_text_2d",
    "C127_residual_refines_2d",
    "C127_matrix_refines_2d"
   ],
   "note": ""
  },
  {
   "property": "C128",
   "status": "proved",
   "theorems": [
    "C128_residual2_text"
   ],
   "note": ""
  },
  {
   "property": "C129",
   "status": "proved",
   "theorems": [
    "C129_stiffness2_text",
    "C129_newton_step2_text"
   ],
   "note": ""
  },
  {
   "property": "C130",
   "status": "proved",
   "theorems": [
    "C130_solve2_text"
   ],
   "note": ""
  },
  {
   "property": "C131",
   "status": "proved",
   "theorems": [
    "C131_single_int2_text",
    "C131_stray2_text",
    "C131_linear2_text"
   ],
   "note": ""
  },
  {
   "property": "C132",
   "status": "proved",
   "theorems": [
    "C132_mean_strain2_text",
    "C132_mean_strain2_refines"
   ],
   "note": ""
  },
  {
   "property": "C133",
   "status": "proved",
   "theorems": [
    "C133_mean_stress2_text",
    "C133_uniform2_text",
    "C133_mean_stress2_refines"
   ],
   "note": ""
  },
  {
   "property": "C134",
   "status": "proved",
   "theorems": [
    "C134_fields2_text",
    "C134_fields2_refines"
   ],
   "note": ""
  },
  {
   "property": "C135",
   "status": "proved",
   "theorems": [
    "C135_linear_tangent_refines",
    "C135_built_text"
   ],
   "note": ""
  },
  {
   "property": "C136",
   "status": "proved",
   "theorems": [
    "C136_is_linear_refines",
    "C136_invariants_refine"
   ],
   "note": ""
  },
  {
   "property": "C137",
   "status": "proved",
   "theorems": [
    "C137_linear_point_refines",
    "C137_linear_list_refines"
   ],
   "note": ""
  },
  {
   "property": "C138",
   "status": "proved",
   "theorems": [
    "C138_update_refines",
    "C138_update_list_refines"
   ],
   "note": ""
  },
  {
   "property": "C139",
   "status": "proved",
   "theorems": [
    "C139_get_stress_refines",
    "C139_get_ctan_refines"
   ],
   "note": ""
  },
  {
   "property": "C140",
   "status": "proved",
   "theorems": [
    "C140_flag_refines"
   ],
   "note": ""
  }
 ]
}