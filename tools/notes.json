{
 "C03": {
  "note": "Full statement REFUTED: on the open right edge (x = lx, away from the corners) the slot of the upper neighbour names the node itself (src/ell.cpp:840). Proved for every other node and slot."
 },
 "C06": {
  "note": "Full statement REFUTED for rows of the open right edge (consequence of C03). Proved for every other row; the boundary rows are overwritten by ell_set_bc_2D before every solve."
 },
 "C09": {
  "note": "REFUTED on every 2D grid with more than one interior node (src/ell.cpp:464, 485, 519); proved for the 3x3 grid, the only grid with an interior where it holds. See C15 for why the solve is unaffected."
 },
 "C12": {
  "note": "Full statement REFUTED for budgets below 1: the do-while body runs once (src/ell.cpp). Proved: always terminates, at most max(1,max_its) iterations, reported count is exact."
 },
 "C13": {
  "note": "REFUTED: on budget exhaustion the reported error belongs to the iterate before the last update. Proved: it is the residual of that iterate; on convergence it is the residual of the returned vector."
 },
 "C18": {
  "note": "Truthfulness proved for every budget >= 1. REFUTED: for budgets <= 0 an uninitialised double is stored, and every call leaves its two work arrays allocated (src/ell.cpp:68-69)."
 },
 "C22": {
  "note": "Full statement REFUTED whenever lz <> 1: the sum is divided by lx*ly only (src/assembly.cpp:843). Proved: the result is lz times the macro strain, for any interior field."
 },
 "C23": {
  "note": "Proved in 2D. REFUTED in 3D whenever lz <> 1 (src/assembly.cpp:787 divides by lx*ly); proved there: lz times the volume average."
 },
 "C34": {
  "note": "REFUTED with hardening (Ka > 0): the increment is f/(2 mu), because the hardening term is multiplied by 0.0 (src/assembly.cpp:1041). Proved: with Ka = 0 the stress is on the new surface; with Ka > 0 it is strictly inside it and on the old one."
 },
 "C35": {
  "note": "REFUTED for shear: engineering shear strains are mixed with tensor plastic strains. Proved: the exact defect for every component, equality for the normal components and without flow; re-evaluation is idempotent when no shear is involved."
 },
 "C36": {
  "note": "REFUTED: only the last Gauss point of each cell decides (src/assembly.cpp get_elem_rhs overwrites the flag). Proved: flagged iff Gauss point 7 of some cell flows."
 },
 "C45": {
  "note": "Proved: the committed variables are those of the last homogenize whenever that solve flagged plastic flow, and 0 for points that never were non-linear. REFUTED otherwise: an elastic solve (nl_flag false) does not store its variables, so update_vars publishes those of an earlier trial (src/homogenize.cpp)."
 },
 "C48": {
  "note": "REFUTED: micro_params[4] is stored but never used; inv_tol is never written by the constructor, so the decision depends on fresh memory (src/micro.cpp, src/homogenize.cpp)."
 },
 "C49": {
  "note": "REFUTED: the test looks at the trace of the predicted stress only, so a pure shear beyond yield takes the linear path."
 },
 "C52": {
  "note": "REFUTED: the constructor solves for the tangent from uninitialised internal variables (3D, plastic). Proved for bodies without plastic cells up to an explicit bound given by the solver tolerance. With doubles a NaN in the fresh memory of the displacements spoils every entry of the tangent and every later answer."
 },
 "C50": {
  "note": "REFUTED: `*its++` (src/solve.cpp) moves the pointer, so the limit is tested on whatever lies behind the caller's int and the reported count is always 0. Proved: the exact behaviour for every content of that memory, and that the intended counter would bound the loop by 40 passes."
 },
 "C57": {
  "note": "Proved: the exact content of the log files for every call sequence, with every printed value initialised, and success in 3D once every point is homogenised. REFUTED in 2D: write_info_files always prints components 3..5 of 3-component arrays (C57_2d_refuted). The headers list only the ids known at the first call."
 },
 "C61": {
  "note": "REFUTED: the squared shear components are added instead of subtracted (src/homogenize.cpp:77-88). Proved: correct exactly when all shear components are zero."
 },
 "C65": {
  "note": "REFUTED: the values of cells that are not plastic are never written, so a commit publishes the content of fresh memory; proved for every object and history."
 },
 "C72": {
  "note": "REFUTED: the global pointer is overwritten (src/wrapper.cpp), so each construction leaves at least eleven live blocks whatever follows."
 },
 "C73": {
  "note": "Proved in 3D. REFUTED in 2D: num_int_vars = nelem*8*7 is sized as in 3D and overflows for grids (e.g. 7000 x 7000) whose matrix still fits; every other size and index proved in range, and the internal variables exactly when 56*nelem <= 2^31-1."
 },
 "C75": {
  "note": "REFUTED: the displacements at inner nodes are never reset, so one NaN strain makes every later answer NaN for all points of the object that do not take the linear shortcut; proved for all objects with a node inside."
 },
 "C82": {
  "status": "partial",
  "note": "False of the code: the tangent called exact is the elastic one also where the point flows, and the secant one is negative at an unloaded point that has flowed. Proved: what the exact one is, and that the secant one is elastic at a point without plastic strain whose six one-component strains do not flow. Both functions are unreachable (local switches are false)."
 },
 "C83": {
  "status": "partial",
  "note": "Proved for directions 0 to 5: safety up to the stray reads of the Newton loop, the calls made, the text printed and logged, the loading history. False of the code: the direction argument is not checked, another one indexes eps out of bounds. The material file of test3d_1 has two numbers that the program never set."
 },
 "C84": {
  "status": "partial",
  "note": "False of the code: write_info_files prints 6 x 6 entries of a tangent of which a 2D object only sets 3 x 3, so every run with a step reads unset memory."
 },
 "C85": {
  "status": "partial",
  "note": "False of the code: micro_params has four entries and the constructor reads five."
 },
 "C86": {
  "status": "partial",
  "note": "False of the code: the numbers are packed by four where the constructor takes ten per material, so the second material is 0 0 0 0 and the layer has no stress. Proved: safety up to the Newton loop, the calls made and the text printed."
 },
 "C87": {
  "status": "partial",
  "note": "Proved for every matrix with defined entries. False on a matrix as ell_init_3D leaves it: the values are not set."
 },
 "C88": {
  "status": "partial",
  "note": "False of the code: the Jacobi preconditioner divides by the zero diagonal of such a node, so a solve makes every displacement NaN. Proved: the nodes inside never move or are NaN, what homogenize gives is NaN or was accepted unsolved, and an object on 3 x 5 nodes gives nothing but NaN. That the first residual of test3d_8 is above the tolerance is a hypothesis of its theorem."
 },
 "C101": {
  "status": "partial",
  "note": "Proved: the class is the exact one except within some roundings of the boundary. False: the symmetry; a disc of radius 1/5 in the unit cell with 6 nodes a side contains a cell but not its mirror image."
 },
 "C102": {
  "status": "partial",
  "note": "Proved: the error bound. False: after 60 steps the exact strain is 0 and that of the programs is about -3.1e-17."
 }
}
