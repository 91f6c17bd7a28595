(** Model of /repo/src/ell.cpp: the ELL matrix of the structured grid, its
    initialisation, assembly, boundary conditions, product and solvers. *)
From Verif Require Import Base Scalar InitTables.

(** src/ell.cpp:28 (and the macro of the same name in src/assembly.cpp) *)
Definition nod_index (nx ny i j k : Z) : Z := k * nx * ny + j * nx + i.

(** include/ell.hpp:24-30: struct ell_matrix *)
Record ell (T : Type) := mkEll {
  e_nrow : Z; e_ncol : Z; e_nnz : Z; e_cols : arr Z; e_vals : arr T }.
Arguments mkEll {T}. Arguments e_nrow {T}. Arguments e_ncol {T}.
Arguments e_nnz {T}. Arguments e_cols {T}. Arguments e_vals {T}.

(** the same matrix after stores through m->vals, e.g. src/ell.cpp:44 *)
Definition set_vals {T} (m : ell T) (v : arr T) : ell T :=
  mkEll (e_nrow m) (e_ncol m) (e_nnz m) (e_cols m) v.

(** include/ell.hpp:32-37: struct ell_solver *)
Record solver (T : Type) := mkSolver { s_max_its : Z; s_its : Z; s_min_tol : T; s_err : T }.
Arguments mkSolver {T}. Arguments s_max_its {T}. Arguments s_its {T}.
Arguments s_min_tol {T}. Arguments s_err {T}.

(** ** Initialisation *)

(** right-hand side of one table entry, src/ell.cpp:707-1876 *)
Definition entry_col (nF nx ny n d2 : Z) (e : entry) : Z :=
  match e with
  | None => 0
  | Some (a, b, c) => (n + c * (nx * ny) + b * nx + a) * nF + d2
  end.

(** the stores of one block for node [n], e.g. src/ell.cpp:725-737 (2D) and 881-911 (3D):
    for d1, for d2, for every slot s: mcols[s*nFields + nnz*d1 + d2] = entry *)
Definition init_node (nF nnz nx ny : Z) (t : list entry) (n : Z) : list (Z * Z) :=
  flat_map (fun d1 =>
    flat_map (fun d2 =>
      map (fun se => (n * nF * nnz + (fst se * nF + nnz * d1 + d2),
                      entry_col nF nx ny n d2 (snd se)))
          (combine (zrange 0 (Z.of_nat (length t))) t))
      (zrange 0 nF)) (zrange 0 nF).

(** src/ell.cpp:720-861: the if/else chain choosing the block of node i *)
Definition table2D (nx ny i : Z) : list entry :=
  if i =? 0 then t2_corner_00
  else if i =? nx - 1 then t2_corner_x0
  else if i =? nx * ny - 1 then t2_corner_xy
  else if i =? (ny - 1) * nx then t2_corner_0y
  else if i <? nx then t2_bottom
  else if (ny - 1) * nx <? i then t2_top
  else if i mod nx =? 0 then t2_left
  else if (i + 1) mod nx =? 0 then t2_right
  else t2_inner.

(** the loop over the nodes, src/ell.cpp:720-861 *)
Definition init2D_stores (nF nx ny : Z) : list (Z * Z) :=
  flat_map (fun i => init_node nF (9 * nF) nx ny (table2D nx ny i) i) (zrange 0 (nx * ny)).

(** src/ell.cpp:707-863 *)
Definition ell_init_2D {T} (nF nx ny : Z) : res (ell T) :=
  let nnz := 9 * nF in
  let nrow := nx * ny * nF in
  cols <- run_stores (init2D_stores nF nx ny) (malloc (nnz * nrow)) ;;
  Ok (mkEll nrow nrow nnz cols (malloc (nnz * nrow))).

(** index range of one axis of a 3D block: a constant or the loop 1 .. n-2 of e.g.
    src/ell.cpp:1158-1160 *)
Definition ax_range (c : axcls) (n : Z) : list Z :=
  match c with Lo => [0] | Mid => zrange 1 (n - 1) | Hi => [n - 1] end.

(** the 27 blocks in program order, src/ell.cpp:878-1875 *)
Definition init3D_stores (nF nx ny nz : Z) : list (Z * Z) :=
  flat_map (fun blk : (axcls * axcls * axcls) * list entry =>
    let '((cx, cy, cz), t) := blk in
    flat_map (fun i => flat_map (fun j => flat_map (fun k =>
        init_node nF (27 * nF) nx ny t (nod_index nx ny i j k))
      (ax_range cz nz)) (ax_range cy ny)) (ax_range cx nx))
    t3_blocks.

(** src/ell.cpp:865-1876 *)
Definition ell_init_3D {T} (nF nx ny nz : Z) : res (ell T) :=
  let nnz := 27 * nF in
  let nrow := nx * ny * nz * nF in
  cols <- run_stores (init3D_stores nF nx ny nz) (malloc (nnz * nrow)) ;;
  Ok (mkEll nrow nrow nnz cols (malloc (nnz * nrow))).

Section Numeric.
Context {T : Type} `{OT : Ops T}.
Local Open Scope num_scope.

(** ** Reset *)
(** the loops of src/ell.cpp:42-44 *)
Definition zero_stores (nrow nnz : Z) : list (Z * T) :=
  flat_map (fun i => map (fun j => ((i * nnz + j)%Z, ofZ 0)) (zrange 0 nnz)) (zrange 0 nrow).
(** src/ell.cpp:40-46 *)
Definition ell_set_zero_mat (m : ell T) : res (ell T) :=
  v <- run_stores (zero_stores (e_nrow m) (e_nnz m)) (e_vals m) ;;
  Ok (set_vals m v).

(** ** Product *)
(** one row of src/ell.cpp:48-56.  [y[i]] is accumulated in a scalar and stored
    once: the same values, since y never aliases x, cols or vals in /repo. *)
Definition mvp_row (m : ell T) (x : arr T) (i : Z) : res T :=
  sumM (zrange 0 (e_nnz m)) (fun j =>
    v <- rd (e_vals m) (i * e_nnz m + j)%Z ;;
    c <- rd (e_cols m) (i * e_nnz m + j)%Z ;;
    xc <- rd x c ;; Ok (v * xc)).

(** src/ell.cpp:48-56 *)
Definition ell_mvp_2D (m : ell T) (x y : arr T) : res (arr T) :=
  upd_for (e_nrow m) (fun _ i => mvp_row m x i) y.

(** ** Element assembly *)
(** src/ell.cpp:337-340 *)
Definition cols_row2 : list (list Z) :=
  [ [4; 5; 8; 7]; [3; 4; 7; 6]; [0; 1; 4; 3]; [1; 2; 5; 4] ].
(** src/ell.cpp:342-345 *)
Definition sn2 (nx ex ey : Z) : list Z :=
  [ ey * nx + ex; ey * nx + ex + 1; (ey + 1) * nx + ex + 1; (ey + 1) * nx + ex ]%Z.
(** src/ell.cpp:369-376 *)
Definition cols_row3 : list (list Z) :=
  [ [13; 14; 17; 16; 22; 23; 26; 25];
    [12; 13; 16; 15; 21; 22; 25; 24];
    [9; 10; 13; 12; 18; 19; 22; 21];
    [10; 11; 14; 13; 19; 20; 23; 22];
    [4; 5; 8; 7; 13; 14; 17; 16];
    [3; 4; 7; 6; 12; 13; 16; 15];
    [0; 1; 4; 3; 9; 10; 13; 12];
    [1; 2; 5; 4; 10; 11; 14; 13] ].
(** src/ell.cpp:378-387 *)
Definition sn3 (nx ny ex ey ez : Z) : list Z :=
  let n0 := (ez * (nx * ny) + ey * nx + ex)%Z in
  let n1 := (ez * (nx * ny) + ey * nx + ex + 1)%Z in
  let n2 := (ez * (nx * ny) + (ey + 1) * nx + ex + 1)%Z in
  let n3 := (ez * (nx * ny) + (ey + 1) * nx + ex)%Z in
  [ n0; n1; n2; n3; n0 + nx * ny; n1 + nx * ny; n2 + nx * ny; n3 + nx * ny ]%Z.

(** sn[k] of src/ell.cpp:355 and 397 *)
Definition znth (l : list Z) (k : Z) : Z := nth (Z.to_nat k) l 0%Z.
(** cols_row[k][n] of src/ell.cpp:355 and 397 *)
Definition zznth (l : list (list Z)) (k n : Z) : Z := znth (nth (Z.to_nat k) l []) n.

(** the accumulations of src/ell.cpp:351-356 / 393-398 in program order; the
    element matrix [Ae] (a fixed local array of the caller) is an index function *)
Definition add_struct (npe nF nnz : Z) (cr : list (list Z)) (sn : list Z) (Ae : Z -> T)
  : list (Z * T) :=
  flat_map (fun i => flat_map (fun n => flat_map (fun k => map (fun j =>
      ((znth sn k * (nF * nnz) + i * nnz + zznth cr k n * nF + j)%Z,
       Ae (k * (npe * nF * nF) + i * (npe * nF) + n * nF + j)%Z))
    (zrange 0 nF)) (zrange 0 npe)) (zrange 0 npe)) (zrange 0 nF).

(** src/ell.cpp:329-358 *)
Definition ell_add_struct2D (m : ell T) (ex ey : Z) (Ae : Z -> T) (nF nx ny : Z) : res (ell T) :=
  v <- run_adds (add_struct 4 nF (e_nnz m) cols_row2 (sn2 nx ex ey) Ae) (e_vals m) ;;
  Ok (set_vals m v).

(** src/ell.cpp:360-399 *)
Definition ell_add_struct3D (m : ell T) (ex ey ez : Z) (Ae : Z -> T) (nF nx ny nz : Z)
  : res (ell T) :=
  v <- run_adds (add_struct 8 nF (e_nnz m) cols_row3 (sn3 nx ny ex ey ez) Ae) (e_vals m) ;;
  Ok (set_vals m v).

(** ** Boundary conditions *)
(** one boundary row: zeros, then 1 on the diagonal (e.g. src/ell.cpp:411-414) *)
Definition ident_row (nF nnz slot n d : Z) : list (Z * T) :=
  map (fun j => ((n * nF * nnz + d * nnz + j)%Z, ofZ 0)) (zrange 0 nnz)
  ++ [ ((n * nF * nnz + d * nnz + slot * nF + d)%Z, ofZ 1) ].

(** zeroing of some slots of one row (e.g. src/ell.cpp:453-455) *)
Definition zero_slots (nF nnz : Z) (slots : list Z) (n d1 : Z) : list (Z * T) :=
  flat_map (fun l => map (fun d2 => ((n * nF * nnz + d1 * nnz + l * nF + d2)%Z, ofZ 0))
                         (zrange 0 nF)) slots.

(** src/ell.cpp:401-535 *)
Definition bc2D_stores (nF nnz nx ny : Z) : list (Z * T) :=
  let rows (g : Z -> Z) (cnt : Z) :=
    flat_map (fun d => flat_map (fun n => ident_row nF nnz 4 (g n) d) (zrange 0 cnt))
             (zrange 0 nF) in
  let line (n0 step cnt : Z) (slots : list Z) :=
    flat_map (fun d1 => flat_map (fun i => zero_slots nF nnz slots (n0 + i * step)%Z d1)
                                 (zrange 0 cnt)) (zrange 0 nF) in
  let corner (n : Z) (slots : list Z) :=
    flat_map (fun d1 => zero_slots nF nnz slots n d1) (zrange 0 nF) in
  (* 408-416 y=0 *)   rows (fun n => n) nx
  (* 417-425 y=ly *)  ++ rows (fun n => n + (ny - 1) * nx)%Z nx
  (* 426-434 x=0 *)   ++ rows (fun n => (n + 1) * nx)%Z (ny - 2)%Z
  (* 435-443 x=lx *)  ++ rows (fun n => (n + 2) * nx - 1)%Z (ny - 2)%Z
  (* 447-456 y=hy *)  ++ line (nx + 2)%Z 1 (nx - 4)%Z [0; 1; 2]%Z
  (* 458-467 y=ly-hy; l runs over 6,7,8 but the address uses the constant 6 *)
                      ++ line ((ny - 2) * nx + 2)%Z 1 (nx - 4)%Z (map (fun _ => 6%Z) (zrange 6 9))
  (* 469-480 x=hx *)  ++ line (2 * nx + 1)%Z nx (ny - 4)%Z [0; 3; 6]%Z
  (* 482-493 "x=lx-hx" *) ++ line (4 * nx - 1)%Z nx (ny - 4)%Z [2; 5; 8]%Z
  (* 495-504 *)       ++ corner (nx + 1)%Z [0; 1; 2; 3; 6]%Z
  (* 506-514 *)       ++ corner (2 * nx - 2)%Z [0; 1; 2; 5; 8]%Z
  (* 516-524 *)       ++ corner ((ny - 1) * nx - 1)%Z [2; 5; 6; 7; 8]%Z
  (* 526-534 *)       ++ corner ((ny - 2) * nx + 1)%Z [0; 3; 6; 7; 8]%Z.

(** src/ell.cpp:401-535 *)
Definition ell_set_bc_2D (m : ell T) (nF nx ny : Z) : res (ell T) :=
  v <- run_stores (bc2D_stores nF (e_nnz m) nx ny) (e_vals m) ;; Ok (set_vals m v).

(** src/ell.cpp:537-705 *)
Definition bc3D_stores (nF nnz nx ny nz : Z) : list (Z * T) :=
  let face (la lb : list Z) (nd : Z -> Z -> Z) :=
    flat_map (fun d => flat_map (fun a => flat_map (fun b =>
      ident_row nF nnz 13 (nd a b) d) lb) la) (zrange 0 nF) in
  let near (la lb : list Z) (nd : Z -> Z -> Z) (slots : list Z) :=
    flat_map (fun d1 => flat_map (fun a => flat_map (fun b =>
      zero_slots nF nnz slots (nd a b) d1) lb) la) (zrange 0 nF) in
  let N := nod_index nx ny in
  let full n := zrange 0 n in
  let inner n := zrange 1 (n - 1) in
  (* 544-555 z=0 *)  face (full nx) (full ny) (fun i j => N i j 0)%Z
  (* 557-568 z=lz *) ++ face (full nx) (full ny) (fun i j => N i j (nz - 1))%Z
  (* 570-581 y=0 *)  ++ face (full nx) (full nz) (fun i k => N i 0 k)%Z
  (* 583-594 y=ly *) ++ face (full nx) (full nz) (fun i k => N i (ny - 1) k)%Z
  (* 596-607 x=0 *)  ++ face (full ny) (full nz) (fun j k => N 0 j k)%Z
  (* 609-620 x=lx *) ++ face (full ny) (full nz) (fun j k => N (nx - 1) j k)%Z
  (* 622-634 z=dz *)
  ++ (if (2 <? nz)%Z then near (inner nx) (inner ny) (fun i j => N i j 1)%Z (zrange 0 9) else [])
  (* 635-647 z=lz-dz *)
  ++ (if (2 <? nz)%Z then near (inner nx) (inner ny) (fun i j => N i j (nz - 2))%Z (zrange 18 27) else [])
  (* 648-661 y=dy *)
  ++ (if (2 <? ny)%Z then near (inner nx) (inner nz) (fun i k => N i 1 k)%Z
                               [0; 1; 2; 9; 10; 11; 18; 19; 20]%Z else [])
  (* 662-675 y=ly-dy (no guard) *)
  ++ near (inner nx) (inner nz) (fun i k => N i (ny - 2) k)%Z [6; 7; 8; 15; 16; 17; 24; 25; 26]%Z
  (* 676-689 x=dx *)
  ++ (if (2 <? nx)%Z then near (inner ny) (inner nz) (fun j k => N 1 j k)%Z
                               [0; 3; 6; 9; 12; 15; 18; 21; 24]%Z else [])
  (* 690-703 x=lx-dx *)
  ++ (if (2 <? nx)%Z then near (inner ny) (inner nz) (fun j k => N (nx - 2) j k)%Z
                               [2; 5; 8; 11; 14; 17; 20; 23; 26]%Z else []).

(** src/ell.cpp:537-705 *)
Definition ell_set_bc_3D (m : ell T) (nF nx ny nz : Z) : res (ell T) :=
  v <- run_stores (bc3D_stores nF (e_nnz m) nx ny nz) (e_vals m) ;; Ok (set_vals m v).

(** ** Solvers *)
(** k[i*nFields+d] = 1 / diagonal, src/ell.cpp:142-146 and 231-236 (slot 4),
    237-243 (slot 13) *)
Definition inv_diag (m : ell T) (slot nF nn : Z) (k : arr T) : res (arr T) :=
  foldM (fun k id => let '(i, d) := id in
    v <- rd (e_vals m) (i * nF * e_nnz m + slot * nF + d * e_nnz m + d)%Z ;;
    wr k (i * nF + d)%Z (ofZ 1 / v))
    (flat_map (fun i => map (fun d => (i, d)) (zrange 0 nF)) (zrange 0 nn)) k.

(** a loop  acc = 0; for (i < n) acc += a[i] * b[i],  e.g. src/ell.cpp:155-157, 166-168,
    180-182 and src/assembly.cpp:325-327 *)
Definition dotM (n : Z) (a b : arr T) : res T :=
  sumM (zrange 0 n) (fun i => x <- rd a i ;; y <- rd b i ;; Ok (x * y)).

(** body of the do-while of src/ell.cpp:153-193 (= 249-288); returns the vector
    x, the last computed err and the counter its.  Recursion on the budget:
    [fuel] is the number of further times the body may start. *)
Fixpoint cg_loop (m : ell T) (k : arr T) (min_tol : T) (max_its : Z) (fuel : nat)
    (x r z p q : arr T) (rho_0 : T) (its : Z) : res (arr T * T * Z) :=
  match fuel with
  | O => Err Fuel
  | S fuel =>
    let n := e_nrow m in
    rr <- dotM n r r ;;
    let er := osqrt rr in
    if er <? min_tol then Ok (x, er, its)
    else
      z <- upd_for n (fun _ i => a <- rd k i ;; b <- rd r i ;; Ok (a * b)) z ;;
      rho_1 <- dotM n r z ;;
      p <- (if (its =? 0)%Z
            then upd_for n (fun _ i => rd z i) p
            else let beta := rho_1 / rho_0 in
                 upd_for n (fun p i => a <- rd z i ;; b <- rd p i ;; Ok (a + beta * b)) p) ;;
      q <- ell_mvp_2D m p q ;;
      aux <- dotM n p q ;;
      let d := rho_1 / aux in
      x <- upd_for n (fun x i => a <- rd x i ;; b <- rd p i ;; Ok (a - d * b)) x ;;
      r <- upd_for n (fun r i => a <- rd r i ;; b <- rd q i ;; Ok (a - d * b)) r ;;
      let its := (its + 1)%Z in
      if (its <? max_its)%Z
      then cg_loop m k min_tol max_its fuel x r z p q rho_1 its
      else Ok (x, er, its)
  end.

(** number of times the body can start: once, then while its < max_its (src/ell.cpp:193, 288) *)
Definition cg_fuel (max_its : Z) : nat := Z.to_nat (Z.max 1 max_its).

(** src/ell.cpp:116-205 (slot 4, nn = nx*ny) and 207-300 (slot 4 or 13).
    The two C++ functions differ only in the diagonal slot.  The C++ variables
    x[i] and r[i] are updated in one loop; two loops give the same values.
    rho_0 is uninitialised before the first iteration and never read then; the
    model passes 0 for it.  The NULL-argument test is not modelled (references
    cannot be null here). *)
Definition cgpd (slot : Z) (s : solver T) (m : ell T) (nF nn : Z) (b x : arr T)
  : res (solver T * arr T) :=
  let n := e_nrow m in
  k <- inv_diag m slot nF nn (malloc n) ;;
  r <- ell_mvp_2D m x (malloc n) ;;
  r <- upd_for n (fun r i => a <- rd r i ;; c <- rd b i ;; Ok (a - c)) r ;;
  '(x, er, its) <- cg_loop m k (s_min_tol s) (s_max_its s) (cg_fuel (s_max_its s))
                     x r (malloc n) (malloc n) (malloc n) (ofZ 0) 0 ;;
  Ok (mkSolver (s_max_its s) its (s_min_tol s) er, x).

(** src/ell.cpp:116-205 *)
Definition ell_solve_cgpd_2D (s : solver T) (m : ell T) (nF nx ny : Z) (b x : arr T) :=
  cgpd 4 s m nF (nx * ny) b x.

(** src/ell.cpp:207-300; for other values of dim the array k stays uninitialised *)
Definition ell_solve_cgpd_struct (s : solver T) (m : ell T) (nF dim nn : Z) (b x : arr T) :=
  if (dim =? 2)%Z then cgpd 4 s m nF nn b x
  else if (dim =? 3)%Z then cgpd 13 s m nF nn b x
  else cgpd 13 s m nF 0 b x.

(** the inner loop of src/ell.cpp:87-95.  The test for column -1 never succeeds on
    matrices built by ell_init_*, it is kept. *)
Fixpoint jac_row (m : ell T) (x : arr T) (i : Z) (js : list Z) (aux : T) : res T :=
  match js with
  | [] => Ok aux
  | j :: js =>
    c <- rd (e_cols m) (i * e_nnz m + j)%Z ;;
    if (c =? -1)%Z then Ok aux
    else if (c =? i)%Z then jac_row m x i js aux
    else v <- rd (e_vals m) (i * e_nnz m + j)%Z ;; xc <- rd x c ;;
         jac_row m x i js (aux + v * xc)
  end.

(** one sweep, src/ell.cpp:86-98 *)
Definition jac_sweep (m : ell T) (k b x : arr T) : res (arr T) :=
  upd_for (e_nrow m) (fun x i =>
    aux <- jac_row m x i (zrange 0 (e_nnz m)) (ofZ 0) ;;
    ki <- rd k i ;; bi <- rd b i ;; Ok (ki * (ofZ (-1) * aux + bi))) x.

(** src/ell.cpp:83-110; [er] is [None] while the C++ variable err is
    uninitialised *)
Fixpoint jac_loop (m : ell T) (k b : arr T) (min_tol : T) (max_its : Z) (fuel : nat)
    (x e_i : arr T) (er : option T) (its : Z) : res (arr T * option T * Z) :=
  if (its <? max_its)%Z then
    match fuel with
    | O => Err Fuel
    | S fuel =>
      let n := e_nrow m in
      x <- jac_sweep m k b x ;;
      e_i <- ell_mvp_2D m x e_i ;;
      e_i <- upd_for n (fun e i => a <- rd e i ;; c <- rd b i ;; Ok (a - c)) e_i ;;
      ee <- dotM n e_i e_i ;;
      let er := osqrt ee in
      if er <? min_tol then Ok (x, Some er, its)
      else jac_loop m k b min_tol max_its fuel x e_i (Some er) (its + 1)%Z
    end
  else Ok (x, er, its).

(** src/ell.cpp:58-114; storing the uninitialised err is the [None] case.
    The buffers k and e_i are not freed (see LedgerModel.v). *)
Definition ell_solve_jacobi_2D (s : solver T) (m : ell T) (nF nx ny : Z) (b x : arr T)
  : res (solver T * arr T) :=
  let n := e_nrow m in
  k <- inv_diag m 4 nF (nx * ny) (malloc n) ;;
  '(x, er, its) <- jac_loop m k b (s_min_tol s) (s_max_its s) (Z.to_nat (s_max_its s))
                     x (malloc n) None 0 ;;
  er <- of_option Uninit er ;;
  Ok (mkSolver (s_max_its s) its (s_min_tol s) er, x).

End Numeric.
