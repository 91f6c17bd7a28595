(** malloc and free: the model of MicroModel.v and OutputModel.v with the blocks the code
    holds.  Every function below computes what its namesake computes and carries the
    ledger along; erasing the ledger gives the namesake back (LedgerProps.v). *)
From Verif Require Import Base Scalar EllSpec Grid EllModel AssemblyModel MicroModel OutputModel.

(** The heap behind malloc and free, e.g. src/micro.cpp:58-65 and 152-159.  Blocks are numbered in the order of allocation and numbers are not reused, so a second
    free of a block is always noticed. *)
Record heap := mkHeap { h_next : Z; h_live : list Z }.
(** malloc, e.g. src/micro.cpp:58 *)
Definition hmalloc (h : heap) : Z * heap := (h_next h, mkHeap (h_next h + 1) (h_next h :: h_live h)).
(** free, e.g. src/micro.cpp:152.  free(NULL) does nothing; freeing anything that is not a live block is an error *)
Definition hfree (p : option Z) (h : heap) : res heap :=
  match p with
  | None => Ok h
  | Some b => if existsb (Z.eqb b) (h_live h)
              then Ok (mkHeap (h_next h) (filter (fun x => negb (x =? b)) (h_live h))) else Err BadPtr
  end.
(** consecutive mallocs, e.g. src/micro.cpp:58-65 *)
Fixpoint mallocs (n : nat) (h : heap) : list Z * heap :=
  match n with
  | O => ([], h)
  | S n => let '(b, h) := hmalloc h in let '(l, h) := mallocs n h in (b :: l, h)
  end.
(** consecutive frees, e.g. src/micro.cpp:152-159 *)
Definition frees (l : list (option Z)) (h : heap) : res heap := foldM (fun h p => hfree p h) l h.

(** k, r, z, p, q of src/ell.cpp:132-136 and 223-227, freed at 198-202 and 293-297 on every
    path (the early return for NULL arguments is before the mallocs) *)
Definition cg_blocks (h : heap) : res heap :=
  let '(l, h) := mallocs 5 h in frees (map Some l) h.
(** k, e_i of src/ell.cpp:68-69; there is no free in ell_solve_jacobi_2D, 58-114 *)
Definition jacobi_blocks (h : heap) : res heap := let '(_, h) := mallocs 2 h in Ok h.

(** the pointers a micropp_t holds (include/micro.hpp:84-93 and 45-46): A.cols, A.vals, b, du, u, elem_stress, elem_strain,
    elem_type, vars_old, vars_new and int_vars_n, int_vars_k of each Gauss point *)
Record ptrs := mkPtrs { p_own : list Z; p_gps : list (option Z * option Z) }.

Section Ledger.
Context {T : Type} `{OT : Ops T}.
Local Open Scope num_scope.

(** ell_solve_jacobi_2D with its blocks, src/ell.cpp:58-114 *)
Definition l_jacobi (s : solver T) (m : ell T) (nF nx ny : Z) (b x : arr T) (h : heap) : res (solver T * arr T * heap) :=
  h <- jacobi_blocks h ;;
  ' r <- ell_solve_jacobi_2D s m nF nx ny b x ;; Ok (r, h).
(** ell_solve_cgpd_2D and ell_solve_cgpd_struct, src/ell.cpp:116-300 *)
Definition l_cg (slot : Z) (s : solver T) (m : ell T) (nF nn : Z) (b x : arr T) (h : heap) : res (solver T * arr T * heap) :=
  ' r <- cgpd slot s m nF nn b x ;; h <- cg_blocks h ;; Ok (r, h).

(** newton_raphson, src/solve.cpp:46-66: every pass that does not break calls solve, which
    calls one of the two solvers (dim is 2 or 3) *)
Fixpoint l_newton_loop (fuel : nat) (pk : peek) (V : env T) (cell k : Z) (w : work T) (h : heap)
  : res (work T * bool * Z * T * heap) :=
  match fuel with
  | O => Err Fuel
  | S fuel =>
    ' r <- newton_body V w ;;
    let '(w, nl, er, brk) := r in
    if brk : bool then Ok (w, nl, cell, er, h)
    else
      h <- cg_blocks h ;;
      let k := (k + 1)%Z in
      i <- (if (k =? 0)%Z then Ok cell else pk k) ;;
      if (i <? nr_its)%Z && (nr_tol <? er) then l_newton_loop fuel pk V cell k w h
      else Ok (w, nl, cell, er, h)
  end.
(** newton_raphson, src/solve.cpp:46-66 *)
Definition l_newton (fuel : nat) (pk : peek) (V : env T) (w : work T) (h : heap) := l_newton_loop fuel pk V 0 0 w h.

(** src/homogenize.cpp:40-42, 169-171, 197-199 *)
Definition l_respond (fuel : nat) (pk : peek) (V : env T) (eps : list T) (w : work T) (h : heap)
  : res (work T * bool * Z * T * list T * heap) :=
  u <- set_displ V eps (w_u w) ;;
  ' r <- l_newton fuel pk V (set_u w u) h ;;
  let '(w, nl, its, er, h) := r in
  ' s <- calc_ave_stress V (w_u w) (w_vold w) (w_vnew w) ;;
  Ok (set_vnew w (snd s), nl, its, er, fst s, h).

(** calc_ctan_lin, src/homogenize.cpp:26-47 *)
Definition l_ctan_lin (fuel : nat) (orc : Z -> peek) (V : env T) (w : work T) (c : arr T) (h : heap)
  : res (work T * arr T * heap) :=
  foldM (fun st i =>
    let '(w, c, h) := st in
    ' r <- l_respond fuel (orc i) V (bump (nvoi V) (zeros (nvoi V)) i) w h ;;
    let '(w, _, _, _, s, h) := r in
    c <- wr_col V c i (ltab (nvoi V) (fun v => lget s v / d_eps)) ;;
    Ok (w, c, h)) (zrange 0 (nvoi V)) (w, c, h).

(** src/homogenize.cpp:173-179: the two mallocs, guarded by the test of int_vars_n *)
Definition l_keep (nl : bool) (p : option Z * option Z) (h : heap) : option Z * option Z * heap :=
  if nl then
    match fst p with
    | None => let '(k, h) := hmalloc h in let '(n, h) := hmalloc h in (Some n, Some k, h)
    | Some _ => (p, h)
    end
  else (p, h).

(** the tangent, src/homogenize.cpp:188-205 *)
Definition l_homog_ctan (fuel : nat) (orc : Z -> peek) (V : env T) (eps s0 : list T) (w : work T)
  (ctan : arr T) (its : arr Z) (ers : arr T) (h : heap) : res (work T * arr T * arr Z * arr T * heap) :=
  foldM (fun st i =>
    let '(w, ctan, its, ers, h) := st in
    ' r <- l_respond fuel (orc (1 + i)%Z) V (bump (nvoi V) eps i) w h ;;
    let '(w, _, it, er, s1, h) := r in
    ctan <- wr_col V ctan i (ltab (nvoi V) (fun v => (lget s1 v - lget s0 v) / d_eps)) ;;
    its <- wr its (1 + i)%Z it ;;
    ers <- wr ers (1 + i)%Z er ;;
    Ok (w, ctan, its, ers, h)) (zrange 0 (nvoi V)) (w, ctan, its, ers, h).

(** one pass of the loop of homogenize, src/homogenize.cpp:134-208 *)
Definition l_homog_gp (fuel : nat) (orc : Z -> peek) (V : env T) (c : arr T) (w : work T) (g : gp T)
  (p : option Z * option Z) (h : heap) : res (work T * T * gp T * (option Z * option Z) * heap) :=
  vold <- load_vars V (g_n g) (w_vold w) ;;
  let w := set_vold w vold in
  ' li <- is_linear V c (g_strain g) inv_min ;;
  let inv := snd li in
  if fst li && match g_n g with None => true | Some _ => false end then
    g <- homog_linear V c g inv ;;
    Ok (w, inv, g, p, h)
  else
    eps <- rdl (g_strain g) (nvoi V) ;;
    ' r <- l_respond fuel (orc 0%Z) V eps w h ;;
    let '(w, nl, it, er, s, h) := r in
    stress <- wrl (g_stress g) s (nvoi V) ;;
    ' nk <- keep_vars V nl (w_vnew w) g ;;
    let '(p, h) := l_keep nl p h in
    its <- wr (g_its g) 0 it ;;
    ers <- wr (g_err g) 0 er ;;
    ' t <- l_homog_ctan fuel orc V eps s w (g_ctan g) its ers h ;;
    let '(w, ctan, its, ers, h) := t in
    Ok (w, inv, mkGp (g_id g) its (fst nk) (snd nk) (g_strain g) stress ctan ers inv, p, h).

(** homogenize, src/homogenize.cpp:132-209 *)
Definition l_homog_list (fuel : nat) (orc : Z -> Z -> peek) (V : env T) (c : arr T) (l : list (gp T * (option Z * option Z)))
  (w : work T) (inv : option T) (h : heap) : res (work T * option T * list (gp T) * Z * list (option Z * option Z) * heap) :=
  foldM (fun st gq =>
    let '(w, _, done, j, ps, h) := st in
    ' r <- l_homog_gp fuel (orc j) V c w (fst gq) (snd gq) h ;;
    let '(w, inv, g, p, h) := r in
    Ok (w, Some inv, done ++ [g], (j + 1)%Z, ps ++ [p], h)) l (w, inv, [], 0%Z, [], h).

(** micropp_t::micropp_t, src/micro.cpp:58-65 and the mallocs of ell_init_*, src/ell.cpp:716-717
    and 875-876 *)
Definition l_construct (fuel : nat) (orc : Z -> peek) (j : junk T) (dim : Z) (size : list Z) (mtype : Z)
  (mp : list T) (mat_types : list Z) (params : list T) (h : heap) : res (obj T * ptrs * heap) :=
  V <- make_env j dim size mtype mp ;;
  if negb ((dim =? 2) || (dim =? 3))%Z then Err Abort else
  let '(own, h) := mallocs 8 h in
  if negb ((mtype =? 0) || (mtype =? 1))%Z then Err Uninit else
  ps <- mapM (arg mp) (zrange 0 5) ;;
  mats <- mapM (make_material mat_types params) (zrange 0 2) ;;
  let V := mkEnv (v_dim V) (v_nx V) (v_ny V) (v_nz V) (v_lx V) (v_ly V) (v_lz V) (v_dx V) (v_dy V) (v_dz V)
             (v_width V) (v_inv_tol V) (v_type V) mats (v_etype V) in
  et <- fill_types V ;;
  let V := mkEnv (v_dim V) (v_nx V) (v_ny V) (v_nz V) (v_lx V) (v_ly V) (v_lz V) (v_dx V) (v_dy V) (v_dz V)
             (v_width V) (v_inv_tol V) (v_type V) mats et in
  let '(mat, h) := mallocs 2 h in
  A <- (if (dim =? 2)%Z then ell_init_2D 2 (v_nx V) (v_ny V)
        else ell_init_3D 3 (v_nx V) (v_ny V) (v_nz V)) ;;
  let w := mkWork (alloc (j_u j) (ndofs V)) (malloc (ndofs V)) (malloc (ndofs V)) A
             (alloc (j_vold j) (nvars V)) (alloc (j_vnew j) (nvars V)) in
  ' r <- l_ctan_lin fuel orc V w (malloc 36) h ;;
  let '(w, c, h) := r in
  let ne := nelem dim (v_nx V) (v_ny V) (v_nz V) in
  Ok (mkObj V w ps c [] (malloc (ne * nvoi V)) (malloc (ne * nvoi V)) None false,
      mkPtrs (mat ++ own) [], h).

(** ~micropp_t, src/micro.cpp:148-165: ell_free (cols, vals), the eight buffers, then
    int_vars_n and int_vars_k of every Gauss point *)
Definition l_destroy (p : ptrs) (h : heap) : res heap :=
  h <- frees (map Some (p_own p)) h ;;
  frees (flat_map (fun q => [fst q; snd q]) (p_gps p)) h.

(** set_macro_strain, src/homogenize.cpp:90-110: a new point has two NULL pointers *)
Definition l_set (id : Z) (l : list (gp T)) (ps : list (option Z * option Z)) : list (option Z * option Z) :=
  match lookup id l with Some _ => ps | None => ps ++ [(None, None)] end.

(** the calls; those that only read or copy allocate nothing.  src/homogenize.cpp:90-217,
    src/output.cpp:29-50 and 224-285 *)
Definition l_step (c : call T) (s : obj T * files T) (p : ptrs) (h : heap) : res (obj T * files T * reply T * ptrs * heap) :=
  let '(o, fs) := s in
  match c with
  | SetStrain id eps =>
    ' r <- step c s ;; Ok (r, mkPtrs (p_own p) (l_set id (o_gps o) (p_gps p)), h)
  | Homogenize fuel orc =>
    ' r <- l_homog_list fuel orc (o_env o) (o_ctan o) (combine (o_gps o) (p_gps p)) (o_work o) (o_inv_max o) h ;;
    let '(w, inv, l, _, ps, h) := r in
    Ok (mkObj (o_env o) w (o_params o) (o_ctan o) l (o_estrain o) (o_estress o) inv (o_header o), fs, RUnit,
        mkPtrs (p_own p) ps, h)
  | Output fuel pk t id =>
    match lookup id (o_gps o) with
    | None => Ok (o, fs, RUnit, p, h)
    | Some g =>
      let V := o_env o in
      vold <- load_vars V (g_n g) (w_vold (o_work o)) ;;
      eps <- rdl (g_strain g) (nvoi V) ;;
      u <- set_displ V eps (w_u (o_work o)) ;;
      ' r <- l_newton fuel pk V (set_u (set_vold (o_work o) vold) u) h ;;
      let w := fst (fst (fst (fst r))) in
      let h := snd r in
      ' f <- calc_fields V (w_u w) (w_vold w) (w_vnew w) (o_estrain o) (o_estress o) ;;
      let o := with_work o (set_vnew w (snd f)) (fst (fst f)) (snd (fst f)) in
      t' <- write_vtu o ;;
      Ok (o, mkFiles (f_mats fs) (f_conv fs) (f_esc fs) (f_vars fs) ((id, t, t') :: f_vtu fs), RUnit, p, h)
    end
  | _ => ' r <- step c s ;; Ok (r, p, h)
  end.
(** a host program on one object, such as test/test3d_1.cpp:77-108 *)
Fixpoint l_run (cs : list (call T)) (s : obj T * files T) (p : ptrs) (h : heap) : res (obj T * files T * list (reply T) * ptrs * heap) :=
  match cs with
  | [] => Ok (s, [], p, h)
  | c :: cs =>
    ' r <- l_step c s p h ;;
    let '(s, q, p, h) := r in
    ' t <- l_run cs s p h ;;
    let '(s, qs, p, h) := t in Ok (s, q :: qs, p, h)
  end.

(** src/wrapper.cpp:27-75: [new] (33) takes one more block; nothing deletes it *)
Definition l_wstep (c : wcall T) (s : option (obj T) * files T) (p : ptrs) (h : heap)
  : res (option (obj T) * files T * reply T * ptrs * heap) :=
  match c, s with
  | WConstruct fuel orc j dim size mtype mp mt ps, (_, fs) =>
    let '(_, h) := hmalloc h in
    ' r <- l_construct fuel orc j dim size mtype mp mt ps h ;;
    let '(o, p, h) := r in Ok (Some o, construct_files o fs, RUnit, p, h)
  | WCall c, (Some o, fs) =>
    ' r <- l_step c (o, fs) p h ;;
    let '(o, fs, q, p, h) := r in Ok (Some o, fs, q, p, h)
  | WCall c, (None, _) => Err NullDeref
  end.
(** a host program calling src/wrapper.cpp:30-74 *)
Fixpoint l_wrun (cs : list (wcall T)) (s : option (obj T) * files T) (p : ptrs) (h : heap)
  : res (option (obj T) * files T * list (reply T) * ptrs * heap) :=
  match cs with
  | [] => Ok (s, [], p, h)
  | c :: cs =>
    ' r <- l_wstep c s p h ;;
    let '(s, q, p, h) := r in
    ' t <- l_wrun cs s p h ;;
    let '(s, qs, p, h) := t in Ok (s, q :: qs, p, h)
  end.
End Ledger.
