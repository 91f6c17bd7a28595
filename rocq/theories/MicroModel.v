(** Model of src/solve.cpp, src/homogenize.cpp and src/micro.cpp: the Newton loop,
    the object with its Gauss-point list, homogenisation and construction. *)
From Verif Require Import Base Scalar EllSpec Grid EllModel AssemblyModel.

(** ** The buffers of the Newton loop *)
(** members u, du, b, A, vars_old, vars_new of micropp_t, include/micro.hpp:84-93 *)
Record work (T : Type) := mkWork {
  w_u : arr T; w_du : arr T; w_b : arr T; w_A : ell T; w_vold : arr T; w_vnew : arr T }.
Arguments mkWork {T}.
Arguments w_u {T}. Arguments w_du {T}. Arguments w_b {T}. Arguments w_A {T}.
Arguments w_vold {T}. Arguments w_vnew {T}.

(** gp_t, include/micro.hpp:42-52.  Members of a new entry are uninitialised
    except those set_macro_strain writes; NULL pointers are [None]. *)
Record gp (T : Type) := mkGp {
  g_id : Z; g_its : arr Z; g_n : option (arr T); g_k : option (arr T);
  g_strain : arr T; g_stress : arr T; g_ctan : arr T; g_err : arr T; g_inv : T }.
Arguments mkGp {T}.
Arguments g_id {T}. Arguments g_its {T}. Arguments g_n {T}. Arguments g_k {T}.
Arguments g_strain {T}. Arguments g_stress {T}. Arguments g_ctan {T}.
Arguments g_err {T}. Arguments g_inv {T}.

(** micropp_t, include/micro.hpp:66-95.  [o_inv_max] is [None] until the first
    homogenize. *)
Record obj (T : Type) := mkObj {
  o_env : env T; o_work : work T; o_params : list T; o_ctan : arr T; o_gps : list (gp T);
  o_estrain : arr T; o_estress : arr T; o_inv_max : option T; o_header : bool }.
Arguments mkObj {T}.
Arguments o_env {T}. Arguments o_work {T}. Arguments o_params {T}. Arguments o_ctan {T}.
Arguments o_gps {T}. Arguments o_estrain {T}. Arguments o_estress {T}.
Arguments o_inv_max {T}. Arguments o_header {T}.

(** the value found k ints behind a local int: what the loop condition of
    newton_raphson (src/solve.cpp:63-65) reads after k executions of [*its++].  Undefined in C++; an
    arbitrary oracle here, whose errors stand for the undefined outcome. *)
Definition peek := Z -> res Z.
(** every such read (src/solve.cpp:65) is an error *)
Definition strict : peek := fun _ => Err BadPtr.

Section Micro.
Context {T : Type} `{OT : Ops T}.
Local Open Scope num_scope.

(** ** Newton *)
(** src/solve.cpp:25 *)
Definition cg_tol : T := dec 1 8.
(** src/solve.cpp:26 *)
Definition cg_its : Z := 2000.
(** src/solve.cpp:27 *)
Definition nr_tol : T := dec 1 5.
(** src/solve.cpp:28 *)
Definition nr_its : Z := 40.

(** solve, src/solve.cpp:32-44.  solver.its and solver.err are uninitialised there
    and only written by the solvers; 0 here. *)
Definition solve (V : env T) (A : ell T) (b du : arr T) : res (arr T) :=
  let sv := mkSolver cg_its 0 cg_tol (ofZ 0) in
  if (v_dim V =? 2)%Z then
    ' r <- ell_solve_cgpd_2D sv A 2 (v_nx V) (v_ny V) b du ;; Ok (snd r)
  else if (v_dim V =? 3)%Z then
    ' r <- ell_solve_cgpd_struct sv A 3 3 (nn V) b du ;; Ok (snd r)
  else Ok du.

(** one pass of the loop body, src/solve.cpp:51-64: the new buffers, *nl_flag, *err
    and whether the break was taken *)
Definition newton_body (V : env T) (w : work T) : res (work T * bool * T * bool) :=
  ' r <- assembly_rhs V (w_u w) (w_vold w) (w_vnew w) (w_b w) ;;
  let '(b, nl, vn, er) := r in
  if er <? nr_tol then Ok (mkWork (w_u w) (w_du w) b (w_A w) (w_vold w) vn, nl, er, true)
  else
    ' m <- assembly_mat V (w_u w) (w_vold w) vn (w_A w) ;;
    du <- run_stores (map (fun i => (i, dec 0 1)) (zrange 0 (ndofs V))) (w_du w) ;;
    du <- solve V (fst m) b du ;;
    u <- upd_for (ndofs V) (fun u i => x <- rd u i ;; y <- rd du i ;; Ok (x + y)) (w_u w) ;;
    Ok (mkWork u du b (fst m) (w_vold w) (snd m), nl, er, false).

(** the loop of newton_raphson, src/solve.cpp:50-65.  The int behind [its] is the pair of its
    value [cell] and of the distance [k] the pointer has moved: the loop increments
    the pointer, not the value.  [fuel] bounds the number of passes. *)
Fixpoint newton_loop (fuel : nat) (pk : peek) (V : env T) (cell k : Z) (w : work T)
  : res (work T * bool * Z * T) :=
  match fuel with
  | O => Err Fuel
  | S fuel =>
    ' r <- newton_body V w ;;
    let '(w, nl, er, brk) := r in
    if brk : bool then Ok (w, nl, cell, er)
    else
      let k := (k + 1)%Z in
      i <- (if (k =? 0)%Z then Ok cell else pk k) ;;
      if (i <? nr_its)%Z && (nr_tol <? er) then newton_loop fuel pk V cell k w
      else Ok (w, nl, cell, er)
  end.
(** newton_raphson, src/solve.cpp:46-66 *)
Definition newton (fuel : nat) (pk : peek) (V : env T) (w : work T) : res (work T * bool * Z * T) :=
  newton_loop fuel pk V 0 0 w.

(** a store through u, vars_old or vars_new (include/micro.hpp:85, 92, 93) *)
Definition set_u (w : work T) (u : arr T) : work T := mkWork u (w_du w) (w_b w) (w_A w) (w_vold w) (w_vnew w).
(** include/micro.hpp:92 *)
Definition set_vold (w : work T) (v : arr T) : work T := mkWork (w_u w) (w_du w) (w_b w) (w_A w) v (w_vnew w).
(** include/micro.hpp:93 *)
Definition set_vnew (w : work T) (v : arr T) : work T := mkWork (w_u w) (w_du w) (w_b w) (w_A w) (w_vold w) v.
(** set_displ, newton_raphson, calc_ave_stress in sequence: src/homogenize.cpp:40-42, 169-171,
    197-199 *)
Definition respond (fuel : nat) (pk : peek) (V : env T) (eps : list T) (w : work T)
  : res (work T * bool * Z * T * list T) :=
  u <- set_displ V eps (w_u w) ;;
  ' r <- newton fuel pk V (set_u w u) ;;
  let '(w, nl, its, er) := r in
  ' s <- calc_ave_stress V (w_u w) (w_vold w) (w_vnew w) ;;
  Ok (set_vnew w (snd s), nl, its, er, fst s).

(** ** Linear tangent *)
(** src/homogenize.cpp:29 and 188 *)
Definition d_eps : T := dec 1 8.
(** a[0..n-1] as a list, e.g. src/homogenize.cpp:116-117 and 193-194 *)
Definition rdl {A} (a : arr A) (n : Z) : res (list A) := mapM (rd a) (zrange 0 n).
(** a[i] = l[i], e.g. src/homogenize.cpp:95-96 and 105-106 *)
Definition wrl (a : arr T) (l : list T) (n : Z) : res (arr T) :=
  run_stores (map (fun i => (i, lget l i)) (zrange 0 n)) a.
(** eps_1[i] += d_eps, src/homogenize.cpp:35 and 193-195 *)
Definition bump (n : Z) (eps : list T) (i : Z) : list T :=
  ltab n (fun v => if (v =? i)%Z then lget eps v + d_eps else lget eps v).
(** column i of a tangent, src/homogenize.cpp:44-45 and 200-201 *)
Definition wr_col (V : env T) (c : arr T) (i : Z) (col : list T) : res (arr T) :=
  run_stores (map (fun v => ((v * nvoi V + i)%Z, lget col v)) (zrange 0 (nvoi V))) c.

(** calc_ctan_lin, src/homogenize.cpp:26-47.  eps_1[i] is 0.0 + d_eps there. *)
Definition calc_ctan_lin (fuel : nat) (orc : Z -> peek) (V : env T) (w : work T) (c : arr T)
  : res (work T * arr T) :=
  foldM (fun st i =>
    ' r <- respond fuel (orc i) V (bump (nvoi V) (zeros (nvoi V)) i) (fst st) ;;
    let '(w, _, _, _, s) := r in
    c <- wr_col V (snd st) i (ltab (nvoi V) (fun v => lget s v / d_eps)) ;;
    Ok (w, c)) (zrange 0 (nvoi V)) (w, c).

(** macro_stress = ctan_lin * macro_strain, src/homogenize.cpp:52-56 and 149-153 *)
Definition lin_stress (V : env T) (c e : arr T) : res (list T) :=
  mapM (fun i => sumM (zrange 0 (nvoi V)) (fun j =>
    x <- rd c (i * nvoi V + j)%Z ;; y <- rd e j ;; Ok (x * y))) (zrange 0 (nvoi V)).

(** get_inv_1, src/homogenize.cpp:65-75 *)
Definition get_inv_1 (V : env T) (t : list T) : res T :=
  if (v_dim V =? 2)%Z then Ok (lget t 0 + lget t 1)
  else if (v_dim V =? 3)%Z then Ok (lget t 0 + lget t 1 + lget t 2)
  else Err Abort.
(** get_inv_2, src/homogenize.cpp:77-88; [None] is NAN *)
Definition get_inv_2 (V : env T) (t : list T) : option T :=
  if (v_dim V =? 3)%Z then
    Some (lget t 0 * lget t 1 + lget t 0 * lget t 2 + lget t 1 * lget t 2
          + lget t 3 * lget t 3 + lget t 4 * lget t 4 + lget t 5 * lget t 5)
  else None.

(** is_linear, src/homogenize.cpp:49-63: the answer and the new inv_max *)
Definition is_linear (V : env T) (c e : arr T) (inv_max : T) : res (bool * T) :=
  s <- lin_stress V c e ;;
  inv <- get_inv_1 V s ;;
  Ok (oabs inv <? v_inv_tol V, if inv_max <? oabs inv then oabs inv else inv_max).

(** ** The Gauss-point list *)
(** src/homogenize.cpp:107 and 143 *)
Definition inv_min : T := - ofZ (10 ^ 10).
(** a new entry, src/homogenize.cpp:100-108 *)
Definition new_gp (V : env T) (id : Z) (eps : list T) : res (gp T) :=
  e <- wrl (malloc 6) eps (nvoi V) ;;
  Ok (mkGp id (malloc 7) None None e (malloc 6) (malloc 36) (malloc 7) inv_min).
(** the entry after a store in gp->macro_strain, src/homogenize.cpp:95-96 *)
Definition with_strain (g : gp T) (e : arr T) : gp T :=
  mkGp (g_id g) (g_its g) (g_n g) (g_k g) e (g_stress g) (g_ctan g) (g_err g) (g_inv g).
(** set_macro_strain, src/homogenize.cpp:90-110; the caller's array is a list *)
Fixpoint set_strain (V : env T) (id : Z) (eps : list T) (l : list (gp T)) : res (list (gp T)) :=
  match l with
  | [] => g <- new_gp V id eps ;; Ok [g]
  | g :: l =>
    if (g_id g =? id)%Z then e <- wrl (g_strain g) eps (nvoi V) ;; Ok (with_strain g e :: l)
    else l' <- set_strain V id eps l ;; Ok (g :: l')
  end.

(** the first entry with a given id: the loops with break of src/homogenize.cpp:114,
    124 and src/micro.cpp:170 *)
Fixpoint lookup (id : Z) (l : list (gp T)) : option (gp T) :=
  match l with
  | [] => None
  | g :: l => if (g_id g =? id)%Z then Some g else lookup id l
  end.
(** get_macro_stress, src/homogenize.cpp:112-120: [None] leaves the caller's buffer alone *)
Definition get_macro_stress (V : env T) (id : Z) (l : list (gp T)) : res (option (list T)) :=
  match lookup id l with
  | Some g => s <- rdl (g_stress g) (nvoi V) ;; Ok (Some s)
  | None => Ok None
  end.
(** get_macro_ctan, src/homogenize.cpp:122-130 *)
Definition get_macro_ctan (V : env T) (id : Z) (l : list (gp T)) : res (option (list T)) :=
  match lookup id l with
  | Some g => s <- rdl (g_ctan g) (nvoi V * nvoi V) ;; Ok (Some s)
  | None => Ok None
  end.
(** get_nl_flag, src/micro.cpp:167-175 *)
Definition get_nl_flag (id : Z) (l : list (gp T)) : Z :=
  match lookup id l with
  | Some g => match g_n g with Some _ => 1 | None => 0 end
  | None => 0
  end%Z.

(** ** Homogenisation *)
(** src/micro.cpp:52 *)
Definition nvars (V : env T) : Z := num_int_vars (v_dim V) (v_nx V) (v_ny V) (v_nz V).
(** vars_old = int_vars_n or zeros, src/homogenize.cpp:136-141 (and src/output.cpp:33-38) *)
Definition load_vars (V : env T) (n : option (arr T)) (vold : arr T) : res (arr T) :=
  match n with
  | None => upd_for (nvars V) (fun _ _ => Ok (dec 0 1)) vold
  | Some v => upd_for (nvars V) (fun _ i => rd v i) vold
  end.
(** src/homogenize.cpp:180-181 and 215-216 *)
Definition copy_vars (V : env T) (src dst : arr T) : res (arr T) :=
  upd_for (nvars V) (fun _ i => rd src i) dst.

(** the linear branch, src/homogenize.cpp:147-161 and 207 *)
Definition homog_linear (V : env T) (c : arr T) (g : gp T) (inv : T) : res (gp T) :=
  s <- lin_stress V c (g_strain g) ;;
  stress <- wrl (g_stress g) s (nvoi V) ;;
  ctan <- upd_for (nvoi V * nvoi V) (fun _ i => rd c i) (g_ctan g) ;;
  its <- run_stores (map (fun i => (i, 0%Z)) (zrange 0 (1 + nvoi V))) (g_its g) ;;
  ers <- run_stores (map (fun i => (i, dec 0 1)) (zrange 0 (1 + nvoi V))) (g_err g) ;;
  Ok (mkGp (g_id g) its (g_n g) (g_k g) (g_strain g) stress ctan ers inv).

(** the trial variables kept by the Gauss point, src/homogenize.cpp:173-182 *)
Definition keep_vars (V : env T) (nl : bool) (vnew : arr T) (g : gp T) : res (option (arr T) * option (arr T)) :=
  if nl then
    match g_n g with
    | None =>
      n <- upd_for (nvars V) (fun _ _ => Ok (dec 0 1)) (malloc (nvars V)) ;;
      k <- copy_vars V vnew (malloc (nvars V)) ;;
      Ok (Some n, Some k)
    | Some n =>
      k0 <- of_option NullDeref (g_k g) ;;
      k <- copy_vars V vnew k0 ;;
      Ok (Some n, Some k)
    end
  else Ok (g_n g, g_k g).

(** the tangent by forward differences, src/homogenize.cpp:188-205 *)
Definition homog_ctan (fuel : nat) (orc : Z -> peek) (V : env T) (eps s0 : list T) (w : work T)
  (ctan : arr T) (its : arr Z) (ers : arr T) : res (work T * arr T * arr Z * arr T) :=
  foldM (fun st i =>
    let '(w, ctan, its, ers) := st in
    ' r <- respond fuel (orc (1 + i)%Z) V (bump (nvoi V) eps i) w ;;
    let '(w, _, it, er, s1) := r in
    ctan <- wr_col V ctan i (ltab (nvoi V) (fun v => (lget s1 v - lget s0 v) / d_eps)) ;;
    its <- wr its (1 + i)%Z it ;;
    ers <- wr ers (1 + i)%Z er ;;
    Ok (w, ctan, its, ers)) (zrange 0 (nvoi V)) (w, ctan, its, ers).

(** one pass of the loop of homogenize, src/homogenize.cpp:134-208 *)
Definition homog_gp (fuel : nat) (orc : Z -> peek) (V : env T) (c : arr T) (w : work T) (g : gp T)
  : res (work T * T * gp T) :=
  vold <- load_vars V (g_n g) (w_vold w) ;;
  let w := set_vold w vold in
  ' li <- is_linear V c (g_strain g) inv_min ;;
  let inv := snd li in
  if fst li && match g_n g with None => true | Some _ => false end then
    g <- homog_linear V c g inv ;;
    Ok (w, inv, g)
  else
    eps <- rdl (g_strain g) (nvoi V) ;;
    ' r <- respond fuel (orc 0%Z) V eps w ;;
    let '(w, nl, it, er, s) := r in
    stress <- wrl (g_stress g) s (nvoi V) ;;
    ' nk <- keep_vars V nl (w_vnew w) g ;;
    its <- wr (g_its g) 0 it ;;
    ers <- wr (g_err g) 0 er ;;
    ' t <- homog_ctan fuel orc V eps s w (g_ctan g) its ers ;;
    let '(w, ctan, its, ers) := t in
    Ok (w, inv, mkGp (g_id g) its (fst nk) (snd nk) (g_strain g) stress ctan ers inv).

(** the loop of homogenize, src/homogenize.cpp:134-208; [orc j i] is the oracle of the i-th Newton
    call of the j-th Gauss point *)
Definition homog_list (fuel : nat) (orc : Z -> Z -> peek) (V : env T) (c : arr T) (l : list (gp T))
  (w : work T) (inv : option T) : res (work T * option T * list (gp T) * Z) :=
  foldM (fun st g =>
    let '(w, _, done, j) := st in
    ' r <- homog_gp fuel (orc j) V c w g ;;
    let '(w, inv, g) := r in
    Ok (w, Some inv, done ++ [g], (j + 1)%Z)) l (w, inv, [], 0%Z).
(** homogenize, src/homogenize.cpp:132-209 *)
Definition homogenize (fuel : nat) (orc : Z -> Z -> peek) (o : obj T) : res (obj T) :=
  ' r <- homog_list fuel orc (o_env o) (o_ctan o) (o_gps o) (o_work o) (o_inv_max o) ;;
  let '(w, inv, l, _) := r in
  Ok (mkObj (o_env o) w (o_params o) (o_ctan o) l (o_estrain o) (o_estress o) inv (o_header o)).

(** the body of the loop of update_vars, src/homogenize.cpp:214-216 *)
Definition update_gp (V : env T) (g : gp T) : res (gp T) :=
  match g_n g with
  | None => Ok g
  | Some n =>
    k <- of_option NullDeref (g_k g) ;;
    n <- copy_vars V k n ;;
    Ok (mkGp (g_id g) (g_its g) (Some n) (g_k g) (g_strain g) (g_stress g) (g_ctan g) (g_err g) (g_inv g))
  end.
(** the same object with another gauss_list (include/micro.hpp:82) *)
Definition set_gps (o : obj T) (l : list (gp T)) : obj T :=
  mkObj (o_env o) (o_work o) (o_params o) (o_ctan o) l (o_estrain o) (o_estress o) (o_inv_max o) (o_header o).
(** update_vars, src/homogenize.cpp:211-217 *)
Definition update_vars (o : obj T) : res (obj T) :=
  l <- mapM (update_gp (o_env o)) (o_gps o) ;; Ok (set_gps o l).

(** ** Construction *)
(** get_elem_type2D, src/micro.cpp:177-198 *)
Definition elem_type2D (V : env T) (ex ey : Z) : res Z :=
  let x1 := ofZ ex * v_dx V + v_dx V / ofZ 2 in
  let y1 := ofZ ey * v_dy V + v_dy V / ofZ 2 in
  if (v_type V =? 0)%Z then
    let x2 := v_lx V / ofZ 2 in let y2 := v_ly V / ofZ 2 in
    Ok (if (x2 - x1) * (x2 - x1) + (y2 - y1) * (y2 - y1) <? v_width V * v_width V then 1%Z else 0%Z)
  else if (v_type V =? 1)%Z then Ok (if y1 <? v_width V then 1%Z else 0%Z)
  else Err Abort.
(** get_elem_type3D, src/micro.cpp:200-224 *)
Definition elem_type3D (V : env T) (ex ey ez : Z) : res Z :=
  let x1 := ofZ ex * v_dx V + v_dx V / ofZ 2 in
  let y1 := ofZ ey * v_dy V + v_dy V / ofZ 2 in
  let z1 := ofZ ez * v_dz V + v_dz V / ofZ 2 in
  if (v_type V =? 0)%Z then
    let x2 := v_lx V / ofZ 2 in let y2 := v_ly V / ofZ 2 in let z2 := v_lz V / ofZ 2 in
    Ok (if (x2 - x1) * (x2 - x1) + (y2 - y1) * (y2 - y1) + (z2 - z1) * (z2 - z1)
           <? v_width V * v_width V then 1%Z else 0%Z)
  else if (v_type V =? 1)%Z then Ok (if y1 <? v_width V then 1%Z else 0%Z)
  else Err Abort.

(** l[i] of a caller's array: _micro_params, size, mat_types and params of src/micro.cpp:28-53,
    84, 90-93, 100 *)
Definition arg {A} (l : list A) (i : Z) : res A :=
  if (i <? 0)%Z then Err OOB else of_option OOB (nth_error l (Z.to_nat i)).

(** one entry of material_list, src/micro.cpp:90-115 *)
Definition make_material (mat_types : list Z) (params : list T) (i : Z) : res (material T) :=
  E <- arg params (i * 10)%Z ;;
  nu <- arg params (i * 10 + 1)%Z ;;
  Sy <- arg params (i * 10 + 2)%Z ;;
  Ka <- arg params (i * 10 + 3)%Z ;;
  t <- arg mat_types i ;;
  let k := E / (ofZ 3 * (ofZ 1 - ofZ 2 * nu)) in
  let mu := E / (ofZ 2 * (ofZ 1 + nu)) in
  let lambda := (nu * E) / ((ofZ 1 + nu) * (ofZ 1 - ofZ 2 * nu)) in
  let '(p, d) := match t with
    | 0%Z => (Some false, Some false)
    | 1%Z => (Some true, Some false)
    | 2%Z => (Some false, Some true)
    | _ => (None, None) end in
  Ok (mkMat E nu k mu lambda Ka Sy p d).

(** what malloc (src/micro.cpp:60, 64, 65) and the object's storage (include/micro.hpp:77)
    contained: an arbitrary content of each buffer
    and of micro_params[4]; [None] is memory whose use is an error *)
Record junk := mkJunk {
  j_u : Z -> option T; j_vold : Z -> option T; j_vnew : Z -> option T; j_tol : option T }.
(** the malloc of src/micro.cpp:60, 64 or 65 with that content *)
Definition alloc (f : Z -> option T) (n : Z) : arr T :=
  mkArr n (fold_right (fun i m => match f i with Some x => FMapPositive.PositiveMap.add (key i) x m | None => m end)
             (FMapPositive.PositiveMap.empty T) (zrange 0 n)).

(** the member initialisers, src/micro.cpp:30-53; inv_tol is initialised from the member
    micro_params, not from the argument.  dz is 0.0 / 0 in 2D and never used there. *)
Definition make_env (j : junk) (dim : Z) (size : list Z) (mtype : Z) (mp : list T) : res (env T) :=
  nx <- arg size 0 ;;
  ny <- arg size 1 ;;
  nz <- (if (dim =? 2)%Z then Ok 1%Z else arg size 2) ;;
  lx <- arg mp 0 ;;
  ly <- arg mp 1 ;;
  lz <- (if (dim =? 2)%Z then Ok (dec 0 1) else arg mp 2) ;;
  width <- arg mp 3 ;;
  tol <- of_option Uninit (j_tol j) ;;
  Ok (mkEnv dim nx ny nz lx ly lz (lx / ofZ (nx - 1)) (ly / ofZ (ny - 1)) (lz / ofZ (nz - 1))
        width tol mtype [] (malloc (nelem dim nx ny nz))).

(** elem_type, src/micro.cpp:118-136 *)
Definition fill_types (V : env T) : res (arr Z) :=
  if (v_dim V =? 2)%Z then
    foldM (fun a e => let '(ex, ey) := e in
      t <- elem_type2D V ex ey ;; wr a (glo_elem3D (v_nx V) (v_ny V) ex ey 0) t) (els2 V) (v_etype V)
  else
    foldM (fun a e => let '(ex, ey, ez) := e in
      t <- elem_type3D V ex ey ez ;; wr a (glo_elem3D (v_nx V) (v_ny V) ex ey ez) t) (els3 V) (v_etype V).

(** micropp_t::micropp_t, src/micro.cpp:28-146.  [nParams] and [numMaterials] are
    uninitialised for micro_type other than 0 and 1.  The files are in OutputModel.
    malloc never fails.  b, du and the matrix are written before they are read. *)
Definition construct (fuel : nat) (orc : Z -> peek) (j : junk) (dim : Z) (size : list Z) (mtype : Z)
  (mp : list T) (mat_types : list Z) (params : list T) : res (obj T) :=
  V <- make_env j dim size mtype mp ;;
  if negb ((dim =? 2) || (dim =? 3))%Z then Err Abort else
  if negb ((mtype =? 0) || (mtype =? 1))%Z then Err Uninit else
  ps <- mapM (arg mp) (zrange 0 5) ;;
  mats <- mapM (make_material mat_types params) (zrange 0 2) ;;
  let V := mkEnv (v_dim V) (v_nx V) (v_ny V) (v_nz V) (v_lx V) (v_ly V) (v_lz V) (v_dx V) (v_dy V) (v_dz V)
             (v_width V) (v_inv_tol V) (v_type V) mats (v_etype V) in
  et <- fill_types V ;;
  let V := mkEnv (v_dim V) (v_nx V) (v_ny V) (v_nz V) (v_lx V) (v_ly V) (v_lz V) (v_dx V) (v_dy V) (v_dz V)
             (v_width V) (v_inv_tol V) (v_type V) mats et in
  A <- (if (dim =? 2)%Z then ell_init_2D 2 (v_nx V) (v_ny V)
        else ell_init_3D 3 (v_nx V) (v_ny V) (v_nz V)) ;;
  let w := mkWork (alloc (j_u j) (ndofs V)) (malloc (ndofs V)) (malloc (ndofs V)) A
             (alloc (j_vold j) (nvars V)) (alloc (j_vnew j) (nvars V)) in
  ' r <- calc_ctan_lin fuel orc V w (malloc 36) ;;
  let ne := nelem dim (v_nx V) (v_ny V) (v_nz V) in
  Ok (mkObj V (fst r) ps (snd r) [] (malloc (ne * nvoi V)) (malloc (ne * nvoi V)) None false).
End Micro.
Arguments junk : clear implicits.
