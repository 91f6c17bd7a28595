(** Claims on the syntax trees of src/ell.cpp (EllAst.v) under the semantics of Clite.v. *)
From Coq Require Import String Reals.
From Verif Require Import Base Scalar EllModel EllSpec EllInit EllAsm EllOp EllFinal EllProps CgPure CgFinal CgProps
  Clite CliteRules CliteEmit EllAst EllLit EllLit2 EllLit3 EllLit6 EllLit7 EllLit8.
Local Open Scope string_scope.
Local Open Scope Z_scope.

Example C108_example : exists st, calls ell_prog "ell_mvp_2D" [VP 1 0; VP 4 0; VP 5 0] small_heap 6 (Ok (st, Nrm)) /\
  exists y, mem st 5 = Some (OD y) /\ rd y 0 = Ok (ofZ 17) /\ rd y 1 = Ok (ofZ 39).
Proof. exact small_run. Qed.

(** C108.  The text of the product, in exact arithmetic, stores the dense matrix times x and
    changes nothing else. *)
Theorem C108_product_text : forall S nF nn (m : ell R) bm bc bv bx bo (H : @heap R) x xf y,
  0 <= S -> wf_ell m S nF nn -> rep x (nn * nF) xf -> alen y = nn * nF ->
  mat_at (fst H) bm bc bv m -> fst H bx = Some (OD x) -> fst H bo = Some (OD y) ->
  bo <> bm -> bo <> bc -> bo <> bv -> bo <> bx ->
  exists H' y', does "ell_mvp_2D" [VP bm 0; VP bx 0; VP bo 0] H H' /\ fst H' bo = Some (OD y') /\
    (forall c, c <> bo -> fst H' c = fst H c) /\
    rep y' (nn * nF) (fun r => rsum (zrange 0 (nn * nF)) (fun c => dense m r c * xf c)%R).
Proof. exact text_product. Qed.
Print Assumptions C108_product_text.

(** On every matrix, in every arithmetic: the outcome of the model, errors included. *)
Theorem C108_product_refines : forall T (OT : Ops T) bm bc bv bx bo K h (m : ell T) (x y : arr T),
  mat_at h bm bc bv m -> h bx = Some (OD x) -> h bo = Some (OD y) ->
  bo <> bm -> bo <> bc -> bo <> bv -> bo <> bx ->
  match ell_mvp_2D m x y with
  | Ok y' => exists st, calls ell_prog "ell_mvp_2D" [VP bm 0; VP bx 0; VP bo 0] h K (Ok (st, Nrm)) /\
      mem st bo = Some (OD y') /\ forall c, c <> bo -> mem st c = h c
  | Err _ => exists w, calls ell_prog "ell_mvp_2D" [VP bm 0; VP bx 0; VP bo 0] h K (Err w)
  end.
Proof. exact @mvp_calls. Qed.
Print Assumptions C108_product_refines.

Example C109_example : exists (m : ell R) b x bf xf (H : @heap R), wf_ell m (slots CG2D) 2 (nodes CG2D 4 4 1) /\
  rep b (nodes CG2D 4 4 1 * 2) bf /\ rep x (nodes CG2D 4 4 1 * 2) xf /\ residual_norm m bf xf <> 0%R /\
  NoDup [0; 1; 2; 3; 4; 5] /\ (forall c, In c [0; 1; 2; 3; 4; 5] -> c < snd H) /\
  (forall c, snd H <= c -> fst H c = None) /\ fst H 0 = Some (sol_obj 100 (1 / 1000)%R None None) /\
  mat_at (fst H) 1 2 3 m /\ fst H 4 = Some (OD b) /\ fst H 5 = Some (OD x).
Proof. exact cg_text_case. Qed.

(** C109.  The text of both conjugate gradient solvers, in exact arithmetic: it returns 0, a count
    below the budget means that the reported error is the residual of the stored answer and below the
    tolerance, and all memory but the answer and the two results is as before, nothing new is left. *)
Theorem C109_cg_text : forall f (m : ell R) nF nx ny nz b x bf xf bs bm bc bv bb bx mi tol it0 er0 (H : @heap R),
  wf_ell m (slots f) nF (nodes f nx ny nz) ->
  rep b (nodes f nx ny nz * nF) bf -> rep x (nodes f nx ny nz * nF) xf ->
  NoDup [bs; bm; bc; bv; bb; bx] -> (forall c, In c [bs; bm; bc; bv; bb; bx] -> c < snd H) ->
  (forall c, snd H <= c -> fst H c = None) ->
  fst H bs = Some (sol_obj mi tol it0 er0) -> mat_at (fst H) bm bc bv m ->
  fst H bb = Some (OD b) -> fst H bx = Some (OD x) ->
  exists H' x' xf' its er,
    does (cg_name f) (VP bs 0 :: VP bm 0 :: cg_args f nF nx ny nz ++ [VP bb 0; VP bx 0])%list H H' /\
    fst H' bx = Some (OD x') /\ rep x' (nodes f nx ny nz * nF) xf' /\
    fst H' bs = Some (sol_obj mi tol (Some (VI its)) (Some (VD er))) /\
    (forall c, c <> bs -> c <> bx -> fst H' c = fst H c) /\
    (its < mi -> (er < tol)%R /\ er = residual_norm m bf xf').
Proof. exact text_cg_truth. Qed.
Print Assumptions C109_cg_text.

(** In every arithmetic: the outcome of the model, and everything allocated is released. *)
Theorem C109_cg_2D_refines : forall T (OT : Ops T) bs bm bc bv bb bx K h (m : ell T) mi tol it0 er0 b x,
  NoDup [bs; bm; bc; bv; bb; bx] -> (forall c, In c [bs; bm; bc; bv; bb; bx] -> c < K) ->
  (forall c, K <= c -> h c = None) -> h bs = Some (sol_obj mi tol it0 er0) -> mat_at h bm bc bv m ->
  h bb = Some (OD b) -> h bx = Some (OD x) -> forall nF nx ny ie ee,
  match ell_solve_cgpd_2D (mkSolver mi ie tol ee) m nF nx ny b x with
  | Ok (s', x') => exists st,
      calls ell_prog "ell_solve_cgpd_2D" [VP bs 0; VP bm 0; VI nF; VI nx; VI ny; VP bb 0; VP bx 0] h K (Ok (st, Ret (VI 0))) /\
      mem st bs = Some (sol_obj mi tol (Some (VI (s_its s'))) (Some (VD (s_err s')))) /\
      mem st bx = Some (OD x') /\ (forall c, c <> bs -> c <> bx -> mem st c = h c)
  | Err _ => exists w,
      calls ell_prog "ell_solve_cgpd_2D" [VP bs 0; VP bm 0; VI nF; VI nx; VI ny; VP bb 0; VP bx 0] h K (Err w)
  end.
Proof. exact @cgpd_2D_calls. Qed.
Print Assumptions C109_cg_2D_refines.

Theorem C109_cg_struct_refines : forall T (OT : Ops T) bs bm bc bv bb bx K h (m : ell T) mi tol it0 er0 b x,
  NoDup [bs; bm; bc; bv; bb; bx] -> (forall c, In c [bs; bm; bc; bv; bb; bx] -> c < K) ->
  (forall c, K <= c -> h c = None) -> h bs = Some (sol_obj mi tol it0 er0) -> mat_at h bm bc bv m ->
  h bb = Some (OD b) -> h bx = Some (OD x) -> forall nF dim nn ie ee,
  match ell_solve_cgpd_struct (mkSolver mi ie tol ee) m nF dim nn b x with
  | Ok (s', x') => exists st,
      calls ell_prog "ell_solve_cgpd_struct" [VP bs 0; VP bm 0; VI nF; VI dim; VI nn; VP bb 0; VP bx 0] h K (Ok (st, Ret (VI 0))) /\
      mem st bs = Some (sol_obj mi tol (Some (VI (s_its s'))) (Some (VD (s_err s')))) /\
      mem st bx = Some (OD x') /\ (forall c, c <> bs -> c <> bx -> mem st c = h c)
  | Err _ => exists w,
      calls ell_prog "ell_solve_cgpd_struct" [VP bs 0; VP bm 0; VI nF; VI dim; VI nn; VP bb 0; VP bx 0] h K (Err w)
  end.
Proof. exact @cgpd_struct_calls. Qed.
Print Assumptions C109_cg_struct_refines.

(** A NULL matrix, right-hand side or answer: 1 is returned and memory is as before. *)
Theorem C109_null_arguments : forall T (OT : Ops T) f (v0 vm v2 v3 v4 vb vx : @val T) h K,
  In f ["ell_solve_cgpd_2D"; "ell_solve_cgpd_struct"; "ell_solve_jacobi_2D"] ->
  (forall v, In v [vm; vb; vx] -> v = VNull \/ exists c o, v = VP c o) -> In VNull [vm; vb; vx] ->
  exists st, calls ell_prog f [v0; vm; v2; v3; v4; vb; vx] h K (Ok (st, Ret (VI 1))) /\ mem st = h /\ nxt st = K.
Proof. exact @text_null. Qed.
Print Assumptions C109_null_arguments.

Example C110_example : forall T mi (tol : T) m b x, let H := heap6 mi tol m b x in
  NoDup [0; 1; 2; 3; 4; 5] /\ (forall c, In c [0; 1; 2; 3; 4; 5] -> c < snd H) /\
  (forall c, snd H <= c -> fst H c = None) /\ fst H 0 = Some (sol_obj mi tol None None) /\
  mat_at (fst H) 1 2 3 m /\ fst H 4 = Some (OD b) /\ fst H 5 = Some (OD x).
Proof. exact @heap6_ok. Qed.

(** C110.  The Jacobi solver does not release its two arrays: with a budget it returns, and they are
    still allocated. *)
Theorem C110_jacobi_leaks : forall bs bm bc bv bb bx K h (m : ell R) mi tol it0 er0 b x bf xf nF nx ny,
  NoDup [bs; bm; bc; bv; bb; bx] -> (forall c, In c [bs; bm; bc; bv; bb; bx] -> c < K) ->
  (forall c, K <= c -> h c = None) ->
  h bs = Some (sol_obj mi tol it0 er0) -> mat_at h bm bc bv m -> h bb = Some (OD b) -> h bx = Some (OD x) ->
  wf_ell m 9 nF (nx * ny) -> rep b (nx * ny * nF) bf -> rep x (nx * ny * nF) xf -> 1 <= mi ->
  exists st k e, calls ell_prog "ell_solve_jacobi_2D" [VP bs 0; VP bm 0; VI nF; VI nx; VI ny; VP bb 0; VP bx 0]
      h K (Ok (st, Ret (VI 0))) /\ h K = None /\ h (K + 1) = None /\
    mem st K = Some (OD k) /\ mem st (K + 1) = Some (OD e).
Proof. exact jacobi_leaks. Qed.
Print Assumptions C110_jacobi_leaks.

(** In every arithmetic: the outcome of the model, and nothing but the two arrays is left. *)
Theorem C110_jacobi_refines : forall T (OT : Ops T) bs bm bc bv bb bx K h (m : ell T) mi tol it0 er0 b,
  NoDup [bs; bm; bc; bv; bb; bx] -> (forall c, In c [bs; bm; bc; bv; bb; bx] -> c < K) ->
  h bs = Some (sol_obj mi tol it0 er0) -> mat_at h bm bc bv m -> h bb = Some (OD b) ->
  (forall c, K <= c -> h c = None) -> forall x, h bx = Some (OD x) -> forall nF nx ny ie ee,
  match ell_solve_jacobi_2D (mkSolver mi ie tol ee) m nF nx ny b x with
  | Ok (s', x') => exists st k e,
      calls ell_prog "ell_solve_jacobi_2D" [VP bs 0; VP bm 0; VI nF; VI nx; VI ny; VP bb 0; VP bx 0]
        h K (Ok (st, Ret (VI 0))) /\
      mem st bs = Some (sol_obj mi tol (Some (VI (s_its s'))) (Some (VD (s_err s')))) /\
      mem st bx = Some (OD x') /\
      mem st K = Some (OD k) /\ mem st (K + 1) = Some (OD e) /\
      (forall c, c <> bs -> c <> bx -> c <> K -> c <> K + 1 -> mem st c = h c)
  | Err _ => exists w,
      calls ell_prog "ell_solve_jacobi_2D" [VP bs 0; VP bm 0; VI nF; VI nx; VI ny; VP bb 0; VP bx 0]
        h K (Err w)
  end.
Proof. exact @jacobi_calls. Qed.
Print Assumptions C110_jacobi_refines.

Example C111_example : exists (H : @heap R) x xf y a0 els, let nF := 3 in let nx := 4 in let ny := 4 in let nz := 4 in
  (forall ex ey ez, In (ex, ey, ez) els -> 0 <= ex < nx - 1 /\ 0 <= ey < ny - 1 /\ 0 <= ez < nz - 1) /\
  List.length els = 2%nat /\
  NoDup [0; 1; 2; 3] /\ (forall c, In c [0; 1; 2; 3] -> c < snd H) /\ (forall c, snd H <= c -> fst H c = None) /\
  fst H 0 = Some (OS [("nrow", None); ("ncol", None); ("nnz", None); ("cols", None); ("vals", None)]) /\
  fst H 1 = Some (OD a0) /\ fst H 2 = Some (OD x) /\ fst H 3 = Some (OD y) /\
  rep x (nx * ny * nz * nF) xf /\ alen y = nx * ny * nz * nF.
Proof. exact asm_case. Qed.

(** C111.  The life of a 3D matrix, by the text: initialise an unset struct, reset, add one element
    matrix per listed cell, multiply, release.  No call goes wrong, the product is the sum of the element
    operators, and at the end the two arrays are released and other memory is as before. *)
Theorem C111_assembly_text_3D : forall nF nx ny nz (Ae : Z * Z * Z -> Z -> R) els x xf y a0 bm ba bx bo (H : @heap R),
  2 <= nx -> 2 <= ny -> 2 <= nz -> 1 <= nF ->
  (forall ex ey ez, In (ex, ey, ez) els -> 0 <= ex < nx - 1 /\ 0 <= ey < ny - 1 /\ 0 <= ez < nz - 1) ->
  NoDup [bm; ba; bx; bo] -> (forall c, In c [bm; ba; bx; bo] -> c < snd H) ->
  (forall c, snd H <= c -> fst H c = None) ->
  fst H bm = Some (OS [("nrow", None); ("ncol", None); ("nnz", None); ("cols", None); ("vals", None)]) ->
  fst H ba = Some (OD a0) -> fst H bx = Some (OD x) -> fst H bo = Some (OD y) ->
  rep x (nx * ny * nz * nF) xf -> alen y = nx * ny * nz * nF ->
  exists H1 H2 H3 H4 H5 y',
    does "ell_init_3D" [VP bm 0; VI nF; VI nx; VI ny; VI nz] H H1 /\
    does "ell_set_zero_mat" [VP bm 0] H1 H2 /\
    adds3 nF nx ny nz bm ba Ae els H2 H3 /\
    does "ell_mvp_2D" [VP bm 0; VP bx 0; VP bo 0] H3 H4 /\
    does "ell_free" [VP bm 0] H4 H5 /\
    fst H5 bo = Some (OD y') /\ alen y' = nx * ny * nz * nF /\
    (forall n d1, 0 <= n < nx * ny * nz -> 0 <= d1 < nF ->
      aget y' (n * nF + d1) = Some
        (rsum els (fun e => let '(ex, ey, ez) := e in
           rsum (zrange 0 8) (fun k => if corner3 nx ny ex ey ez k =? n then
             rsum (zrange 0 8) (fun l => rsum (zrange 0 nF) (fun d2 =>
               (Ae e ((k * nF + d1) * (8 * nF) + (l * nF + d2))%Z
                * xf (corner3 nx ny ex ey ez l * nF + d2)%Z)%R)) else 0%R)))) /\
    fst H5 bx = Some (OD x) /\
    (forall c, c < snd H -> c <> bm -> c <> ba -> c <> bo -> fst H5 c = fst H c) /\
    fst H5 (snd H) = None /\ fst H5 (snd H + 1) = None.
Proof. exact text_operator_3D. Qed.
Print Assumptions C111_assembly_text_3D.

(** C112.  The functions that fill the values do, in every arithmetic, what the model says: the array of
    values is the model's, nothing allocated before is changed; an error of the one is an error of the
    other. *)
Theorem C112_fill_refines : forall T (OT : Ops T) bm bc bv K h (m : ell T),
  bm < K -> bc < K -> bv < K -> bm <> bv -> bc <> bv -> mat_at h bm bc bv m ->
  (fill_result bm bc bv K h "ell_set_zero_mat" [VP bm 0] (Ret (VI 0)) (ell_set_zero_mat m)) /\
  (forall nF nx ny, fill_result bm bc bv K h "ell_set_bc_2D" [VP bm 0; VI nF; VI nx; VI ny] Nrm
     (ell_set_bc_2D m nF nx ny)) /\
  (forall nF nx ny nz, fill_result bm bc bv K h "ell_set_bc_3D" [VP bm 0; VI nF; VI nx; VI ny; VI nz] Nrm
     (ell_set_bc_3D m nF nx ny nz)) /\
  (forall ba ae Ae, ba < K -> ba <> bv -> h ba = Some (OD ae) ->
    (forall ex ey nF nx ny, (forall j, 0 <= j < 4 * nF * (4 * nF) -> rd ae j = Ok (Ae j)) ->
      fill_result bm bc bv K h "ell_add_struct2D" [VP bm 0; VI ex; VI ey; VP ba 0; VI nF; VI nx; VI ny] Nrm
        (ell_add_struct2D m ex ey Ae nF nx ny)) /\
    (forall ex ey ez nF nx ny nz, (forall j, 0 <= j < 8 * nF * (8 * nF) -> rd ae j = Ok (Ae j)) ->
      fill_result bm bc bv K h "ell_add_struct3D"
        [VP bm 0; VI ex; VI ey; VI ez; VP ba 0; VI nF; VI nx; VI ny; VI nz] Nrm
        (ell_add_struct3D m ex ey ez Ae nF nx ny nz))).
Proof. exact @fill_refines. Qed.
Print Assumptions C112_fill_refines.

(** The constructors: the struct is filled in, the arrays are new, nothing else is changed. *)
Theorem C112_init_refines : forall T (OT : Ops T) bm K h o1 o2 o3 o4 o5, bm < K ->
  h bm = Some (OS [("nrow", o1); ("ncol", o2); ("nnz", o3); ("cols", o4); ("vals", o5)]) ->
  (forall nF nx ny, init_result (T := T) bm K h "ell_init_2D" [VP bm 0; VI nF; VI nx; VI ny] (ell_init_2D nF nx ny)) /\
  (forall nF nx ny nz, init_result (T := T) bm K h "ell_init_3D" [VP bm 0; VI nF; VI nx; VI ny; VI nz] (ell_init_3D nF nx ny nz)).
Proof. exact @init_refines. Qed.
Print Assumptions C112_init_refines.

Example C112_example : forall T (tol : T) m b x, let H := heap6 7 tol m b x in
  1 < snd H /\ 2 < snd H /\ 3 < snd H /\ 1 <> 3 /\ 2 <> 3 /\ mat_at (fst H) 1 2 3 m /\
  fst H 1 = Some (OS [("nrow", Some (VI (e_nrow m))); ("ncol", Some (VI (e_ncol m))); ("nnz", Some (VI (e_nnz m)));
    ("cols", Some (VP 2 0)); ("vals", Some (VP 3 0))]).
Proof. exact @fill_case. Qed.

(** C113.  ell_free releases both arrays and leaves the fields pointing at them, so a second call
    releases memory twice. *)
Theorem C113_free_once : forall T (OT : Ops T) bm bc bv K h (m : ell T),
  bm < K -> bv < K -> bm <> bv -> mat_at h bm bc bv m -> bc < K -> bc <> bv -> exists st,
  calls ell_prog "ell_free" [VP bm 0] h K (Ok (st, Nrm)) /\
  mem st bc = None /\ mem st bv = None /\ nxt st = K /\
  (forall c, c <> bc -> c <> bv -> mem st c = h c) /\ mem st bm = Some (mat_obj m bc bv).
Proof. exact @free_once. Qed.
Print Assumptions C113_free_once.

Theorem C113_free_twice : forall T (OT : Ops T) bm bc bv K h (m : ell T),
  bm < K -> bv < K -> bm <> bv -> mat_at h bm bc bv m -> bc < K -> bc <> bv -> exists st,
  calls ell_prog "ell_free" [VP bm 0] h K (Ok (st, Nrm)) /\
  calls ell_prog "ell_free" [VP bm 0] (mem st) (nxt st) (Err BadPtr).
Proof. exact @free_twice_bad. Qed.
Print Assumptions C113_free_twice.

Example C113_example : forall T (tol : T) m b x, let H := heap6 7 tol m b x in
  1 < snd H /\ 2 < snd H /\ 3 < snd H /\ 1 <> 3 /\ 2 <> 3 /\ mat_at (fst H) 1 2 3 m /\
  fst H 1 = Some (OS [("nrow", Some (VI (e_nrow m))); ("ncol", Some (VI (e_ncol m))); ("nnz", Some (VI (e_nnz m)));
    ("cols", Some (VP 2 0)); ("vals", Some (VP 3 0))]).
Proof. exact @fill_case. Qed.
