(** C11-C18: the linear solvers. *)
From Coq Require Import Reals.
From Verif Require Import Base Scalar EllModel EllSpec EllAsm EllOp EllFinal CgPure CgTheory CgFinal CgProps JacProps.
Open Scope R_scope.

(** [run_cg f] is one of the entry points: ell_solve_cgpd_2D, or
    ell_solve_cgpd_struct with dim 2 or 3.  [wf_ell] only asks for the sizes and
    for valid columns, which every matrix of the class has: *)
Theorem C11_matrices_are_well_formed : forall f nF nx ny nz m vf,
  (1 <= nF)%Z -> (2 <= nx)%Z -> (2 <= ny)%Z -> fmatrix f nF nx ny nz m ->
  rep (e_vals m) ((slots f * nF) * (nodes f nx ny nz * nF)) vf ->
  wf_ell m (slots f) nF (nodes f nx ny nz).
Proof. exact fmatrix_wf. Qed.
Print Assumptions C11_matrices_are_well_formed.

(** C11.  Returning before the budget means converged, with the true residual. *)
Theorem C11_cg_truthful : forall f m nF nx ny nz b x bf xf,
  wf_ell m (slots f) nF (nodes f nx ny nz) ->
  rep b (nodes f nx ny nz * nF) bf -> rep x (nodes f nx ny nz * nF) xf ->
  forall sv, exists sv' x' xf', run_cg f sv m nF nx ny nz b x = Ok (sv', x') /\
    rep x' (nodes f nx ny nz * nF) xf' /\
    ((s_its sv' < s_max_its sv)%Z -> s_err sv' < s_min_tol sv /\ s_err sv' = residual_norm m bf xf').
Proof. exact cg_truth. Qed.
Print Assumptions C11_cg_truthful.
Example C11_example : exists m, wf_ell m (slots CG2D) 2 (nodes CG2D 4 4 1) /\
  exists b x bf xf, rep b (nodes CG2D 4 4 1 * 2) bf /\ rep x (nodes CG2D 4 4 1 * 2) xf /\
    residual_norm m bf xf <> 0.
Proof. exact cg_case. Qed.

(** C12.  The loop always ends, without touching memory it should not, after at
    most max(1, max_its) iterations; the reported count is the number of
    iterations the returned vector went through. *)
Theorem C12_cg_budget_partial : forall T (OT : Ops T) f sv (m : ell T) nF nx ny nz b x bf xf,
  wf_ell m (slots f) nF (nodes f nx ny nz) ->
  rep b (nodes f nx ny nz * nF) bf -> rep x (nodes f nx ny nz * nF) xf ->
  exists sv' x' xf', run_cg f sv m nF nx ny nz b x = Ok (sv', x') /\ rep x' (nodes f nx ny nz * nF) xf' /\
    (s_max_its sv' = s_max_its sv /\ s_min_tol sv' = s_min_tol sv) /\
    (0 <= s_its sv' <= Z.max 1 (s_max_its sv))%Z /\
    (s_its sv' = 0%Z -> forall i, (0 <= i < nodes f nx ny nz * nF)%Z -> xf' i = xf i) /\
    (1 <= s_its sv' ->
       exists sv2 x2, run_cg f (mkSolver (s_its sv') (s_its sv) (s_min_tol sv) (s_err sv)) m nF nx ny nz b x = Ok (sv2, x2) /\
         rep x2 (nodes f nx ny nz * nF) xf' /\ s_its sv2 = s_its sv')%Z.
Proof. exact @cg_budget. Qed.
Print Assumptions C12_cg_budget_partial.
(** With a budget below 1 it still performs one iteration. *)
Theorem C12_cg_budget_refuted : forall f nF nx ny nz,
  (1 <= nF)%Z -> (2 <= nx)%Z -> (2 <= ny)%Z -> (2 <= nz)%Z -> forall budget, (budget <= 0)%Z ->
  exists m b x sv sv' x', wf_ell m (slots f) nF (nodes f nx ny nz) /\ s_max_its sv = budget /\
    run_cg f sv m nF nx ny nz b x = Ok (sv', x') /\ s_its sv' = 1%Z.
Proof. exact cg_budget_refuted. Qed.
Print Assumptions C12_cg_budget_refuted.

(** C13.  On exhaustion the reported error is the residual of the start vector
    although the returned vector is the exact solution. *)
Theorem C13_cg_err_refuted : forall f nF nx ny nz, (1 <= nF)%Z -> (2 <= nx)%Z -> (2 <= ny)%Z -> (2 <= nz)%Z ->
  exists m, fmatrix f nF nx ny nz m /\ wf_ell m (slots f) nF (nodes f nx ny nz) /\
    forall b x bf sv, rep b (nodes f nx ny nz * nF) bf -> rep x (nodes f nx ny nz * nF) (fun _ => 0) ->
      (s_max_its sv <= 1)%Z -> 0 < s_min_tol sv -> s_min_tol sv <= residual_norm m bf (fun _ => 0) ->
      exists sv' x' xf', run_cg f sv m nF nx ny nz b x = Ok (sv', x') /\ rep x' (nodes f nx ny nz * nF) xf' /\
        s_its sv' = 1%Z /\ s_err sv' = residual_norm m bf (fun _ => 0) /\ residual_norm m bf xf' = 0 /\
        s_err sv' <> residual_norm m bf xf'.
Proof. exact cg_stale. Qed.
Print Assumptions C13_cg_err_refuted.
(** What does hold: the reported error is always the residual of the last
    iterate that was tested, and it is the one of the call with one iteration
    less in its budget. *)
Theorem C13_cg_err_partial : forall f m nF nx ny nz b x bf xf,
  wf_ell m (slots f) nF (nodes f nx ny nz) ->
  rep b (nodes f nx ny nz * nF) bf -> rep x (nodes f nx ny nz * nF) xf ->
  forall sv, exists sv' x' xf', run_cg f sv m nF nx ny nz b x = Ok (sv', x') /\
    rep x' (nodes f nx ny nz * nF) xf' /\
    (s_err sv' = residual_norm m bf xf' /\ s_err sv' < s_min_tol sv \/
     s_min_tol sv <= s_err sv' /\ s_its sv' = Z.max 1 (s_max_its sv) /\
     (s_its sv' = 1%Z /\ s_err sv' = residual_norm m bf xf \/
      exists sv2 x2 xf2, run_cg f (mkSolver (s_its sv' - 1) (s_its sv) (s_min_tol sv) (s_err sv)) m nF nx ny nz b x = Ok (sv2, x2) /\
        rep x2 (nodes f nx ny nz * nF) xf2 /\ s_err sv' = residual_norm m bf xf2)).
Proof. exact cg_err_partial. Qed.
Print Assumptions C13_cg_err_partial.

(** C14.  Identity rows with zero right-hand side and zero start stay zero. *)
Theorem C14_cg_keeps_constrained : forall f m nF nx ny nz b x bf xf,
  wf_ell m (slots f) nF (nodes f nx ny nz) ->
  rep b (nodes f nx ny nz * nF) bf -> rep x (nodes f nx ny nz * nF) xf ->
  forall free : Z -> Prop,
  (forall r, (0 <= r < nodes f nx ny nz * nF)%Z -> ~ free r ->
     (forall c, (0 <= c < nodes f nx ny nz * nF)%Z -> dense m r c = if (r =? c)%Z then 1 else 0) /\
     bf r = 0 /\ xf r = 0) ->
  forall sv, exists sv' x' xf', run_cg f sv m nF nx ny nz b x = Ok (sv', x') /\
    rep x' (nodes f nx ny nz * nF) xf' /\
    forall r, (0 <= r < nodes f nx ny nz * nF)%Z -> ~ free r -> xf' r = 0.
Proof. exact cg_constrained. Qed.
Print Assumptions C14_cg_keeps_constrained.

(** C15.  Columns of constrained dofs do not influence the solve. *)
Theorem C15_cg_ignores_constrained_columns : forall f sv (m1 m2 : ell R) nF nx ny nz b x bf xf (free : Z -> Prop),
  let N := (nodes f nx ny nz * nF)%Z in
  wf_ell m1 (slots f) nF (nodes f nx ny nz) -> wf_ell m2 (slots f) nF (nodes f nx ny nz) ->
  rep b N bf -> rep x N xf ->
  (forall r, (0 <= r < N)%Z -> ~ free r -> bf r = 0 /\ xf r = 0 /\
     (forall c, (0 <= c < N)%Z -> dense m1 r c = if (r =? c)%Z then 1 else 0) /\
     (forall c, (0 <= c < N)%Z -> dense m2 r c = if (r =? c)%Z then 1 else 0)) ->
  (forall r, (0 <= r < N)%Z -> free r ->
     (forall c, (0 <= c < N)%Z -> free c -> dense m1 r c = dense m2 r c) /\
     getR (e_vals m1) (diag_ix (slots f) (dslot f) nF r) = getR (e_vals m2) (diag_ix (slots f) (dslot f) nF r)) ->
  exists sv' x1 x2 xf', run_cg f sv m1 nF nx ny nz b x = Ok (sv', x1) /\
    run_cg f sv m2 nF nx ny nz b x = Ok (sv', x2) /\ rep x1 N xf' /\ rep x2 N xf'.
Proof. exact cg_columns. Qed.
Print Assumptions C15_cg_ignores_constrained_columns.

(** C16.  On a matrix that is symmetric positive definite on the free dofs no
    division by zero is ever used (any two meanings of x/0 give the same run) ... *)
Theorem C16_cg_no_division_by_zero : forall f sv (m : ell R) nF nx ny nz b x bf xf (free : Z -> Prop) (g1 g2 : R -> R),
  let N := (nodes f nx ny nz * nF)%Z in
  wf_ell m (slots f) nF (nodes f nx ny nz) -> rep b N bf -> rep x N xf ->
  (forall r, (0 <= r < N)%Z -> ~ free r ->
     (forall c, (0 <= c < N)%Z -> dense m r c = if (r =? c)%Z then 1 else 0) /\ bf r = 0 /\ xf r = 0) ->
  (forall r c, (0 <= r < N)%Z -> (0 <= c < N)%Z -> free r -> free c -> dense m r c = dense m c r) ->
  (forall v, (forall r, (0 <= r < N)%Z -> ~ free r -> v r = 0) ->
     (exists r, (0 <= r < N)%Z /\ v r <> 0) -> 0 < rsum (zrange 0 N) (fun r => v r * mul m v r)) ->
  (forall r, (0 <= r < N)%Z -> getR (e_vals m) (diag_ix (slots f) (dslot f) nF r) <> 0 /\
     (free r -> 0 < getR (e_vals m) (diag_ix (slots f) (dslot f) nF r))) ->
  0 < s_min_tol sv ->
  exists sv' x1 x2 xf', @run_cg R (ROpsJ g1) f sv m nF nx ny nz b x = Ok (sv', x1) /\
    @run_cg R (ROpsJ g2) f sv m nF nx ny nz b x = Ok (sv', x2) /\ rep x1 N xf' /\ rep x2 N xf'.
Proof. exact cg_no_div0. Qed.
Print Assumptions C16_cg_no_division_by_zero.
(** ... and the energy of the returned vector is lower than the energy after any
    smaller number of iterations. *)
Theorem C16_cg_energy_decreases : forall f m nF nx ny nz b x bf xf,
  wf_ell m (slots f) nF (nodes f nx ny nz) ->
  rep b (nodes f nx ny nz * nF) bf -> rep x (nodes f nx ny nz * nF) xf ->
  forall free : Z -> Prop,
  let N := (nodes f nx ny nz * nF)%Z in
  (forall r, (0 <= r < N)%Z -> ~ free r ->
     (forall c, (0 <= c < N)%Z -> dense m r c = if (r =? c)%Z then 1 else 0) /\ bf r = 0 /\ xf r = 0) ->
  (forall r c, (0 <= r < N)%Z -> (0 <= c < N)%Z -> free r -> free c -> dense m r c = dense m c r) ->
  (forall v, (forall r, (0 <= r < N)%Z -> ~ free r -> v r = 0) ->
     (exists r, (0 <= r < N)%Z /\ v r <> 0) -> 0 < rsum (zrange 0 N) (fun r => v r * mul m v r)) ->
  (forall r, (0 <= r < N)%Z -> free r -> 0 < getR (e_vals m) (diag_ix (slots f) (dslot f) nF r)) ->
  forall sv, 0 < s_min_tol sv ->
  let energy v := / 2 * rsum (zrange 0 N) (fun r => v r * mul m v r) - rsum (zrange 0 N) (fun r => bf r * v r) in
  exists sv' x' xf', run_cg f sv m nF nx ny nz b x = Ok (sv', x') /\ rep x' N xf' /\
    (s_its sv' = 0%Z \/ energy xf' < energy xf) /\
    forall k, (1 <= k < s_its sv')%Z ->
      exists svk xk xfk, run_cg f (mkSolver k (s_its sv) (s_min_tol sv) (s_err sv)) m nF nx ny nz b x = Ok (svk, xk) /\
        rep xk N xfk /\ s_its svk = k /\ energy xf' < energy xfk.
Proof. exact cg_monotone. Qed.
Print Assumptions C16_cg_energy_decreases.

(** C17.  Convergence within as many iterations as dofs. *)
Theorem C17_cg_converges : forall f m nF nx ny nz b x bf xf,
  wf_ell m (slots f) nF (nodes f nx ny nz) ->
  rep b (nodes f nx ny nz * nF) bf -> rep x (nodes f nx ny nz * nF) xf ->
  forall free : Z -> Prop,
  let N := (nodes f nx ny nz * nF)%Z in
  (forall r, (0 <= r < N)%Z -> ~ free r ->
     (forall c, (0 <= c < N)%Z -> dense m r c = if (r =? c)%Z then 1 else 0) /\ bf r = 0 /\ xf r = 0) ->
  (forall r c, (0 <= r < N)%Z -> (0 <= c < N)%Z -> free r -> free c -> dense m r c = dense m c r) ->
  (forall v, (forall r, (0 <= r < N)%Z -> ~ free r -> v r = 0) ->
     (exists r, (0 <= r < N)%Z /\ v r <> 0) -> 0 < rsum (zrange 0 N) (fun r => v r * mul m v r)) ->
  (forall r, (0 <= r < N)%Z -> free r -> 0 < getR (e_vals m) (diag_ix (slots f) (dslot f) nF r)) ->
  forall sv, 0 < s_min_tol sv -> (N < s_max_its sv)%Z ->
  exists sv' x' xf', run_cg f sv m nF nx ny nz b x = Ok (sv', x') /\ rep x' N xf' /\
    (s_its sv' <= N)%Z /\ s_err sv' < s_min_tol sv /\ residual_norm m bf xf' < s_min_tol sv.
Proof. exact cg_finite. Qed.
Print Assumptions C17_cg_converges.
(** A matrix meeting every hypothesis of C14-C17, with free and constrained dofs,
    exists on every grid; C29 shows the assembled stiffness is another. *)
Example C17_example : forall f nF nx ny nz, (1 <= nF)%Z -> (3 <= nx)%Z -> (3 <= ny)%Z -> (3 <= nz)%Z ->
  exists (m : ell R) (free : Z -> Prop), let N := (nodes f nx ny nz * nF)%Z in
  fmatrix f nF nx ny nz m /\ wf_ell m (slots f) nF (nodes f nx ny nz) /\
  (exists r, (0 <= r < N)%Z /\ free r) /\ (exists r, (0 <= r < N)%Z /\ ~ free r) /\
  (forall r, (0 <= r < N)%Z -> ~ free r ->
     (forall c, (0 <= c < N)%Z -> dense m r c = if (r =? c)%Z then 1 else 0)) /\
  (forall r c, (0 <= r < N)%Z -> (0 <= c < N)%Z -> free r -> free c -> dense m r c = dense m c r) /\
  (forall v, (forall r, (0 <= r < N)%Z -> ~ free r -> v r = 0) ->
     (exists r, (0 <= r < N)%Z /\ v r <> 0) -> 0 < rsum (zrange 0 N) (fun r => v r * mul m v r)) /\
  (forall r, (0 <= r < N)%Z -> 0 < getR (e_vals m) (diag_ix (slots f) (dslot f) nF r)).
Proof. exact spd_case. Qed.

(** C18.  The 2D relaxation solver: with a positive budget it is truthful about
    its error whatever the reason it stops, and stops early exactly when it
    converged.  (Freeing of the workspace: C18_jacobi_leaks_refuted.) *)
Theorem C18_jacobi_truthful_partial : forall sv (m : ell R) nF nx ny b x bf xf,
  wf_ell m 9 nF (nx * ny) -> rep b (nx * ny * nF) bf -> rep x (nx * ny * nF) xf -> (1 <= s_max_its sv)%Z ->
  exists sv' x' xf', ell_solve_jacobi_2D sv m nF nx ny b x = Ok (sv', x') /\ rep x' (nx * ny * nF) xf' /\
    (0 <= s_its sv' <= s_max_its sv)%Z /\ s_err sv' = residual_norm m bf xf' /\
    ((s_its sv' < s_max_its sv)%Z <-> s_err sv' < s_min_tol sv).
Proof. exact jacobi_truth. Qed.
Print Assumptions C18_jacobi_truthful_partial.
(** With a budget of zero or less it stores an uninitialised double. *)
Theorem C18_jacobi_no_budget_refuted : forall T (OT : Ops T) sv (m : ell T) nF nx ny b x, (1 <= nF)%Z ->
  wf_ell m 9 nF (nx * ny) -> (s_max_its sv <= 0)%Z -> ell_solve_jacobi_2D sv m nF nx ny b x = Err Uninit.
Proof. exact @jacobi_uninit. Qed.
Print Assumptions C18_jacobi_no_budget_refuted.
