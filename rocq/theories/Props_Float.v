(** C99-C102: the code in IEEE doubles.  [flt] is Flocq's type of doubles, [val] the real number
    one stands for (0 for the infinities and NaN), [fin x] says that x is neither infinite nor NaN;
    [uro] is 2^-53, [eta] is 2^-1075, [tiny] is 2^-1022, [gam n] is (1 + uro)^n - 1. *)
From Coq Require Import Reals.
From Flocq Require Import BinarySingleNaN.
From Verif Require Import Base Scalar EllModel EllSpec EllAsm EllOp AssemblyModel AsmPure MicroModel NewtonBase ApiBase ApiSpec ApiCases Build CgPure CgFinal Classify FloatInst BinInst FloatSum FloatCg FloatGeo FloatCase DriverProps DriverMore FloatDrive.
Open Scope Z_scope.
Open Scope R_scope.

(** C99.  The doubles of this file compute what the doubles of the other files (Coq's SpecFloat) compute. *)
Theorem C99_same_doubles : forall x y : flt,
  (forall z, B2SF (ofZ z) = ofZ z) /\ B2SF (oadd x y) = oadd (B2SF x) (B2SF y) /\
  B2SF (osub x y) = osub (B2SF x) (B2SF y) /\ B2SF (omul x y) = omul (B2SF x) (B2SF y) /\
  B2SF (odiv x y) = odiv (B2SF x) (B2SF y) /\ B2SF (oopp x) = oopp (B2SF x) /\
  B2SF (osqrt x) = osqrt (B2SF x) /\ B2SF (oabs x) = oabs (B2SF x) /\ oltb x y = oltb (B2SF x) (B2SF y).
Proof. exact same_double. Qed.
Print Assumptions C99_same_doubles.
(** The scalar product of ell.cpp: if the result is finite, it is the exact one up to n + 1 roundings. *)
Theorem C99_dot : forall n (a b : arr flt) s, dotM n a b = Ok s -> fin s ->
  Rabs (val s - rsum (zrange 0 n) (fun i => at_ a i * at_ b i)) <=
    gam (S (Z.to_nat n)) * (rsum (zrange 0 n) (fun i => Rabs (at_ a i) * Rabs (at_ b i)) + INR (Z.to_nat n) * tiny).
Proof. exact dot_double. Qed.
Print Assumptions C99_dot.
(** One row of the matrix-vector product. *)
Theorem C99_row : forall (m : ell flt) (x : arr flt) i s, mvp_row m x i = Ok s -> fin s ->
  Rabs (val s - rsum (zrange 0 (e_nnz m)) (fun j => at_ (e_vals m) (i * e_nnz m + j) * at_ x (col_ (e_cols m) (i * e_nnz m + j)))) <=
    gam (S (Z.to_nat (e_nnz m))) * (rsum (zrange 0 (e_nnz m)) (fun j =>
      Rabs (at_ (e_vals m) (i * e_nnz m + j)) * Rabs (at_ x (col_ (e_cols m) (i * e_nnz m + j)))) + INR (Z.to_nat (e_nnz m)) * tiny).
Proof. exact row_double. Qed.
Print Assumptions C99_row.
(** Up to 2^53 / 10 roundings add up to 1.2 times their sum. *)
Theorem C99_size : forall n, INR n * uro <= / 10 -> gam n <= 12 / 10 * (INR n * uro).
Proof. exact gam_small. Qed.
Print Assumptions C99_size.

Example C100_example : exists m b x vf bf xf (sv sv' : solver flt) x' xf',
  wf_ell m (slots CG2D) 1 (nodes CG2D 2 2 1) /\ rep (e_vals m) (slots CG2D * 1 * (nodes CG2D 2 2 1 * 1)) vf /\
  rep b (nodes CG2D 2 2 1 * 1) bf /\ rep x (nodes CG2D 2 2 1 * 1) xf /\ fin (s_min_tol sv) /\
  run_cg CG2D sv m 1 2 2 1 b x = Ok (sv', x') /\ (0 < s_its sv' < s_max_its sv)%Z /\ rep x' (nodes CG2D 2 2 1 * 1) xf' /\
  gam (S (Z.to_nat (nodes CG2D 2 2 1 * 1))) <= / 2 /\ forall i, (0 <= i < nodes CG2D 2 2 1 * 1)%Z -> fin (xf' i).
Proof. exact dia_case. Qed.
(** C100.  In doubles the solver runs the recurrences of the preconditioned conjugate gradients,
    and if it stops before its budget with a finite vector, the true residual of that vector in
    every row is the reported error, up to the roundings of the norm and of the steps: [Xm], [Rm],
    [D] bound the iterates, the residuals of the recurrence and the step lengths. *)
Theorem C100_cg_double : forall f (m : ell flt) nF nx ny nz b x bf xf vf,
  let N := (nodes f nx ny nz * nF)%Z in let nnz := (slots f * nF)%Z in
  wf_ell m (slots f) nF (nodes f nx ny nz) -> rep (e_vals m) (nnz * N) vf -> rep b N bf -> rep x N xf ->
  let A (v : Z -> flt) i := sumf (zrange 0 nnz) (fun j => omul (vf (i * nnz + j)%Z) (v (colsf m (i * nnz + j)))) in
  let kf i := odiv (ofZ 1) (vf (i * (slots f * nF) + (dslot f * nF + i mod nF))%Z) in
  let dot (v w : Z -> flt) := sumf (zrange 0 N) (fun i => omul (v i) (w i)) in
  forall sv, exists (xs rs ps : nat -> Z -> flt) (ds : nat -> flt) sv' x',
  (let z k i := omul (kf i) (rs k i) in
   (forall i, xs 0%nat i = xf i /\ rs 0%nat i = osub (A xf i) (bf i) /\ ps 0%nat i = z 0%nat i) /\
   forall k i, ps (S k) i = oadd (z (S k) i) (omul (odiv (dot (rs (S k)) (z (S k))) (dot (rs k) (z k))) (ps k i)) /\
     ds k = odiv (dot (rs k) (z k)) (dot (ps k) (A (ps k))) /\
     xs (S k) i = osub (xs k i) (omul (ds k) (ps k i)) /\ rs (S k) i = osub (rs k i) (omul (ds k) (A (ps k) i))) /\
  run_cg f sv m nF nx ny nz b x = Ok (sv', x') /\
  exists k, s_its sv' = Z.of_nat k /\ rep x' N (xs k) /\
    forall Xm Rm D, (s_its sv' < s_max_its sv)%Z -> fin (s_min_tol sv) -> gam (S (Z.to_nat N)) <= / 2 ->
      (forall i, (0 <= i < N)%Z -> fin (xs k i)) ->
      (forall j i, (j <= k)%nat -> (0 <= i < N)%Z -> Rabs (val (xs j i)) <= Xm) ->
      (forall j i, (j <= k)%nat -> (0 <= i < N)%Z -> Rabs (val (rs j i)) <= Rm) ->
      0 <= D -> (forall j, (j < k)%nat -> Rabs (val (ds j)) <= D) ->
      val (s_err sv') < val (s_min_tol sv) /\
      forall i, (0 <= i < N)%Z ->
        let rowsum := rsum (zrange 0 nnz) (fun j => Rabs (val (vf (i * nnz + j)%Z))) in
        Rabs (rsum (zrange 0 nnz) (fun j => val (vf (i * nnz + j)%Z) * val (xs k (colsf m (i * nnz + j)))) - val (bf i)) <=
          (1 + 4 * gam (S (Z.to_nat N))) * (val (s_err sv') + eta) + 2 * sqrt (INR (Z.to_nat N) * tiny) +
          INR (S k) * (gam (S (Z.to_nat nnz)) * (7 * rowsum * Xm + 4 * Rm + (4 * rowsum + 2 + INR (Z.to_nat nnz) * (D + 1)) * tiny)).
Proof. exact solve_double. Qed.
Print Assumptions C100_cg_double.

Example C101_example : exists o : obj flt, (exists fuel orc j ps, construct fuel orc j 2 [3; 3; 1]%Z 1 half [0; 0]%Z ps = Ok o) /\
  ordinary (lget half 0) /\ ordinary (lget half 1) /\ fin (lget half 3) /\ Rabs (val (lget half 3)) <= big /\
  forall ey, (ey = 0 \/ ey = 1)%Z -> let y := mid (val (lget half 1)) 3 ey in 4 * uro * y < Rabs (y - val (lget half 3)) /\ (y < val (lget half 3) <-> ey = 0%Z).
Proof. exact half_case. Qed.
(** C101.  With side lengths between 2^-400 and 2^400, a cell gets in doubles the class its exact
    centre has, unless the centre is within a few roundings of the boundary of the layer or disc. *)
Theorem C101_cells_2D : forall fuel orc (j : junk flt) mtype mp mt ps o nx ny nz ex ey, construct fuel orc j 2 [nx; ny; nz] mtype mp mt ps = Ok o ->
  let lx := val (lget mp 0) in let ly := val (lget mp 1) in let w := val (lget mp 3) in
  ordinary (lget mp 0) -> ordinary (lget mp 1) -> fin (lget mp 3) -> Rabs w <= big -> (nx <= 2 ^ 53)%Z -> (ny <= 2 ^ 53)%Z ->
  (0 <= ex < nx - 1)%Z -> (0 <= ey < ny - 1)%Z ->
  let x := (IZR ex + / 2) * lx / IZR (nx - 1) in let y := (IZR ey + / 2) * ly / IZR (ny - 1) in
  let d := (x - lx / 2) * (x - lx / 2) + (y - ly / 2) * (y - ly / 2) in
  (if (mtype =? 0)%Z then 64 * uro * (lx * lx + ly * ly) + 2 * uro * (w * w) < Rabs (d - w * w) else 4 * uro * y < Rabs (y - w)) ->
  let inside := if (mtype =? 0)%Z then d < w * w else y < w in
  (aget (v_etype (o_env o)) (ey * (nx - 1) + ex) = Some 1%Z <-> inside) /\ (aget (v_etype (o_env o)) (ey * (nx - 1) + ex) = Some 0%Z <-> ~ inside).
Proof. exact cells2_double. Qed.
Print Assumptions C101_cells_2D.
Theorem C101_cells_3D : forall fuel orc (j : junk flt) mtype mp mt ps o nx ny nz ex ey ez, construct fuel orc j 3 [nx; ny; nz] mtype mp mt ps = Ok o ->
  let lx := val (lget mp 0) in let ly := val (lget mp 1) in let lz := val (lget mp 2) in let w := val (lget mp 3) in
  ordinary (lget mp 0) -> ordinary (lget mp 1) -> ordinary (lget mp 2) -> fin (lget mp 3) -> Rabs w <= big ->
  (nx <= 2 ^ 53)%Z -> (ny <= 2 ^ 53)%Z -> (nz <= 2 ^ 53)%Z ->
  (0 <= ex < nx - 1)%Z -> (0 <= ey < ny - 1)%Z -> (0 <= ez < nz - 1)%Z ->
  let x := (IZR ex + / 2) * lx / IZR (nx - 1) in let y := (IZR ey + / 2) * ly / IZR (ny - 1) in let z := (IZR ez + / 2) * lz / IZR (nz - 1) in
  let d := (x - lx / 2) * (x - lx / 2) + (y - ly / 2) * (y - ly / 2) + (z - lz / 2) * (z - lz / 2) in
  (if (mtype =? 0)%Z then 64 * uro * (lx * lx + ly * ly + lz * lz) + 2 * uro * (w * w) < Rabs (d - w * w) else 4 * uro * y < Rabs (y - w)) ->
  let inside := if (mtype =? 0)%Z then d < w * w else y < w in
  let t := aget (v_etype (o_env o)) (ez * (nx - 1) * (ny - 1) + ey * (nx - 1) + ex) in
  (t = Some 1%Z <-> inside) /\ (t = Some 0%Z <-> ~ inside).
Proof. exact cells3_double. Qed.
Print Assumptions C101_cells_3D.
(** The geometry loses its mirror symmetry: a disc or ball of radius 1/5 in the unit cell with 6
    nodes a side contains the cell 1 but not its mirror image 3, whose centres are equally far from
    the middle, on the circle. *)
Theorem C101_mirror_refuted : forall fuel (j : junk flt) t0 t1 (ps : list flt), (40 <= fuel)%nat -> mat_type_ok t0 -> mat_type_ok t1 -> (14 <= length ps)%nat -> total_junk j ->
  let mp : list flt := [ofZ 1; ofZ 1; ofZ 1; odiv (ofZ 1) (ofZ 5); ofZ 0] in
  (exists o, construct fuel (fun _ => counting) j 2 [6; 6; 1]%Z 0 mp [t0; t1] ps = Ok o /\
    let t ex ey := aget (v_etype (o_env o)) (ey * (6 - 1) + ex)%Z in t 1%Z 2%Z = Some 1%Z /\ t 3%Z 2%Z = Some 0%Z) /\
  exists o, construct fuel (fun _ => counting) j 3 [6; 6; 6]%Z 0 mp [t0; t1] ps = Ok o /\
    let t ex ey ez := aget (v_etype (o_env o)) (ez * (6 - 1) * (6 - 1) + ey * (6 - 1) + ex)%Z in t 1%Z 2%Z 2%Z = Some 1%Z /\ t 3%Z 2%Z 2%Z = Some 0%Z.
Proof. exact mirror_lost. Qed.
Print Assumptions C101_mirror_refuted.

(** C102.  The strain of the test programs after k steps is the exact one ([hundredths k] over 100,
    see C83) up to k + 1 roundings. *)
Theorem C102_strain : forall dir k i, (0 <= dir < 6)%Z -> (0 <= i < 6)%Z -> (Z.of_nat k <= 2 ^ 31)%Z ->
  exists x : flt, nth_error (strain dir k) (Z.to_nat i) = Some x /\ fin x /\
    Rabs (val x - (if Z.eqb i dir then IZR (hundredths (Z.of_nat k)) / 100 else 0)) <= 12 / 10 * INR (S k) * uro * (INR k * (1 / 100 + tiny)).
Proof. exact strain_double. Qed.
Print Assumptions C102_strain.
(** After the 60 steps of the first load cycle the exact strain is zero, that of the programs is a negative number. *)
Theorem C102_back_to_zero_refuted : hundredths 60 = 0%Z /\ (level 60 : R) = 0 /\ exists s m e B, (level 60 : flt) = B754_finite s m e B /\ val (level 60) < 0.
Proof. exact sixty_back. Qed.
Print Assumptions C102_back_to_zero_refuted.
