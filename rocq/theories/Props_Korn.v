(** C97, C98: explicit bounds.  stiff3 V m M (stiff2 V m M in 2D, KornProps.v): in every cell the two
    moduli that scale the strain energy, twice the shear modulus and three times the bulk modulus
    (in 2D twice the plane bulk modulus), lie between m and M.  moduli3 ps m M (moduli2) says the same
    of the material parameters handed to the constructor.  zero_bnd_field3 and zero_on3 (AsmSpec.v,
    AsmProps.v): zero at every dof on the boundary.  len n f is the Euclidean norm of f 0 ... f (n-1). *)
From Coq Require Import Reals.
From Verif Require Import Base Scalar EllModel EllSpec EllFinal EllProps CgPure CgFinal CgProps AssemblyModel AsmPure FemGen FemPd FemRhs AsmSpec AsmProps AsmEquil MicroModel OutputModel NewtonBase ApiBase ApiRun ApiHist Build ApiSpec
  ApiProps ApiCases Tangent MonoBody Linear SolveProps LinProps KornProps.
Open Scope Z_scope.
Open Scope R_scope.

Example C97_example : exists V w eps (A : ell R) u vo vn, body3 V /\ linear V /\ adm V /\ stiff3 V 80 9000 /\
  full w (ndofs V) /\ zero_bnd_field3 V w /\ strain_field3 V w eps /\ zero_on3 V (val w) /\ (exists r, (0 <= r < ndofs V)%Z /\ val w r = 1) /\
  full u (ndofs V) /\ vars_ok V vo vn /\ matrix3 3 (v_nx V) (v_ny V) (v_nz V) A /\
  forall e, exists u1 v1 b1 s1 u2 v2 b2 n2 s2 a, state3 V e u1 v1 b1 0 s1 /\ state3 V e u2 v2 b2 n2 s2 /\ affine_all3 V e a.
Proof. exact korn_case3. Qed.
Example C97_example_2d : exists V w eps (A : ell R), body2 V /\ adm V /\ stiff2 V 80 9000 /\
  full w (ndofs V) /\ zero_bnd_field2 V w /\ strain_field2 V w eps /\ zero_on2 V (val w) /\ (exists r, (0 <= r < ndofs V)%Z /\ val w r = 1) /\
  matrix2 2 (v_nx V) (v_ny V) A /\
  forall e, exists u1 b1 s1 u2 b2 n2 s2 a, state2 V e u1 b1 0 s1 /\ state2 V e u2 b2 n2 s2 /\ affine_all2 V e a.
Proof. exact korn_case2. Qed.

(** C97.  Displacements that vanish on the boundary are bounded by the strains get_strain computes from
    them, on any grid: cell volume times the sum of squares is at most 5 lx^2 times the integral of
    twice the squared strain (the off-diagonal strains are engineering shears). *)
Theorem C97_korn_poincare_3d : forall V w eps, body3 V -> full w (ndofs V) -> zero_bnd_field3 V w -> strain_field3 V w eps ->
  v_dx V * v_dy V * v_dz V * rsum (zrange 0 (ndofs V)) (fun r => val w r * val w r) <=
  5 * (v_lx V * v_lx V) * quad_body3 V (fun ex ey ez g => let e := eps ex ey ez g in
    2 * (e 0%Z * e 0%Z + e 1%Z * e 1%Z + e 2%Z * e 2%Z) + e 3%Z * e 3%Z + e 4%Z * e 4%Z + e 5%Z * e 5%Z).
Proof. exact korn_body3. Qed.
Print Assumptions C97_korn_poincare_3d.
Theorem C97_korn_poincare_2d : forall V w eps, body2 V -> full w (ndofs V) -> zero_bnd_field2 V w -> strain_field2 V w eps ->
  v_dx V * v_dy V * rsum (zrange 0 (ndofs V)) (fun r => val w r * val w r) <=
  8 / 5 * (v_lx V * v_lx V) * quad_body2 V (fun ex ey g => let e := eps ex ey g in 2 * (e 0%Z * e 0%Z + e 1%Z * e 1%Z) + e 2%Z * e 2%Z).
Proof. exact korn_body2. Qed.
Print Assumptions C97_korn_poincare_2d.

(** The assembled matrix stretches every update that vanishes on the boundary by at least
    m (cell volume) / (10 lx^2), which bounds the error of an approximate solution by its residual. *)
Theorem C97_stiffness_bound_3d : forall V u vold vnew (A : ell R) m M, body3 V -> linear V -> adm V -> 0 <= m -> stiff3 V m M ->
  full u (ndofs V) -> vars_ok V vold vnew -> matrix3 3 (v_nx V) (v_ny V) (v_nz V) A ->
  exists A', assembly_mat V u vold vnew A = Ok (A', vnew) /\ forall v, zero_on3 V v ->
  m * (v_dx V * v_dy V * v_dz V) * rsum (zrange 0 (ndofs V)) (fun r => v r * v r) <= 10 * (v_lx V * v_lx V) * rsum (zrange 0 (ndofs V)) (fun r => v r * mul A' v r) /\
  m * (v_dx V * v_dy V * v_dz V) * len (ndofs V) v <= 10 * (v_lx V * v_lx V) * len (ndofs V) (mul A' v).
Proof. exact stiffness_low3. Qed.
Print Assumptions C97_stiffness_bound_3d.
Theorem C97_stiffness_bound_2d : forall V u vold vnew (A : ell R) m M, body2 V -> adm V -> 0 <= m -> stiff2 V m M -> matrix2 2 (v_nx V) (v_ny V) A ->
  exists A', assembly_mat V u vold vnew A = Ok (A', vnew) /\ forall v, zero_on2 V v ->
  m * (v_dx V * v_dy V) * rsum (zrange 0 (ndofs V)) (fun r => v r * v r) <= 4 * (v_lx V * v_lx V) * rsum (zrange 0 (ndofs V)) (fun r => v r * mul A' v r) /\
  m * (v_dx V * v_dy V) * len (ndofs V) v <= 4 * (v_lx V * v_lx V) * len (ndofs V) (mul A' v).
Proof. exact stiffness_low2. Qed.
Print Assumptions C97_stiffness_bound_2d.

(** Two displacement fields for the same strain differ by no more than their residuals allow. *)
Theorem C97_displacement_error_3d : forall V e u1 v1 b1 n1 s1 u2 v2 b2 n2 s2 m M, body3 V -> linear V -> 0 <= m -> stiff3 V m M ->
  state3 V e u1 v1 b1 n1 s1 -> state3 V e u2 v2 b2 n2 s2 ->
  m * (v_dx V * v_dy V * v_dz V) * len (ndofs V) (fun r => val u1 r - val u2 r) <= 10 * (v_lx V * v_lx V) * (n1 + n2).
Proof. exact displacement_error3. Qed.
Print Assumptions C97_displacement_error_3d.
Theorem C97_displacement_error_2d : forall V e u1 b1 n1 s1 u2 b2 n2 s2 m M, body2 V -> adm V -> 0 <= m -> stiff2 V m M ->
  state2 V e u1 b1 n1 s1 -> state2 V e u2 b2 n2 s2 ->
  m * (v_dx V * v_dy V) * len (ndofs V) (fun r => val u1 r - val u2 r) <= 4 * (v_lx V * v_lx V) * (n1 + n2).
Proof. exact displacement_error2. Qed.
Print Assumptions C97_displacement_error_2d.

(** Displacements in exact equilibrium stay near the linear ones. *)
Theorem C97_near_linear_3d : forall V e u vo b s a m M, body3 V -> linear V -> 0 <= m -> stiff3 V m M -> state3 V e u vo b 0 s -> affine_all3 V e a ->
  let l := len (ndofs V) (fun r => val u r - a r) in
  m * (l * l) <= 10 * (v_lx V * v_lx V) * (IZR ((v_nx V - 1) * (v_ny V - 1) * (v_nz V - 1)) * M *
    (lget e 0 * lget e 0 + lget e 1 * lget e 1 + lget e 2 * lget e 2 + (lget e 3 * lget e 3 + lget e 4 * lget e 4 + lget e 5 * lget e 5) / 2)).
Proof. exact exact_near3. Qed.
Print Assumptions C97_near_linear_3d.
Theorem C97_near_linear_2d : forall V e u b s a m M, body2 V -> adm V -> 0 <= m -> stiff2 V m M -> state2 V e u b 0 s -> affine_all2 V e a ->
  let l := len (ndofs V) (fun r => val u r - a r) in
  m * (l * l) <= 4 * (v_lx V * v_lx V) * (IZR ((v_nx V - 1) * (v_ny V - 1)) * M * (lget e 0 * lget e 0 + lget e 1 * lget e 1 + lget e 2 * lget e 2 / 2)).
Proof. exact exact_near2. Qed.
Print Assumptions C97_near_linear_2d.

Example C98_example : exists (j : junk R) o0 o fs, valid_args 3 4 5 3 0 mp5 [0; 2]%Z ps20 /\ body_args 3 mp5 ps20 /\ no_plastic [0; 2]%Z /\ moduli3 ps20 80 9000 /\ total_junk j /\
  construct fuel40 (fun _ => counting) j 3 [4; 5; 3]%Z 0 mp5 [0; 2]%Z ps20 = Ok o0 /\ (4 * 5 * 3 * 3 < 2000)%Z /\ (2 <= fuel40)%nat /\
  (forall i : Z, exists k, (fun _ => counting) i 1%Z = Ok k /\ (k < 40)%Z) /\ (forall k i : Z, exists c, (fun _ _ => counting) k i 1%Z = Ok c /\ (c < 40)%Z) /\
  reaches o0 story o fs /\ last_set 7 (eps6 2) story /\ (exists i, lget (eps6 2) i <> 0).
Proof. exact bounds_story3. Qed.
Example C98_example_2d : exists (j : junk R) o0 o fs, valid_args 2 4 5 1 1 mp5 [1; 0]%Z ps20 /\ body_args 2 mp5 ps20 /\ moduli2 ps20 80 9000 /\ total_junk j /\
  construct fuel40 (fun _ => counting) j 2 [4; 5; 1]%Z 1 mp5 [1; 0]%Z ps20 = Ok o0 /\ (4 * 5 * 2 < 2000)%Z /\ (2 <= fuel40)%nat /\
  (forall i : Z, exists k, (fun _ => counting) i 1%Z = Ok k /\ (k < 40)%Z) /\ (forall k i : Z, exists c, (fun _ _ => counting) k i 1%Z = Ok c /\ (c < 40)%Z) /\
  reaches o0 story o fs /\ last_set 7 (eps6 2) story /\ (exists i, lget (eps6 2) i <> 0).
Proof. exact bounds_story2. Qed.
(** C98.  An object without plastic phases has one symmetric effective stiffness K, that of exact
    equilibrium, and after any calls homogenize returns, and the stress and tangent of every point with
    a strain are within explicit distances of K times the strain and of K. *)
Theorem C98_effective_stiffness_3d : forall fuel0 q0 (j : junk R) nx ny nz mtype mp mt ps o0 m M, total_junk j -> (2 <= fuel0)%nat -> (forall i, exists k, q0 i 1%Z = Ok k /\ (k < 40)%Z) ->
  valid_args 3 nx ny nz mtype mp mt ps -> body_args 3 mp ps -> no_plastic mt -> 0 < m -> moduli3 ps m M ->
  construct fuel0 q0 j 3 [nx; ny; nz] mtype mp mt ps = Ok o0 -> (nx * ny * nz * 3 < 2000)%Z ->
  exists K : Z -> Z -> R, (forall v i, (0 <= v < 6)%Z -> (0 <= i < 6)%Z -> K v i = K i v) /\
  (forall e, exists u vo b s, state3 (o_env o0) e u vo b 0 s) /\
  (forall e u vo b s, state3 (o_env o0) e u vo b 0 s -> forall v, (0 <= v < 6)%Z -> lget s v = dot 6 (K v) (lget e)) /\
  forall cs o fs fuel q id e, reaches o0 cs o fs -> last_set id e cs -> (2 <= fuel)%nat -> (forall k i, exists c, q k i 1%Z = Ok c /\ (c < 40)%Z) ->
  exists o', step (Homogenize fuel q) (o, fs) = Ok (o', fs, RUnit) /\
  exists ss cc, step (GetStress id) (o', fs) = Ok (o', fs, RBuf (Some ss)) /\ step (GetCtan id) (o', fs) = Ok (o', fs, RBuf (Some cc)) /\
  let c := sqrt (10 * IZR ((nx - 1) * (ny - 1) * (nz - 1)) * M / m) in forall v, (0 <= v < 6)%Z ->
    lget mp 1 * Rabs (lget ss v - dot 6 (K v) (lget e)) <= (1 / 100000 + 1000 * rsum (zrange 0 6) (fun i => Rabs (lget e i))) * c /\
    forall i, (0 <= i < 6)%Z -> lget mp 1 * Rabs (lget cc (v * 6 + i) - K v i) <= 2000 * c.
Proof. exact effective_answers3. Qed.
Print Assumptions C98_effective_stiffness_3d.
Theorem C98_effective_stiffness_2d : forall fuel0 q0 (j : junk R) nx ny nz mtype mp mt ps o0 m M, total_junk j -> (2 <= fuel0)%nat -> (forall i, exists k, q0 i 1%Z = Ok k /\ (k < 40)%Z) ->
  valid_args 2 nx ny nz mtype mp mt ps -> body_args 2 mp ps -> 0 < m -> moduli2 ps m M ->
  construct fuel0 q0 j 2 [nx; ny; nz] mtype mp mt ps = Ok o0 -> (nx * ny * 2 < 2000)%Z ->
  exists K : Z -> Z -> R, (forall v i, (0 <= v < 3)%Z -> (0 <= i < 3)%Z -> K v i = K i v) /\
  (forall e, exists u b s, state2 (o_env o0) e u b 0 s) /\
  (forall e u b s, state2 (o_env o0) e u b 0 s -> forall v, (0 <= v < 3)%Z -> lget s v = dot 3 (K v) (lget e)) /\
  forall cs o fs fuel q id e, reaches o0 cs o fs -> last_set id e cs -> (2 <= fuel)%nat -> (forall k i, exists c, q k i 1%Z = Ok c /\ (c < 40)%Z) ->
  exists o', step (Homogenize fuel q) (o, fs) = Ok (o', fs, RUnit) /\
  exists ss cc, step (GetStress id) (o', fs) = Ok (o', fs, RBuf (Some ss)) /\ step (GetCtan id) (o', fs) = Ok (o', fs, RBuf (Some cc)) /\
  let c := sqrt (4 * IZR ((nx - 1) * (ny - 1)) * M / m) in forall v, (0 <= v < 3)%Z ->
    lget mp 1 * Rabs (lget ss v - dot 3 (K v) (lget e)) <= (1 / 100000 + 1000 * rsum (zrange 0 3) (fun i => Rabs (lget e i))) * c /\
    forall i, (0 <= i < 3)%Z -> lget mp 1 * Rabs (lget cc (v * 3 + i) - K v i) <= 2000 * c.
Proof. exact effective_answers2. Qed.
Print Assumptions C98_effective_stiffness_2d.
