(** C19-C31, C33-C37, C63, C64: displacements, strains, stresses, assembly, equilibrium and
    the plastic step.  The vocabulary is AsmSpec: nodes and cells by their grid
    coordinates, fields by what get_strain and get_stress return, integrals by the
    Gauss rule over the body. *)
From Coq Require Import Reals.
From Verif Require Import Base Scalar EllModel EllSpec EllFinal EllProps CgPure CgTheory CgFinal CgProps AssemblyModel AsmPure AsmBnd FemGen FemAve AsmRun AsmMat FemMat FemMat2 FemDef FemPd FemRhs FemEquil AsmSpec AsmProps AsmEquil AsmPoint AsmCases.
Open Scope Z_scope.
Open Scope R_scope.

(** The hypotheses below hold on composites of two different linear materials, for a
    shear strain and a displacement array that is nowhere the affine field: *)
Example C19_example : body3 blend3 /\ linear blend3 /\ adm blend3 /\ v_lz blend3 <> 1 /\
  mat_at blend3 0 <> mat_at blend3 1 /\
  exists e u u' vold vnew (b : arr R) (A : ell R), full u (ndofs blend3) /\ set_displ blend3 e u = Ok u' /\ lget e 3 <> 0 /\
    vars_ok blend3 vold vnew /\ alen b = ndofs blend3 /\ matrix3 3 (v_nx blend3) (v_ny blend3) (v_nz blend3) A.
Proof. exact composite3. Qed.
Example C19_example_2d : body2 blend2 /\ adm blend2 /\ mat_at blend2 0 <> mat_at blend2 1 /\
  exists e u u' (b : arr R) (A : ell R), full u (ndofs blend2) /\ set_displ blend2 e u = Ok u' /\ lget e 2 <> 0 /\
    alen b = ndofs blend2 /\ matrix2 2 (v_nx blend2) (v_ny blend2) A.
Proof. exact composite2. Qed.
(** ... which have equilibrated states (C30, C31, C63, C64): *)
Example C30_example : exists e u vold b' s, state3 blend3 e u vold b' 0 s /\ lget e 3 <> 0 /\ exists a, affine_all3 blend3 e a.
Proof. exact equil3. Qed.
Example C30_example_2d : exists e u b' s, state2 blend2 e u b' 0 s /\ lget e 2 <> 0 /\ exists a, affine_all2 blend2 e a.
Proof. exact equil2. Qed.
(** ... and a plastic Gauss point that flows (C33-C35): *)
Example C33_example : exists V vold vnew m eps s ep al ep' al' vn, step_at V vold vnew 0 0 0 0 m eps true s ep al ep' al' vn /\
  admissible m /\ 0 < m_Ka m /\ 0 <= m_Sy m + m_Ka m * al /\ trace6 ep = 0 /\ 0 < al'.
Proof. exact flowing. Qed.

(** C19.  set_displ: affine field on the boundary, interior untouched, for any sizes and strain. *)
Theorem C19_displacements_3d : forall V e u,
  body3 V -> alen u = ndofs V ->
  exists u', set_displ V e u = Ok u' /\ alen u' = ndofs V /\ affine_bnd3 V e u' /\
  forall i j k c, is_node3 V i j k -> ~ on_face3 V i j k -> (0 <= c < 3)%Z ->
  aget u' (dof3 V i j k c) = aget u (dof3 V i j k c).
Proof. exact displ3_spec. Qed.
Print Assumptions C19_displacements_3d.
Theorem C19_displacements_2d : forall V e u,
  body2 V -> alen u = ndofs V ->
  exists u', set_displ V e u = Ok u' /\ alen u' = ndofs V /\ affine_bnd2 V e u' /\
  forall i j c, is_node2 V i j -> ~ on_edge2 V i j -> (0 <= c < 2)%Z ->
  aget u' (dof2 V i j c) = aget u (dof2 V i j c).
Proof. exact displ2_spec. Qed.
Print Assumptions C19_displacements_2d.
(** C20.  A cell carrying an affine field has the symmetric gradient as strain at every Gauss point; *)
Theorem C20_affine_strain_3d : forall V t H u ex ey ez g,
  body3 V -> full u (ndofs V) -> is_cell3 V ex ey ez ->
  affine_cell3 V t H u ex ey ez ->
  exists eps, get_strain3D V u ex ey ez g = Ok eps /\
  lget eps 0 = H 0%Z 0%Z /\ lget eps 1 = H 1%Z 1%Z /\ lget eps 2 = H 2%Z 2%Z /\
  lget eps 3 = H 0%Z 1%Z + H 1%Z 0%Z /\ lget eps 4 = H 0%Z 2%Z + H 2%Z 0%Z /\ lget eps 5 = H 1%Z 2%Z + H 2%Z 1%Z.
Proof. exact affine_strain3. Qed.
Print Assumptions C20_affine_strain_3d.
Theorem C20_affine_strain_2d : forall V t H u ex ey g,
  body2 V -> full u (ndofs V) -> is_cell2 V ex ey ->
  affine_cell2 V t H u ex ey ->
  exists eps, get_strain2D V u ex ey g = Ok eps /\
  lget eps 0 = H 0%Z 0%Z /\ lget eps 1 = H 1%Z 1%Z /\ lget eps 2 = H 0%Z 1%Z + H 1%Z 0%Z.
Proof. exact affine_strain2. Qed.
Print Assumptions C20_affine_strain_2d.
(** for any displacements the strain is the symmetric gradient of the trilinear (bilinear) field. *)
Theorem C20_strain_is_gradient_3d : forall V u ex ey ez g,
  body3 V -> full u (ndofs V) -> is_cell3 V ex ey ez -> (0 <= g < 8)%Z ->
  let X := gpos (v_dx V) g 0 in let Y := gpos (v_dy V) g 1 in let Zc := gpos (v_dz V) g 2 in
  exists eps D, get_strain3D V u ex ey ez g = Ok eps /\
  (forall c, (0 <= c < 3)%Z -> derivable_pt_lim (fun s => inside3 V u ex ey ez c s Y Zc) X (D c 0%Z) /\
  derivable_pt_lim (fun s => inside3 V u ex ey ez c X s Zc) Y (D c 1%Z) /\
  derivable_pt_lim (fun s => inside3 V u ex ey ez c X Y s) Zc (D c 2%Z)) /\
  lget eps 0 = D 0%Z 0%Z /\ lget eps 1 = D 1%Z 1%Z /\ lget eps 2 = D 2%Z 2%Z /\
  lget eps 3 = D 0%Z 1%Z + D 1%Z 0%Z /\ lget eps 4 = D 0%Z 2%Z + D 2%Z 0%Z /\ lget eps 5 = D 1%Z 2%Z + D 2%Z 1%Z.
Proof. exact strain3_gradient. Qed.
Print Assumptions C20_strain_is_gradient_3d.
Theorem C20_strain_is_gradient_2d : forall V u ex ey g,
  body2 V -> full u (ndofs V) -> is_cell2 V ex ey -> (0 <= g < 4)%Z ->
  let X := gpos (v_dx V) g 0 in let Y := gpos (v_dy V) g 1 in
  exists eps D, get_strain2D V u ex ey g = Ok eps /\
  (forall c, (0 <= c < 2)%Z -> derivable_pt_lim (fun s => inside2 V u ex ey c s Y) X (D c 0%Z) /\
  derivable_pt_lim (fun s => inside2 V u ex ey c X s) Y (D c 1%Z)) /\
  lget eps 0 = D 0%Z 0%Z /\ lget eps 1 = D 1%Z 1%Z /\ lget eps 2 = D 0%Z 1%Z + D 1%Z 0%Z.
Proof. exact strain2_gradient. Qed.
Print Assumptions C20_strain_is_gradient_2d.
(** C21.  The interior displacements do not change the average strain. *)
Theorem C21_average_strain_2d : forall V e u u',
  body2 V -> full u (ndofs V) -> set_displ V e u = Ok u' ->
  exists eps, calc_ave_strain V u' = Ok eps /\ forall v, (0 <= v < 3)%Z -> lget eps v = lget e v.
Proof. exact mean_strain2. Qed.
Print Assumptions C21_average_strain_2d.
(** C22.  In 3D the average is divided by lx ly only (src/assembly.cpp:843), so it comes out lz times too large. *)
Theorem C22_average_strain_3d_partial : forall V e u u',
  body3 V -> full u (ndofs V) -> set_displ V e u = Ok u' ->
  exists eps, calc_ave_strain V u' = Ok eps /\ forall v, (0 <= v < 6)%Z -> lget eps v = v_lz V * lget e v.
Proof. exact mean_strain3. Qed.
Print Assumptions C22_average_strain_3d_partial.
Theorem C22_average_strain_3d_refuted : forall V e u u' v,
  body3 V -> v_lz V <> 1 -> full u (ndofs V) -> set_displ V e u = Ok u' ->
  (0 <= v < 6)%Z -> lget e v <> 0 ->
  exists eps, calc_ave_strain V u' = Ok eps /\ lget eps v <> lget e v.
Proof. exact mean_strain3_refuted. Qed.
Print Assumptions C22_average_strain_3d_refuted.
(** C23.  2D: volume average of the Gauss-point stresses; 3D: lz times that. *)
Theorem C23_average_stress_2d : forall V u vold vnew,
  body2 V -> full u (ndofs V) ->
  exists s sig, calc_ave_stress V u vold vnew = Ok (s, vnew) /\ stress_field2 V u sig /\
  forall v, (0 <= v < 3)%Z -> lget s v = quad_body2 V (fun ex ey g => sig ex ey g v) / area2 V.
Proof. exact mean_stress2. Qed.
Print Assumptions C23_average_stress_2d.
Theorem C23_average_stress_3d_partial : forall V u vold vnew,
  body3 V -> full u (ndofs V) -> vars_ok V vold vnew ->
  exists s vn sig, calc_ave_stress V u vold vnew = Ok (s, vn) /\ stress_field3 V u vold vnew sig /\
  forall v, (0 <= v < 6)%Z -> lget s v = v_lz V * (quad_body3 V (fun ex ey ez g => sig ex ey ez g v) / volume3 V).
Proof. exact mean_stress3. Qed.
Print Assumptions C23_average_stress_3d_partial.
Theorem C23_average_stress_3d_refuted : forall V u vold vnew s vn sig v,
  body3 V -> v_lz V <> 1 -> full u (ndofs V) -> vars_ok V vold vnew ->
  calc_ave_stress V u vold vnew = Ok (s, vn) -> stress_field3 V u vold vnew sig -> (0 <= v < 6)%Z -> lget s v <> 0 ->
  lget s v <> quad_body3 V (fun ex ey ez g => sig ex ey ez g v) / volume3 V.
Proof. exact mean_stress3_refuted. Qed.
Print Assumptions C23_average_stress_3d_refuted.
(** C24.  One linear material everywhere: the closed-form stress, whatever the interior field. *)
Theorem C24_uniform_2d : forall V m e u u' vold vnew,
  body2 V -> full u (ndofs V) -> admissible m ->
  (forall c, (0 <= c < ncells V)%Z -> mat_at V c = m) -> set_displ V e u = Ok u' ->
  exists s, calc_ave_stress V u' vold vnew = Ok (s, vnew) /\
  lget s 0 = m_lambda m * (lget e 0 + lget e 1) + 2 * m_mu m * lget e 0 /\
  lget s 1 = m_lambda m * (lget e 0 + lget e 1) + 2 * m_mu m * lget e 1 /\
  lget s 2 = m_mu m * lget e 2.
Proof. exact uniform2. Qed.
Print Assumptions C24_uniform_2d.
Theorem C24_uniform_3d : forall V m e u u' vold vnew,
  body3 V -> full u (ndofs V) -> vars_ok V vold vnew -> linear V ->
  (forall c, (0 <= c < ncells V)%Z -> mat_at V c = m) -> set_displ V e u = Ok u' ->
  exists s vn, calc_ave_stress V u' vold vnew = Ok (s, vn) /\
  let t := m_lambda m * (lget e 0 + lget e 1 + lget e 2) in
  lget s 0 = v_lz V * (t + 2 * m_mu m * lget e 0) /\ lget s 1 = v_lz V * (t + 2 * m_mu m * lget e 1) /\
  lget s 2 = v_lz V * (t + 2 * m_mu m * lget e 2) /\ lget s 3 = v_lz V * (m_mu m * lget e 3) /\
  lget s 4 = v_lz V * (m_mu m * lget e 4) /\ lget s 5 = v_lz V * (m_mu m * lget e 5).
Proof. exact uniform3. Qed.
Print Assumptions C24_uniform_3d.
(** C25. *)
Theorem C25_symmetric_3d : forall V u vold vnew ex ey ez,
  body3 V -> full u (ndofs V) -> vars_ok V vold vnew -> is_cell3 V ex ey ez ->
  plastic_at V (cellno V ex ey ez) = false ->
  exists K, get_elem_mat3D V u vold vnew ex ey ez = Ok (K, vnew) /\
  forall i j, (0 <= i < 24)%Z -> (0 <= j < 24)%Z -> lget K (i * 24 + j) = lget K (j * 24 + i).
Proof. exact elem_symmetric3. Qed.
Print Assumptions C25_symmetric_3d.
Theorem C25_symmetric_2d : forall V ex ey,
  body2 V -> is_cell2 V ex ey ->
  exists K, get_elem_mat2D V ex ey = Ok K /\
  forall i j, (0 <= i < 8)%Z -> (0 <= j < 8)%Z -> lget K (i * 8 + j) = lget K (j * 8 + i).
Proof. exact elem_symmetric2. Qed.
Print Assumptions C25_symmetric_2d.
(** C26.  The element matrix is the strain energy of the cell. *)
Theorem C26_energy_3d : forall V u vold vnew ex ey ez w eps sig,
  body3 V -> full u (ndofs V) -> vars_ok V vold vnew -> is_cell3 V ex ey ez ->
  plastic_at V (cellno V ex ey ez) = false -> admissible (mat_at V (cellno V ex ey ez)) ->
  full w (ndofs V) -> strain_field3 V w eps -> stress_field3 V w vold vnew sig ->
  exists K, get_elem_mat3D V u vold vnew ex ey ez = Ok (K, vnew) /\
  let q := qform 24 K (fun i => val w (cdof3 V ex ey ez (i / 3) (i mod 3))) in
  q = rsum (zrange 0 8) (fun g => dot 6 (sig ex ey ez g) (eps ex ey ez g) * (v_dx V * v_dy V * v_dz V / 8)) /\
  0 <= q /\ (q = 0 <-> forall g v, (0 <= g < 8)%Z -> (0 <= v < 6)%Z -> eps ex ey ez g v = 0) /\
  (q = 0 <-> rigid_cell3 V w ex ey ez).
Proof. exact elem_energy3. Qed.
Print Assumptions C26_energy_3d.
Theorem C26_energy_2d : forall V ex ey w eps sig,
  body2 V -> is_cell2 V ex ey -> admissible (mat_at V (cellno V ex ey 0)) ->
  full w (ndofs V) -> strain_field2 V w eps -> stress_field2 V w sig ->
  exists K, get_elem_mat2D V ex ey = Ok K /\
  let q := qform 8 K (fun i => val w (cdof2 V ex ey (i / 2) (i mod 2))) in
  q = rsum (zrange 0 4) (fun g => dot 3 (sig ex ey g) (eps ex ey g) * (v_dx V * v_dy V / 4)) /\
  0 <= q /\ (q = 0 <-> forall g v, (0 <= g < 4)%Z -> (0 <= v < 3)%Z -> eps ex ey g v = 0) /\
  (q = 0 <-> rigid_cell2 V w ex ey).
Proof. exact elem_energy2. Qed.
Print Assumptions C26_energy_2d.
(** C27.  The assembled residual and its norm; no hypothesis on the old contents of b. *)
Theorem C27_residual_3d : forall V u vold vnew b,
  body3 V -> full u (ndofs V) -> vars_ok V vold vnew -> alen b = ndofs V ->
  exists b' nl vn nrm be sig, assembly_rhs V u vold vnew b = Ok (b', nl, vn, nrm) /\ full b' (ndofs V) /\
  (forall ex ey ez, is_cell3 V ex ey ez -> exists f v', get_elem_rhs3D V u vold vnew ex ey ez = Ok (be ex ey ez, f, v')) /\
  (forall i j k c, is_node3 V i j k -> (0 <= c < 3)%Z ->
  (on_face3 V i j k -> val b' (dof3 V i j k c) = 0) /\
  (~ on_face3 V i j k -> val b' (dof3 V i j k c) = -
  rsum (zrange 0 (v_nx V - 1)) (fun ex => rsum (zrange 0 (v_ny V - 1)) (fun ey => rsum (zrange 0 (v_nz V - 1)) (fun ez =>
  rsum (zrange 0 8) (fun n => rsum (zrange 0 3) (fun d =>
  if (cdof3 V ex ey ez n d =? dof3 V i j k c)%Z then lget (be ex ey ez) (n * 3 + d) else 0))))))) /\
  stress_field3 V u vold vnew sig /\
  (forall w eps, full w (ndofs V) -> zero_bnd_field3 V w -> strain_field3 V w eps ->
  rsum (zrange 0 (ndofs V)) (fun r => val b' r * val w r) =
  - quad_body3 V (fun ex ey ez g => dot 6 (sig ex ey ez g) (eps ex ey ez g))) /\
  nrm = sqrt (rsum (zrange 0 (ndofs V)) (fun r => val b' r * val b' r)).
Proof. exact residual_spec3. Qed.
Print Assumptions C27_residual_3d.
Theorem C27_residual_2d : forall V u vold vnew b,
  body2 V -> full u (ndofs V) -> alen b = ndofs V ->
  exists b' nrm be sig, assembly_rhs V u vold vnew b = Ok (b', false, vnew, nrm) /\ full b' (ndofs V) /\
  (forall ex ey, is_cell2 V ex ey -> exists f, get_elem_rhs2D V u ex ey = Ok (be ex ey, f)) /\
  (forall i j c, is_node2 V i j -> (0 <= c < 2)%Z ->
  (on_edge2 V i j -> val b' (dof2 V i j c) = 0) /\
  (~ on_edge2 V i j -> val b' (dof2 V i j c) = -
  rsum (zrange 0 (v_nx V - 1)) (fun ex => rsum (zrange 0 (v_ny V - 1)) (fun ey =>
  rsum (zrange 0 4) (fun n => rsum (zrange 0 2) (fun d =>
  if (cdof2 V ex ey n d =? dof2 V i j c)%Z then lget (be ex ey) (n * 2 + d) else 0)))))) /\
  stress_field2 V u sig /\
  (forall w eps, full w (ndofs V) -> zero_bnd_field2 V w -> strain_field2 V w eps ->
  rsum (zrange 0 (ndofs V)) (fun r => val b' r * val w r) =
  - quad_body2 V (fun ex ey g => dot 3 (sig ex ey g) (eps ex ey g))) /\
  nrm = sqrt (rsum (zrange 0 (ndofs V)) (fun r => val b' r * val b' r)).
Proof. exact residual_spec2. Qed.
Print Assumptions C27_residual_2d.
(** C28.  The assembled matrix is the derivative of the residual for linear materials. *)
Theorem C28_newton_step_3d : forall V u du u' vold vnew b0 b1 (A : ell R),
  body3 V -> linear V -> adm V ->
  matrix3 3 (v_nx V) (v_ny V) (v_nz V) A -> full u (ndofs V) -> full du (ndofs V) -> zero_bnd_field3 V du ->
  rep u' (ndofs V) (fun i => val u i + val du i) -> vars_ok V vold vnew -> alen b0 = ndofs V -> alen b1 = ndofs V ->
  exists A' b b' v0 v1 nl0 nl1 n0 n1, assembly_mat V u vold vnew A = Ok (A', vnew) /\
  assembly_rhs V u vold vnew b0 = Ok (b, nl0, v0, n0) /\ assembly_rhs V u' vold vnew b1 = Ok (b', nl1, v1, n1) /\
  (forall r, (0 <= r < ndofs V)%Z -> val b' r = val b r - mul A' (val du) r) /\
  n1 = residual_norm A' (val b) (val du).
Proof. exact newton_exact3. Qed.
Print Assumptions C28_newton_step_3d.
Theorem C28_newton_step_2d : forall V u du u' vold vnew b0 b1 (A : ell R),
  body2 V -> adm V ->
  matrix2 2 (v_nx V) (v_ny V) A -> full u (ndofs V) -> full du (ndofs V) -> zero_bnd_field2 V du ->
  rep u' (ndofs V) (fun i => val u i + val du i) -> alen b0 = ndofs V -> alen b1 = ndofs V ->
  exists A' b b' n0 n1, assembly_mat V u vold vnew A = Ok (A', vnew) /\
  assembly_rhs V u vold vnew b0 = Ok (b, false, vnew, n0) /\ assembly_rhs V u' vold vnew b1 = Ok (b', false, vnew, n1) /\
  (forall r, (0 <= r < ndofs V)%Z -> val b' r = val b r - mul A' (val du) r) /\
  n1 = residual_norm A' (val b) (val du).
Proof. exact newton_exact2. Qed.
Print Assumptions C28_newton_step_2d.
(** C29.  The assembled matrix is positive definite on updates vanishing on the boundary, *)
Theorem C29_positive_definite_3d : forall V u vold vnew (A : ell R),
  body3 V -> linear V -> adm V ->
  full u (ndofs V) -> vars_ok V vold vnew -> matrix3 3 (v_nx V) (v_ny V) (v_nz V) A ->
  exists A', assembly_mat V u vold vnew A = Ok (A', vnew) /\
  (forall r c, (0 <= r < ndofs V)%Z -> (0 <= c < ndofs V)%Z -> dense A' r c = dense A' c r) /\
  (forall v, zero_on3 V v -> (exists r, (0 <= r < ndofs V)%Z /\ v r <> 0) ->
  0 < rsum (zrange 0 (ndofs V)) (fun r => v r * mul A' v r)) /\
  (forall x y, (forall r, (0 <= r < ndofs V)%Z -> mul A' x r = mul A' y r) -> forall r, (0 <= r < ndofs V)%Z -> x r = y r).
Proof. exact stiffness_pd3. Qed.
Print Assumptions C29_positive_definite_3d.
Theorem C29_positive_definite_2d : forall V u vold vnew (A : ell R),
  body2 V -> adm V -> matrix2 2 (v_nx V) (v_ny V) A ->
  exists A', assembly_mat V u vold vnew A = Ok (A', vnew) /\
  (forall i j c i' j' c', is_node2 V i j -> is_node2 V i' j' -> (0 <= c < 2)%Z -> (0 <= c' < 2)%Z -> ~ on_edge2 V i j -> ~ on_edge2 V i' j' ->
  dense A' (dof2 V i j c) (dof2 V i' j' c') = dense A' (dof2 V i' j' c') (dof2 V i j c)) /\
  (forall v, zero_on2 V v -> (exists r, (0 <= r < ndofs V)%Z /\ v r <> 0) ->
  0 < rsum (zrange 0 (ndofs V)) (fun r => v r * mul A' v r)) /\
  (forall x y, (forall r, (0 <= r < ndofs V)%Z -> mul A' x r = mul A' y r) -> forall r, (0 <= r < ndofs V)%Z -> x r = y r).
Proof. exact stiffness_pd2. Qed.
Print Assumptions C29_positive_definite_2d.
(** so the solver called by newton_raphson converges within as many iterations as unknowns and leaves the boundary alone. *)
Theorem C29_newton_solve_3d : forall V u vold vnew b0 du (A : ell R) sv,
  body3 V -> linear V -> adm V ->
  full u (ndofs V) -> vars_ok V vold vnew -> matrix3 3 (v_nx V) (v_ny V) (v_nz V) A -> alen b0 = ndofs V ->
  rep du (ndofs V) (fun _ => 0) -> 0 < s_min_tol sv -> (ndofs V < s_max_its sv)%Z ->
  exists A' b nl v0 n0 sv' du', assembly_rhs V u vold vnew b0 = Ok (b, nl, v0, n0) /\
  assembly_mat V u vold vnew A = Ok (A', vnew) /\
  ell_solve_cgpd_struct sv A' 3 3 (v_nx V * v_ny V * v_nz V) b du = Ok (sv', du') /\ full du' (ndofs V) /\ zero_bnd_field3 V du' /\
  (s_its sv' <= ndofs V)%Z /\ s_err sv' < s_min_tol sv /\ residual_norm A' (val b) (val du') < s_min_tol sv.
Proof. exact newton_solve3. Qed.
Print Assumptions C29_newton_solve_3d.
Theorem C29_newton_solve_2d : forall V u vold vnew b0 du (A : ell R) sv,
  body2 V -> adm V ->
  full u (ndofs V) -> matrix2 2 (v_nx V) (v_ny V) A -> alen b0 = ndofs V ->
  rep du (ndofs V) (fun _ => 0) -> 0 < s_min_tol sv -> (ndofs V < s_max_its sv)%Z ->
  exists A' b n0 sv' du', assembly_rhs V u vold vnew b0 = Ok (b, false, vnew, n0) /\
  assembly_mat V u vold vnew A = Ok (A', vnew) /\
  ell_solve_cgpd_2D sv A' 2 (v_nx V) (v_ny V) b du = Ok (sv', du') /\ full du' (ndofs V) /\ zero_bnd_field2 V du' /\
  (s_its sv' <= ndofs V)%Z /\ s_err sv' < s_min_tol sv /\ residual_norm A' (val b) (val du') < s_min_tol sv.
Proof. exact newton_solve2. Qed.
Print Assumptions C29_newton_solve_2d.
(** C30.  Virtual work of any state against any field with affine boundary values; the defect is the residual
    times the distance to the affine field, so exactly zero at equilibrium.  (In 3D the reported stress carries the
    factor lz of C23, hence the area lx ly.) *)
Theorem C30_hill_mandel_3d : forall V e0 u vold vnew b' n s sig e w eps a,
  body3 V -> state3 V e0 u vold b' n s -> vars_ok V vold vnew ->
  stress_field3 V u vold vnew sig -> full w (ndofs V) -> affine_bnd3 V e w -> strain_field3 V w eps -> affine_all3 V e a ->
  let W := quad_body3 V (fun ex ey ez g => dot 6 (sig ex ey ez g) (eps ex ey ez g)) in
  W = v_lx V * v_ly V * dot 6 (lget s) (lget e) - rsum (zrange 0 (ndofs V)) (fun r => val b' r * (val w r - a r)) /\
  Rabs (W - v_lx V * v_ly V * dot 6 (lget s) (lget e)) <= n * len (ndofs V) (fun r => val w r - a r).
Proof. exact hill_mandel_body3. Qed.
Print Assumptions C30_hill_mandel_3d.
Theorem C30_hill_mandel_2d : forall V e0 u b' n s sig e w eps a,
  body2 V -> state2 V e0 u b' n s ->
  stress_field2 V u sig -> full w (ndofs V) -> affine_bnd2 V e w -> strain_field2 V w eps -> affine_all2 V e a ->
  let W := quad_body2 V (fun ex ey g => dot 3 (sig ex ey g) (eps ex ey g)) in
  W = v_lx V * v_ly V * dot 3 (lget s) (lget e) - rsum (zrange 0 (ndofs V)) (fun r => val b' r * (val w r - a r)) /\
  Rabs (W - v_lx V * v_ly V * dot 3 (lget s) (lget e)) <= n * len (ndofs V) (fun r => val w r - a r).
Proof. exact hill_mandel_body2. Qed.
Print Assumptions C30_hill_mandel_2d.
(** C31.  Symmetry of the effective tangent, exact at equilibrium and with the residual bound otherwise. *)
Theorem C31_reciprocity_3d : forall V e1 u1 v1 b1 n1 s1 a1 e2 u2 v2 b2 n2 s2 a2,
  body3 V -> linear V ->
  state3 V e1 u1 v1 b1 n1 s1 -> state3 V e2 u2 v2 b2 n2 s2 -> affine_all3 V e1 a1 -> affine_all3 V e2 a2 ->
  Rabs (v_lx V * v_ly V * (dot 6 (lget s1) (lget e2) - dot 6 (lget s2) (lget e1))) <=
  n1 * len (ndofs V) (fun r => val u2 r - a2 r) + n2 * len (ndofs V) (fun r => val u1 r - a1 r).
Proof. exact reciprocity_body3. Qed.
Print Assumptions C31_reciprocity_3d.
Theorem C31_reciprocity_2d : forall V e1 u1 b1 n1 s1 a1 e2 u2 b2 n2 s2 a2,
  body2 V ->
  state2 V e1 u1 b1 n1 s1 -> state2 V e2 u2 b2 n2 s2 -> affine_all2 V e1 a1 -> affine_all2 V e2 a2 ->
  Rabs (v_lx V * v_ly V * (dot 3 (lget s1) (lget e2) - dot 3 (lget s2) (lget e1))) <=
  n1 * len (ndofs V) (fun r => val u2 r - a2 r) + n2 * len (ndofs V) (fun r => val u1 r - a1 r).
Proof. exact reciprocity_body2. Qed.
Print Assumptions C31_reciprocity_2d.
(** C33.  One plastic step at any Gauss point of any body. *)
Theorem C33_plastic_step : forall V vold vnew ex ey ez g m eps nl s ep al ep' al' vn,
  step_at V vold vnew ex ey ez g m eps nl s ep al ep' al' vn -> 0 < m_mu m -> 0 <= m_Ka m -> 0 <= m_Sy m + m_Ka m * al ->
  mises m s al' <= 0 /\ al <= al' /\ (al' = al <-> nl = false) /\ (nl = false -> forall i, (0 <= i < 6)%Z -> ep' i = ep i) /\
  trace6 ep' = trace6 ep /\ 0 <= contract6 s (fun i => ep' i - ep i) /\ 0 <= m_Sy m + m_Ka m * al'.
Proof. exact plastic_point. Qed.
Print Assumptions C33_plastic_step.
(** C34.  On the updated yield surface exactly without hardening; always on the old one. *)
Theorem C34_yield_surface_partial : forall V vold vnew ex ey ez g m eps s ep al ep' al' vn,
  step_at V vold vnew ex ey ez g m eps true s ep al ep' al' vn -> 0 < m_mu m -> 0 <= m_Ka m -> 0 <= m_Sy m + m_Ka m * al ->
  (m_Ka m = 0 -> mises m s al' = 0) /\ (0 < m_Ka m -> mises m s al' < 0) /\ mises m s al = 0.
Proof. exact surface_point. Qed.
Print Assumptions C34_yield_surface_partial.
Theorem C34_yield_surface_refuted : exists V vold vnew ex ey ez g m eps s ep al ep' al' vn,
  step_at V vold vnew ex ey ez g m eps true s ep al ep' al' vn /\ admissible m /\ 0 <= m_Ka m /\ 0 <= m_Sy m + m_Ka m * al /\ mises m s al' <> 0.
Proof. exact surface_point_refuted. Qed.
Print Assumptions C34_yield_surface_refuted.
(** C35.  The normal components follow the elastic law of the new plastic strain; the shear components miss a
    factor 2 on the plastic part of the step, so re-evaluating the same strain changes the stress. *)
Theorem C35_elastic_law_partial : forall V vold vnew ex ey ez g m eps nl s ep al ep' al' vn,
  step_at V vold vnew ex ey ez g m eps nl s ep al ep' al' vn -> admissible m -> trace6 ep = 0 ->
  (forall i, (0 <= i < 6)%Z -> s i = hooke m (fun j => lget eps j - ep' j) i - if (i <? 3)%Z then 0 else m_mu m * (ep' i - ep i)) /\
  (nl = false -> forall i, (0 <= i < 6)%Z -> s i = hooke m (fun j => lget eps j - ep j) i).
Proof. exact law_point. Qed.
Print Assumptions C35_elastic_law_partial.
Theorem C35_reevaluation_partial : forall V vold vnew vnew2 ex ey ez g m eps nl s ep al ep' al' vn nl2 s2 ep2 al2 vn2,
  step_at V vold vnew ex ey ez g m eps nl s ep al ep' al' vn -> step_at V vn vnew2 ex ey ez g m eps nl2 s2 ep' al' ep2 al2 vn2 ->
  admissible m -> 0 <= m_Ka m -> 0 <= m_Sy m + m_Ka m * al -> trace6 ep = 0 -> (forall i, (3 <= i < 6)%Z -> lget eps i = ep i) ->
  nl2 = false /\ al2 = al' /\ forall i, (0 <= i < 6)%Z -> s2 i = s i /\ ep2 i = ep' i.
Proof. exact idempotent_point. Qed.
Print Assumptions C35_reevaluation_partial.
Theorem C35_elastic_law_refuted : exists V vold vnew vnew2 ex ey ez g m eps nl s ep al ep' al' vn nl2 s2 ep2 al2 vn2,
  step_at V vold vnew ex ey ez g m eps nl s ep al ep' al' vn /\ step_at V vn vnew2 ex ey ez g m eps nl2 s2 ep' al' ep2 al2 vn2 /\
  admissible m /\ 0 <= m_Ka m /\ 0 <= m_Sy m + m_Ka m * al /\ trace6 ep = 0 /\
  s 3%Z <> hooke m (fun j => lget eps j - ep' j) 3 /\ s2 3%Z <> s 3%Z.
Proof. exact law_point_refuted. Qed.
Print Assumptions C35_elastic_law_refuted.
(** C36.  Only Gauss point 7 of each cell is looked at. *)
Theorem C36_flag_last_point_partial : forall V u vold vnew b b' nl vn nrm,
  body3 V -> full u (ndofs V) -> vars_ok V vold vnew -> alen b = ndofs V ->
  assembly_rhs V u vold vnew b = Ok (b', nl, vn, nrm) ->
  (nl = true <-> exists ex ey ez, is_cell3 V ex ey ez /\ flows3 V u vold vnew ex ey ez 7).
Proof. exact flag_spec. Qed.
Print Assumptions C36_flag_last_point_partial.
Theorem C36_flag_refuted : exists V u vold vnew b b' vn nrm ex ey ez g, body3 V /\ adm V /\ full u (ndofs V) /\ vars_ok V vold vnew /\ alen b = ndofs V /\
  assembly_rhs V u vold vnew b = Ok (b', false, vn, nrm) /\ is_cell3 V ex ey ez /\ (0 <= g < 8)%Z /\ flows3 V u vold vnew ex ey ez g.
Proof. exact flag_point_refuted. Qed.
Print Assumptions C36_flag_refuted.
(** C37. *)
Theorem C37_internal_variables : forall V u vold vnew,
  body3 V -> full u (ndofs V) -> vars_ok V vold vnew ->
  exists s vn, calc_ave_stress V u vold vnew = Ok (s, vn) /\ alen vn = alen vnew /\
  (forall ex ey ez g i m, is_cell3 V ex ey ez -> (0 <= g < 8)%Z -> (0 <= i < 7)%Z -> cell_mat V ex ey ez m ->
  (m_plast m = Some true -> exists eps nl l vp, get_strain3D V u ex ey ez g = Ok eps /\
  get_stress3D V vold vnew ex ey ez g eps = Ok (nl, l, vp) /\ aget vn (var3 V ex ey ez g i) = aget vp (var3 V ex ey ez g i)) /\
  (m_plast m = Some false -> aget vn (var3 V ex ey ez g i) = aget vnew (var3 V ex ey ez g i))) /\
  (forall vnew2, alen vnew2 = alen vnew -> exists vn2, calc_ave_stress V u vold vnew2 = Ok (s, vn2) /\
  forall ex ey ez g i m, is_cell3 V ex ey ez -> (0 <= g < 8)%Z -> (0 <= i < 7)%Z -> cell_mat V ex ey ez m -> m_plast m = Some true ->
  aget vn2 (var3 V ex ey ez g i) = aget vn (var3 V ex ey ez g i)).
Proof. exact writes_spec. Qed.
Print Assumptions C37_internal_variables.
(** C63.  Among all fields with the same boundary values an equilibrated state has the least energy; in particular
    the effective energy is at most that of the affine field (Voigt bound). *)
Theorem C63_energy_minimum_3d : forall V e u vold b' n s w vw vnew sigw epsw a,
  body3 V -> linear V -> adm V -> state3 V e u vold b' n s ->
  full w (ndofs V) -> affine_bnd3 V e w -> vars_ok V vw vnew -> stress_field3 V w vw vnew sigw -> strain_field3 V w epsw ->
  affine_all3 V e a ->
  v_lx V * v_ly V * dot 6 (lget s) (lget e) <=
  quad_body3 V (fun ex ey ez g => dot 6 (sigw ex ey ez g) (epsw ex ey ez g)) +
  n * (2 * len (ndofs V) (fun r => val w r - val u r) + len (ndofs V) (fun r => val u r - a r)).
Proof. exact energy_min3. Qed.
Print Assumptions C63_energy_minimum_3d.
Theorem C63_energy_minimum_2d : forall V e u b' n s w sigw epsw a,
  body2 V -> adm V -> state2 V e u b' n s ->
  full w (ndofs V) -> affine_bnd2 V e w -> stress_field2 V w sigw -> strain_field2 V w epsw ->
  affine_all2 V e a ->
  v_lx V * v_ly V * dot 3 (lget s) (lget e) <=
  quad_body2 V (fun ex ey g => dot 3 (sigw ex ey g) (epsw ex ey g)) +
  n * (2 * len (ndofs V) (fun r => val w r - val u r) + len (ndofs V) (fun r => val u r - a r)).
Proof. exact energy_min2. Qed.
Print Assumptions C63_energy_minimum_2d.
Theorem C63_voigt_3d : forall V e u vold b' n s ua vo vnew sa vn,
  body3 V -> linear V -> adm V -> state3 V e u vold b' n s ->
  rep ua (ndofs V) (val ua) -> affine_all3 V e (val ua) -> vars_ok V vo vnew -> calc_ave_stress V ua vo vnew = Ok (sa, vn) ->
  v_lx V * v_ly V * dot 6 (lget s) (lget e) <= v_lx V * v_ly V * dot 6 (lget sa) (lget e) + n * len (ndofs V) (fun r => val u r - val ua r).
Proof. exact voigt_body3. Qed.
Print Assumptions C63_voigt_3d.
Theorem C63_voigt_2d : forall V e u b' n s ua vo vnew sa vn,
  body2 V -> adm V -> state2 V e u b' n s ->
  rep ua (ndofs V) (val ua) -> affine_all2 V e (val ua) -> calc_ave_stress V ua vo vnew = Ok (sa, vn) ->
  v_lx V * v_ly V * dot 3 (lget s) (lget e) <= v_lx V * v_ly V * dot 3 (lget sa) (lget e) + n * len (ndofs V) (fun r => val u r - val ua r).
Proof. exact voigt_body2. Qed.
Print Assumptions C63_voigt_2d.
(** C64.  Exactly one equilibrated state for every macro strain, with positive effective energy. *)
Theorem C64_equilibrium_3d : forall V e,
  body3 V -> linear V -> adm V ->
  (forall vold vnew, vars_ok V vold vnew -> exists u b' s, state3 V e u vold b' 0 s) /\
  (forall u1 v1 b1 s1 u2 v2 b2 s2, state3 V e u1 v1 b1 0 s1 -> state3 V e u2 v2 b2 0 s2 ->
  (forall r, (0 <= r < ndofs V)%Z -> aget u1 r = aget u2 r) /\ (forall v, (0 <= v < 6)%Z -> lget s1 v = lget s2 v)) /\
  (forall u vold b' s, state3 V e u vold b' 0 s -> (exists v, (0 <= v < 6)%Z /\ lget e v <> 0) -> 0 < dot 6 (lget s) (lget e)).
Proof. exact equilibrium3. Qed.
Print Assumptions C64_equilibrium_3d.
Theorem C64_equilibrium_2d : forall V e,
  body2 V -> adm V ->
  (exists u b' s, state2 V e u b' 0 s) /\
  (forall u1 b1 s1 u2 b2 s2, state2 V e u1 b1 0 s1 -> state2 V e u2 b2 0 s2 ->
  (forall r, (0 <= r < ndofs V)%Z -> aget u1 r = aget u2 r) /\ (forall v, (0 <= v < 3)%Z -> lget s1 v = lget s2 v)) /\
  (forall u b' s, state2 V e u b' 0 s -> (exists v, (0 <= v < 3)%Z /\ lget e v <> 0) -> 0 < dot 3 (lget s) (lget e)).
Proof. exact equilibrium2. Qed.
Print Assumptions C64_equilibrium_2d.
