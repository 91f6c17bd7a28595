(** C76: the element matrix is the exact strain energy of the interpolated displacement.
    Integrals are iterated one-dimensional integrals, each defined by an antiderivative. *)
From Coq Require Import Reals.
From Verif Require Import Base Scalar EllSpec EllModel AssemblyModel AsmPure FemGen FemAve FemPd FemRhs AsmSpec AsmProps AsmCases Quad QuadEx.
Open Scope Z_scope.
Open Scope R_scope.

(** The hypotheses hold on a composite, for a displacement that stretches the cell: *)
Example C76_example : body3 blend3 /\ is_cell3 blend3 1 2 1 /\ plastic_at blend3 (cellno blend3 1 2 1) = false /\
  admissible (mat_at blend3 (cellno blend3 1 2 1)) /\
  exists u vold vnew D, full u (ndofs blend3) /\ vars_ok blend3 vold vnew /\
    gradient3 (inside3 blend3 u 1 2 1) D /\ D 0%Z 0%Z 0 0 0 <> 0.
Proof. exact quad_ex3. Qed.
Example C76_example_2d : body2 blend2 /\ is_cell2 blend2 1 2 /\ admissible (mat_at blend2 (cellno blend2 1 2 0)) /\
  exists w D, full w (ndofs blend2) /\ gradient2 (inside2 blend2 w 1 2) D.
Proof. exact quad_ex2. Qed.

(** C76.  Let D be the gradient, at every point, of the displacement interpolated in a linear
    cell from the nodal values w.  The integral I of the isotropic energy density of D over the
    box of the cell exists and is unique, and the quadratic form of the element matrix is I up
    to the fifteen digits of the Gauss coordinate. *)
Theorem C76_exact_energy_3d : forall V u vold vnew ex ey ez w D,
  body3 V -> full u (ndofs V) -> vars_ok V vold vnew -> is_cell3 V ex ey ez ->
  plastic_at V (cellno V ex ey ez) = false -> admissible (mat_at V (cellno V ex ey ez)) ->
  full w (ndofs V) -> gradient3 (inside3 V w ex ey ez) D ->
  exists K I, get_elem_mat3D V u vold vnew ex ey ez = Ok (K, vnew) /\
    is_int3 (dens3 (mat_at V (cellno V ex ey ez)) D) (v_dx V) (v_dy V) (v_dz V) I /\
    (forall J, is_int3 (dens3 (mat_at V (cellno V ex ey ez)) D) (v_dx V) (v_dy V) (v_dz V) J -> J = I) /\
    let q := qform 24 K (fun i => val w (cdof3 V ex ey ez (i / 3) (i mod 3))) in
    I <= q /\ q <= (1 + 3 / 1000000000000000) * I.
Proof. exact exact_energy3. Qed.
Print Assumptions C76_exact_energy_3d.
Theorem C76_exact_energy_2d : forall V ex ey w D,
  body2 V -> is_cell2 V ex ey -> admissible (mat_at V (cellno V ex ey 0)) ->
  full w (ndofs V) -> gradient2 (inside2 V w ex ey) D ->
  exists K I, get_elem_mat2D V ex ey = Ok K /\
    is_int2 (dens2 (mat_at V (cellno V ex ey 0)) D) (v_dx V) (v_dy V) I /\
    (forall J, is_int2 (dens2 (mat_at V (cellno V ex ey 0)) D) (v_dx V) (v_dy V) J -> J = I) /\
    let q := qform 8 K (fun i => val w (cdof2 V ex ey (i / 2) (i mod 2))) in
    I <= q /\ q <= (1 + 2 / 1000000000000000) * I.
Proof. exact exact_energy2. Qed.
Print Assumptions C76_exact_energy_2d.
