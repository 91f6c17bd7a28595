(** C89-C92: equilibrium of bodies with plastic cells.  state3 V e u vold b n s (AsmSpec.v): the
    displacements u carry the boundary values of the strain e, and from the history vold the
    residual is b of norm n and the reported stress s.  yield_pos asks every plastic Gauss point
    for a positive yield stress, yield_ok for one that is not negative.  step_energy
    (EnergyProps.v) adds over the Gauss points, with their volumes, half of stress times strain
    at linear cells and flow_energy (EnergyPoint.v) at plastic ones: half of the bulk modulus
    times the volume change squared, plus that of the deviatoric trial stress, quadratic up to
    the yield stress and linear beyond. *)
From Coq Require Import Reals.
From Verif Require Import Base Scalar EllSpec EllModel Grid AssemblyModel AsmPure FemGen FemPd FemRhs AsmSpec PlastRef AsmCases MonoPoint MonoBody MonoUnif MonoEx EnergyPoint EnergyProps.
Open Scope Z_scope.
Open Scope R_scope.

Example C89_example : body3 mixed /\ adm mixed /\ vars_ok mixed (sheared 1) junk56 /\ yield_pos mixed (sheared 1) /\
  cell_mat mixed 0 0 0 soft /\ cell_mat mixed 1 0 0 one /\ m_plast soft = Some false /\ m_plast one = Some true.
Proof. exact mixed_ex. Qed.
(** C89.  A body of linear and plastic cells with any history and positive yield stresses has, for
    every strain, displacements in exact equilibrium (residual zero), and the reported stress is
    the same for all of them. *)
Theorem C89_equilibrium_exists : forall V vold vnew e, body3 V -> adm V -> vars_ok V vold vnew -> yield_pos V vold ->
  exists s, (exists u b', state3 V e u vold b' 0 s) /\ forall u b' s', state3 V e u vold b' 0 s' -> forall v, (0 <= v < 6)%Z -> lget s' v = lget s v.
Proof. exact equilibrium_exists3. Qed.
Print Assumptions C89_equilibrium_exists.

Example C90_example : exists mt u b s eps w eta b2 s2, body3 mixed /\ adm mixed /\ yield_ok mixed (sheared 1) /\ vars_ok mixed (sheared 1) junk56 /\
  (forall ex ey ez, is_cell3 mixed ex ey ez -> cell_mat mixed ex ey ez (mt ex ey ez)) /\
  state3 mixed (shear 3) u (sheared 1) b 0 s /\ strain_field3 mixed u eps /\
  full w (ndofs mixed) /\ affine_bnd3 mixed (shear 1) w /\ strain_field3 mixed w eta /\ state3 mixed (shear 1) w (sheared 1) b2 0 s2.
Proof. exact mixed_energy_ex. Qed.
(** C90.  The residual vanishes exactly where the energy of the step is least among the displacements
    with the same boundary values. *)
Theorem C90_equilibrium_minimum : forall V vold vnew mt e u eps, body3 V -> adm V -> yield_ok V vold -> vars_ok V vold vnew ->
  (forall ex ey ez, is_cell3 V ex ey ez -> cell_mat V ex ey ez (mt ex ey ez)) ->
  full u (ndofs V) -> affine_bnd3 V e u -> strain_field3 V u eps ->
  (exists b' s, state3 V e u vold b' 0 s) <->
  (forall w eta, full w (ndofs V) -> affine_bnd3 V e w -> strain_field3 V w eta -> step_energy V mt vold eps <= step_energy V mt vold eta).
Proof. exact minimum_iff3. Qed.
Print Assumptions C90_equilibrium_minimum.
(** Displacements with a residual of norm n fall short of any others, under any other strain, by no
    more than n times the distance, corrected by the reported stress times the change of strain:
    the stress is the slope of the least energy. *)
Theorem C90_energy_bound : forall V vold mt e1 u b' n s eps e2 w eta a1 a2, body3 V -> adm V -> yield_ok V vold ->
  (forall ex ey ez, is_cell3 V ex ey ez -> cell_mat V ex ey ez (mt ex ey ez)) ->
  state3 V e1 u vold b' n s -> strain_field3 V u eps -> full w (ndofs V) -> affine_bnd3 V e2 w -> strain_field3 V w eta ->
  affine_all3 V e1 a1 -> affine_all3 V e2 a2 ->
  step_energy V mt vold eps + v_lx V * v_ly V * dot 6 (lget s) (fun i => lget e2 i - lget e1 i)
    <= step_energy V mt vold eta + n * len (ndofs V) (fun r => (val w r - a2 r) - (val u r - a1 r)).
Proof. exact energy_bound3. Qed.
Print Assumptions C90_energy_bound.

Example C91_example : exists u1 b1 s1 u2 b2 s2 M, body3 mixed /\ adm mixed /\ yield_ok mixed (sheared 1) /\
  state3 mixed (shear 3) u1 (sheared 1) b1 0 s1 /\ state3 mixed (shear 1) u2 (sheared 1) b2 0 s2 /\
  forall ex ey ez m, is_cell3 mixed ex ey ez -> cell_mat mixed ex ey ez m -> 2 * m_mu m <= M /\ 3 * (m_lambda m + 2 * m_mu m / 3) <= M.
Proof. exact mixed_lip_ex. Qed.
(** C91.  From one history the stress of equilibrium changes by no more than lz times the largest
    modulus times the change of the strain. *)
Theorem C91_effective_lipschitz : forall V vold e1 u1 b1 s1 e2 u2 b2 s2 M v,
  body3 V -> adm V -> yield_ok V vold -> state3 V e1 u1 vold b1 0 s1 -> state3 V e2 u2 vold b2 0 s2 ->
  (forall ex ey ez m, is_cell3 V ex ey ez -> cell_mat V ex ey ez m -> 2 * m_mu m <= M /\ 3 * (m_lambda m + 2 * m_mu m / 3) <= M) -> (0 <= v < 6)%Z ->
  Rabs (lget s1 v - lget s2 v) <= v_lz V * M * rsum (zrange 0 6) (fun i => Rabs (lget e1 i - lget e2 i)).
Proof. exact effective_lipschitz3. Qed.
Print Assumptions C91_effective_lipschitz.

Example C92_example : body3 mixed /\ adm mixed /\ vars_ok mixed (sheared 1) junk56 /\ yield_pos mixed (sheared 1) /\
  cell_mat mixed 0 0 0 soft /\ cell_mat mixed 1 0 0 one /\ m_plast soft = Some false /\ m_plast one = Some true.
Proof. exact mixed_ex. Qed.
(** C92.  For a given body, history and strain there are bounds K and d such that whenever the norm n
    of the residual is at most d, the reported stress is within the square root of K n of that of
    exact equilibrium, and the displacements within K of the linear ones. *)
Theorem C92_small_residual : forall V vold vnew e, body3 V -> adm V -> vars_ok V vold vnew -> yield_pos V vold ->
  exists s K d, 0 <= K /\ 0 < d /\ (exists u b', state3 V e u vold b' 0 s) /\
  forall u b' n s', state3 V e u vold b' n s' -> n <= d ->
    (forall v, (0 <= v < 6)%Z -> (lget s' v - lget s v) * (lget s' v - lget s v) <= K * n) /\
    (forall a, affine_all3 V e a -> forall r, (0 <= r < ndofs V)%Z -> Rabs (val u r - a r) <= K).
Proof. exact convergence3. Qed.
Print Assumptions C92_small_residual.
