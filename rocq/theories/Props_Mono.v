(** C78-C82: the stress as a function of the strain at plastic points, and the bodies made of them.
    compliance m t is the elastic energy of the stress t (MonoPoint.v), hooke m e the elastic stress
    of the strain e (AsmSpec.v), elastic_tan m the elastic tangent (TanProps.v), yield_ok says that
    no plastic point has hardened below zero yield stress (MonoBody.v), one_plastic that all cells
    are of one plastic material with the same history at every Gauss point (MonoUnif.v). *)
From Coq Require Import Reals.
From Verif Require Import Base Scalar EllSpec EllModel Grid AssemblyModel AsmPure FemGen FemPd FemRhs AsmSpec PlastRef MonoPoint MonoBody MonoUnif TanModel TanProps MonoEx.
Open Scope Z_scope.
Open Scope R_scope.

Example C78_example : exists s1 v1 s2 v2, body3 bar /\ vars_ok bar (sheared 1) junk56 /\ is_cell3 bar 1 2 1 /\ cell_mat bar 1 2 1 one /\ admissible one /\ m_plast one = Some true /\
  0 <= m_Sy one + m_Ka one * val (sheared 1) (var3 bar 1 2 1 5 6) /\
  get_stress3D bar (sheared 1) junk56 1 2 1 5 (shear 3) = Ok (true, s1, v1) /\ get_stress3D bar (sheared 1) junk56 1 2 1 5 (shear 1) = Ok (false, s2, v2) /\
  lget s1 3 = limit 1 /\ 0 < limit 1 < 1 /\ lget s2 3 = 0.
Proof. exact point_ex. Qed.
(** C78.  At a Gauss point with a given history, the difference D of the stresses answered for two
    strains and the difference E of the strains satisfy
    (elastic energy of D) <= D.E <= (elastic energy of E): the response is monotone, no more
    than elastic, and Lipschitz. *)
Theorem C78_monotone_point : forall V vold vnew1 vnew2 ex ey ez g m eps1 eps2 nl1 s1 v1 nl2 s2 v2,
  body3 V -> vars_ok V vold vnew1 -> vars_ok V vold vnew2 -> is_cell3 V ex ey ez -> (0 <= g < 8)%Z -> cell_mat V ex ey ez m -> admissible m ->
  (m_plast m = Some true -> 0 <= m_Sy m + m_Ka m * val vold (var3 V ex ey ez g 6)) ->
  get_stress3D V vold vnew1 ex ey ez g eps1 = Ok (nl1, s1, v1) -> get_stress3D V vold vnew2 ex ey ez g eps2 = Ok (nl2, s2, v2) ->
  let D i := lget s1 i - lget s2 i in let E i := lget eps1 i - lget eps2 i in
  contract6 (dev6 D) (dev6 D) / (2 * m_mu m) + trace6 D * trace6 D / (9 * (m_lambda m + 2 * m_mu m / 3)) <= dot 6 D E <= dot 6 (hooke m E) E.
Proof. exact mono_point. Qed.
Print Assumptions C78_monotone_point.

Example C79_example : exists eps s v c vn, body3 bar /\ full (sfield 2) (ndofs bar) /\ vars_ok bar (sheared 0) junk56 /\ is_cell3 bar 1 2 1 /\ cell_mat bar 1 2 1 one /\ admissible one /\
  0 <= m_Sy one + m_Ka one * val (sheared 0) (var3 bar 1 2 1 5 6) /\
  get_strain3D bar (sfield 2) 1 2 1 5 = Ok eps /\ lget eps 3 = 2 /\ get_stress3D bar (sheared 0) junk56 1 2 1 5 eps = Ok (true, s, v) /\
  ctan_plast_pert bar (sfield 2) (sheared 0) junk56 1 2 1 5 = Ok (c, vn).
Proof. exact flow_tan_ex. Qed.
Example C79_example_quiet : exists c vn, full (sfield 0) (ndofs bar) /\ m_plast one = Some true /\
  (forall eps, get_strain3D bar (sfield 0) 1 2 1 5 = Ok eps -> forall x, (x = eps \/ exists i, (0 <= i < 6)%Z /\ x = ltab 6 (fun j => lget eps j + if (j =? i)%Z then 1 / 100000000 else 0)) ->
     exists s v', get_stress3D bar (sheared 0) junk56 1 2 1 5 x = Ok (false, s, v')) /\
  ctan_plast_pert bar (sfield 0) (sheared 0) junk56 1 2 1 5 = Ok (c, vn).
Proof. exact quiet_ex. Qed.
(** C79.  Every diagonal entry of the perturbed tangent at a Gauss point lies between zero and the
    elastic one, and it bounds its whole column. *)
Theorem C79_tangent_bounds : forall V u vold vnew ex ey ez g m c vn, body3 V -> full u (ndofs V) -> vars_ok V vold vnew -> is_cell3 V ex ey ez -> (0 <= g < 8)%Z ->
  cell_mat V ex ey ez m -> admissible m -> 0 <= m_Sy m + m_Ka m * val vold (var3 V ex ey ez g 6) ->
  ctan_plast_pert V u vold vnew ex ey ez g = Ok (c, vn) -> forall i, (0 <= i < 6)%Z ->
  compliance m (fun j => c j i) <= c i i <= elastic_tan m i i /\ 0 <= c i i /\
  forall j, (0 <= j < 6)%Z -> c j i * c j i <= Rmax (2 * m_mu m) (3 * m_lambda m + 2 * m_mu m) * c i i.
Proof. exact pert_bounds. Qed.
Print Assumptions C79_tangent_bounds.
(** Where neither the strain nor the six perturbed strains flow it is the elastic tangent. *)
Theorem C79_tangent_elastic : forall V u vold vnew ex ey ez g m c vn, body3 V -> full u (ndofs V) -> vars_ok V vold vnew -> is_cell3 V ex ey ez -> (0 <= g < 8)%Z ->
  cell_mat V ex ey ez m -> admissible m -> m_plast m = Some true ->
  (forall eps, get_strain3D V u ex ey ez g = Ok eps -> forall x, (x = eps \/ exists i, (0 <= i < 6)%Z /\ x = ltab 6 (fun j => lget eps j + if (j =? i)%Z then 1 / 100000000 else 0)) ->
     exists s v', get_stress3D V vold vnew ex ey ez g x = Ok (false, s, v')) ->
  ctan_plast_pert V u vold vnew ex ey ez g = Ok (c, vn) -> forall i j, (0 <= i < 6)%Z -> (0 <= j < 6)%Z ->
  c j i = if ((i <? 3) && (j <? 3))%Z then m_lambda m + (if (i =? j)%Z then 2 * m_mu m else 0) else if (i =? j)%Z then m_mu m else 0.
Proof. exact pert_elastic_entries. Qed.
Print Assumptions C79_tangent_elastic.

Example C80_example : exists u b s s' v', body3 bar /\ adm bar /\ yield_ok bar (sheared 1) /\ state3 bar (shear 3) u (sheared 1) b 0 s /\ vars_ok bar (sheared 1) junk56 /\
  get_stress3D bar (sheared 1) junk56 0 0 0 0 (shear 3) = Ok (true, s', v') /\ 0 < lget s' 3 /\ admissible one /\ one_plastic bar one (sheared 1) (lget (shear 1)) 0 /\
  0 <= m_Sy one + m_Ka one * 0 /\ alen junk56 = (ncells bar * 56)%Z.
Proof. exact flowing_equil. Qed.
(** C80.  Two equilibrium states of the same macro strain and history have the same stress at every
    Gauss point and report the same stress. *)
Theorem C80_unique_stress : forall V vold vnew e u1 b1 s1 sig1 u2 b2 s2 sig2,
  body3 V -> adm V -> yield_ok V vold -> state3 V e u1 vold b1 0 s1 -> state3 V e u2 vold b2 0 s2 -> vars_ok V vold vnew ->
  stress_field3 V u1 vold vnew sig1 -> stress_field3 V u2 vold vnew sig2 ->
  (forall ex ey ez g v, is_cell3 V ex ey ez -> (0 <= g < 8)%Z -> (0 <= v < 6)%Z -> sig1 ex ey ez g v = sig2 ex ey ez g v) /\
  (forall v, (0 <= v < 6)%Z -> lget s1 v = lget s2 v).
Proof. exact unique_stress3. Qed.
Print Assumptions C80_unique_stress.
(** Away from equilibrium the reported stresses differ by at most the residual norms allow. *)
Theorem C80_near_stress : forall V vold e u1 b1 n1 s1 u2 b2 n2 s2 M v,
  body3 V -> adm V -> yield_ok V vold -> state3 V e u1 vold b1 n1 s1 -> state3 V e u2 vold b2 n2 s2 ->
  (forall ex ey ez m, is_cell3 V ex ey ez -> cell_mat V ex ey ez m -> 2 * m_mu m <= M /\ 3 * (m_lambda m + 2 * m_mu m / 3) <= M) -> (0 <= v < 6)%Z ->
  v_lx V * v_ly V * ((lget s1 v - lget s2 v) * (lget s1 v - lget s2 v)) <= v_lz V * M * ((n1 + n2) * len (ndofs V) (fun r => val u1 r - val u2 r)).
Proof. exact near_stress3. Qed.
Print Assumptions C80_near_stress.
(** The macroscopic response is monotone and no stiffer than the elastic (Voigt) average. *)
Theorem C80_macro_monotone : forall V vold e1 u1 b1 s1 e2 u2 b2 s2 mt,
  body3 V -> adm V -> yield_ok V vold -> state3 V e1 u1 vold b1 0 s1 -> state3 V e2 u2 vold b2 0 s2 ->
  (forall ex ey ez, is_cell3 V ex ey ez -> cell_mat V ex ey ez (mt ex ey ez)) ->
  let dE i := lget e1 i - lget e2 i in let dS i := lget s1 i - lget s2 i in
  0 <= v_lx V * v_ly V * dot 6 dS dE <= quad_body3 V (fun ex ey ez g => dot 6 (hooke (mt ex ey ez) dE) dE).
Proof. exact macro_monotone3. Qed.
Print Assumptions C80_macro_monotone.

(** C81.  A body of one plastic material with the same history everywhere has an equilibrium state
    for every macro strain, and all its equilibrium states report lz times the stress of a single
    Gauss point at that strain (times lz because of the division by lx ly, see C23). *)
Theorem C81_homogeneous_plastic : forall V m vold vnew ep al e nl t vn, body3 V -> admissible m -> one_plastic V m vold ep al -> 0 <= m_Sy m + m_Ka m * al ->
  alen vnew = (ncells V * 56)%Z -> get_stress3D V vold vnew 0 0 0 0 e = Ok (nl, t, vn) ->
  (exists u b' s, state3 V e u vold b' 0 s) /\
  (forall u b' s, state3 V e u vold b' 0 s -> forall v, (0 <= v < 6)%Z -> lget s v = v_lz V * lget t v).
Proof. exact homogeneous_plastic3. Qed.
Print Assumptions C81_homogeneous_plastic.

(** C82.  The tangent called exact is the elastic one, whatever the history and the strain, *)
Theorem C82_exact_is_elastic : forall V u ex ey ez g m, body3 V -> full u (ndofs V) -> is_cell3 V ex ey ez -> (0 <= g < 8)%Z -> cell_mat V ex ey ez m ->
  exists c, ctan_plast_exact V u ex ey ez g = Ok c /\ forall i j, (0 <= i < 6)%Z -> (0 <= j < 6)%Z ->
  c j i = if ((i <? 3) && (j <? 3))%Z then m_lambda m + (if (i =? j)%Z then 2 * m_mu m else 0) else if (i =? j)%Z then m_mu m else 0.
Proof. exact exact_entries. Qed.
Print Assumptions C82_exact_is_elastic.
(** so it is not the derivative of the stress: at a flowing point the shear stress does not change
    with the shear strain and the tangent says that it does. *)
Theorem C82_exact_refuted : exists V u vold vnew ex ey ez g m eps s0 v0 c, body3 V /\ full u (ndofs V) /\ vars_ok V vold vnew /\ is_cell3 V ex ey ez /\ (0 <= g < 8)%Z /\
  cell_mat V ex ey ez m /\ admissible m /\ get_strain3D V u ex ey ez g = Ok eps /\ get_stress3D V vold vnew ex ey ez g eps = Ok (true, s0, v0) /\
  (forall h, Rabs h < 1 / 2 -> exists s v, get_stress3D V vold vnew ex ey ez g (ltab 6 (fun j => lget eps j + if (j =? 3)%Z then h else 0)) = Ok (true, s, v) /\ lget s 3 = lget s0 3) /\
  ctan_plast_exact V u ex ey ez g = Ok c /\ c 3%Z 3%Z = m_mu m /\ 0 < m_mu m.
Proof. exact exact_not_tangent. Qed.
Print Assumptions C82_exact_refuted.
(** The secant tangent is right only where the point has no plastic strain and none of the six
    strains with one component flows. *)
Example C82_example : exists eps c vn, (forall i, (0 <= i < 6)%Z -> val (sheared 0) (var3 bar 1 2 1 5 i) = 0) /\ get_strain3D bar (sfield (1 / 200)) 1 2 1 5 = Ok eps /\ lget eps 3 <> 0 /\
  (forall i, (0 <= i < 6)%Z -> exists s v', get_stress3D bar (sheared 0) junk56 1 2 1 5 (only (probe (lget eps i)) i) = Ok (false, s, v')) /\
  ctan_plast_sec bar (sfield (1 / 200)) (sheared 0) junk56 1 2 1 5 = Ok (c, vn).
Proof. exact quiet_sec_ex. Qed.
Theorem C82_secant_partial : forall V u vold vnew ex ey ez g m eps c vn, body3 V -> full u (ndofs V) -> vars_ok V vold vnew -> is_cell3 V ex ey ez -> (0 <= g < 8)%Z ->
  cell_mat V ex ey ez m -> admissible m ->
  (forall i, (0 <= i < 6)%Z -> val vold (var3 V ex ey ez g i) = 0) -> get_strain3D V u ex ey ez g = Ok eps ->
  (forall i, (0 <= i < 6)%Z -> exists s v', get_stress3D V vold vnew ex ey ez g (only (probe (lget eps i)) i) = Ok (false, s, v')) ->
  ctan_plast_sec V u vold vnew ex ey ez g = Ok (c, vn) -> forall i j, (0 <= i < 6)%Z -> (0 <= j < 6)%Z ->
  c j i = if ((i <? 3) && (j <? 3))%Z then m_lambda m + (if (i =? j)%Z then 2 * m_mu m else 0) else if (i =? j)%Z then m_mu m else 0.
Proof. exact sec_entries. Qed.
Print Assumptions C82_secant_partial.
(** At an unloaded point which has flowed before, where the response is elastic, it gives a negative
    shear stiffness, a million times the elastic one. *)
Theorem C82_secant_refuted : exists V u vold vnew ex ey ez g m eps s0 v0 c vn, body3 V /\ full u (ndofs V) /\ vars_ok V vold vnew /\ is_cell3 V ex ey ez /\ (0 <= g < 8)%Z /\
  cell_mat V ex ey ez m /\ admissible m /\ 0 < m_mu m /\ get_strain3D V u ex ey ez g = Ok eps /\ get_stress3D V vold vnew ex ey ez g eps = Ok (false, s0, v0) /\
  ctan_plast_sec V u vold vnew ex ey ez g = Ok (c, vn) /\ c 3%Z 3%Z < -1000000 * m_mu m.
Proof. exact sec_negative. Qed.
Print Assumptions C82_secant_refuted.
