(** Vocabulary of the assembly properties (C19-C37, C63, C64).  The fields below are
    given by what get_strain and get_stress return, not by their closed forms. *)
From Coq Require Import Reals Lra ZifyBool.
From Verif Require Import Base Scalar EllSpec EllModel AssemblyModel AsmPure AsmBnd FemPd.
Open Scope Z_scope.
Open Scope R_scope.

(** a consistent object of either dimension: valid sizes and material tables,
    edge lengths equal to cell sizes times cells, cell sizes positive *)
Definition body3 (V : env R) : Prop := sane V /\ geom V /\ v_dim V = 3%Z.
Definition body2 (V : env R) : Prop := sane V /\ geom V /\ v_dim V = 2%Z.
Definition is_cell3 (V : env R) (ex ey ez : Z) : Prop :=
  (0 <= ex < v_nx V - 1 /\ 0 <= ey < v_ny V - 1 /\ 0 <= ez < v_nz V - 1)%Z.
Definition is_cell2 (V : env R) (ex ey : Z) : Prop := (0 <= ex < v_nx V - 1 /\ 0 <= ey < v_ny V - 1)%Z.
Definition is_node3 (V : env R) (i j k : Z) : Prop := (0 <= i < v_nx V /\ 0 <= j < v_ny V /\ 0 <= k < v_nz V)%Z.
Definition is_node2 (V : env R) (i j : Z) : Prop := (0 <= i < v_nx V /\ 0 <= j < v_ny V)%Z.
(** degree of freedom c of node (i,j,k), of local node n of a cell *)
Definition dof3 (V : env R) (i j k c : Z) : Z := (((k * v_ny V + j) * v_nx V + i) * 3 + c)%Z.
Definition dof2 (V : env R) (i j c : Z) : Z := ((j * v_nx V + i) * 2 + c)%Z.
Definition cdof3 (V : env R) (ex ey ez n c : Z) : Z := dof3 V (ex + cor_x n) (ey + cor_y n) (ez + cor_z n) c.
Definition cdof2 (V : env R) (ex ey n c : Z) : Z := dof2 V (ex + cor_x n) (ey + cor_y n) c.
Definition on_face3 (V : env R) (i j k : Z) : Prop :=
  (i = 0 \/ i = v_nx V - 1 \/ j = 0 \/ j = v_ny V - 1 \/ k = 0 \/ k = v_nz V - 1)%Z.
Definition on_edge2 (V : env R) (i j : Z) : Prop := (i = 0 \/ i = v_nx V - 1 \/ j = 0 \/ j = v_ny V - 1)%Z.

(** arrays without uninitialised entries; the committed variables of the plastic
    Gauss points initialised, the trial ones only allocated *)
Definition full (u : arr R) (n : Z) : Prop := alen u = n /\ forall i, (0 <= i < n)%Z -> exists x, aget u i = Some x.
Definition vars_ok (V : env R) (vold vnew : arr R) : Prop :=
  (forall e g i, (0 <= e < ncells V)%Z -> (0 <= g < 8)%Z -> (0 <= i < 7)%Z -> plastic_at V e = true ->
     exists x, aget vold (e * 8 * 7 + g * 7 + i)%Z = Some x) /\
  alen vnew = (ncells V * 56)%Z.
Definition val (u : arr R) (i : Z) : R := match aget u i with Some x => x | None => 0 end.

(** Gauss-point fields, by cell, Gauss point and component *)
Definition strain_field3 (V : env R) (u : arr R) (eps : Z -> Z -> Z -> Z -> Z -> R) : Prop :=
  forall ex ey ez g, is_cell3 V ex ey ez -> (0 <= g < 8)%Z ->
  exists l, get_strain3D V u ex ey ez g = Ok l /\ forall v, (0 <= v < 6)%Z -> lget l v = eps ex ey ez g v.
Definition strain_field2 (V : env R) (u : arr R) (eps : Z -> Z -> Z -> Z -> R) : Prop :=
  forall ex ey g, is_cell2 V ex ey -> (0 <= g < 4)%Z ->
  exists l, get_strain2D V u ex ey g = Ok l /\ forall v, (0 <= v < 3)%Z -> lget l v = eps ex ey g v.
Definition stress_field3 (V : env R) (u vold vnew : arr R) (sig : Z -> Z -> Z -> Z -> Z -> R) : Prop :=
  forall ex ey ez g, is_cell3 V ex ey ez -> (0 <= g < 8)%Z ->
  exists l nl s vn, get_strain3D V u ex ey ez g = Ok l /\ get_stress3D V vold vnew ex ey ez g l = Ok (nl, s, vn) /\
    forall v, (0 <= v < 6)%Z -> lget s v = sig ex ey ez g v.
Definition stress_field2 (V : env R) (u : arr R) (sig : Z -> Z -> Z -> Z -> R) : Prop :=
  forall ex ey g, is_cell2 V ex ey -> (0 <= g < 4)%Z ->
  exists l nl s, get_strain2D V u ex ey g = Ok l /\ get_stress2D V ex ey g l = Ok (nl, s) /\
    forall v, (0 <= v < 3)%Z -> lget s v = sig ex ey g v.

(** Gauss quadrature over the body: all weights are an eighth (a quarter) of the cell *)
Definition quad_body3 (V : env R) (f : Z -> Z -> Z -> Z -> R) : R :=
  rsum (zrange 0 (v_nx V - 1)) (fun ex => rsum (zrange 0 (v_ny V - 1)) (fun ey => rsum (zrange 0 (v_nz V - 1)) (fun ez =>
  rsum (zrange 0 8) (fun g => f ex ey ez g * (v_dx V * v_dy V * v_dz V / 8))))).
Definition quad_body2 (V : env R) (f : Z -> Z -> Z -> R) : R :=
  rsum (zrange 0 (v_nx V - 1)) (fun ex => rsum (zrange 0 (v_ny V - 1)) (fun ey =>
  rsum (zrange 0 4) (fun g => f ex ey g * (v_dx V * v_dy V / 4)))).
Definition volume3 (V : env R) : R := v_lx V * v_ly V * v_lz V.
Definition area2 (V : env R) : R := v_lx V * v_ly V.
(** stress . strain with engineering shear: s_v e_v summed *)
Definition dot (n : Z) (s e : Z -> R) : R := rsum (zrange 0 n) (fun v => s v * e v).

(** nodal field with the boundary values of the macro strain e (Voigt, engineering shear) *)
Definition affine_bnd3 (V : env R) (e : list R) (u : arr R) : Prop :=
  forall i j k, is_node3 V i j k -> on_face3 V i j k ->
  let x := IZR i * v_dx V in let y := IZR j * v_dy V in let z := IZR k * v_dz V in
  aget u (dof3 V i j k 0) = Some (lget e 0 * x + lget e 3 / 2 * y + lget e 4 / 2 * z) /\
  aget u (dof3 V i j k 1) = Some (lget e 3 / 2 * x + lget e 1 * y + lget e 5 / 2 * z) /\
  aget u (dof3 V i j k 2) = Some (lget e 4 / 2 * x + lget e 5 / 2 * y + lget e 2 * z).
Definition affine_bnd2 (V : env R) (e : list R) (u : arr R) : Prop :=
  forall i j, is_node2 V i j -> on_edge2 V i j ->
  let x := IZR i * v_dx V in let y := IZR j * v_dy V in
  aget u (dof2 V i j 0) = Some (lget e 0 * x + lget e 2 / 2 * y) /\
  aget u (dof2 V i j 1) = Some (lget e 2 / 2 * x + lget e 1 * y).
Definition zero_bnd_field3 (V : env R) (u : arr R) : Prop := forall i j k c, is_node3 V i j k -> on_face3 V i j k ->
  (0 <= c < 3)%Z -> aget u (dof3 V i j k c) = Some 0.
Definition zero_bnd_field2 (V : env R) (u : arr R) : Prop := forall i j c, is_node2 V i j -> on_edge2 V i j ->
  (0 <= c < 2)%Z -> aget u (dof2 V i j c) = Some 0.

(** exactly equilibrated state for the macro strain e, and the stress reported for it *)
Definition solved3 (V : env R) (e : list R) (u : arr R) (sig : list R) : Prop :=
  exists vold vnew b b' nl vnew' vnew'', full u (ndofs V) /\ vars_ok V vold vnew /\ alen b = ndofs V /\
    affine_bnd3 V e u /\ assembly_rhs V u vold vnew b = Ok (b', nl, vnew', 0) /\
    calc_ave_stress V u vold vnew = Ok (sig, vnew'').
Definition solved2 (V : env R) (e : list R) (u : arr R) (sig : list R) : Prop :=
  exists vold vnew b b' nl vnew' vnew'', full u (ndofs V) /\ alen b = ndofs V /\
    affine_bnd2 V e u /\ assembly_rhs V u vold vnew b = Ok (b', nl, vnew', 0) /\
    calc_ave_stress V u vold vnew = Ok (sig, vnew'').

(** the affine nodal field of the macro strain e *)
Definition affine_all3 (V : env R) (e : list R) (a : Z -> R) : Prop :=
  forall i j k, is_node3 V i j k ->
  let x := IZR i * v_dx V in let y := IZR j * v_dy V in let z := IZR k * v_dz V in
  a (dof3 V i j k 0) = lget e 0 * x + lget e 3 / 2 * y + lget e 4 / 2 * z /\
  a (dof3 V i j k 1) = lget e 3 / 2 * x + lget e 1 * y + lget e 5 / 2 * z /\
  a (dof3 V i j k 2) = lget e 4 / 2 * x + lget e 5 / 2 * y + lget e 2 * z.
Definition affine_all2 (V : env R) (e : list R) (a : Z -> R) : Prop :=
  forall i j, is_node2 V i j ->
  let x := IZR i * v_dx V in let y := IZR j * v_dy V in
  a (dof2 V i j 0) = lget e 0 * x + lget e 2 / 2 * y /\
  a (dof2 V i j 1) = lget e 2 / 2 * x + lget e 1 * y.
(** Euclidean length of a nodal field *)
Definition len (n : Z) (f : Z -> R) : R := sqrt (rsum (zrange 0 n) (fun r => f r * f r)).
(** a state with residual vector b' of norm n, and the stress reported for it *)
Definition state3 (V : env R) (e : list R) (u vold : arr R) (b' : arr R) (n : R) (s : list R) : Prop :=
  exists vnew b nl vn vn', full u (ndofs V) /\ vars_ok V vold vnew /\ alen b = ndofs V /\ affine_bnd3 V e u /\
    assembly_rhs V u vold vnew b = Ok (b', nl, vn, n) /\ calc_ave_stress V u vold vnew = Ok (s, vn').
Definition state2 (V : env R) (e : list R) (u : arr R) (b' : arr R) (n : R) (s : list R) : Prop :=
  exists vold vnew b nl vn vn', full u (ndofs V) /\ alen b = ndofs V /\ affine_bnd2 V e u /\
    assembly_rhs V u vold vnew b = Ok (b', nl, vn, n) /\ calc_ave_stress V u vold vnew = Ok (s, vn').

(** cell number, material of a cell, internal variable i of a Gauss point
    (0-5 plastic strain 11 22 33 12 13 23, 6 hardening) *)
Definition cell3 (V : env R) (ex ey ez : Z) : Z := ((ez * (v_ny V - 1) + ey) * (v_nx V - 1) + ex)%Z.
Definition cell_mat (V : env R) (ex ey ez : Z) (m : material R) : Prop :=
  exists t, aget (v_etype V) (cell3 V ex ey ez) = Some t /\ nth_error (v_mats V) (if (t =? 0)%Z then 0 else 1)%nat = Some m.
Definition var3 (V : env R) (ex ey ez g i : Z) : Z := (cell3 V ex ey ez * 8 * 7 + g * 7 + i)%Z.
(** isotropic law, engineering shear strains *)
Definition hooke (m : material R) (e : Z -> R) (i : Z) : R :=
  if (i <? 3)%Z then m_lambda m * (e 0%Z + e 1%Z + e 2%Z) + 2 * m_mu m * e i else m_mu m * e i.
(** the Gauss point flows plastically at the displacements u *)
Definition flows3 (V : env R) (u vold vnew : arr R) (ex ey ez g : Z) : Prop :=
  exists eps s vn, get_strain3D V u ex ey ez g = Ok eps /\ get_stress3D V vold vnew ex ey ez g eps = Ok (true, s, vn).
(** symmetric tensors as functions of the Voigt index: trace, contraction, von Mises function *)
Definition trace6 (t : Z -> R) : R := t 0%Z + t 1%Z + t 2%Z.
Definition contract6 (s t : Z -> R) : R :=
  s 0%Z * t 0%Z + s 1%Z * t 1%Z + s 2%Z * t 2%Z + 2 * (s 3%Z * t 3%Z + s 4%Z * t 4%Z + s 5%Z * t 5%Z).
Definition dev6 (t : Z -> R) (i : Z) : R := t i - if (i <? 3)%Z then trace6 t / 3 else 0.
Definition mises (m : material R) (sig : Z -> R) (alpha : R) : R :=
  sqrt (contract6 (dev6 sig) (dev6 sig)) - sqrt (2 / 3) * (m_Sy m + m_Ka m * alpha).
(** one evaluation of get_stress3D at a plastic Gauss point, from plastic strain ep and
    hardening al to ep' and al' *)
Definition step_at (V : env R) (vold vnew : arr R) (ex ey ez g : Z) (m : material R) (eps : list R)
  (nl : bool) (s ep : Z -> R) (al : R) (ep' : Z -> R) (al' : R) (vn : arr R) : Prop :=
  body3 V /\ vars_ok V vold vnew /\ is_cell3 V ex ey ez /\ (0 <= g < 8)%Z /\ cell_mat V ex ey ez m /\ m_plast m = Some true /\
  (forall i, (0 <= i < 6)%Z -> aget vold (var3 V ex ey ez g i) = Some (ep i)) /\ aget vold (var3 V ex ey ez g 6) = Some al /\
  (exists l, get_stress3D V vold vnew ex ey ez g eps = Ok (nl, l, vn) /\ forall i, (0 <= i < 6)%Z -> lget l i = s i) /\
  (forall i, (0 <= i < 6)%Z -> aget vn (var3 V ex ey ez g i) = Some (ep' i)) /\ aget vn (var3 V ex ey ez g 6) = Some al'.
