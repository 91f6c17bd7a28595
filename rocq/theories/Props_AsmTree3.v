(** C122-C125: the program text of set_displ (both dimensions), calc_ave_strain, calc_ave_stress and calc_fields (3D) of
    src/assembly.cpp (the syntax trees of AsmAst.v, under the semantics of Clite.v), in exact arithmetic and in every
    arithmetic.  [body] says that the memory holds an object. *)
From Coq Require Import String Reals.
From Verif Require Import Base Scalar MicroModel Clite AsmAst Sym EllModel AssemblyModel AsmLit AsmLit2
  FemGen FemAve FemPd AsmPure FemRhs AsmSpec AsmProps AsmPoint AsmCases NewtonBase CgProps AsmLit9 AsmLit17 AsmLit18 AsmLit19 AsmLit20 AsmLit21.
Local Open Scope string_scope.
Local Open Scope Z_scope.
Local Open Scope R_scope.

Example C122_example : AsmPure.mat_at blend3 0 <> AsmPure.mat_at blend3 1 /\ exists u vold vnew et es, out_ok blend3 u vold vnew et es.
Proof. exact out_case3. Qed.
(** C122.  The text of set_displ gives every node of the boundary the displacement that the prescribed strain prescribes there,
    leaves the interior nodes as they were, and changes no other object. *)
Theorem C122_displ_text_3d : forall V A fs e ae u h k be,
  body3 V -> alen u = ndofs V ->
  NoDup [a_this A; a_u A; be] -> Forall (fun a => (a < k)%Z) [a_this A; a_u A; be] ->
  h (a_this A) = Some (OS fs) -> this_in fs V A -> h (a_u A) = Some (OD u) -> h be = Some (OD ae) -> vec 6 ae e ->
  exists st u', calls asm_prog "set_displ" [VP (a_this A) 0; VP be 0] h k (Ok (st, Nrm)) /\
    mem st (a_u A) = Some (OD u') /\ alen u' = ndofs V /\ affine_bnd3 V e u' /\
    (forall i j l c, is_node3 V i j l -> ~ on_face3 V i j l -> (0 <= c < 3)%Z -> aget u' (dof3 V i j l c) = aget u (dof3 V i j l c)) /\
    (forall c, (c < k)%Z -> c <> a_u A -> mem st c = h c).
Proof. exact text_displ3. Qed.
Print Assumptions C122_displ_text_3d.
Example C122_example_2d : exists u fs, let h := home_out blend2 (blank 0) (blank 0) u (blank 0) (blank 0) (OD (arr6 pull)) (OD (blank 6)) in
  body2 blend2 /\ alen u = ndofs blend2 /\ vl u 5 <> 0 /\ NoDup [a_this home; a_u home; 11%Z] /\ Forall (fun a => (a < 14)%Z) [a_this home; a_u home; 11%Z] /\
  h (a_this home) = Some (OS fs) /\ this_in fs blend2 home /\ h (a_u home) = Some (OD u) /\ h 11%Z = Some (OD (arr6 pull)) /\ alen (arr6 pull) = 6%Z /\
  (forall i, (0 <= i < 3)%Z -> aget (arr6 pull) i = Some (lget pull i)) /\ lget pull 2 <> 0.
Proof. exact displ2_case. Qed.
Theorem C122_displ_text_2d : forall V A fs e ae u h k be,
  body2 V -> alen u = ndofs V ->
  NoDup [a_this A; a_u A; be] -> Forall (fun a => (a < k)%Z) [a_this A; a_u A; be] ->
  h (a_this A) = Some (OS fs) -> this_in fs V A -> h (a_u A) = Some (OD u) -> h be = Some (OD ae) -> alen ae = 6%Z ->
  (forall i, (0 <= i < 3)%Z -> aget ae i = Some (lget e i)) ->
  exists st u', calls asm_prog "set_displ" [VP (a_this A) 0; VP be 0] h k (Ok (st, Nrm)) /\
    mem st (a_u A) = Some (OD u') /\ alen u' = ndofs V /\ affine_bnd2 V e u' /\
    (forall i j c, is_node2 V i j -> ~ on_edge2 V i j -> (0 <= c < 2)%Z -> aget u' (dof2 V i j c) = aget u (dof2 V i j c)) /\
    (forall c, (c < k)%Z -> c <> a_u A -> mem st c = h c).
Proof. exact text_displ2. Qed.
Print Assumptions C122_displ_text_2d.
Local Open Scope Z_scope.
(** In every arithmetic. *)
Theorem C122_displ_refines : forall T (OT : Ops T) V A fs eps u u' ae h k be, v_dim V = 3 \/ v_dim V = 2 -> dec 0 1 = (ofZ 0 : T) ->
  NoDup [a_this A; a_u A; be] -> Forall (fun a => a < k) [a_this A; a_u A; be] ->
  h (a_this A) = Some (OS fs) -> this_in fs V A -> h (a_u A) = Some (OD u) ->
  h be = Some (OD ae) -> alen ae = 6 -> (forall i, 0 <= i < (if v_dim V =? 3 then 6 else 3) -> aget ae i = Some (lget eps i)) ->
  set_displ V eps u = Ok u' ->
  exists st, calls asm_prog "set_displ" [VP (a_this A) 0; VP be 0] h k (Ok (st, Nrm)) /\
    mem st (a_u A) = Some (OD u') /\ frame h (mem st) k [a_u A] /\ k <= nxt st.
Proof. exact @set_displ_text. Qed.
Print Assumptions C122_displ_refines.

Local Open Scope R_scope.
Example C123_example : AsmPure.mat_at blend3 0 <> AsmPure.mat_at blend3 1 /\ exists u vold vnew et es, out_ok blend3 u vold vnew et es.
Proof. exact out_case3. Qed.
(** C123.  Running the text of set_displ and then that of calc_ave_strain stores lz times the prescribed strain, whatever the
    displacements inside the body were. *)
Theorem C123_mean_strain_text : forall V A e ae vold vnew u h k be bs as_,
  body3 V -> full u (ndofs V) ->
  NoDup (body_addrs A ++ [be; bs])%list -> Forall (fun a => (a < k)%Z) (body_addrs A ++ [be; bs])%list ->
  body V A vold vnew u h -> h be = Some (OD ae) -> vec 6 ae e -> h bs = Some (OD as_) -> alen as_ = 6%Z ->
  exists st1 st2 as', calls asm_prog "set_displ" [VP (a_this A) 0; VP be 0] h k (Ok (st1, Nrm)) /\
    calls asm_prog "calc_ave_strain" [VP (a_this A) 0; VP bs 0] (mem st1) (nxt st1) (Ok (st2, Nrm)) /\
    mem st2 bs = Some (OD as') /\ (forall v, (0 <= v < 6)%Z -> aget as' v = Some (v_lz V * lget e v)) /\
    (forall c, (c < k)%Z -> c <> a_u A -> c <> bs -> mem st2 c = h c).
Proof. exact text_mean_strain3. Qed.
Print Assumptions C123_mean_strain_text.
Local Open Scope Z_scope.
(** In every arithmetic. *)
Theorem C123_mean_strain_refines : forall T (OT : Ops T) V A vold vnew u h k bs as_ s,
  v_dim V = 3 -> NoDup (body_addrs A ++ [bs])%list -> Forall (fun a => a < k) (body_addrs A ++ [bs])%list ->
  body V A vold vnew u h -> h bs = Some (OD as_) -> alen as_ = 6 ->
  calc_ave_strain V u = Ok s ->
  exists st as', calls asm_prog "calc_ave_strain" [VP (a_this A) 0; VP bs 0] h k (Ok (st, Nrm)) /\
    body V A vold vnew u (mem st) /\ mem st bs = Some (OD as') /\ vec 6 as' s /\
    frame h (mem st) k [bs] /\ k <= nxt st.
Proof. exact @calc_ave_strain_text. Qed.
Print Assumptions C123_mean_strain_refines.

Local Open Scope R_scope.
Example C124_example : (forall c, (0 <= c < ncells solid3)%Z -> AsmPure.mat_at solid3 c = stiff) /\ exists u vold vnew et es, out_ok solid3 u vold vnew et es.
Proof. exact out_solid3. Qed.
Example C124_example_composite : AsmPure.mat_at blend3 0 <> AsmPure.mat_at blend3 1 /\ exists u vold vnew et es, out_ok blend3 u vold vnew et es.
Proof. exact out_case3. Qed.
(** C124.  The text of calc_ave_stress stores lz times the volume average of the stress of the body, linear or plastic. *)
Theorem C124_mean_stress_text : forall V A vold vnew u h k bs as_, body3 V -> full u (ndofs V) -> vars_ok V vold vnew ->
  NoDup (body_addrs A ++ [bs])%list -> Forall (fun a => (a < k)%Z) (body_addrs A ++ [bs])%list ->
  body V A vold vnew u h -> h bs = Some (OD as_) -> alen as_ = 6%Z ->
  exists st as' sig, calls asm_prog "calc_ave_stress" [VP (a_this A) 0; VP bs 0] h k (Ok (st, Nrm)) /\
    stress_field3 V u vold vnew sig /\ mem st bs = Some (OD as') /\
    (forall v, (0 <= v < 6)%Z -> aget as' v = Some (v_lz V * (quad_body3 V (fun ex ey ez g => sig ex ey ez g v) / volume3 V))) /\
    (forall c, (c < k)%Z -> c <> bs -> c <> a_vn A -> mem st c = h c).
Proof. exact text_mean_stress3. Qed.
Print Assumptions C124_mean_stress_text.
(** On a body of one linear material, after set_displ, that is Hooke's law of the prescribed strain, with any interior. *)
Theorem C124_uniform_text : forall V A e ae vold vnew u h k be bs as_,
  body3 V -> full u (ndofs V) ->
  NoDup (body_addrs A ++ [be; bs])%list -> Forall (fun a => (a < k)%Z) (body_addrs A ++ [be; bs])%list ->
  body V A vold vnew u h -> h be = Some (OD ae) -> vec 6 ae e -> h bs = Some (OD as_) -> alen as_ = 6%Z ->
  forall m, vars_ok V vold vnew -> linear V -> (forall c, (0 <= c < ncells V)%Z -> AsmPure.mat_at V c = m) ->
  exists st1 st2 as' s, calls asm_prog "set_displ" [VP (a_this A) 0; VP be 0] h k (Ok (st1, Nrm)) /\
    calls asm_prog "calc_ave_stress" [VP (a_this A) 0; VP bs 0] (mem st1) (nxt st1) (Ok (st2, Nrm)) /\
    mem st2 bs = Some (OD as') /\ vec 6 as' s /\
    (let t := m_lambda m * (lget e 0 + lget e 1 + lget e 2) in
     lget s 0 = v_lz V * (t + 2 * m_mu m * lget e 0) /\ lget s 1 = v_lz V * (t + 2 * m_mu m * lget e 1) /\
     lget s 2 = v_lz V * (t + 2 * m_mu m * lget e 2) /\ lget s 3 = v_lz V * (m_mu m * lget e 3) /\
     lget s 4 = v_lz V * (m_mu m * lget e 4) /\ lget s 5 = v_lz V * (m_mu m * lget e 5)) /\
    (forall c, (c < k)%Z -> c <> a_u A -> c <> bs -> c <> a_vn A -> mem st2 c = h c).
Proof. exact text_uniform3. Qed.
Print Assumptions C124_uniform_text.
Local Open Scope Z_scope.
(** In every arithmetic. *)
Theorem C124_mean_stress_refines : forall T (OT : Ops T) V A vold vnew u h k bs as_ s vnew',
  v_dim V = 3 -> NoDup (body_addrs A ++ [bs])%list -> Forall (fun a => a < k) (body_addrs A ++ [bs])%list ->
  body V A vold vnew u h -> h bs = Some (OD as_) -> alen as_ = 6 ->
  calc_ave_stress V u vold vnew = Ok (s, vnew') ->
  exists st as', calls asm_prog "calc_ave_stress" [VP (a_this A) 0; VP bs 0] h k (Ok (st, Nrm)) /\
    body V A vold vnew' u (mem st) /\ mem st bs = Some (OD as') /\ vec 6 as' s /\
    frame h (mem st) k [a_vn A; bs] /\ k <= nxt st.
Proof. exact @calc_ave_stress_text. Qed.
Print Assumptions C124_mean_stress_refines.

Local Open Scope R_scope.
Example C125_example : AsmPure.mat_at blend3 0 <> AsmPure.mat_at blend3 1 /\ exists u vold vnew et es, out_ok blend3 u vold vnew et es.
Proof. exact out_case3. Qed.
(** C125.  The text of calc_fields stores in elem_strain and elem_stress, six numbers for each cell, the means over the eight
    Gauss points of the cell of the strain and of the stress. *)
Theorem C125_fields_text : forall V A vold vnew u es et h k, body3 V -> full u (ndofs V) -> vars_ok V vold vnew ->
  alen es = (ncells V * 6)%Z -> alen et = (ncells V * 6)%Z ->
  NoDup (body_addrs A ++ [a_en A; a_es A])%list -> Forall (fun a => (a < k)%Z) (body_addrs A ++ [a_en A; a_es A])%list ->
  body V A vold vnew u h -> h (a_en A) = Some (OD es) -> h (a_es A) = Some (OD et) ->
  exists st es' et' eps sig, calls asm_prog "calc_fields" [VP (a_this A) 0] h k (Ok (st, Nrm)) /\
    mem st (a_en A) = Some (OD es') /\ mem st (a_es A) = Some (OD et') /\ strain_field3 V u eps /\ stress_field3 V u vold vnew sig /\
    (forall ex ey ez v, is_cell3 V ex ey ez -> (0 <= v < 6)%Z ->
       aget es' (cell3 V ex ey ez * 6 + v) = Some (rsum (zrange 0 8) (fun g => eps ex ey ez g v) / 8) /\
       aget et' (cell3 V ex ey ez * 6 + v) = Some (rsum (zrange 0 8) (fun g => sig ex ey ez g v) / 8)) /\
    (forall c, (c < k)%Z -> c <> a_en A -> c <> a_es A -> c <> a_vn A -> mem st c = h c).
Proof. exact text_fields3. Qed.
Print Assumptions C125_fields_text.
Local Open Scope Z_scope.
(** In every arithmetic. *)
Theorem C125_fields_refines : forall T (OT : Ops T) V A vold vnew u es et h k es' et' vnew',
  v_dim V = 3 -> NoDup (body_addrs A ++ [a_en A; a_es A])%list -> Forall (fun a => a < k) (body_addrs A ++ [a_en A; a_es A])%list ->
  body V A vold vnew u h -> h (a_en A) = Some (OD es) -> h (a_es A) = Some (OD et) ->
  calc_fields V u vold vnew es et = Ok (es', et', vnew') ->
  exists st, calls asm_prog "calc_fields" [VP (a_this A) 0] h k (Ok (st, Nrm)) /\
    body V A vold vnew' u (mem st) /\ mem st (a_en A) = Some (OD es') /\ mem st (a_es A) = Some (OD et') /\
    frame h (mem st) k [a_vn A; a_en A; a_es A] /\ k <= nxt st.
Proof. exact @calc_fields_text. Qed.
Print Assumptions C125_fields_refines.
