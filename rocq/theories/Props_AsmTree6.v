(** C132-C134: the program text of calc_ave_strain, calc_ave_stress and calc_fields of src/assembly.cpp on bodies of two
    dimensions (the syntax trees of AsmAst.v, under the semantics of Clite.v), in exact arithmetic and in every arithmetic. *)
From Coq Require Import String Reals.
From Verif Require Import Base Scalar MicroModel Clite AsmAst Sym EllModel AssemblyModel AsmLit AsmLit2 AsmLit22
  FemGen FemAve FemPd AsmPure FemRhs AsmSpec AsmProps AsmPoint AsmCases NewtonBase CgProps AsmLit9 AsmLit17 AsmLit18 AsmLit21 AsmLit28 AsmLit29.
Local Open Scope string_scope.
Local Open Scope Z_scope.
Local Open Scope R_scope.

Example C132_example : AsmPure.mat_at blend2 0 <> AsmPure.mat_at blend2 1 /\ exists u vold vnew et es, out_ok2 blend2 u vold vnew et es.
Proof. exact out_case2. Qed.
(** C132.  Running the text of set_displ and then that of calc_ave_strain stores the prescribed strain, whatever the displacements
    inside were, and changes only the displacements and the average. *)
Theorem C132_mean_strain2_text : forall V A e ae vold vnew u h k be bs as_,
  body2 V -> full u (ndofs V) -> NoDup (body_addrs A ++ [be; bs])%list -> Forall (fun a => (a < k)%Z) (body_addrs A ++ [be; bs])%list ->
  body V A vold vnew u h -> h be = Some (OD ae) -> alen ae = 6%Z -> (forall i, (0 <= i < 3)%Z -> aget ae i = Some (lget e i)) ->
  h bs = Some (OD as_) -> alen as_ = 6%Z ->
  exists st1 st2 as', calls asm_prog "set_displ" [VP (a_this A) 0; VP be 0] h k (Ok (st1, Nrm)) /\
    calls asm_prog "calc_ave_strain" [VP (a_this A) 0; VP bs 0] (mem st1) (nxt st1) (Ok (st2, Nrm)) /\
    mem st2 bs = Some (OD as') /\ (forall v, (0 <= v < 3)%Z -> aget as' v = Some (lget e v)) /\
    (forall c, (c < k)%Z -> c <> a_u A -> c <> bs -> mem st2 c = h c).
Proof. exact text_mean_strain2. Qed.
Print Assumptions C132_mean_strain2_text.
Local Open Scope Z_scope.
(** In every arithmetic. *)
Theorem C132_mean_strain2_refines : forall T (OT : Ops T) V A vold vnew u h k bs as_ s,
  v_dim V = 2 -> NoDup (body_addrs A ++ [bs])%list -> Forall (fun a => a < k) (body_addrs A ++ [bs])%list ->
  body V A vold vnew u h -> h bs = Some (OD as_) -> alen as_ = 6 ->
  calc_ave_strain V u = Ok s ->
  exists st as', calls asm_prog "calc_ave_strain" [VP (a_this A) 0; VP bs 0] h k (Ok (st, Nrm)) /\
    body V A vold vnew u (mem st) /\ mem st bs = Some (OD as') /\ alen as' = 6 /\ pvec 3 as' s /\
    frame h (mem st) k [bs] /\ k <= nxt st.
Proof. exact @calc_ave_strain2D_text. Qed.
Print Assumptions C132_mean_strain2_refines.

Local Open Scope R_scope.
Example C133_example : admissible stiff /\ (forall c, (0 <= c < ncells solid2)%Z -> AsmPure.mat_at solid2 c = stiff) /\ exists u vold vnew et es, out_ok2 solid2 u vold vnew et es.
Proof. exact out_solid2. Qed.
Example C133_example_composite : AsmPure.mat_at blend2 0 <> AsmPure.mat_at blend2 1 /\ exists u vold vnew et es, out_ok2 blend2 u vold vnew et es.
Proof. exact out_case2. Qed.
(** C133.  The text of calc_ave_stress stores the average of the stresses at the Gauss points over the area and changes nothing else. *)
Theorem C133_mean_stress2_text : forall V A vold vnew u h k bs as_,
  body2 V -> full u (ndofs V) ->
  NoDup (body_addrs A ++ [bs])%list -> Forall (fun a => (a < k)%Z) (body_addrs A ++ [bs])%list ->
  body V A vold vnew u h -> h bs = Some (OD as_) -> alen as_ = 6%Z ->
  exists st as' sig, calls asm_prog "calc_ave_stress" [VP (a_this A) 0; VP bs 0] h k (Ok (st, Nrm)) /\
    stress_field2 V u sig /\ mem st bs = Some (OD as') /\
    (forall v, (0 <= v < 3)%Z -> aget as' v = Some (quad_body2 V (fun ex ey g => sig ex ey g v) / area2 V)) /\
    (forall c, (c < k)%Z -> c <> bs -> mem st c = h c).
Proof. exact text_mean_stress2. Qed.
Print Assumptions C133_mean_stress2_text.
(** After the text of set_displ, on a body of one material, that is Hooke's law of the prescribed strain. *)
Theorem C133_uniform2_text : forall V A e ae vold vnew u h k be bs as_,
  body2 V -> full u (ndofs V) -> NoDup (body_addrs A ++ [be; bs])%list -> Forall (fun a => (a < k)%Z) (body_addrs A ++ [be; bs])%list ->
  body V A vold vnew u h -> h be = Some (OD ae) -> alen ae = 6%Z -> (forall i, (0 <= i < 3)%Z -> aget ae i = Some (lget e i)) ->
  h bs = Some (OD as_) -> alen as_ = 6%Z ->
  forall m, admissible m -> (forall c, (0 <= c < ncells V)%Z -> AsmPure.mat_at V c = m) ->
  exists st1 st2 as', calls asm_prog "set_displ" [VP (a_this A) 0; VP be 0] h k (Ok (st1, Nrm)) /\
    calls asm_prog "calc_ave_stress" [VP (a_this A) 0; VP bs 0] (mem st1) (nxt st1) (Ok (st2, Nrm)) /\
    mem st2 bs = Some (OD as') /\
    (let t := m_lambda m * (lget e 0 + lget e 1) in
     aget as' 0 = Some (t + 2 * m_mu m * lget e 0) /\ aget as' 1 = Some (t + 2 * m_mu m * lget e 1) /\ aget as' 2 = Some (m_mu m * lget e 2)) /\
    (forall c, (c < k)%Z -> c <> a_u A -> c <> bs -> mem st2 c = h c).
Proof. exact text_uniform2. Qed.
Print Assumptions C133_uniform2_text.
Local Open Scope Z_scope.
(** In every arithmetic. *)
Theorem C133_mean_stress2_refines : forall T (OT : Ops T) V A vold vnew u h k bs as_ s vnew',
  v_dim V = 2 -> NoDup (body_addrs A ++ [bs])%list -> Forall (fun a => a < k) (body_addrs A ++ [bs])%list ->
  body V A vold vnew u h -> h bs = Some (OD as_) -> alen as_ = 6 ->
  calc_ave_stress V u vold vnew = Ok (s, vnew') ->
  exists st as', calls asm_prog "calc_ave_stress" [VP (a_this A) 0; VP bs 0] h k (Ok (st, Nrm)) /\
    vnew' = vnew /\ body V A vold vnew u (mem st) /\ mem st bs = Some (OD as') /\ alen as' = 6 /\ pvec 3 as' s /\
    frame h (mem st) k [bs] /\ k <= nxt st.
Proof. exact @calc_ave_stress2D_text. Qed.
Print Assumptions C133_mean_stress2_refines.

Local Open Scope R_scope.
Example C134_example : AsmPure.mat_at blend2 0 <> AsmPure.mat_at blend2 1 /\ exists u vold vnew et es, out_ok2 blend2 u vold vnew et es.
Proof. exact out_case2. Qed.
(** C134.  The text of calc_fields stores for every cell the means over its four Gauss points of the strains and of the stresses, and
    changes nothing else. *)
Theorem C134_fields2_text : forall V A vold vnew u es et h k,
  body2 V -> full u (ndofs V) ->
  alen es = (ncells V * 3)%Z -> alen et = (ncells V * 3)%Z ->
  NoDup (body_addrs A ++ [a_en A; a_es A])%list -> Forall (fun a => (a < k)%Z) (body_addrs A ++ [a_en A; a_es A])%list ->
  body V A vold vnew u h -> h (a_en A) = Some (OD es) -> h (a_es A) = Some (OD et) ->
  exists st es' et' eps sig, calls asm_prog "calc_fields" [VP (a_this A) 0] h k (Ok (st, Nrm)) /\
    mem st (a_en A) = Some (OD es') /\ mem st (a_es A) = Some (OD et') /\ strain_field2 V u eps /\ stress_field2 V u sig /\
    (forall ex ey v, is_cell2 V ex ey -> (0 <= v < 3)%Z ->
       aget es' ((ey * (v_nx V - 1) + ex) * 3 + v) = Some (rsum (zrange 0 4) (fun g => eps ex ey g v) / 4) /\
       aget et' ((ey * (v_nx V - 1) + ex) * 3 + v) = Some (rsum (zrange 0 4) (fun g => sig ex ey g v) / 4)) /\
    (forall c, (c < k)%Z -> c <> a_en A -> c <> a_es A -> mem st c = h c).
Proof. exact text_fields2. Qed.
Print Assumptions C134_fields2_text.
Local Open Scope Z_scope.
(** In every arithmetic. *)
Theorem C134_fields2_refines : forall T (OT : Ops T) V A vold vnew u es et h k es' et' vnew',
  v_dim V = 2 -> NoDup (body_addrs A ++ [a_en A; a_es A])%list -> Forall (fun a => a < k) (body_addrs A ++ [a_en A; a_es A])%list ->
  body V A vold vnew u h -> h (a_en A) = Some (OD es) -> h (a_es A) = Some (OD et) ->
  calc_fields V u vold vnew es et = Ok (es', et', vnew') ->
  exists st, calls asm_prog "calc_fields" [VP (a_this A) 0] h k (Ok (st, Nrm)) /\
    vnew' = vnew /\ body V A vold vnew u (mem st) /\ mem st (a_en A) = Some (OD es') /\ mem st (a_es A) = Some (OD et') /\
    frame h (mem st) k [a_en A; a_es A] /\ k <= nxt st.
Proof. exact @calc_fields2D_text. Qed.
Print Assumptions C134_fields2_refines.
