(** C32, C50-C52, C66, C69-C71: the Newton loop, responses and the constructor's tangent.
    Statements over R are about exact arithmetic.  wok V w: the work arrays have the sizes
    and initialised entries the constructor gives them; passes V n w w0: n passes of the
    loop body without break lead from w to w0. *)
From Coq Require Import Reals.
From Verif Require Import Base Scalar EllSpec EllModel AssemblyModel AsmBnd FemPd AsmPure AsmRun AsmSpec AsmCases PlastRef MicroModel NewtonBase ApiBase Build ApiSpec ApiCases NewtonReal NewtonIts Thin OneCell RespondReal Tangent Consts SolveProps.
Open Scope Z_scope.

(** Cases: materials; a plastic and a linear point with one law; Newton runs in 3D (plastic)
    and 2D (one solve); objects without plastic cells and their exact states; a thin body
    that flows. *)
Example C32_example : exists mt ps m, make_material mt ps 1 = Ok m /\ arg ps 10 = Ok 210000%R /\ arg ps 11 = Ok (3 / 10)%R.
Proof. exact ps_material. Qed.
Open Scope R_scope.
Example C32_example_pair : exists V vold vnew m eps s ep al ep' al' vn V' m', step_at V vold vnew 0 0 0 0 m eps false s ep al ep' al' vn /\ admissible m /\
  (forall i, (0 <= i < 6)%Z -> ep i = 0) /\ body3 V' /\ is_cell3 V' 0 0 0 /\ cell_mat V' 0 0 0 m' /\ m_plast m' = Some false /\ admissible m' /\ m_E m' = m_E m /\ m_nu m' = m_nu m /\
  lget eps 3 <> 0.
Proof. exact quiet_pair. Qed.
Example C51_example3 : exists V w fuel pk w' er, body3 V /\ wok V w /\ newton fuel pk V w = Ok (w', true, 0%Z, er) /\ er < 1 / 100000.
Proof. exact newton_case3. Qed.
Example C51_example2 : exists V w w' er, body2 V /\ wok V w /\ newton fuel40 counting V w = Ok (w', false, 0%Z, er) /\ er < 1 / 100000 /\ exists w1, passes V 1 w w1.
Proof. exact newton_case2. Qed.
Example C71_example3 : exists (j : junk R) o, valid_args 3 4 5 3 0 mp5 [0; 2]%Z ps20 /\ body_args 3 mp5 ps20 /\ no_plastic [0; 2]%Z /\ total_junk j /\
  construct fuel40 (fun _ => counting) j 3 [4; 5; 3]%Z 0 mp5 [0; 2]%Z ps20 = Ok o /\ (4 * 5 * 3 * 3 < 2000)%Z /\ (2 <= fuel40)%nat /\
  (forall i : Z, exists k, (fun _ => counting) i 1%Z = Ok k /\ (k < 40)%Z) /\ wok (o_env o) (o_work o) /\
  forall e, exists u vo b s a, state3 (o_env o) e u vo b 0 s /\ affine_all3 (o_env o) e a.
Proof. exact linear_object3. Qed.
Example C71_example2 : exists (j : junk R) o, valid_args 2 4 5 1 1 mp5 [1; 0]%Z ps20 /\ body_args 2 mp5 ps20 /\ total_junk j /\
  construct fuel40 (fun _ => counting) j 2 [4; 5; 1]%Z 1 mp5 [1; 0]%Z ps20 = Ok o /\ (4 * 5 * 2 < 2000)%Z /\ (2 <= fuel40)%nat /\
  (forall i : Z, exists k, (fun _ => counting) i 1%Z = Ok k /\ (k < 40)%Z) /\ wok (o_env o) (o_work o) /\
  forall e, exists u b s a, state2 (o_env o) e u b 0 s /\ affine_all2 (o_env o) e a.
Proof. exact linear_object2. Qed.
Example C70_example : exists V w, body3 V /\ (v_nx V = 2 \/ v_ny V = 2 \/ v_nz V = 2)%Z /\ wok V w /\
  forall fuel pk, (1 <= fuel)%nat -> exists w' s, respond fuel pk V (shear 2) w = Ok (w', true, 0%Z, 0, s).
Proof. exact thin_case. Qed.

(** C32.  The constants of a material built from E and nu. *)
Theorem C32_constants : forall mt ps i m E nu, make_material mt ps i = Ok m -> arg ps (i * 10) = Ok E -> arg ps (i * 10 + 1) = Ok nu -> 0 < E -> -1 < nu < 1 / 2 ->
  m_k m = m_lambda m + 2 * m_mu m / 3 /\ 0 < m_k m /\ 0 < m_mu m /\ (0 < nu -> 0 < m_lambda m) /\
  E = m_mu m * (3 * m_lambda m + 2 * m_mu m) / (m_lambda m + m_mu m) /\ nu = m_lambda m / (2 * (m_lambda m + m_mu m)) /\ admissible m.
Proof. exact constants. Qed.
Print Assumptions C32_constants.
(** A plastic Gauss point without plastic strain that does not flow has the stress of a linear
    point with the same E and nu. *)
Theorem C32_same_law : forall V vold vnew ex ey ez g m eps s ep al ep' al' vn V' vold' vnew' ex' ey' ez' g' m',
  step_at V vold vnew ex ey ez g m eps false s ep al ep' al' vn -> admissible m -> (forall i, (0 <= i < 6)%Z -> ep i = 0) ->
  body3 V' -> is_cell3 V' ex' ey' ez' -> cell_mat V' ex' ey' ez' m' -> m_plast m' = Some false -> admissible m' -> m_E m' = m_E m -> m_nu m' = m_nu m ->
  exists l, get_stress3D V' vold' vnew' ex' ey' ez' g' eps = Ok (false, l, vnew') /\ forall i, (0 <= i < 6)%Z -> lget l i = s i.
Proof. exact same_law. Qed.
Print Assumptions C32_same_law.

(** C50.  The limit holds for the intended counter only: if the int read at position k were k,
    the loop would make at most 40 passes and never fail; in the program the reported
    count is always 0, and every pass but the last is let through by an int found
    behind the variable. *)
Theorem C50_intended_limit_partial : forall (T : Type) (OT : Ops T) (V : env T) fuel w, sane V -> wok V w -> (40 <= fuel)%nat ->
  exists w' nl er n w0 brk, newton fuel counting V w = Ok (w', nl, 0%Z, er) /\ passes V n w w0 /\ newton_body V w0 = Ok (w', nl, er, brk) /\ (n <= 39)%nat.
Proof. exact @its_intended. Qed.
Print Assumptions C50_intended_limit_partial.
Theorem C50_stray_counter_partial : forall (T : Type) (OT : Ops T) (V : env T) fuel pk w w' nl its er, sane V -> wok V w -> newton fuel pk V w = Ok (w', nl, its, er) ->
  its = 0%Z /\ exists n w0 brk, passes V n w w0 /\ newton_body V w0 = Ok (w', nl, er, brk) /\ forall j, (1 <= j <= Z.of_nat n)%Z -> exists i, pk j = Ok i /\ (i < 40)%Z.
Proof. exact @its_stray. Qed.
Print Assumptions C50_stray_counter_partial.
(** Every body with a free degree of freedom has a start on which the loop reads behind the
    variable; any run of it that ends reports 0 though it made a pass before. *)
Theorem C50_stray_read_refuted : forall V, body2 V -> adm V -> free2 V -> exists w, wok V w /\
  (forall fuel, (1 <= fuel)%nat -> newton fuel strict V w = Err BadPtr) /\
  (forall fuel pk w' nl its er, newton fuel pk V w = Ok (w', nl, its, er) -> its = 0%Z /\ exists w1, passes V 1 w w1) /\
  (forall fuel, (40 <= fuel)%nat -> exists r, newton fuel counting V w = Ok r) /\
  exists w1 nl, newton_body V w = Ok (w1, nl, 1, false).
Proof. exact stray_read2. Qed.
Print Assumptions C50_stray_read_refuted.
Example C50_example : body2 blend2 /\ adm blend2 /\ free2 blend2.
Proof. exact (conj blend2_body (conj blend2_adm blend2_free)). Qed.

(** C51.  A run that ends with err below the tolerance: boundary values kept, residual of the
    returned field has norm err. *)
Theorem C51_converged_3d : forall V fuel pk w w' nl its er, body3 V -> wok V w -> newton fuel pk V w = Ok (w', nl, its, er) -> er < 1 / 100000 ->
  (forall i j k c, is_node3 V i j k -> on_face3 V i j k -> (0 <= c < 3)%Z -> aget (w_u w') (dof3 V i j k c) = aget (w_u w) (dof3 V i j k c)) /\
  exists vn b, assembly_rhs V (w_u w') (w_vold w) vn b = Ok (w_b w', nl, w_vnew w', er).
Proof. exact newton_converged3. Qed.
Print Assumptions C51_converged_3d.
Theorem C51_converged_2d : forall V fuel pk w w' nl its er, body2 V -> wok V w -> newton fuel pk V w = Ok (w', nl, its, er) -> er < 1 / 100000 ->
  (forall i j c, is_node2 V i j -> on_edge2 V i j -> (0 <= c < 2)%Z -> aget (w_u w') (dof2 V i j c) = aget (w_u w) (dof2 V i j c)) /\
  exists vn b, assembly_rhs V (w_u w') (w_vold w) vn b = Ok (w_b w', nl, w_vnew w', er).
Proof. exact newton_converged2. Qed.
Print Assumptions C51_converged_2d.

(** C52.  Without plastic cells two objects built from the same arguments in any two memories
    have tangents that differ by at most the solver tolerance allows. *)
Theorem C52_memory_3d_partial : forall f1 f2 q1 q2 (j1 j2 : junk R) nx ny nz mtype mp mt ps o1 o2, valid_args 3 nx ny nz mtype mp mt ps -> body_args 3 mp ps -> no_plastic mt -> total_junk j1 -> total_junk j2 ->
  construct f1 q1 j1 3 [nx; ny; nz] mtype mp mt ps = Ok o1 -> construct f2 q2 j2 3 [nx; ny; nz] mtype mp mt ps = Ok o2 ->
  (nx * ny * nz * 3 < 2000)%Z -> (2 <= f1)%nat -> (2 <= f2)%nat -> (forall i, exists k, q1 i 1%Z = Ok k /\ (k < 40)%Z) -> (forall i, exists k, q2 i 1%Z = Ok k /\ (k < 40)%Z) ->
  forall v i u vo b s a, (0 <= v < 6)%Z -> (0 <= i < 6)%Z -> state3 (o_env o1) (unit 6 v) u vo b 0 s -> affine_all3 (o_env o1) (unit 6 v) a ->
  exists c1 c2, aget (o_ctan o1) (v * 6 + i)%Z = Some c1 /\ aget (o_ctan o2) (v * 6 + i)%Z = Some c2 /\
    Rabs (lget mp 0 * lget mp 1 * (c1 - c2)) <= 2000 * len (ndofs (o_env o1)) (fun r => val u r - a r).
Proof. exact tangent_memory3. Qed.
Print Assumptions C52_memory_3d_partial.
Theorem C52_memory_2d_partial : forall f1 f2 q1 q2 (j1 j2 : junk R) nx ny nz mtype mp mt ps o1 o2, valid_args 2 nx ny nz mtype mp mt ps -> body_args 2 mp ps -> total_junk j1 -> total_junk j2 ->
  construct f1 q1 j1 2 [nx; ny; nz] mtype mp mt ps = Ok o1 -> construct f2 q2 j2 2 [nx; ny; nz] mtype mp mt ps = Ok o2 ->
  (nx * ny * 2 < 2000)%Z -> (2 <= f1)%nat -> (2 <= f2)%nat -> (forall i, exists k, q1 i 1%Z = Ok k /\ (k < 40)%Z) -> (forall i, exists k, q2 i 1%Z = Ok k /\ (k < 40)%Z) ->
  forall v i u b s a, (0 <= v < 3)%Z -> (0 <= i < 3)%Z -> state2 (o_env o1) (unit 3 v) u b 0 s -> affine_all2 (o_env o1) (unit 3 v) a ->
  exists c1 c2, aget (o_ctan o1) (v * 3 + i)%Z = Some c1 /\ aget (o_ctan o2) (v * 3 + i)%Z = Some c2 /\
    Rabs (lget mp 0 * lget mp 1 * (c1 - c2)) <= 2000 * len (ndofs (o_env o1)) (fun r => val u r - a r).
Proof. exact tangent_memory2. Qed.
Print Assumptions C52_memory_2d_partial.

(** C66.  Linear bodies: at most one solve, then the residual is below the tolerance. *)
Theorem C66_one_solve_3d : forall V fuel pk w i, body3 V -> linear V -> adm V -> wok V w -> (ndofs V < 2000)%Z -> (2 <= fuel)%nat -> pk 1%Z = Ok i -> (i < 40)%Z ->
  exists w' er n w0 vn b b' nl vn' t, newton fuel pk V w = Ok (w', false, 0%Z, er) /\ (n <= 1)%nat /\ passes V n w w0 /\ w_u w' = w_u w0 /\
    assembly_rhs V (w_u w') (w_vold w') vn b = Ok (b', nl, vn', t) /\ t < 1 / 100000.
Proof. exact newton_linear3. Qed.
Print Assumptions C66_one_solve_3d.
Theorem C66_one_solve_2d : forall V fuel pk w i, body2 V -> adm V -> wok V w -> (ndofs V < 2000)%Z -> (2 <= fuel)%nat -> pk 1%Z = Ok i -> (i < 40)%Z ->
  exists w' er n w0 vn b b' nl vn' t, newton fuel pk V w = Ok (w', false, 0%Z, er) /\ (n <= 1)%nat /\ passes V n w w0 /\ w_u w' = w_u w0 /\
    assembly_rhs V (w_u w') (w_vold w') vn b = Ok (b', nl, vn', t) /\ t < 1 / 100000.
Proof. exact newton_linear2. Qed.
Print Assumptions C66_one_solve_2d.

(** C69.  A response that ends with err below the tolerance is a state for its macro strain
    with residual norm err and the reported stress. *)
Theorem C69_response_3d : forall V fuel pk eps w w' nl it er s, body3 V -> wok V w -> respond fuel pk V eps w = Ok (w', nl, it, er, s) -> er < 1 / 100000 ->
  exists b', state3 V eps (w_u w') (w_vold w) b' er s.
Proof. exact respond_state3. Qed.
Print Assumptions C69_response_3d.
Theorem C69_response_2d : forall V fuel pk eps w w' nl it er s, body2 V -> wok V w -> respond fuel pk V eps w = Ok (w', nl, it, er, s) -> er < 1 / 100000 ->
  exists b', state2 V eps (w_u w') b' er s.
Proof. exact respond_state2. Qed.
Print Assumptions C69_response_2d.

(** C70.  Two nodes in some direction: no iteration, err = 0, flag and stress are those of the
    material law at the macro strain. *)
Theorem C70_thin : forall V fuel pk eps w, body3 V -> (v_nx V = 2 \/ v_ny V = 2 \/ v_nz V = 2)%Z -> wok V w -> (1 <= fuel)%nat ->
  exists w' nl s, respond fuel pk V eps w = Ok (w', nl, 0%Z, 0, s) /\
    (nl = true <-> exists ex ey ez l vn, is_cell3 V ex ey ez /\ get_stress3D V (w_vold w) (w_vnew w) ex ey ez 7 (ltab 6 (lget eps)) = Ok (true, l, vn)) /\
    exists sig, (forall ex ey ez g, is_cell3 V ex ey ez -> (0 <= g < 8)%Z -> exists nl' vn, get_stress3D V (w_vold w) (w_vnew w) ex ey ez g (ltab 6 (lget eps)) = Ok (nl', sig ex ey ez g, vn)) /\
      forall v, (0 <= v < 6)%Z -> lget s v = quad_body3 V (fun ex ey ez g => lget (sig ex ey ez g) v) / (v_lx V * v_ly V).
Proof. exact thin_body. Qed.
Print Assumptions C70_thin.

(** C71.  The tangent of the constructor against the stress of the exact unit-strain states. *)
Theorem C71_tangent_3d : forall fuel orc (j : junk R) nx ny nz mtype mp mt ps o, valid_args 3 nx ny nz mtype mp mt ps -> body_args 3 mp ps -> no_plastic mt -> total_junk j ->
  construct fuel orc j 3 [nx; ny; nz] mtype mp mt ps = Ok o -> (nx * ny * nz * 3 < 2000)%Z -> (2 <= fuel)%nat -> (forall i, exists k, orc i 1%Z = Ok k /\ (k < 40)%Z) ->
  forall v i u vo b s a, (0 <= v < 6)%Z -> (0 <= i < 6)%Z -> state3 (o_env o) (unit 6 v) u vo b 0 s -> affine_all3 (o_env o) (unit 6 v) a ->
  exists c, aget (o_ctan o) (v * 6 + i)%Z = Some c /\
    Rabs (v_lx (o_env o) * v_ly (o_env o) * (c - lget s i)) <= 1000 * len (ndofs (o_env o)) (fun r => val u r - a r).
Proof. exact linear_tangent3. Qed.
Print Assumptions C71_tangent_3d.
Theorem C71_tangent_2d : forall fuel orc (j : junk R) nx ny nz mtype mp mt ps o, valid_args 2 nx ny nz mtype mp mt ps -> body_args 2 mp ps -> total_junk j ->
  construct fuel orc j 2 [nx; ny; nz] mtype mp mt ps = Ok o -> (nx * ny * 2 < 2000)%Z -> (2 <= fuel)%nat -> (forall i, exists k, orc i 1%Z = Ok k /\ (k < 40)%Z) ->
  forall v i u b s a, (0 <= v < 3)%Z -> (0 <= i < 3)%Z -> state2 (o_env o) (unit 3 v) u b 0 s -> affine_all2 (o_env o) (unit 3 v) a ->
  exists c, aget (o_ctan o) (v * 3 + i)%Z = Some c /\
    Rabs (v_lx (o_env o) * v_ly (o_env o) * (c - lget s i)) <= 1000 * len (ndofs (o_env o)) (fun r => val u r - a r).
Proof. exact linear_tangent2. Qed.
Print Assumptions C71_tangent_2d.
Theorem C71_symmetric_3d : forall fuel orc (j : junk R) nx ny nz mtype mp mt ps o, valid_args 3 nx ny nz mtype mp mt ps -> body_args 3 mp ps -> no_plastic mt -> total_junk j ->
  construct fuel orc j 3 [nx; ny; nz] mtype mp mt ps = Ok o -> (nx * ny * nz * 3 < 2000)%Z -> (2 <= fuel)%nat -> (forall i, exists k, orc i 1%Z = Ok k /\ (k < 40)%Z) ->
  forall v i u1 v1 b1 s1 a1 u2 v2 b2 s2 a2, (0 <= v < 6)%Z -> (0 <= i < 6)%Z ->
  state3 (o_env o) (unit 6 v) u1 v1 b1 0 s1 -> affine_all3 (o_env o) (unit 6 v) a1 -> state3 (o_env o) (unit 6 i) u2 v2 b2 0 s2 -> affine_all3 (o_env o) (unit 6 i) a2 ->
  exists c c', aget (o_ctan o) (v * 6 + i)%Z = Some c /\ aget (o_ctan o) (i * 6 + v)%Z = Some c' /\
    Rabs (v_lx (o_env o) * v_ly (o_env o) * (c - c')) <= 1000 * (len (ndofs (o_env o)) (fun r => val u1 r - a1 r) + len (ndofs (o_env o)) (fun r => val u2 r - a2 r)).
Proof. exact tangent_symmetric3. Qed.
Print Assumptions C71_symmetric_3d.
Theorem C71_symmetric_2d : forall fuel orc (j : junk R) nx ny nz mtype mp mt ps o, valid_args 2 nx ny nz mtype mp mt ps -> body_args 2 mp ps -> total_junk j ->
  construct fuel orc j 2 [nx; ny; nz] mtype mp mt ps = Ok o -> (nx * ny * 2 < 2000)%Z -> (2 <= fuel)%nat -> (forall i, exists k, orc i 1%Z = Ok k /\ (k < 40)%Z) ->
  forall v i u1 b1 s1 a1 u2 b2 s2 a2, (0 <= v < 3)%Z -> (0 <= i < 3)%Z ->
  state2 (o_env o) (unit 3 v) u1 b1 0 s1 -> affine_all2 (o_env o) (unit 3 v) a1 -> state2 (o_env o) (unit 3 i) u2 b2 0 s2 -> affine_all2 (o_env o) (unit 3 i) a2 ->
  exists c c', aget (o_ctan o) (v * 3 + i)%Z = Some c /\ aget (o_ctan o) (i * 3 + v)%Z = Some c' /\
    Rabs (v_lx (o_env o) * v_ly (o_env o) * (c - c')) <= 1000 * (len (ndofs (o_env o)) (fun r => val u1 r - a1 r) + len (ndofs (o_env o)) (fun r => val u2 r - a2 r)).
Proof. exact tangent_symmetric2. Qed.
Print Assumptions C71_symmetric_2d.
