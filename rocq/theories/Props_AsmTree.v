(** C114-C117: the program text of the routines of one cell in src/assembly.cpp and src/solve.cpp (the
    syntax trees of AsmAst.v, under the semantics of Clite.v), in exact arithmetic and in every
    arithmetic.  [body V A vold vnew u h] says that the memory h holds at the addresses A an object with
    the members of V, its cell types and materials, its internal variables and its displacements. *)
From Coq Require Import String Reals.
From Verif Require Import Base Scalar Clite AsmAst Sym EllSpec EllModel AssemblyModel AsmLit AsmLit2 AsmLit3 AsmLit5 AsmLit6 AsmLit8
  FemGen FemAve FemPd AsmPure FemRhs AsmSpec AsmProps AsmCases PlastRef MonoPoint MonoEx Quad AsmLit9.
Local Open Scope string_scope.
Local Open Scope Z_scope.
Local Open Scope R_scope.

Example C114_example_linear : exists m st as', body3 blend3 /\ is_cell3 blend3 1 2 1 /\ cell_mat blend3 1 2 1 m /\ m_plast m = Some false /\
  calls asm_prog "get_stress3D" [VP 0 0; VI 1; VI 2; VI 1; VI 5; VP 11 0; VP 12 0; VP 13 0]
    (home_mem blend3 (blank 0) (blank 0) (blank 0) (OD (arr6 (shear 3))) (OI flag) (OD (blank 6))) 14 (Ok (st, Nrm)) /\
  mem st 13%Z = Some (OD as') /\ aget as' 3 = Some (m_mu m * 3) /\ m_mu m * 3 <> 0.
Proof. exact linear_case. Qed.
Example C114_example_plastic : exists u vnew, let h g := home_mem bar (sheared 1) vnew u (OD (arr6 (shear g))) (OI flag) (OD (blank 6)) in
  body3 bar /\ vars_ok bar (sheared 1) vnew /\ is_cell3 bar 1 2 1 /\ cell_mat bar 1 2 1 one /\ admissible one /\ m_plast one = Some true /\
  0 <= m_Sy one + m_Ka one * vl (sheared 1) (var3 bar 1 2 1 5 6) /\
  (forall g, body bar home (sheared 1) vnew u (h g) /\ h g 11%Z = Some (OD (arr6 (shear g))) /\ vec 6 (arr6 (shear g)) (shear g) /\
     h g 12%Z = Some (OI flag) /\ alen flag = 1%Z /\ h g 13%Z = Some (OD (blank 6)) /\ alen (blank 6) = 6%Z) /\
  NoDup (body_addrs home ++ [11; 12; 13]%Z)%list /\ Forall (fun a => (a < 14)%Z) (body_addrs home ++ [11; 12; 13]%Z)%list.
Proof. exact plastic_case. Qed.

(** C114.  The text of get_stress3D at a Gauss point of a linear cell: it stores the isotropic stress of the
    strain, clears the flag, and leaves the rest of the memory, the history included, as it was. *)
Theorem C114_linear_stress_text : forall V A vold vnew u h k be bl bs ae eps fl as_ ex ey ez g m,
  body3 V -> is_cell3 V ex ey ez -> cell_mat V ex ey ez m -> m_plast m = Some false ->
  NoDup (body_addrs A ++ [be; bl; bs])%list -> Forall (fun a => (a < k)%Z) (body_addrs A ++ [be; bl; bs])%list ->
  body V A vold vnew u h -> h be = Some (OD ae) -> vec 6 ae eps -> h bl = Some (OI fl) -> alen fl = 1%Z ->
  h bs = Some (OD as_) -> alen as_ = 6%Z ->
  exists st fl' as',
    calls asm_prog "get_stress3D" [VP (a_this A) 0; VI ex; VI ey; VI ez; VI g; VP be 0; VP bl 0; VP bs 0] h k (Ok (st, Nrm)) /\
    mem st bl = Some (OI fl') /\ aget fl' 0 = Some 0%Z /\ mem st bs = Some (OD as') /\ alen as' = 6%Z /\
    (forall i, (0 <= i < 6)%Z -> aget as' i = Some (hooke m (lget eps) i)) /\
    (forall c, (c < k)%Z -> c <> bl -> c <> bs -> mem st c = h c).
Proof. exact text_linear_stress. Qed.
Print Assumptions C114_linear_stress_text.
(** Two calls at a Gauss point with the same history, elastic or plastic: the stored stresses respond
    monotonically to the strains and no more than elastically. *)
Theorem C114_monotone_text : forall V A1 A2 vold vnew1 vnew2 u1 u2 h1 h2 k1 k2 be1 bl1 bs1 be2 bl2 bs2 ae1 ae2 eps1 eps2 fl1 fl2 as1 as2 ex ey ez g m,
  body3 V -> vars_ok V vold vnew1 -> vars_ok V vold vnew2 -> is_cell3 V ex ey ez -> (0 <= g < 8)%Z -> cell_mat V ex ey ez m -> admissible m ->
  (m_plast m = Some true -> 0 <= m_Sy m + m_Ka m * vl vold (var3 V ex ey ez g 6)) ->
  NoDup (body_addrs A1 ++ [be1; bl1; bs1])%list -> Forall (fun a => (a < k1)%Z) (body_addrs A1 ++ [be1; bl1; bs1])%list ->
  body V A1 vold vnew1 u1 h1 -> h1 be1 = Some (OD ae1) -> vec 6 ae1 eps1 -> h1 bl1 = Some (OI fl1) -> alen fl1 = 1%Z ->
  h1 bs1 = Some (OD as1) -> alen as1 = 6%Z ->
  NoDup (body_addrs A2 ++ [be2; bl2; bs2])%list -> Forall (fun a => (a < k2)%Z) (body_addrs A2 ++ [be2; bl2; bs2])%list ->
  body V A2 vold vnew2 u2 h2 -> h2 be2 = Some (OD ae2) -> vec 6 ae2 eps2 -> h2 bl2 = Some (OI fl2) -> alen fl2 = 1%Z ->
  h2 bs2 = Some (OD as2) -> alen as2 = 6%Z ->
  exists st1 st2 t1 t2,
    calls asm_prog "get_stress3D" [VP (a_this A1) 0; VI ex; VI ey; VI ez; VI g; VP be1 0; VP bl1 0; VP bs1 0] h1 k1 (Ok (st1, Nrm)) /\
    calls asm_prog "get_stress3D" [VP (a_this A2) 0; VI ex; VI ey; VI ez; VI g; VP be2 0; VP bl2 0; VP bs2 0] h2 k2 (Ok (st2, Nrm)) /\
    mem st1 bs1 = Some (OD t1) /\ mem st2 bs2 = Some (OD t2) /\
    let D i := vl t1 i - vl t2 i in let E i := lget eps1 i - lget eps2 i in
    contract6 (dev6 D) (dev6 D) / (2 * m_mu m) + trace6 D * trace6 D / (9 * (m_lambda m + 2 * m_mu m / 3)) <= dot 6 D E <= dot 6 (hooke m E) E.
Proof. exact text_monotone. Qed.
Print Assumptions C114_monotone_text.

Local Open Scope Z_scope.
(** In every arithmetic: where the model of get_stress3D answers, the text runs and stores the same. *)
Theorem C114_stress_refines : forall T (OT : Ops T) V A vold vnew u h k be bl bs ae eps fl as_ ex ey ez gp nl s vnew',
  v_dim V = 3 -> NoDup (body_addrs A ++ [be; bl; bs])%list ->
  Forall (fun a => a < k) (body_addrs A ++ [be; bl; bs])%list -> body V A vold vnew u h ->
  h be = Some (OD ae) -> vec 6 ae eps -> h bl = Some (OI fl) -> alen fl = 1 ->
  h bs = Some (OD as_) -> alen as_ = 6 ->
  get_stress3D V vold vnew ex ey ez gp eps = Ok (nl, s, vnew') ->
  exists st fl' as',
    calls asm_prog "get_stress3D"
      [VP (a_this A) 0; VI ex; VI ey; VI ez; VI gp; VP be 0; VP bl 0; VP bs 0] h k (Ok (st, Nrm)) /\
    body V A vold vnew' u (mem st) /\
    mem st bl = Some (OI fl') /\ alen fl' = 1 /\ aget fl' 0 = Some (if nl then 1 else 0) /\
    mem st bs = Some (OD as') /\ vec 6 as' s /\ frame h (mem st) k [bl; bs; a_vn A] /\ k <= nxt st.
Proof. exact @get_stress3D_text. Qed.
Print Assumptions C114_stress_refines.
(** plastic_step, on any values whatever. *)
Theorem C114_plastic_step_refines : forall T (OT : Ops T) bt bm be bo bn ba bf bs k h ft fm m ae ap an aa fl as_ eps ep alpha z0,
  NoDup [bm; be; bo; bn; ba; bf; bs; bt] -> Forall (fun a => a < k) [bm; be; bo; bn; ba; bf; bs; bt] ->
  h bt = Some (OS ft) -> h bm = Some (OS fm) -> mat_in fm m ->
  h be = Some (OD ae) -> vec 6 ae eps -> h bo = Some (OD ap) -> vec 6 ap ep ->
  h bn = Some (OD an) -> alen an = 6 -> h ba = Some (OD aa) -> alen aa = 1 ->
  h bf = Some (OI fl) -> alen fl = 1 -> aget fl 0 = Some z0 -> h bs = Some (OD as_) -> alen as_ = 6 ->
  let r := plastic_step m eps ep alpha in
  exists st an' aa' fl' as',
    calls asm_prog "plastic_step"
      [VP bt 0; VP bm 0; VP be 0; VP bo 0; VD alpha; VP bn 0; VP ba 0; VP bf 0; VP bs 0] h k (Ok (st, Nrm)) /\
    mem st bn = Some (OD an') /\ vec 6 an' (ps_eps_p r) /\
    mem st ba = Some (OD aa') /\ alen aa' = 1 /\ aget aa' 0 = Some (ps_alpha r) /\
    mem st bf = Some (OI fl') /\ alen fl' = 1 /\ aget fl' 0 = Some (if ps_nl r then 1 else z0) /\
    mem st bs = Some (OD as') /\ vec 6 as' (ps_stress r) /\
    frame h (mem st) k [bn; ba; bf; bs] /\ k <= nxt st.
Proof. exact @plastic_step_text. Qed.
Print Assumptions C114_plastic_step_refines.

Local Open Scope R_scope.
Example C115_example : exists u vold vnew D, let h o := home_mem blend3 vold vnew u (OD (blank o)) (OI flag) (OD (blank 6)) in
  body3 blend3 /\ full u (ndofs blend3) /\ vars_ok blend3 vold vnew /\ is_cell3 blend3 1 2 1 /\
  plastic_at blend3 (cellno blend3 1 2 1) = false /\ admissible (AsmPure.mat_at blend3 (cellno blend3 1 2 1)) /\
  gradient3 (inside3 blend3 u 1 2 1) D /\ D 0%Z 0%Z 0 0 0 <> 0 /\
  (forall o, body blend3 home vold vnew u (h o) /\ h o 11%Z = Some (OD (blank o)) /\ h o 12%Z = Some (OI flag)) /\
  NoDup (body_addrs home ++ [11; 12]%Z)%list /\ Forall (fun a => (a < 14)%Z) (body_addrs home ++ [11; 12]%Z)%list /\
  NoDup (body_addrs home ++ [11]%Z)%list /\ NoDup [0; 5; 11]%Z /\ Forall (fun a => (a < 14)%Z) [0; 5; 11]%Z.
Proof. exact cell_case. Qed.
(** C115.  The text of get_strain3D stores the symmetric gradient of the trilinear displacement at the Gauss
    point, and changes nothing else. *)
Theorem C115_gradient_text : forall V A fs u h k bt bs as_ ex ey ez g,
  body3 V -> full u (ndofs V) -> is_cell3 V ex ey ez -> (0 <= g < 8)%Z ->
  NoDup [bt; a_u A; bs] -> Forall (fun a => (a < k)%Z) [bt; a_u A; bs] ->
  h bt = Some (OS fs) -> this_in fs V A -> h (a_u A) = Some (OD u) -> h bs = Some (OD as_) -> alen as_ = 6%Z ->
  let X := gpos (v_dx V) g 0 in let Y := gpos (v_dy V) g 1 in let Zc := gpos (v_dz V) g 2 in
  exists st s D, calls asm_prog "get_strain3D" [VP bt 0; VI ex; VI ey; VI ez; VI g; VP bs 0] h k (Ok (st, Nrm)) /\
    mem st bs = Some (OD s) /\ alen s = 6%Z /\
    (forall c, (0 <= c < 3)%Z -> derivable_pt_lim (fun s => inside3 V u ex ey ez c s Y Zc) X (D c 0%Z) /\
      derivable_pt_lim (fun s => inside3 V u ex ey ez c X s Zc) Y (D c 1%Z) /\
      derivable_pt_lim (fun s => inside3 V u ex ey ez c X Y s) Zc (D c 2%Z)) /\
    aget s 0 = Some (D 0%Z 0%Z) /\ aget s 1 = Some (D 1%Z 1%Z) /\ aget s 2 = Some (D 2%Z 2%Z) /\
    aget s 3 = Some (D 0%Z 1%Z + D 1%Z 0%Z) /\ aget s 4 = Some (D 0%Z 2%Z + D 2%Z 0%Z) /\ aget s 5 = Some (D 1%Z 2%Z + D 2%Z 1%Z) /\
    (forall c, (c < k)%Z -> c <> bs -> mem st c = h c).
Proof. exact text_gradient_strain. Qed.
Print Assumptions C115_gradient_text.
Local Open Scope Z_scope.
(** In every arithmetic. *)
Theorem C115_strain_refines : forall T (OT : Ops T) V A fs u h k bt bu bs as_ ex ey ez gp eps, v_dim V = 3 -> 0 <= gp < 8 ->
  NoDup [bt; bu; bs] -> Forall (fun a => a < k) [bt; bu; bs] ->
  h bt = Some (OS fs) -> this_in fs V A -> bu = a_u A -> h bu = Some (OD u) ->
  h bs = Some (OD as_) -> alen as_ = 6 ->
  get_strain3D V u ex ey ez gp = Ok eps ->
  exists st as', calls asm_prog "get_strain3D" [VP bt 0; VI ex; VI ey; VI ez; VI gp; VP bs 0] h k (Ok (st, Nrm)) /\
    mem st bs = Some (OD as') /\ vec 6 as' eps /\ frame h (mem st) k [bs] /\ k <= nxt st.
Proof. exact @get_strain3D_text. Qed.
Print Assumptions C115_strain_refines.

Local Open Scope R_scope.
Example C116_example : exists u vold vnew D, let h o := home_mem blend3 vold vnew u (OD (blank o)) (OI flag) (OD (blank 6)) in
  body3 blend3 /\ full u (ndofs blend3) /\ vars_ok blend3 vold vnew /\ is_cell3 blend3 1 2 1 /\
  plastic_at blend3 (cellno blend3 1 2 1) = false /\ admissible (AsmPure.mat_at blend3 (cellno blend3 1 2 1)) /\
  gradient3 (inside3 blend3 u 1 2 1) D /\ D 0%Z 0%Z 0 0 0 <> 0 /\
  (forall o, body blend3 home vold vnew u (h o) /\ h o 11%Z = Some (OD (blank o)) /\ h o 12%Z = Some (OI flag)) /\
  NoDup (body_addrs home ++ [11; 12]%Z)%list /\ Forall (fun a => (a < 14)%Z) (body_addrs home ++ [11; 12]%Z)%list /\
  NoDup (body_addrs home ++ [11]%Z)%list /\ NoDup [0; 5; 11]%Z /\ Forall (fun a => (a < 14)%Z) [0; 5; 11]%Z.
Proof. exact cell_case. Qed.
(** C116.  The text of get_elem_rhs3D stores the forces whose work on the nodal values of any field is the work
    of the stresses of the cell on the strains of that field. *)
Theorem C116_virtual_work_text : forall V A vold vnew u h k bb bl ab fl ex ey ez sig,
  body3 V -> full u (ndofs V) -> vars_ok V vold vnew -> is_cell3 V ex ey ez -> stress_field3 V u vold vnew sig ->
  NoDup (body_addrs A ++ [bb; bl])%list -> Forall (fun a => (a < k)%Z) (body_addrs A ++ [bb; bl])%list -> body V A vold vnew u h ->
  h bb = Some (OD ab) -> alen ab = 24%Z -> h bl = Some (OI fl) -> alen fl = 1%Z ->
  exists st b, calls asm_prog "get_elem_rhs3D" [VP (a_this A) 0; VI ex; VI ey; VI ez; VP bl 0; VP bb 0] h k (Ok (st, Nrm)) /\
    mem st bb = Some (OD b) /\ full b 24 /\
    (forall w eps, full w (ndofs V) -> strain_field3 V w eps ->
       rsum (zrange 0 24) (fun i => vl b i * vl w (cdof3 V ex ey ez (i / 3) (i mod 3))) =
       rsum (zrange 0 8) (fun g => dot 6 (sig ex ey ez g) (eps ex ey ez g) * (v_dx V * v_dy V * v_dz V / 8))) /\
    (forall c, (c < k)%Z -> c <> bb -> c <> bl -> c <> a_vn A -> mem st c = h c).
Proof. exact text_elem_work. Qed.
Print Assumptions C116_virtual_work_text.
Local Open Scope Z_scope.
(** In every arithmetic, the new internal variables and the flag included. *)
Theorem C116_residual_refines : forall T (OT : Ops T) V A vold vnew u h k bb bl ab fl ex ey ez be nl vnew',
  v_dim V = 3 -> NoDup (body_addrs A ++ [bb; bl])%list ->
  Forall (fun a => a < k) (body_addrs A ++ [bb; bl])%list -> body V A vold vnew u h ->
  h bb = Some (OD ab) -> alen ab = 24 -> h bl = Some (OI fl) -> alen fl = 1 ->
  get_elem_rhs3D V u vold vnew ex ey ez = Ok (be, nl, vnew') ->
  exists st ab' fl',
    calls asm_prog "get_elem_rhs3D"
      [VP (a_this A) 0; VI ex; VI ey; VI ez; VP bl 0; VP bb 0] h k (Ok (st, Nrm)) /\
    body V A vold vnew' u (mem st) /\
    mem st bb = Some (OD ab') /\ vec 24 ab' be /\
    mem st bl = Some (OI fl') /\ alen fl' = 1 /\ aget fl' 0 = Some (if nl then 1 else 0) /\
    frame h (mem st) k [bb; bl; a_vn A] /\ k <= nxt st.
Proof. exact @get_elem_rhs3D_text. Qed.
Print Assumptions C116_residual_refines.

Local Open Scope R_scope.
Example C117_example : exists u vold vnew D, let h o := home_mem blend3 vold vnew u (OD (blank o)) (OI flag) (OD (blank 6)) in
  body3 blend3 /\ full u (ndofs blend3) /\ vars_ok blend3 vold vnew /\ is_cell3 blend3 1 2 1 /\
  plastic_at blend3 (cellno blend3 1 2 1) = false /\ admissible (AsmPure.mat_at blend3 (cellno blend3 1 2 1)) /\
  gradient3 (inside3 blend3 u 1 2 1) D /\ D 0%Z 0%Z 0 0 0 <> 0 /\
  (forall o, body blend3 home vold vnew u (h o) /\ h o 11%Z = Some (OD (blank o)) /\ h o 12%Z = Some (OI flag)) /\
  NoDup (body_addrs home ++ [11; 12]%Z)%list /\ Forall (fun a => (a < 14)%Z) (body_addrs home ++ [11; 12]%Z)%list /\
  NoDup (body_addrs home ++ [11]%Z)%list /\ NoDup [0; 5; 11]%Z /\ Forall (fun a => (a < 14)%Z) [0; 5; 11]%Z.
Proof. exact cell_case. Qed.
(** C117.  The text of get_elem_mat3D in a linear cell stores a symmetric matrix whose quadratic form is the
    exact strain energy of the interpolated displacement, up to the digits of the Gauss points. *)
Theorem C117_energy_text : forall V A vold vnew u h k ba aa ex ey ez,
  body3 V -> full u (ndofs V) -> vars_ok V vold vnew -> is_cell3 V ex ey ez ->
  plastic_at V (cellno V ex ey ez) = false -> admissible (AsmPure.mat_at V (cellno V ex ey ez)) ->
  NoDup (body_addrs A ++ [ba])%list -> Forall (fun a => (a < k)%Z) (body_addrs A ++ [ba])%list -> body V A vold vnew u h ->
  h ba = Some (OD aa) -> alen aa = 576%Z ->
  exists st K, calls asm_prog "get_elem_mat3D" [VP (a_this A) 0; VI ex; VI ey; VI ez; VP ba 0] h k (Ok (st, Nrm)) /\
    mem st ba = Some (OD K) /\ full K 576 /\
    (forall i j, (0 <= i < 24)%Z -> (0 <= j < 24)%Z -> vl K (i * 24 + j) = vl K (j * 24 + i)) /\
    (forall w D, full w (ndofs V) -> gradient3 (inside3 V w ex ey ez) D ->
       exists I, is_int3 (dens3 (AsmPure.mat_at V (cellno V ex ey ez)) D) (v_dx V) (v_dy V) (v_dz V) I /\
       let x i := vl w (cdof3 V ex ey ez (i / 3) (i mod 3)) in
       let q := rsum (zrange 0 24) (fun i => rsum (zrange 0 24) (fun j => x i * vl K (i * 24 + j) * x j)) in
       I <= q <= (1 + 3 / 1000000000000000) * I) /\
    (forall c, (c < k)%Z -> c <> ba -> mem st c = h c).
Proof. exact text_elem_energy. Qed.
Print Assumptions C117_energy_text.
Local Open Scope Z_scope.
(** In every arithmetic, linear and plastic cells. *)
Theorem C117_matrix_refines : forall T (OT : Ops T) V A vold vnew u h k ba aa ex ey ez Ae vnew',
  v_dim V = 3 -> NoDup (body_addrs A ++ [ba])%list ->
  Forall (fun a => a < k) (body_addrs A ++ [ba])%list -> body V A vold vnew u h ->
  h ba = Some (OD aa) -> alen aa = 576 ->
  get_elem_mat3D V u vold vnew ex ey ez = Ok (Ae, vnew') ->
  exists st aa',
    calls asm_prog "get_elem_mat3D" [VP (a_this A) 0; VI ex; VI ey; VI ez; VP ba 0] h k (Ok (st, Nrm)) /\
    body V A vold vnew' u (mem st) /\ mem st ba = Some (OD aa') /\ vec 576 aa' Ae /\
    frame h (mem st) k [a_vn A; ba] /\ k <= nxt st.
Proof. exact @get_elem_mat3D_text. Qed.
Print Assumptions C117_matrix_refines.
(** The finite-difference tangent of a plastic Gauss point. *)
Theorem C117_tangent_refines : forall T (OT : Ops T) V A vold vnew u h k bc ac ex ey ez gp c vnew',
  v_dim V = 3 -> 0 <= gp < 8 -> NoDup (body_addrs A ++ [bc])%list ->
  Forall (fun a => a < k) (body_addrs A ++ [bc])%list -> body V A vold vnew u h ->
  h bc = Some (OD ac) -> alen ac = 36 ->
  ctan_plast_pert V u vold vnew ex ey ez gp = Ok (c, vnew') ->
  exists st ac',
    calls asm_prog "get_ctan_plast_pert"
      [VP (a_this A) 0; VI ex; VI ey; VI ez; VI gp; VP bc 0] h k (Ok (st, Nrm)) /\
    body V A vold vnew' u (mem st) /\
    mem st bc = Some (OD ac') /\ cells ac' (fc 36 (fun m => c (m / 6) (m mod 6))) /\
    frame h (mem st) k [a_vn A; bc] /\ k <= nxt st.
Proof. exact @get_ctan_text. Qed.
Print Assumptions C117_tangent_refines.
