(** C126-C127: the program text of the routines of one cell of a plane body in src/assembly.cpp (the syntax trees of
    AsmAst.v, under the semantics of Clite.v), in exact arithmetic and in every arithmetic.  [body V A vold vnew u h]
    says that the memory h holds at the addresses A an object with the members of V, its cell types and materials, its
    internal variables and its displacements. *)
From Coq Require Import String Reals.
From Verif Require Import Base Scalar Clite AsmAst Sym EllSpec EllModel AssemblyModel AsmLit AsmLit2
  FemGen FemAve FemPd AsmPure FemRhs AsmSpec AsmProps AsmCases PlastRef MonoPoint CgProps Quad AsmLit9 AsmLit22 AsmLit23.
Local Open Scope string_scope.
Local Open Scope Z_scope.
Local Open Scope R_scope.

Example C126_example : exists u D, let e := [1; 2; 3] in
  let h o := home_mem blend2 (blank 0) (blank 0) u (OD (blank o)) (OI flag) (OD (fun_arr 3 (lget e))) in
  body2 blend2 /\ full u (ndofs blend2) /\ is_cell2 blend2 1 2 /\ admissible (AsmPure.mat_at blend2 (cellno blend2 1 2 0)) /\
  gradient2 (inside2 blend2 u 1 2) D /\ vl u 5 <> 0 /\ (exists sig, stress_field2 blend2 u sig) /\
  (forall o, body blend2 home (blank 0) (blank 0) u (h o) /\ h o 11%Z = Some (OD (blank o)) /\ h o 12%Z = Some (OI flag) /\ alen flag = 1%Z /\
     h o 13%Z = Some (OD (fun_arr 3 (lget e))) /\ vec 3 (fun_arr 3 (lget e)) e) /\
  NoDup (body_addrs home ++ [13; 12; 11]%Z)%list /\ Forall (fun a => (a < 14)%Z) (body_addrs home ++ [13; 12; 11]%Z)%list /\
  NoDup (body_addrs home ++ [11; 12]%Z)%list /\ NoDup (body_addrs home ++ [11]%Z)%list.
Proof. exact cell_case2. Qed.
(** C126.  The text of get_strain2D stores the symmetric gradient of the bilinear displacement at the Gauss point. *)
Theorem C126_gradient_text_2d : forall V A vold vnew u h k bs as_ ex ey g,
  body2 V -> full u (ndofs V) -> is_cell2 V ex ey -> (0 <= g < 4)%Z ->
  NoDup (body_addrs A ++ [bs])%list -> Forall (fun a => (a < k)%Z) (body_addrs A ++ [bs])%list -> body V A vold vnew u h ->
  h bs = Some (OD as_) -> (alen as_ = 3 \/ alen as_ = 6)%Z ->
  let X := gpos (v_dx V) g 0 in let Y := gpos (v_dy V) g 1 in
  exists st s D, calls asm_prog "get_strain2D" [VP (a_this A) 0; VI ex; VI ey; VI g; VP bs 0] h k (Ok (st, Nrm)) /\
    mem st bs = Some (OD s) /\ alen s = alen as_ /\
    (forall c, (0 <= c < 2)%Z -> derivable_pt_lim (fun s => inside2 V u ex ey c s Y) X (D c 0%Z) /\
      derivable_pt_lim (fun s => inside2 V u ex ey c X s) Y (D c 1%Z)) /\
    aget s 0 = Some (D 0%Z 0%Z) /\ aget s 1 = Some (D 1%Z 1%Z) /\ aget s 2 = Some (D 0%Z 1%Z + D 1%Z 0%Z) /\
    (forall c, (c < k)%Z -> c <> bs -> mem st c = h c).
Proof. exact text_gradient_strain2. Qed.
Print Assumptions C126_gradient_text_2d.
(** The text of get_stress2D stores the in-plane part of Hooke's law for a strain without components out of the plane, and
    clears the flag. *)
Theorem C126_plane_stress_text : forall V A vold vnew u h k be bl bs ae eps fl as_ ex ey g,
  body2 V -> is_cell2 V ex ey -> admissible (AsmPure.mat_at V (cellno V ex ey 0)) ->
  NoDup (body_addrs A ++ [be; bl; bs])%list -> Forall (fun a => (a < k)%Z) (body_addrs A ++ [be; bl; bs])%list ->
  body V A vold vnew u h -> h be = Some (OD ae) -> vec 3 ae eps -> h bl = Some (OI fl) -> alen fl = 1%Z ->
  h bs = Some (OD as_) -> (alen as_ = 3 \/ alen as_ = 6)%Z ->
  exists st fl' as',
    calls asm_prog "get_stress2D" [VP (a_this A) 0; VI ex; VI ey; VI g; VP be 0; VP bl 0; VP bs 0] h k (Ok (st, Nrm)) /\
    mem st bl = Some (OI fl') /\ aget fl' 0 = Some 0%Z /\ mem st bs = Some (OD as') /\ alen as' = alen as_ /\
    (let s := hooke (AsmPure.mat_at V (cellno V ex ey 0)) (plane (lget eps)) in
     aget as' 0 = Some (s 0%Z) /\ aget as' 1 = Some (s 1%Z) /\ aget as' 2 = Some (s 3%Z)) /\
    (forall c, (c < k)%Z -> c <> bl -> c <> bs -> mem st c = h c).
Proof. exact text_plane_stress. Qed.
Print Assumptions C126_plane_stress_text.
Local Open Scope Z_scope.
(** In every arithmetic. *)
Theorem C126_strain_refines_2d : forall T (OT : Ops T) V A vold vnew u h k bs as_ ex ey gp eps,
  v_dim V = 2 -> 0 <= gp < 4 -> NoDup (body_addrs A ++ [bs])%list ->
  Forall (fun a => a < k) (body_addrs A ++ [bs])%list -> body V A vold vnew u h ->
  h bs = Some (OD as_) -> (alen as_ = 3 \/ alen as_ = 6) ->
  get_strain2D V u ex ey gp = Ok eps ->
  exists st as', calls asm_prog "get_strain2D" [VP (a_this A) 0; VI ex; VI ey; VI gp; VP bs 0] h k (Ok (st, Nrm)) /\
    body V A vold vnew u (mem st) /\ mem st bs = Some (OD as') /\ alen as' = alen as_ /\ pvec 3 as' eps /\
    frame h (mem st) k [bs] /\ k <= nxt st.
Proof. exact @get_strain2D_text. Qed.
Print Assumptions C126_strain_refines_2d.
Theorem C126_stress_refines_2d : forall T (OT : Ops T) V A vold vnew u h k be bl bs ae eps fl as_ ex ey gp nl s,
  v_dim V = 2 -> NoDup (body_addrs A ++ [be; bl; bs])%list ->
  Forall (fun a => a < k) (body_addrs A ++ [be; bl; bs])%list -> body V A vold vnew u h ->
  h be = Some (OD ae) -> vec 3 ae eps -> h bl = Some (OI fl) -> alen fl = 1 ->
  h bs = Some (OD as_) -> (alen as_ = 3 \/ alen as_ = 6) ->
  get_stress2D V ex ey gp eps = Ok (nl, s) ->
  exists st fl' as',
    calls asm_prog "get_stress2D" [VP (a_this A) 0; VI ex; VI ey; VI gp; VP be 0; VP bl 0; VP bs 0] h k (Ok (st, Nrm)) /\
    body V A vold vnew u (mem st) /\ mem st be = Some (OD ae) /\
    mem st bl = Some (OI fl') /\ alen fl' = 1 /\ aget fl' 0 = Some (if nl then 1 else 0) /\
    mem st bs = Some (OD as') /\ alen as' = alen as_ /\ pvec 3 as' s /\
    frame h (mem st) k [bl; bs] /\ k <= nxt st.
Proof. exact @get_stress2D_text. Qed.
Print Assumptions C126_stress_refines_2d.

Local Open Scope R_scope.
Example C127_example : exists u D, let e := [1; 2; 3] in
  let h o := home_mem blend2 (blank 0) (blank 0) u (OD (blank o)) (OI flag) (OD (fun_arr 3 (lget e))) in
  body2 blend2 /\ full u (ndofs blend2) /\ is_cell2 blend2 1 2 /\ admissible (AsmPure.mat_at blend2 (cellno blend2 1 2 0)) /\
  gradient2 (inside2 blend2 u 1 2) D /\ vl u 5 <> 0 /\ (exists sig, stress_field2 blend2 u sig) /\
  (forall o, body blend2 home (blank 0) (blank 0) u (h o) /\ h o 11%Z = Some (OD (blank o)) /\ h o 12%Z = Some (OI flag) /\ alen flag = 1%Z /\
     h o 13%Z = Some (OD (fun_arr 3 (lget e))) /\ vec 3 (fun_arr 3 (lget e)) e) /\
  NoDup (body_addrs home ++ [13; 12; 11]%Z)%list /\ Forall (fun a => (a < 14)%Z) (body_addrs home ++ [13; 12; 11]%Z)%list /\
  NoDup (body_addrs home ++ [11; 12]%Z)%list /\ NoDup (body_addrs home ++ [11]%Z)%list.
Proof. exact cell_case2. Qed.
(** C127.  The text of get_elem_rhs2D stores the forces whose work on the nodal values of any field is the work of the stresses
    of the cell on the strains of that field. *)
Theorem C127_virtual_work_text_2d : forall V A vold vnew u h k bb bl ab fl ex ey sig,
  body2 V -> full u (ndofs V) -> is_cell2 V ex ey -> stress_field2 V u sig ->
  NoDup (body_addrs A ++ [bb; bl])%list -> Forall (fun a => (a < k)%Z) (body_addrs A ++ [bb; bl])%list -> body V A vold vnew u h ->
  h bb = Some (OD ab) -> alen ab = 8%Z -> h bl = Some (OI fl) -> alen fl = 1%Z ->
  exists st b, calls asm_prog "get_elem_rhs2D" [VP (a_this A) 0; VI ex; VI ey; VP bl 0; VP bb 0] h k (Ok (st, Nrm)) /\
    mem st bb = Some (OD b) /\ full b 8 /\
    (forall w eps, full w (ndofs V) -> strain_field2 V w eps ->
       rsum (zrange 0 8) (fun i => vl b i * vl w (cdof2 V ex ey (i / 2) (i mod 2))) =
       rsum (zrange 0 4) (fun g => dot 3 (sig ex ey g) (eps ex ey g) * (v_dx V * v_dy V / 4))) /\
    (forall c, (c < k)%Z -> c <> bb -> c <> bl -> mem st c = h c).
Proof. exact text_elem_work2. Qed.
Print Assumptions C127_virtual_work_text_2d.
(** The text of get_elem_mat2D stores a symmetric matrix whose quadratic form is the exact strain energy of the interpolated
    displacement, up to the digits of the Gauss points. *)
Theorem C127_energy_text_2d : forall V A vold vnew u h k ba aa ex ey,
  body2 V -> is_cell2 V ex ey -> admissible (AsmPure.mat_at V (cellno V ex ey 0)) ->
  NoDup (body_addrs A ++ [ba])%list -> Forall (fun a => (a < k)%Z) (body_addrs A ++ [ba])%list -> body V A vold vnew u h ->
  h ba = Some (OD aa) -> alen aa = 64%Z ->
  exists st K, calls asm_prog "get_elem_mat2D" [VP (a_this A) 0; VI ex; VI ey; VP ba 0] h k (Ok (st, Nrm)) /\
    mem st ba = Some (OD K) /\ full K 64 /\
    (forall i j, (0 <= i < 8)%Z -> (0 <= j < 8)%Z -> vl K (i * 8 + j) = vl K (j * 8 + i)) /\
    (forall w D, full w (ndofs V) -> gradient2 (inside2 V w ex ey) D ->
       exists I, is_int2 (dens2 (AsmPure.mat_at V (cellno V ex ey 0)) D) (v_dx V) (v_dy V) I /\
       let x i := vl w (cdof2 V ex ey (i / 2) (i mod 2)) in
       let q := rsum (zrange 0 8) (fun i => rsum (zrange 0 8) (fun j => x i * vl K (i * 8 + j) * x j)) in
       I <= q <= (1 + 2 / 1000000000000000) * I) /\
    (forall c, (c < k)%Z -> c <> ba -> mem st c = h c).
Proof. exact text_elem_energy2. Qed.
Print Assumptions C127_energy_text_2d.
Local Open Scope Z_scope.
(** In every arithmetic. *)
Theorem C127_residual_refines_2d : forall T (OT : Ops T) V A vold vnew u h k bb bl ab fl ex ey be nl,
  v_dim V = 2 -> NoDup (body_addrs A ++ [bb; bl])%list ->
  Forall (fun a => a < k) (body_addrs A ++ [bb; bl])%list -> body V A vold vnew u h ->
  h bb = Some (OD ab) -> alen ab = 8 -> h bl = Some (OI fl) -> alen fl = 1 ->
  get_elem_rhs2D V u ex ey = Ok (be, nl) ->
  exists st ab' fl',
    calls asm_prog "get_elem_rhs2D" [VP (a_this A) 0; VI ex; VI ey; VP bl 0; VP bb 0] h k (Ok (st, Nrm)) /\
    body V A vold vnew u (mem st) /\ mem st bb = Some (OD ab') /\ vec 8 ab' be /\
    mem st bl = Some (OI fl') /\ alen fl' = 1 /\ aget fl' 0 = Some (if nl then 1 else 0) /\
    frame h (mem st) k [bb; bl] /\ k <= nxt st.
Proof. exact @get_elem_rhs2D_text. Qed.
Print Assumptions C127_residual_refines_2d.
Theorem C127_matrix_refines_2d : forall T (OT : Ops T) V A vold vnew u h k bb ab ex ey Ae,
  v_dim V = 2 -> NoDup (body_addrs A ++ [bb])%list ->
  Forall (fun a => a < k) (body_addrs A ++ [bb])%list -> body V A vold vnew u h ->
  h bb = Some (OD ab) -> alen ab = 64 -> get_elem_mat2D V ex ey = Ok Ae ->
  exists st ab',
    calls asm_prog "get_elem_mat2D" [VP (a_this A) 0; VI ex; VI ey; VP bb 0] h k (Ok (st, Nrm)) /\
    body V A vold vnew u (mem st) /\ mem st bb = Some (OD ab') /\ vec 64 ab' Ae /\
    frame h (mem st) k [bb] /\ k <= nxt st.
Proof. exact @get_elem_mat2D_text. Qed.
Print Assumptions C127_matrix_refines_2d.
