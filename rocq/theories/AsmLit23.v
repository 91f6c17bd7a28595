(** What the program text of the cell routines of two dimensions (AsmAst.v) computes in exact arithmetic. *)
From Coq Require Import String Reals Lra FMapPositive.
From Verif Require Import Base Scalar Clite CliteRules EllAst AsmAst Sym Grid EllSpec EllModel EllOp AssemblyModel AsmLit AsmLit2 AsmLit3 AsmLit5
  AsmBnd AsmMat FemGen FemAve FemMat FemMat2 FemDef FemPd FemRhs FemEquil AsmPure AsmSpec AsmProps AsmRun CgPure CgProps AsmCases PlastRef MonoPoint MonoBody MonoEx Quad QuadEx Consts
  AsmLit9 AsmLit22.
Local Open Scope string_scope.
Local Open Scope Z_scope.
Local Open Scope R_scope.

(** the strain of a body that does not stretch out of its plane *)
Definition plane (e : Z -> R) (i : Z) : R := if (i <? 2)%Z then e i else if (i =? 3)%Z then e 2%Z else 0.
Theorem text_plane_stress V A vold vnew u h k be bl bs ae eps fl as_ ex ey g :
  body2 V -> is_cell2 V ex ey -> admissible (AsmPure.mat_at V (cellno V ex ey 0)) ->
  NoDup (body_addrs A ++ [be; bl; bs])%list -> Forall (fun a => (a < k)%Z) (body_addrs A ++ [be; bl; bs])%list ->
  body V A vold vnew u h -> h be = Some (OD ae) -> vec 3 ae eps -> h bl = Some (OI fl) -> alen fl = 1%Z ->
  h bs = Some (OD as_) -> (alen as_ = 3 \/ alen as_ = 6)%Z ->
  exists st fl' as',
    calls asm_prog "get_stress2D" [VP (a_this A) 0; VI ex; VI ey; VI g; VP be 0; VP bl 0; VP bs 0] h k (Ok (st, Nrm)) /\
    mem st bl = Some (OI fl') /\ aget fl' 0 = Some 0%Z /\ mem st bs = Some (OD as') /\ alen as' = alen as_ /\
    (let s := hooke (AsmPure.mat_at V (cellno V ex ey 0)) (plane (lget eps)) in
     aget as' 0 = Some (s 0%Z) /\ aget as' 1 = Some (s 1%Z) /\ aget as' 2 = Some (s 3%Z)) /\
    (forall c, (c < k)%Z -> c <> bl -> c <> bs -> mem st c = h c).
Proof.
  intros B Hc Am N F Hb He Ve Hl Ll Hs Ls. pose proof B as (S & G & D).
  pose proof (stress2_ok V ex ey g eps S D (proj2 (in_els2 V ex ey) Hc)) as E.
  destruct (get_stress2D_text V A vold vnew u h k be bl bs ae eps fl as_ ex ey g _ _ D N F Hb He Ve Hl Ll Hs Ls E)
    as (st & fl' & as' & R & _ & _ & M1 & L1 & G1 & M2 & L2 & V2 & Fr & _).
  exists st, fl', as'. split; [exact R|]. split; [exact M1|]. split; [exact G1|]. split; [exact M2|]. split; [exact L2|]. split.
  - cbv zeta. unfold pvec in V2. rewrite !V2 by lia. clear V2. unfold sig2.
    change (ix2 V (ex, ey)) with (cellno V ex ey 0). destruct Am as [AE A1 A2 Ak Amu Ala].
    set (m := AsmPure.mat_at V (cellno V ex ey 0)) in *. rewrite !stress2_ctan by lia.
    change (zrange 0 3) with [0; 1; 2]%Z. unfold hooke, plane, rsum. cbn -[m lget]. rewrite Amu, Ala.
    repeat split; f_equal; field; lra.
  - intros c Hk N1 N2. apply Fr; [exact Hk|]. cbn [In]. intuition congruence.
Qed.

Theorem text_gradient_strain2 V A vold vnew u h k bs as_ ex ey g :
  body2 V -> full u (ndofs V) -> is_cell2 V ex ey -> (0 <= g < 4)%Z ->
  NoDup (body_addrs A ++ [bs])%list -> Forall (fun a => (a < k)%Z) (body_addrs A ++ [bs])%list -> body V A vold vnew u h ->
  h bs = Some (OD as_) -> (alen as_ = 3 \/ alen as_ = 6)%Z ->
  let X := gpos (v_dx V) g 0 in let Y := gpos (v_dy V) g 1 in
  exists st s D, calls asm_prog "get_strain2D" [VP (a_this A) 0; VI ex; VI ey; VI g; VP bs 0] h k (Ok (st, Nrm)) /\
    mem st bs = Some (OD s) /\ alen s = alen as_ /\
    (forall c, (0 <= c < 2)%Z -> derivable_pt_lim (fun s => inside2 V u ex ey c s Y) X (D c 0%Z) /\
      derivable_pt_lim (fun s => inside2 V u ex ey c X s) Y (D c 1%Z)) /\
    aget s 0 = Some (D 0%Z 0%Z) /\ aget s 1 = Some (D 1%Z 1%Z) /\ aget s 2 = Some (D 0%Z 1%Z + D 1%Z 0%Z) /\
    (forall c, (c < k)%Z -> c <> bs -> mem st c = h c).
Proof.
  intros B F Hc Hg N Fo Hb Hs Ls. destruct (strain2_gradient V u ex ey g B F Hc Hg) as (eps & D & E & HD & E0 & E1 & E2).
  destruct (get_strain2D_text V A vold vnew u h k bs as_ ex ey g eps (proj2 (proj2 B)) Hg N Fo Hb Hs Ls E)
    as (st & s & R & _ & M & L & P & Fr & _).
  exists st, s, D. split; [exact R|]. split; [exact M|]. split; [exact L|]. split; [exact HD|]. unfold pvec in P.
  rewrite !P by lia. rewrite E0, E1, E2. repeat (split; [reflexivity|]). intros c Hk N1. apply Fr; [exact Hk|]. cbn [In]. intuition congruence.
Qed.

Theorem text_elem_work2 V A vold vnew u h k bb bl ab fl ex ey sig :
  body2 V -> full u (ndofs V) -> is_cell2 V ex ey -> stress_field2 V u sig ->
  NoDup (body_addrs A ++ [bb; bl])%list -> Forall (fun a => (a < k)%Z) (body_addrs A ++ [bb; bl])%list -> body V A vold vnew u h ->
  h bb = Some (OD ab) -> alen ab = 8%Z -> h bl = Some (OI fl) -> alen fl = 1%Z ->
  exists st b, calls asm_prog "get_elem_rhs2D" [VP (a_this A) 0; VI ex; VI ey; VP bl 0; VP bb 0] h k (Ok (st, Nrm)) /\
    mem st bb = Some (OD b) /\ full b 8 /\
    (forall w eps, full w (ndofs V) -> strain_field2 V w eps ->
       rsum (zrange 0 8) (fun i => vl b i * vl w (cdof2 V ex ey (i / 2) (i mod 2))) =
       rsum (zrange 0 4) (fun g => dot 3 (sig ex ey g) (eps ex ey g) * (v_dx V * v_dy V / 4))) /\
    (forall c, (c < k)%Z -> c <> bb -> c <> bl -> mem st c = h c).
Proof.
  intros B F Hc Hs N Fo Hb Hbb Lb Hl Ll. pose proof B as (S & G & D). pose proof (full_rep _ _ F) as U. rewrite (ndofs2 V S D) in U.
  assert (He : In (ex, ey) (els2 V)) by now apply in_els2.
  pose proof (elem_rhs2_ok V (vl u) u ex ey S D U He) as X.
  destruct (get_elem_rhs2D_text V A vold vnew u h k bb bl ab fl ex ey _ _ D N Fo Hb Hbb Lb Hl Ll X)
    as (st & b & fl' & R & _ & M & Vb & _ & _ & _ & Fr & _).
  exists st, b. split; [exact R|]. split; [exact M|]. split; [|split].
  - destruct Vb as (Lb' & Vb). split; [exact Lb'|]. intros i Hi. eexists. now apply Vb.
  - intros w eps Fw Hw. pose proof (proj1 (strain_field2_iff V w eps S Fw D) Hw) as Se. pose proof (proj1 (stress_field2_iff V u sig S D F) Hs) as Ss.
    transitivity (rsum (zrange 0 8) (fun i => rsum (zrange 0 4) (fun g => rsum (zrange 0 3) (fun v => B2 V g v i * gs2 V (vl u) (ex, ey) g v * wg2 V * vl w (addr2 V (ex, ey) i))))).
    { apply rsum_ext. intros i Hi. apply in_zrange in Hi. rewrite (vec_val 8 b _ i Vb) by lia. rewrite be2_entry by lia. rewrite cdof2_addr.
      unfold mbe. rewrite Rmult_comm. rewrite <- rsum_scal. apply rsum_ext. intros g _. rewrite <- rsum_scal. apply rsum_ext. intros v _. ring. }
    rewrite rsum_swap. apply rsum_ext. intros g Hg. apply in_zrange in Hg. rewrite rsum_swap. unfold dot. rewrite Rmult_comm, <- rsum_scal.
    apply rsum_ext. intros v Hv. apply in_zrange in Hv. rewrite (Ss ex ey g v Hc Hg Hv), (Se ex ey g v Hc Hg Hv).
    unfold str2, mstrain. rewrite <- !rsum_scal. apply rsum_ext. intros i _. rewrite wg2_R. field.
  - intros c Hk N1 N2. apply Fr; [exact Hk|]. cbn [In]. intuition congruence.
Qed.

Theorem text_elem_energy2 V A vold vnew u h k ba aa ex ey :
  body2 V -> is_cell2 V ex ey -> admissible (AsmPure.mat_at V (cellno V ex ey 0)) ->
  NoDup (body_addrs A ++ [ba])%list -> Forall (fun a => (a < k)%Z) (body_addrs A ++ [ba])%list -> body V A vold vnew u h ->
  h ba = Some (OD aa) -> alen aa = 64%Z ->
  exists st K, calls asm_prog "get_elem_mat2D" [VP (a_this A) 0; VI ex; VI ey; VP ba 0] h k (Ok (st, Nrm)) /\
    mem st ba = Some (OD K) /\ full K 64 /\
    (forall i j, (0 <= i < 8)%Z -> (0 <= j < 8)%Z -> vl K (i * 8 + j) = vl K (j * 8 + i)) /\
    (forall w D, full w (ndofs V) -> gradient2 (inside2 V w ex ey) D ->
       exists I, is_int2 (dens2 (AsmPure.mat_at V (cellno V ex ey 0)) D) (v_dx V) (v_dy V) I /\
       let x i := vl w (cdof2 V ex ey (i / 2) (i mod 2)) in
       let q := rsum (zrange 0 8) (fun i => rsum (zrange 0 8) (fun j => x i * vl K (i * 8 + j) * x j)) in
       I <= q <= (1 + 2 / 1000000000000000) * I) /\
    (forall c, (c < k)%Z -> c <> ba -> mem st c = h c).
Proof.
  intros B Hc Am N Fo Hb Ha La.
  destruct (elem_symmetric2 V ex ey B Hc) as (K & E & Sy).
  destruct (get_elem_mat2D_text V A vold vnew u h k ba aa ex ey K (proj2 (proj2 B)) N Fo Hb Ha La E) as (st & a & R & B' & M & Va & Fr & _).
  exists st, a. split; [exact R|]. split; [exact M|]. split; [|split; [|split]].
  - destruct Va as (L & G). split; [exact L|]. intros i Hi. eexists. now apply G.
  - intros i j Hi Hj. rewrite !(vec_val 64 a K _ Va) by lia. now apply Sy.
  - intros w D Fw Hw. destruct (exact_energy2 V ex ey w D B Hc Am Fw Hw) as (K' & I & E' & Hi & _ & Q).
    rewrite E in E'. injection E' as <-. exists I. split; [exact Hi|]. cbv zeta in Q |- *. unfold qform in Q.
    erewrite rsum_ext; [exact Q|]. intros i Hi'. apply in_zrange in Hi'. cbv beta. apply rsum_ext. intros j Hj. apply in_zrange in Hj.
    rewrite (vec_val 64 a K _ Va) by lia. reflexivity.
  - intros c Hk N1. apply Fr; [exact Hk|]. cbn [In]. intuition congruence.
Qed.

(** a cell of a composite, a displacement, and a memory that holds them *)
Lemma arr6_vec3 l : vec 3 (fun_arr 3 (lget l)) l.
Proof. destruct (fun_arr_rep 3 (lget l)) as (L & G). split; [exact L|exact G]. Qed.
Lemma cell_case2 : exists u D, let e := [1; 2; 3] in
  let h o := home_mem blend2 (blank 0) (blank 0) u (OD (blank o)) (OI flag) (OD (fun_arr 3 (lget e))) in
  body2 blend2 /\ full u (ndofs blend2) /\ is_cell2 blend2 1 2 /\ admissible (AsmPure.mat_at blend2 (cellno blend2 1 2 0)) /\
  gradient2 (inside2 blend2 u 1 2) D /\ vl u 5 <> 0 /\ (exists sig, stress_field2 blend2 u sig) /\
  (forall o, body blend2 home (blank 0) (blank 0) u (h o) /\ h o 11%Z = Some (OD (blank o)) /\ h o 12%Z = Some (OI flag) /\ alen flag = 1%Z /\
     h o 13%Z = Some (OD (fun_arr 3 (lget e))) /\ vec 3 (fun_arr 3 (lget e)) e) /\
  NoDup (body_addrs home ++ [13; 12; 11]%Z)%list /\ Forall (fun a => (a < 14)%Z) (body_addrs home ++ [13; 12; 11]%Z)%list /\
  NoDup (body_addrs home ++ [11; 12]%Z)%list /\ NoDup (body_addrs home ++ [11]%Z)%list.
Proof.
  destruct quad_ex2 as (B & C & Am & _).
  pose proof (fun_arr_rep (ndofs blend2) (fun i => IZR i)) as U. set (u := fun_arr (ndofs blend2) (fun i => IZR i)) in *.
  destruct (has_gradient2 blend2 u 1 2) as (D & HD). exists u, D. cbv zeta.
  split; [exact B|]. split; [exact (rep_full _ _ _ U)|]. split; [exact C|]. split; [exact Am|]. split; [exact HD|].
  split. { unfold vl. destruct U as (_ & U). rewrite U by (cbv; split; congruence). lra. }
  split. { exists (fun ex ey g v => gs2 blend2 (vl u) (ex, ey) g v). apply stress_field2_iff; auto; try apply B. exact (rep_full _ _ _ U). }
  split. { intros o. destruct (home_case blend2 (blank 0) (blank 0) u (OD (blank o)) (OI flag) (OD (fun_arr 3 (lget [1; 2; 3])))) as (H1 & H2 & H3 & H4 & _).
    repeat (split; [assumption || reflexivity|]). apply arr6_vec3. }
  cbn. repeat split; repeat (constructor; [first [lia|cbn [In]; intuition discriminate]|]); constructor.
Qed.
