(** What the program text of the cell routines (AsmAst.v) computes in exact arithmetic, and memories that hold a body. *)
From Coq Require Import String Reals Lra FMapPositive.
From Verif Require Import Base Scalar Clite CliteRules EllAst AsmAst Sym Grid EllSpec EllModel EllOp AssemblyModel AsmLit AsmLit2 AsmLit3 AsmLit5 AsmLit6 AsmLit8
  AsmBnd AsmMat FemGen FemAve FemMat FemMat2 FemDef FemPd FemRhs FemEquil AsmPure AsmSpec AsmProps AsmRun CgPure CgProps AsmCases PlastRef MonoPoint MonoBody MonoEx Quad QuadEx Consts.
Local Open Scope string_scope.
Local Open Scope Z_scope.

Section Mem.
Context {T : Type} `{OT : Ops T}.
(** the object at 0, its arrays at 1-5, three further blocks at 11-13 *)
Definition home : place := mkPlace 0 1 2 3 4 5 6 7 8 9 10.
Definition home_mem (V : env T) (vold vnew u : arr T) (o1 o2 o3 : @obj T) (c : Z) : option (@obj T) :=
  if c =? 0 then Some (OS (this_flds (v_dim V) (v_type V) V (ptr 1) (ptr 2) (ptr 3) (ptr 4) (ptr 5) (ptr 6) (ptr 7) (ptr 8) (ptr 9) (ptr 10)))
  else if c =? 1 then Some (OI (v_etype V))
  else if c =? 2 then Some (OV (map (fun m => mat_flds m (m_plast m)) (v_mats V) ++ [[]; []])%list)
  else if c =? 3 then Some (OD vold) else if c =? 4 then Some (OD vnew) else if c =? 5 then Some (OD u)
  else if c =? 11 then Some o1 else if c =? 12 then Some o2 else if c =? 13 then Some o3 else None.
Lemma this_fget (l : list (string * option (@Clite.val T))) : NoDup (map fst l) -> forall f w, In (f, w) l -> fget l f = Some w.
Proof.
  induction l as [|[g x] l IH]; intros N f w; [intros []|]. cbn [fget map fst] in *. apply NoDup_cons_iff in N. destruct N as (N1 & N2).
  destruct (String.eqb_spec f g) as [->|Q].
  - intros [[= ->]|I]; [reflexivity|]. exfalso. apply N1. apply in_map_iff. exists (g, w). auto.
  - intros [[= -> _]|I]; [now destruct Q|]. now apply IH.
Qed.
Ltac nodup := cbn [map fst In]; repeat (constructor; [cbn [In]; intuition discriminate|]); constructor.
Lemma home_body V vold vnew u o1 o2 o3 : body V home vold vnew u (home_mem V vold vnew u o1 o2 o3).
Proof.
  do 2 eexists. split; [reflexivity|]. split.
  { intros f w. apply this_fget. nodup. }
  split; [reflexivity|]. split; [reflexivity|]. split.
  { split; [rewrite app_length; cbn; rewrite Nat.add_comm; auto with arith|].
    intros i m Hm. exists (mat_flds m (m_plast m)). split.
    - rewrite nth_error_app1; [exact (map_nth_error (fun m => mat_flds m (m_plast m)) i (v_mats V) Hm)|]. rewrite map_length. apply nth_error_Some. congruence.
    - intros f w I. exists w. split; [|auto]. apply this_fget; [nodup|exact I]. }
  auto.
Qed.
Lemma home_apart : NoDup (body_addrs home ++ [11; 12; 13])%list /\ Forall (fun a => a < 14) (body_addrs home ++ [11; 12; 13])%list.
Proof. cbn. split; [nodup|repeat (constructor; [lia|]); constructor]. Qed.
Lemma home_case V vold vnew u o1 o2 o3 : let h := home_mem V vold vnew u o1 o2 o3 in
  body V home vold vnew u h /\ h 11 = Some o1 /\ h 12 = Some o2 /\ h 13 = Some o3 /\
  NoDup (body_addrs home ++ [11; 12; 13])%list /\ Forall (fun a => a < 14) (body_addrs home ++ [11; 12; 13])%list.
Proof. cbv zeta. split; [apply home_body|]. repeat (split; [reflexivity|]). exact home_apart. Qed.
End Mem.

Local Open Scope R_scope.
Notation vl := AsmSpec.val.
Lemma vec_val n a l i : vec n a l -> (0 <= i < Z.of_nat n)%Z -> vl a i = lget l i.
Proof. intros (_ & H) Hi. unfold vl. now rewrite (H i Hi). Qed.

(** ** The material law *)
Theorem text_linear_stress V A vold vnew u h k be bl bs ae eps fl as_ ex ey ez g m :
  body3 V -> is_cell3 V ex ey ez -> cell_mat V ex ey ez m -> m_plast m = Some false ->
  NoDup (body_addrs A ++ [be; bl; bs])%list -> Forall (fun a => (a < k)%Z) (body_addrs A ++ [be; bl; bs])%list ->
  body V A vold vnew u h -> h be = Some (OD ae) -> vec 6 ae eps -> h bl = Some (OI fl) -> alen fl = 1%Z ->
  h bs = Some (OD as_) -> alen as_ = 6%Z ->
  exists st fl' as',
    calls asm_prog "get_stress3D" [VP (a_this A) 0; VI ex; VI ey; VI ez; VI g; VP be 0; VP bl 0; VP bs 0] h k (Ok (st, Nrm)) /\
    mem st bl = Some (OI fl') /\ aget fl' 0 = Some 0%Z /\ mem st bs = Some (OD as') /\ alen as' = 6%Z /\
    (forall i, (0 <= i < 6)%Z -> aget as' i = Some (hooke m (lget eps) i)) /\
    (forall c, (c < k)%Z -> c <> bl -> c <> bs -> mem st c = h c).
Proof.
  intros B Hc Hm Pl N F Hb He Ve Hl Ll Hs Ls.
  destruct (linear_stress V vold vnew ex ey ez g m eps B Hc Hm Pl) as (l & E & L).
  destruct (get_stress3D_text V A vold vnew u h k be bl bs ae eps fl as_ ex ey ez g _ _ _ (proj2 (proj2 B)) N F Hb He Ve Hl Ll Hs Ls E)
    as (st & fl' & as' & R & B' & M1 & L1 & G1 & M2 & (V1 & V2) & Fr & _).
  exists st, fl', as'. split; [exact R|]. split; [exact M1|]. split; [exact G1|]. split; [exact M2|]. split; [exact V1|]. split.
  - intros i Hi. rewrite (V2 i Hi). now rewrite L.
  - intros c Hk N1 N2. destruct (Z.eq_dec c (a_vn A)) as [->|N3].
    + destruct B' as (x1 & x2 & _ & _ & _ & _ & _ & _ & X & _). destruct Hb as (y1 & y2 & _ & _ & _ & _ & _ & _ & Y & _). congruence.
    + apply Fr; [exact Hk|]. cbn [In]. intuition congruence.
Qed.

(** two calls of the text from memories with the same history *)
Theorem text_monotone V A1 A2 vold vnew1 vnew2 u1 u2 h1 h2 k1 k2 be1 bl1 bs1 be2 bl2 bs2 ae1 ae2 eps1 eps2 fl1 fl2 as1 as2 ex ey ez g m :
  body3 V -> vars_ok V vold vnew1 -> vars_ok V vold vnew2 -> is_cell3 V ex ey ez -> (0 <= g < 8)%Z -> cell_mat V ex ey ez m -> admissible m ->
  (m_plast m = Some true -> 0 <= m_Sy m + m_Ka m * vl vold (var3 V ex ey ez g 6)) ->
  NoDup (body_addrs A1 ++ [be1; bl1; bs1])%list -> Forall (fun a => (a < k1)%Z) (body_addrs A1 ++ [be1; bl1; bs1])%list ->
  body V A1 vold vnew1 u1 h1 -> h1 be1 = Some (OD ae1) -> vec 6 ae1 eps1 -> h1 bl1 = Some (OI fl1) -> alen fl1 = 1%Z ->
  h1 bs1 = Some (OD as1) -> alen as1 = 6%Z ->
  NoDup (body_addrs A2 ++ [be2; bl2; bs2])%list -> Forall (fun a => (a < k2)%Z) (body_addrs A2 ++ [be2; bl2; bs2])%list ->
  body V A2 vold vnew2 u2 h2 -> h2 be2 = Some (OD ae2) -> vec 6 ae2 eps2 -> h2 bl2 = Some (OI fl2) -> alen fl2 = 1%Z ->
  h2 bs2 = Some (OD as2) -> alen as2 = 6%Z ->
  exists st1 st2 t1 t2,
    calls asm_prog "get_stress3D" [VP (a_this A1) 0; VI ex; VI ey; VI ez; VI g; VP be1 0; VP bl1 0; VP bs1 0] h1 k1 (Ok (st1, Nrm)) /\
    calls asm_prog "get_stress3D" [VP (a_this A2) 0; VI ex; VI ey; VI ez; VI g; VP be2 0; VP bl2 0; VP bs2 0] h2 k2 (Ok (st2, Nrm)) /\
    mem st1 bs1 = Some (OD t1) /\ mem st2 bs2 = Some (OD t2) /\
    let D i := vl t1 i - vl t2 i in let E i := lget eps1 i - lget eps2 i in
    contract6 (dev6 D) (dev6 D) / (2 * m_mu m) + trace6 D * trace6 D / (9 * (m_lambda m + 2 * m_mu m / 3)) <= dot 6 D E <= dot 6 (hooke m E) E.
Proof.
  intros B W1 W2 Hc Hg Hm Am Y N1 F1 B1 He1 Ve1 Hl1 Ll1 Hs1 Ls1 N2 F2 B2 He2 Ve2 Hl2 Ll2 Hs2 Ls2.
  assert (Q : forall vnew eps, vars_ok V vold vnew -> exists nl s v, get_stress3D V vold vnew ex ey ez g eps = Ok (nl, s, v)).
  { intros vnew eps W. destruct B as (S & G & D). pose proof (vars_old V vold vnew W) as O. assert (He : In (ex, ey, ez) (els3 V)) by now apply in_els3.
    destruct (run_stores_ok (st3 V (vl vold) (ex, ey, ez) g eps) vnew) as (vn & Ev & _).
    { intros j x Hj. apply (st3_range V (fun _ => 0)) in Hj; try assumption. destruct W as (_ & L). lia. }
    do 3 eexists. rewrite (stress3_ok V (fun _ => 0) (vl vold)) by assumption. rewrite Ev. reflexivity. }
  destruct (Q vnew1 eps1 W1) as (nl1 & s1 & v1 & E1). destruct (Q vnew2 eps2 W2) as (nl2 & s2 & v2 & E2).
  destruct (get_stress3D_text V A1 vold vnew1 u1 h1 k1 be1 bl1 bs1 ae1 eps1 fl1 as1 ex ey ez g _ _ _ (proj2 (proj2 B)) N1 F1 B1 He1 Ve1 Hl1 Ll1 Hs1 Ls1 E1)
    as (st1 & x1 & t1 & R1 & _ & _ & _ & _ & M1 & V1 & _).
  destruct (get_stress3D_text V A2 vold vnew2 u2 h2 k2 be2 bl2 bs2 ae2 eps2 fl2 as2 ex ey ez g _ _ _ (proj2 (proj2 B)) N2 F2 B2 He2 Ve2 Hl2 Ll2 Hs2 Ls2 E2)
    as (st2 & x2 & t2 & R2 & _ & _ & _ & _ & M2 & V2 & _).
  exists st1, st2, t1, t2. repeat (split; [assumption|]).
  pose proof (mono_point V vold vnew1 vnew2 ex ey ez g m eps1 eps2 nl1 s1 v1 nl2 s2 v2 B W1 W2 Hc Hg Hm Am Y E1 E2) as P. cbv zeta in P |- *.
  assert (X : forall i, (0 <= i < 6)%Z -> vl t1 i - vl t2 i = lget s1 i - lget s2 i).
  { intros i Hi. now rewrite (vec_val 6 t1 s1 i V1 Hi), (vec_val 6 t2 s2 i V2 Hi). }
  assert (X1 : forall E, dot 6 (fun i => vl t1 i - vl t2 i) E = dot 6 (fun i => lget s1 i - lget s2 i) E).
  { intros E. apply rsum_ext. intros i Hi. apply in_zrange in Hi. now rewrite X. }
  rewrite X1. revert P. unfold contract6, dev6, trace6. cbv beta. cbn [Z.ltb Z.compare Pos.compare Pos.compare_cont].
  rewrite !X by lia. intros P. exact P.
Qed.

(** ** Strains *)
Theorem text_gradient_strain V A fs u h k bt bs as_ ex ey ez g :
  body3 V -> full u (ndofs V) -> is_cell3 V ex ey ez -> (0 <= g < 8)%Z ->
  NoDup [bt; a_u A; bs] -> Forall (fun a => (a < k)%Z) [bt; a_u A; bs] ->
  h bt = Some (OS fs) -> this_in fs V A -> h (a_u A) = Some (OD u) -> h bs = Some (OD as_) -> alen as_ = 6%Z ->
  let X := gpos (v_dx V) g 0 in let Y := gpos (v_dy V) g 1 in let Zc := gpos (v_dz V) g 2 in
  exists st s D, calls asm_prog "get_strain3D" [VP bt 0; VI ex; VI ey; VI ez; VI g; VP bs 0] h k (Ok (st, Nrm)) /\
    mem st bs = Some (OD s) /\ alen s = 6%Z /\
    (forall c, (0 <= c < 3)%Z -> derivable_pt_lim (fun s => inside3 V u ex ey ez c s Y Zc) X (D c 0%Z) /\
      derivable_pt_lim (fun s => inside3 V u ex ey ez c X s Zc) Y (D c 1%Z) /\
      derivable_pt_lim (fun s => inside3 V u ex ey ez c X Y s) Zc (D c 2%Z)) /\
    aget s 0 = Some (D 0%Z 0%Z) /\ aget s 1 = Some (D 1%Z 1%Z) /\ aget s 2 = Some (D 2%Z 2%Z) /\
    aget s 3 = Some (D 0%Z 1%Z + D 1%Z 0%Z) /\ aget s 4 = Some (D 0%Z 2%Z + D 2%Z 0%Z) /\ aget s 5 = Some (D 1%Z 2%Z + D 2%Z 1%Z) /\
    (forall c, (c < k)%Z -> c <> bs -> mem st c = h c).
Proof.
  intros B F Hc Hg N Fo Ht Hi Hu Hs Ls X Y Zc. destruct (strain3_gradient V u ex ey ez g B F Hc Hg) as (eps & D & E & Gr & E0 & E1 & E2 & E3 & E4 & E5).
  destruct (get_strain3D_text V A fs u h k bt (a_u A) bs as_ ex ey ez g eps (proj2 (proj2 B)) Hg N Fo Ht Hi eq_refl Hu Hs Ls E) as (st & s & R & M & (V1 & V2) & Fr & _).
  exists st, s, D. split; [exact R|]. split; [exact M|]. split; [exact V1|]. split; [exact Gr|]. rewrite !V2 by lia. rewrite E0, E1, E2, E3, E4, E5.
  repeat (split; [reflexivity|]). intros c Hk Nc. apply Fr; [exact Hk|]. cbn [In]. intuition congruence.
Qed.

(** ** Element residual: the virtual work of the stresses *)
Theorem text_elem_work V A vold vnew u h k bb bl ab fl ex ey ez sig :
  body3 V -> full u (ndofs V) -> vars_ok V vold vnew -> is_cell3 V ex ey ez -> stress_field3 V u vold vnew sig ->
  NoDup (body_addrs A ++ [bb; bl])%list -> Forall (fun a => (a < k)%Z) (body_addrs A ++ [bb; bl])%list -> body V A vold vnew u h ->
  h bb = Some (OD ab) -> alen ab = 24%Z -> h bl = Some (OI fl) -> alen fl = 1%Z ->
  exists st b, calls asm_prog "get_elem_rhs3D" [VP (a_this A) 0; VI ex; VI ey; VI ez; VP bl 0; VP bb 0] h k (Ok (st, Nrm)) /\
    mem st bb = Some (OD b) /\ full b 24 /\
    (forall w eps, full w (ndofs V) -> strain_field3 V w eps ->
       rsum (zrange 0 24) (fun i => vl b i * vl w (cdof3 V ex ey ez (i / 3) (i mod 3))) =
       rsum (zrange 0 8) (fun g => dot 6 (sig ex ey ez g) (eps ex ey ez g) * (v_dx V * v_dy V * v_dz V / 8))) /\
    (forall c, (c < k)%Z -> c <> bb -> c <> bl -> c <> a_vn A -> mem st c = h c).
Proof.
  intros B F W Hc Hs N Fo Hb Hbb Lb Hl Ll. pose proof B as (S & G & D). pose proof (full_rep _ _ F) as U. rewrite (ndofs3 V D) in U.
  pose proof (vars_old _ _ _ W) as O. assert (He : In (ex, ey, ez) (els3 V)) by now apply in_els3.
  destruct (run_stores_ok (cell_st V (vl u) (vl vold) (ex, ey, ez)) vnew) as (v' & Ev & _).
  { intros j x Hj. unfold cell_st in Hj. apply in_flat_map in Hj. destruct Hj as (g & Hg & Hj). apply in_zrange in Hg.
    apply (st3_range V (vl u)) in Hj; try assumption. destruct W as (_ & Lv). lia. }
  pose proof (elem_rhs3_ok V (vl u) (vl vold) u vold vnew ex ey ez S D U O He) as X. cbv zeta in X. rewrite Ev in X. cbn [bind] in X.
  destruct (get_elem_rhs3D_text V A vold vnew u h k bb bl ab fl ex ey ez _ _ _ D N Fo Hb Hbb Lb Hl Ll X)
    as (st & b & fl' & R & _ & M & Vb & _ & _ & _ & Fr & _).
  exists st, b. split; [exact R|]. split; [exact M|]. split; [|split].
  - destruct Vb as (Lb' & Vb). split; [exact Lb'|]. intros i Hi. eexists. now apply Vb.
  - intros w eps Fw Hw. pose proof (proj1 (strain_field3_iff V w eps Fw D) Hw) as Se. pose proof (proj1 (stress_field3_iff V u vold vnew sig S D F W) Hs) as Ss.
    transitivity (rsum (zrange 0 24) (fun i => rsum (zrange 0 8) (fun g => rsum (zrange 0 6) (fun v => B3 V g v i * gs3 V (vl u) (vl vold) (ex, ey, ez) g v * wg3 V * vl w (addr3 V (ex, ey, ez) i))))).
    { apply rsum_ext. intros i Hi. apply in_zrange in Hi. rewrite (vec_val 24 b _ i Vb) by lia. rewrite be3_entry by lia. rewrite cdof3_addr.
      unfold mbe. rewrite Rmult_comm. rewrite <- rsum_scal. apply rsum_ext. intros g _. rewrite <- rsum_scal. apply rsum_ext. intros v _. ring. }
    rewrite rsum_swap. apply rsum_ext. intros g Hg. apply in_zrange in Hg. rewrite rsum_swap. unfold dot. rewrite Rmult_comm, <- rsum_scal.
    apply rsum_ext. intros v Hv. apply in_zrange in Hv. rewrite (Ss ex ey ez g v Hc Hg Hv), (Se ex ey ez g v Hc Hg Hv).
    unfold str3, mstrain. rewrite <- !rsum_scal. apply rsum_ext. intros i _. unfold wg3. cbn [omul odiv ofZ ROps]. field.
  - intros c Hk N1 N2 N3. apply Fr; [exact Hk|]. cbn [In]. intuition congruence.
Qed.

(** ** Element matrix: the exact strain energy *)
Theorem text_elem_energy V A vold vnew u h k ba aa ex ey ez :
  body3 V -> full u (ndofs V) -> vars_ok V vold vnew -> is_cell3 V ex ey ez ->
  plastic_at V (cellno V ex ey ez) = false -> admissible (AsmPure.mat_at V (cellno V ex ey ez)) ->
  NoDup (body_addrs A ++ [ba])%list -> Forall (fun a => (a < k)%Z) (body_addrs A ++ [ba])%list -> body V A vold vnew u h ->
  h ba = Some (OD aa) -> alen aa = 576%Z ->
  exists st K, calls asm_prog "get_elem_mat3D" [VP (a_this A) 0; VI ex; VI ey; VI ez; VP ba 0] h k (Ok (st, Nrm)) /\
    mem st ba = Some (OD K) /\ full K 576 /\
    (forall i j, (0 <= i < 24)%Z -> (0 <= j < 24)%Z -> vl K (i * 24 + j) = vl K (j * 24 + i)) /\
    (forall w D, full w (ndofs V) -> gradient3 (inside3 V w ex ey ez) D ->
       exists I, is_int3 (dens3 (AsmPure.mat_at V (cellno V ex ey ez)) D) (v_dx V) (v_dy V) (v_dz V) I /\
       let x i := vl w (cdof3 V ex ey ez (i / 3) (i mod 3)) in
       let q := rsum (zrange 0 24) (fun i => rsum (zrange 0 24) (fun j => x i * vl K (i * 24 + j) * x j)) in
       I <= q <= (1 + 3 / 1000000000000000) * I) /\
    (forall c, (c < k)%Z -> c <> ba -> mem st c = h c).
Proof.
  intros B F W Hc P Am N Fo Hb Ha La.
  destruct (elem_symmetric3 V u vold vnew ex ey ez B F W Hc P) as (K & E & Sy).
  destruct (get_elem_mat3D_text V A vold vnew u h k ba aa ex ey ez K vnew (proj2 (proj2 B)) N Fo Hb Ha La E) as (st & a & R & B' & M & Va & Fr & _).
  exists st, a. split; [exact R|]. split; [exact M|]. split; [|split; [|split]].
  - destruct Va as (L & G). split; [exact L|]. intros i Hi. eexists. now apply G.
  - intros i j Hi Hj. rewrite !(vec_val 576 a K _ Va) by lia. now apply Sy.
  - intros w D Fw Hw. destruct (exact_energy3 V u vold vnew ex ey ez w D B F W Hc P Am Fw Hw) as (K' & I & E' & Hi & _ & Q).
    rewrite E in E'. injection E' as <-. exists I. split; [exact Hi|]. cbv zeta in Q |- *. unfold qform in Q.
    erewrite rsum_ext; [exact Q|]. intros i Hi'. apply in_zrange in Hi'. cbv beta. apply rsum_ext. intros j Hj. apply in_zrange in Hj.
    rewrite (vec_val 576 a K _ Va) by lia. reflexivity.
  - intros c Hk N1. destruct (Z.eq_dec c (a_vn A)) as [->|N3].
    + destruct B' as (x1 & x2 & _ & _ & _ & _ & _ & _ & X & _). destruct Hb as (y1 & y2 & _ & _ & _ & _ & _ & _ & Y & _). congruence.
    + apply Fr; [exact Hk|]. cbn [In]. intuition congruence.
Qed.

(** ** Cases *)
Definition arr6 (l : list R) : arr R := fun_arr 6 (lget l).
Lemma arr6_vec l : vec 6 (arr6 l) l.
Proof. destruct (fun_arr_rep 6 (lget l)) as (L & G). split; [exact L|exact G]. Qed.
Definition flag : arr Z := mkArr 1 (PositiveMap.empty Z).
Definition blank (n : Z) : arr R := mkArr n (PositiveMap.empty R).
(** two plastic shears of a bar with a plastic history *)
Lemma plastic_case : exists u vnew, let h g := home_mem bar (sheared 1) vnew u (OD (arr6 (shear g))) (OI flag) (OD (blank 6)) in
  body3 bar /\ vars_ok bar (sheared 1) vnew /\ is_cell3 bar 1 2 1 /\ cell_mat bar 1 2 1 one /\ admissible one /\ m_plast one = Some true /\
  0 <= m_Sy one + m_Ka one * vl (sheared 1) (var3 bar 1 2 1 5 6) /\
  (forall g, body bar home (sheared 1) vnew u (h g) /\ h g 11%Z = Some (OD (arr6 (shear g))) /\ vec 6 (arr6 (shear g)) (shear g) /\
     h g 12%Z = Some (OI flag) /\ alen flag = 1%Z /\ h g 13%Z = Some (OD (blank 6)) /\ alen (blank 6) = 6%Z) /\
  NoDup (body_addrs home ++ [11; 12; 13]%Z)%list /\ Forall (fun a => (a < 14)%Z) (body_addrs home ++ [11; 12; 13]%Z)%list.
Proof.
  exists (blank 0), junk56. cbv zeta. destruct point_ex as (s1 & v1 & s2 & v2 & B & W & C & M & A & P & Y & _).
  repeat (split; [assumption|]). split; [|exact home_apart].
  intros g. destruct (home_case bar (sheared 1) junk56 (blank 0) (OD (arr6 (shear g))) (OI flag) (OD (blank 6))) as (H1 & H2 & H3 & H4 & _).
  split; [exact H1|]. split; [exact H2|]. split; [apply arr6_vec|]. split; [exact H3|]. split; [reflexivity|]. split; [exact H4|reflexivity].
Qed.
(** a shear in a linear cell of a composite *)
Lemma linear_case : exists m st as', body3 blend3 /\ is_cell3 blend3 1 2 1 /\ cell_mat blend3 1 2 1 m /\ m_plast m = Some false /\
  calls asm_prog "get_stress3D" [VP 0 0; VI 1; VI 2; VI 1; VI 5; VP 11 0; VP 12 0; VP 13 0]
    (home_mem blend3 (blank 0) (blank 0) (blank 0) (OD (arr6 (shear 3))) (OI flag) (OD (blank 6))) 14 (Ok (st, Nrm)) /\
  mem st 13%Z = Some (OD as') /\ aget as' 3 = Some (m_mu m * 3) /\ m_mu m * 3 <> 0.
Proof.
  destruct quad_ex3 as (B & C & P & A & _).
  assert (M : exists m, cell_mat blend3 1 2 1 m /\ m_plast m = Some false /\ 0 < m_mu m).
  { exists (if Z.eqb ((cellno blend3 1 2 1) mod 2) 0 then soft else stiff). split; [|split].
    - eexists. split; [vm_compute; reflexivity|]. reflexivity.
    - reflexivity.
    - apply adm_mu. apply soft_adm || apply stiff_adm. }
  destruct M as (m & M & Pl & Mu).
  destruct (home_case blend3 (blank 0) (blank 0) (blank 0) (OD (arr6 (shear 3))) (OI flag) (OD (blank 6))) as (H1 & H2 & H3 & H4 & N & F).
  destruct (text_linear_stress blend3 home (blank 0) (blank 0) (blank 0) _ 14 11 12 13 (arr6 (shear 3)) (shear 3) flag (blank 6) 1 2 1 5 m
    B C M Pl N F H1 H2 (arr6_vec _) H3 eq_refl H4 eq_refl) as (st & fl & a & R & _ & _ & Ma & _ & G & _).
  exists m, st, a. repeat (split; [assumption|]). split; [|lra]. rewrite (G 3%Z ltac:(lia)). reflexivity.
Qed.
(** a cell of a composite and a displacement that stretches it *)
Lemma cell_case : exists u vold vnew D, let h o := home_mem blend3 vold vnew u (OD (blank o)) (OI flag) (OD (blank 6)) in
  body3 blend3 /\ full u (ndofs blend3) /\ vars_ok blend3 vold vnew /\ is_cell3 blend3 1 2 1 /\
  plastic_at blend3 (cellno blend3 1 2 1) = false /\ admissible (AsmPure.mat_at blend3 (cellno blend3 1 2 1)) /\
  gradient3 (inside3 blend3 u 1 2 1) D /\ D 0%Z 0%Z 0 0 0 <> 0 /\
  (forall o, body blend3 home vold vnew u (h o) /\ h o 11%Z = Some (OD (blank o)) /\ h o 12%Z = Some (OI flag)) /\
  NoDup (body_addrs home ++ [11; 12]%Z)%list /\ Forall (fun a => (a < 14)%Z) (body_addrs home ++ [11; 12]%Z)%list /\
  NoDup (body_addrs home ++ [11]%Z)%list /\ NoDup [0; 5; 11]%Z /\ Forall (fun a => (a < 14)%Z) [0; 5; 11]%Z.
Proof.
  destruct quad_ex3 as (B & C & P & A & u & vold & vnew & D & F & W & G & N). exists u, vold, vnew, D. cbv zeta.
  repeat (split; [assumption|]). split.
  { intros o. destruct (home_case blend3 vold vnew u (OD (blank o)) (OI flag) (OD (blank 6))) as (H1 & H2 & H3 & _). auto. }
  cbn. repeat split; repeat (constructor; [first [lia|cbn [In]; intuition discriminate]|]); constructor.
Qed.
