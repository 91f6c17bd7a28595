(** What the program text of assembly_rhs, assembly_mat, solve and newton_raphson computes in exact arithmetic: two dimensions. *)
From Coq Require Import String Reals Lra FMapPositive.
From Verif Require Import Base Scalar EllInit MicroModel Clite CliteRules EllAst AsmAst Sym Grid EllSpec EllModel EllOp EllFinal EllProps CgTheory CgFinal AssemblyModel EllLit AsmLit AsmLit2 AsmLit9 AsmLit13 AsmLit14 AsmLit15 AsmLit24 AsmLit25 AsmLit26 AsmLit16 AsmLit17
  AsmBnd AsmMat FemGen FemAve FemMat FemMat2 FemDef FemPd FemRhs FemEquil AsmPure AsmSpec AsmProps AsmPoint AsmRun CgPure CgProps AsmCases EnergyBody NewtonBase NewtonReal SolveProps.
Local Open Scope string_scope.
Local Open Scope R_scope.

(** ** assembly_rhs *)
Theorem text_residual2 V A vold vnew u b h k bl fl :
  body2 V -> full u (ndofs V) -> alen b = ndofs V ->
  NoDup (body_addrs A ++ [a_b A; bl])%list -> Forall (fun a => (a < k)%Z) (body_addrs A ++ [a_b A; bl])%list ->
  body V A vold vnew u h -> h (a_b A) = Some (OD b) -> h bl = Some (OI fl) -> alen fl = 1%Z ->
  exists st b' fl' nrm sig,
    calls asm_prog "assembly_rhs" [VP (a_this A) 0; VP bl 0] h k (Ok (st, Ret (VD nrm))) /\
    mem st (a_b A) = Some (OD b') /\ full b' (ndofs V) /\
    (forall i j c, is_node2 V i j -> (0 <= c < 2)%Z -> on_edge2 V i j -> vl b' (dof2 V i j c) = 0) /\
    stress_field2 V u sig /\
    (forall w eps, full w (ndofs V) -> zero_bnd_field2 V w -> strain_field2 V w eps ->
       rsum (zrange 0 (ndofs V)) (fun r => vl b' r * vl w r) =
       - quad_body2 V (fun ex ey g => dot 3 (sig ex ey g) (eps ex ey g))) /\
    nrm = sqrt (rsum (zrange 0 (ndofs V)) (fun r => vl b' r * vl b' r)) /\
    mem st bl = Some (OI fl') /\ aget fl' 0 = Some 0%Z /\
    (forall c, (c < k)%Z -> c <> a_b A -> c <> bl -> mem st c = h c).
Proof.
  intros B F Lb N Fo Hb Hbb Hl Ll.
  destruct (residual_spec2 V u vold vnew b B F Lb) as (b' & nrm & be & sig & E & Fb & _ & Fc & Sg & Vw & Nr).
  destruct (assembly_rhs2D_text V A vold vnew u b h k bl fl b' false vnew nrm (proj2 (proj2 B)) dec01_ofZ N Fo Hb Hbb Hl Ll E)
    as (st & fl' & R & B' & M1 & M2 & L2 & G2 & Fr & _).
  exists st, b', fl', nrm, sig. split; [exact R|]. split; [exact M1|]. split; [exact Fb|]. split.
  { intros i j c Hn Hc Hf. now apply (Fc i j c Hn Hc). }
  split; [exact Sg|]. split; [exact Vw|]. split; [exact Nr|]. split; [exact M2|]. split; [exact G2|].
  intros c Hk N1 N2. destruct (Z.eq_dec c (a_vn A)) as [->|N3].
  - destruct B' as (x1 & x2 & _ & _ & _ & _ & _ & _ & X & _). destruct Hb as (y1 & y2 & _ & _ & _ & _ & _ & _ & Y & _). congruence.
  - apply Fr; [exact Hk|]. cbn [In]. intuition congruence.
Qed.

(** ** assembly_mat *)
Theorem text_stiffness2 V P bc bv vold vnew u (A : ell R) h k :
  body2 V -> adm V -> matrix2 2 (v_nx V) (v_ny V) A ->
  NoDup (mat_addrs P bc bv) -> Forall (fun a => (a < k)%Z) (mat_addrs P bc bv) ->
  body V P vold vnew u h -> EllLit.mat_at h (a_A P) bc bv A ->
  exists st A', calls asm_prog "assembly_mat" [VP (a_this P) 0] h k (Ok (st, Nrm)) /\
    EllLit.mat_at (mem st) (a_A P) bc bv A' /\
    (forall i j c i' j' c', is_node2 V i j -> is_node2 V i' j' -> (0 <= c < 2)%Z -> (0 <= c' < 2)%Z -> ~ on_edge2 V i j -> ~ on_edge2 V i' j' ->
       dense A' (dof2 V i j c) (dof2 V i' j' c') = dense A' (dof2 V i' j' c') (dof2 V i j c)) /\
    (forall v, zero_on2 V v -> (exists r, (0 <= r < ndofs V)%Z /\ v r <> 0) ->
       0 < rsum (zrange 0 (ndofs V)) (fun r => v r * mul A' v r)) /\
    (forall x y, (forall r, (0 <= r < ndofs V)%Z -> mul A' x r = mul A' y r) -> forall r, (0 <= r < ndofs V)%Z -> x r = y r) /\
    (forall c, (c < k)%Z -> c <> bv -> mem st c = h c).
Proof.
  intros B Am M N Fo Hb Hm.
  destruct (stiffness_pd2 V u vold vnew A B Am M) as (A' & E & Sy & Pd & Inj).
  destruct (assembly_mat2D_text V P vold vnew u A bc bv h k A' vnew (proj2 (proj2 B)) N Fo Hb Hm E) as (st & R & _ & B' & M' & Fr & _).
  exists st, A'. split; [exact R|]. split; [exact M'|]. split; [exact Sy|]. split; [exact Pd|]. split; [exact Inj|].
  intros c Hk N1. apply Fr; [exact Hk|]. cbn [In]. intuition congruence.
Qed.

(** one Newton pass and the next: the residual after an increment is the residual before minus the matrix in memory times the increment *)
Theorem text_newton_step2 V P bc bv bl vold vnew u du u' b0 b1 (A : ell R) fl h1 h2 h3 k1 k2 k3 :
  body2 V -> adm V -> matrix2 2 (v_nx V) (v_ny V) A ->
  full u (ndofs V) -> full du (ndofs V) -> zero_bnd_field2 V du -> rep u' (ndofs V) (fun i => vl u i + vl du i) ->
  alen b0 = ndofs V -> alen b1 = ndofs V -> alen fl = 1%Z ->
  NoDup (mat_addrs P bc bv) -> NoDup (body_addrs P ++ [a_b P; bl])%list ->
  Forall (fun a => (a < k1)%Z) (body_addrs P ++ [a_b P; bl])%list ->
  Forall (fun a => (a < k2)%Z) (mat_addrs P bc bv) ->
  Forall (fun a => (a < k3)%Z) (body_addrs P ++ [a_b P; bl])%list ->
  body V P vold vnew u h1 -> h1 (a_b P) = Some (OD b0) -> h1 bl = Some (OI fl) ->
  body V P vold vnew u h2 -> EllLit.mat_at h2 (a_A P) bc bv A ->
  body V P vold vnew u' h3 -> h3 (a_b P) = Some (OD b1) -> h3 bl = Some (OI fl) ->
  exists st1 st2 st3 n1 n3 b b' A',
    calls asm_prog "assembly_rhs" [VP (a_this P) 0; VP bl 0] h1 k1 (Ok (st1, Ret (VD n1))) /\ mem st1 (a_b P) = Some (OD b) /\
    calls asm_prog "assembly_mat" [VP (a_this P) 0] h2 k2 (Ok (st2, Nrm)) /\ EllLit.mat_at (mem st2) (a_A P) bc bv A' /\
    calls asm_prog "assembly_rhs" [VP (a_this P) 0; VP bl 0] h3 k3 (Ok (st3, Ret (VD n3))) /\ mem st3 (a_b P) = Some (OD b') /\
    (forall r, (0 <= r < ndofs V)%Z -> vl b' r = vl b r - mul A' (vl du) r) /\ n3 = residual_norm A' (vl b) (vl du).
Proof.
  intros B Am M F Fd Zd Ru L0 L1 Lf NM NB F1 F2 F3 H1 H1b H1l H2 H2m H3 H3b H3l.
  destruct (newton_exact2 V u du u' vold vnew b0 b1 A B Am M F Fd Zd Ru L0 L1) as (A' & b & b' & n0 & n1 & E2 & E1 & E3 & Eq & Nr).
  destruct (assembly_rhs2D_text V P vold vnew u b0 h1 k1 bl fl _ _ _ _ (proj2 (proj2 B)) dec01_ofZ NB F1 H1 H1b H1l Lf E1) as (st1 & fl1 & R1 & _ & M1 & _).
  destruct (assembly_mat2D_text V P vold vnew u A bc bv h2 k2 A' vnew (proj2 (proj2 B)) NM F2 H2 H2m E2) as (st2 & R2 & _ & _ & M2 & _).
  destruct (assembly_rhs2D_text V P vold vnew u' b1 h3 k3 bl fl _ _ _ _ (proj2 (proj2 B)) dec01_ofZ NB F3 H3 H3b H3l Lf E3) as (st3 & fl3 & R3 & _ & M3 & _).
  exists st1, st2, st3, n0, n1, b, b', A'. repeat (split; [assumption|]). assumption.
Qed.

(** ** solve: the three calls of a Newton pass *)
Theorem text_solve2 V P bc bv bl u vold vnew b0 (A : ell R) fl h1 h2 k1 k2 :
  body2 V -> adm V -> (ndofs V < 2000)%Z -> full u (ndofs V) ->
  matrix2 2 (v_nx V) (v_ny V) A -> alen b0 = ndofs V -> alen fl = 1%Z ->
  NoDup (mat_addrs P bc bv) -> NoDup (body_addrs P ++ [a_b P; bl])%list ->
  Forall (fun a => (a < k1)%Z) (body_addrs P ++ [a_b P; bl])%list -> Forall (fun a => (a < k2)%Z) (mat_addrs P bc bv) ->
  body V P vold vnew u h1 -> h1 (a_b P) = Some (OD b0) -> h1 bl = Some (OI fl) ->
  body V P vold vnew u h2 -> EllLit.mat_at h2 (a_A P) bc bv A ->
  exists st1 st2 n1 b A',
    calls asm_prog "assembly_rhs" [VP (a_this P) 0; VP bl 0] h1 k1 (Ok (st1, Ret (VD n1))) /\ mem st1 (a_b P) = Some (OD b) /\
    calls asm_prog "assembly_mat" [VP (a_this P) 0] h2 k2 (Ok (st2, Nrm)) /\ EllLit.mat_at (mem st2) (a_A P) bc bv A' /\
    forall w h k, rep (w_du w) (ndofs V) (fun _ => 0) -> w_b w = b -> w_A w = A' -> whole V P bc bv w h -> blank_from h k ->
      NoDup (whole_addrs P bc bv) -> Forall (fun a => (a < k)%Z) (whole_addrs P bc bv) ->
      exists st du, calls asm_prog "solve" [VP (a_this P) 0] h k (Ok (st, Nrm)) /\ mem st (a_du P) = Some (OD du) /\
        full du (ndofs V) /\ zero_bnd_field2 V du /\ residual_norm A' (vl b) (vl du) < 1 / 100000000 /\
        (forall c, (c < k)%Z -> c <> a_du P -> mem st c = h c).
Proof.
  intros B Am Hn F M L0 Lf NM NB F1 F2 H1 H1b H1l H2 H2m. pose proof (proj2 (proj2 B)) as D.
  pose proof (fun_arr_rep (ndofs V) (fun _ : Z => 0)) as Rz.
  assert (Tp : 0 < s_min_tol (T := R) (mkSolver cg_its 0 cg_tol (ofZ 0))) by (cbn [s_min_tol]; rewrite cg_tol_R; lra).
  destruct (newton_solve2 V u vold vnew b0 _ A _ B Am F M L0 Rz Tp Hn) as (A' & b & n0 & sv' & du' & E1 & E2 & _).
  destruct (assembly_rhs2D_text V P vold vnew u b0 h1 k1 bl fl _ _ _ _ D dec01_ofZ NB F1 H1 H1b H1l Lf E1) as (st1 & fl1 & R1 & _ & M1 & _).
  destruct (assembly_mat2D_text V P vold vnew u A bc bv h2 k2 A' vnew D NM F2 H2 H2m E2) as (st2 & R2 & _ & _ & M2 & _).
  exists st1, st2, n0, b, A'. split; [exact R1|]. split; [exact M1|]. split; [exact R2|]. split; [exact M2|].
  intros w h k Rd Eb EA WH BL ND FK.
  destruct (newton_solve2 V u vold vnew b0 (w_du w) A _ B Am F M L0 Rd Tp Hn) as (A2 & b2 & n2 & sv2 & du & E1' & E2' & Es & Fd & Zd & _ & _ & Rn).
  rewrite E1 in E1'. injection E1' as <- _. rewrite E2 in E2'. injection E2' as <-.
  assert (Sv : solve V (w_A w) (w_b w) (w_du w) = Ok du).
  { unfold solve. rewrite D. change (2 =? 2)%Z with true. cbv iota zeta. rewrite EA, Eb, Es. reflexivity. }
  destruct (solve2D_text V P bc bv w h k du D ND FK BL WH Sv) as (st & R & Md & Fr).
  exists st, du. split; [exact R|]. split; [exact Md|]. split; [exact Fd|]. split; [exact Zd|]. split.
  - cbn [s_min_tol] in Rn. rewrite cg_tol_R in Rn. exact Rn.
  - intros c Hk Nc. apply Fr; [exact Hk|]. cbn [In]. intuition congruence.
Qed.

(** ** newton_raphson with a plain int behind [its], as its callers pass: it ends without undefined behaviour exactly
    when the residual at entry is below the tolerance *)
Theorem text_newton_single2 V P bc bv bl bi be k h w fl i0 ea :
  body2 V -> wok V w -> NoDup (nr_addrs P bc bv bl bi be) -> Forall (fun a => (a < k)%Z) (nr_addrs P bc bv bl bi be) -> blank_from h k ->
  whole V P bc bv w h -> h bl = Some (OI fl) -> alen fl = 1%Z -> h bi = Some (OI i0) -> alen i0 = 1%Z -> h be = Some (OD ea) -> (0 < alen ea)%Z ->
  exists st0 er, calls asm_prog "assembly_rhs" [VP (a_this P) 0; VP bl 0] h k (Ok (st0, Ret (VD er))) /\
    (er < 1 / 100000 -> exists st ea' ia f0 f1, calls asm_prog "newton_raphson" [VP (a_this P) 0; VP bl 0; VP bi 0; VP be 0] h k (Ok (st, Nrm)) /\
       mem st be = Some (OD ea') /\ aget ea' 0 = Some er /\ mem st bi = Some (OI ia) /\ aget ia 0 = Some 0%Z /\
       mem st (a_b P) = mem st0 (a_b P) /\ mem st (a_vn P) = mem st0 (a_vn P) /\
       mem st0 bl = Some (OI f0) /\ mem st bl = Some (OI f1) /\ aget f1 0 = aget f0 0 /\
       (forall c, (c < k)%Z -> c <> a_b P -> c <> bl -> c <> a_vn P -> c <> bi -> c <> be -> mem st c = h c)) /\
    (~ er < 1 / 100000 -> calls asm_prog "newton_raphson" [VP (a_this P) 0; VP bl 0; VP bi 0; VP be 0] h k (Err OOB)).
Proof.
  intros (S & G & D) K ND FK BL WH Hf Lf Hi Li He Le.
  destruct (pass_real V w S G K) as (b & nl & vn & er & E & Fb & Ln & H1 & H2).
  pose proof WH as (BD & MA & HB & HD).
  assert (N0 : NoDup (body_addrs P ++ [a_b P; bl])%list).
  { pose proof ND as X. unfold nr_addrs, whole_addrs in X. rewrite <- app_assoc in X. apply nd_app in X. destruct X as (X1 & X2 & X3).
    clear - X1 X2 X3. cbn [app] in X2, X3.
    assert (Y : NoDup [a_b P; bl]). { repeat (apply NoDup_cons_iff in X2; destruct X2 as (?Q & X2)). cbn [In] in *. constructor; [cbn; tauto|]. constructor; [auto|constructor]. }
    revert X1 X3 Y. generalize (body_addrs P). intros l X1 X3 Y. induction l as [|a l IH]; [exact Y|]. cbn [app].
    apply NoDup_cons_iff in X1. destruct X1 as (X1 & X1'). constructor.
    - rewrite in_app_iff. intros [Q|Q]; [contradiction|]. apply (X3 a); [left; reflexivity|]. cbn [In] in *. tauto.
    - apply IH; [exact X1'|]. intros c I. apply X3. now right. }
  assert (F0 : Forall (fun a => (a < k)%Z) (body_addrs P ++ [a_b P; bl])%list).
  { rewrite Forall_forall in FK |- *. intros a I. apply FK. unfold nr_addrs, whole_addrs. rewrite !in_app_iff in *. cbn [In] in *. tauto. }
  destruct (assembly_rhs2D_text V P _ _ _ _ h k bl fl b nl vn er D dec01_ofZ N0 F0 BD HB Hf Lf E) as (st0 & f0 & R0 & B0 & M0 & Ml0 & _ & G0 & _ & _).
  exists st0, er. split; [exact R0|]. split.
  - intros H. specialize (H1 H).
    assert (Nw : newton 1 (rd i0) V w = Ok (mkWork (w_u w) (w_du w) b (w_A w) (w_vold w) vn, nl, 0%Z, er)).
    { unfold newton. cbn [newton_loop]. rewrite H1. reflexivity. }
    destruct (newton_text V P bc bv bl bi be k h w fl i0 ea (or_introl D) dec01_ofZ ND FK BL WH Hf Lf Hi ltac:(lia) He Le _ _ _ _ _ Nw)
      as (st & f1 & ia & ea' & R & (BD' & (MA1 & MA2 & MA3) & HB' & HD') & Ml & Gl & Mi & Gi & Me & Ge & Fr & _).
    exists st, ea', ia, f0, f1. cbn [w_vold w_vnew w_u w_A w_b w_du] in *.
    split; [exact R|]. split; [exact Me|]. split; [exact Ge|]. split; [exact Mi|]. split; [exact Gi|]. split; [congruence|]. split.
    { destruct BD' as (x1 & x2 & _ & _ & _ & _ & _ & _ & X & _). destruct B0 as (y1 & y2 & _ & _ & _ & _ & _ & _ & Y & _). congruence. }
    split; [exact Ml0|]. split; [exact Ml|]. split; [congruence|].
    intros c Hk Q1 Q2 Q3 Q4 Q5. destruct (Z.eq_dec c (a_u P)) as [->|N1].
    { destruct BD' as (x1 & x2 & _ & _ & _ & _ & _ & _ & _ & X). destruct BD as (y1 & y2 & _ & _ & _ & _ & _ & _ & _ & Y). congruence. }
    destruct (Z.eq_dec c bv) as [->|N2]; [destruct MA as (_ & _ & MA); congruence|].
    destruct (Z.eq_dec c (a_du P)) as [->|N3]; [congruence|].
    apply Fr; [exact Hk|]. cbn [nr_touch In]. intuition congruence.
  - intros H. destruct (H2 H) as (A' & vn' & d0 & du & u' & _ & _ & _ & _ & _ & _ & Nb).
    exact (newton_text_oob V P bc bv bl bi be k h w fl i0 ea (or_introl D) dec01_ofZ ND FK BL WH Hf Lf Hi ltac:(lia) He Le _ _ _ Li Nb).
Qed.

(** ** with integers behind [its] that can be read *)
Theorem text_newton_linear2 V P bc bv bl bi be k h w fl i0 ea i :
  body2 V -> adm V -> wok V w -> (ndofs V < 2000)%Z ->
  NoDup (nr_addrs P bc bv bl bi be) -> Forall (fun a => (a < k)%Z) (nr_addrs P bc bv bl bi be) -> blank_from h k ->
  whole V P bc bv w h -> h bl = Some (OI fl) -> alen fl = 1%Z -> h bi = Some (OI i0) -> aget i0 1 = Some i -> (i < 40)%Z ->
  h be = Some (OD ea) -> (0 < alen ea)%Z ->
  exists st ea' er u' fl', calls asm_prog "newton_raphson" [VP (a_this P) 0; VP bl 0; VP bi 0; VP be 0] h k (Ok (st, Nrm)) /\
    mem st (a_u P) = Some (OD u') /\ full u' (ndofs V) /\
    (forall x y c, is_node2 V x y -> on_edge2 V x y -> (0 <= c < 2)%Z -> aget u' (dof2 V x y c) = aget (w_u w) (dof2 V x y c)) /\
    mem st be = Some (OD ea') /\ aget ea' 0 = Some er /\ mem st bl = Some (OI fl') /\ aget fl' 0 = Some 0%Z /\
    (exists vn b b' nl vn' t, assembly_rhs V u' (w_vold w) vn b = Ok (b', nl, vn', t) /\ t < 1 / 100000) /\
    frame h (mem st) k (nr_touch P bv bl bi be).
Proof.
  intros B Am K Hn ND FK BL WH Hf Lf Hi Gi Hi40 He Le.
  assert (I1 : rd i0 1 = Ok i /\ (1 < alen i0)%Z).
  { unfold rd. unfold aget in Gi. destruct (inb i0 1%Z) eqn:Q; [|discriminate]. rewrite Gi. split; [reflexivity|]. unfold inb in Q. lia. }
  destruct I1 as (I1 & I2).
  destruct (newton_linear2 V 2 (rd i0) w i B Am K Hn ltac:(lia) I1 Hi40) as (w' & er & n & w0 & vn & b & b' & nl & vn' & t & Nw & _ & _ & _ & Er & Ht).
  destruct B as (S & G & D). destruct (newton_real V 2 (rd i0) w w' false 0 er S G K Nw) as (Sb & Vo & K' & _).
  destruct (newton_text V P bc bv bl bi be k h w fl i0 ea (or_introl D) dec01_ofZ ND FK BL WH Hf Lf Hi ltac:(lia) He Le _ _ _ _ _ Nw)
      as (st & f1 & ia & ea' & R & (BD' & _) & Ml & Gl & Mi & _ & Me & Ge & Fr & _).
  exists st, ea', er, (w_u w'), f1. split; [exact R|]. split.
  { destruct BD' as (x1 & x2 & _ & _ & _ & _ & _ & _ & _ & X). exact X. }
  split; [exact (wk_u V w' K')|]. split.
  { intros x y c Nd Fc Hc. apply Sb; [now apply dof2_range|]. now apply (bnd_dof2 V x y c S D). } split; [exact Me|]. split; [exact Ge|]. split; [exact Ml|]. split; [exact Gl|].
  split; [|exact Fr]. rewrite Vo in Er. do 6 eexists. split; [exact Er|exact Ht].
Qed.

(** ** every body with an interior node has a start on which the call reads behind [its] *)
Lemma dof2_inj V i j c i' j' c' : is_node2 V i j -> is_node2 V i' j' -> (0 <= c < 2)%Z -> (0 <= c' < 2)%Z ->
  dof2 V i j c = dof2 V i' j' c' -> i = i' /\ j = j'.
Proof.
  unfold is_node2, dof2. intros (H1 & H2) (H1' & H2') Hc Hc' E.
  assert (X : (j * v_nx V + i = j' * v_nx V + i')%Z) by lia.
  assert (Y : j = j') by (destruct (Z.lt_trichotomy j j') as [L|[L|L]]; [exfalso; assert ((j + 1) * v_nx V <= j' * v_nx V)%Z by (apply Z.mul_le_mono_nonneg_r; lia); lia|exact L|exfalso; assert ((j' + 1) * v_nx V <= j * v_nx V)%Z by (apply Z.mul_le_mono_nonneg_r; lia); lia]).
  subst j'. split; [lia|reflexivity].
Qed.
Theorem text_stray2 V i j : body2 V -> adm V -> is_node2 V i j -> ~ on_edge2 V i j ->
  exists w, wok V w /\ (exists d t, (0 <= d < ndofs V)%Z /\ forall r, (0 <= r < ndofs V)%Z -> vl (w_u w) r = if Z.eqb r d then t else 0) /\
  forall P bc bv bl bi be k h fl i0 ea,
    NoDup (nr_addrs P bc bv bl bi be) -> Forall (fun a => (a < k)%Z) (nr_addrs P bc bv bl bi be) -> blank_from h k ->
    whole V P bc bv w h -> h bl = Some (OI fl) -> alen fl = 1%Z -> h bi = Some (OI i0) -> alen i0 = 1%Z -> h be = Some (OD ea) -> (0 < alen ea)%Z ->
    calls asm_prog "newton_raphson" [VP (a_this P) 0; VP bl 0; VP bi 0; VP be 0] h k (Err OOB).
Proof.
  intros B Am Hn Hf. pose proof B as (S & G & D).
  set (d := dof2 V i j 0). assert (Hd : (0 <= d < ndofs V)%Z) by (apply dof2_range; [exact S|exact Hn|lia|exact D]).
  destruct (matrix2_inhabited (T := R) 2 (v_nx V) (v_ny V)) as (A & M); try (destruct S; lia).
  pose proof (fun_arr_rep (ndofs V) (fun _ : Z => 0)) as Rz. set (z := fun_arr (ndofs V) (fun _ : Z => 0)) in *.
  pose proof (fun_arr_rep (nvars V) (fun _ : Z => 0)) as Rv. set (v := fun_arr (nvars V) (fun _ : Z => 0)) in *.
  pose proof (rep_full _ _ _ Rz) as Fz.
  destruct (stiffness_pd2 V z v v A B Am M) as (A' & EA & _ & Pd & _).
  assert (Nf : forall i' j' c, is_node2 V i' j' -> on_edge2 V i' j' -> (0 <= c < 2)%Z -> dof2 V i' j' c <> d).
  { intros i' j' c Hn' Hf' Hc E. apply dof2_inj in E; try assumption; [|lia]. destruct E as (-> & ->). contradiction. }
  assert (Q : 0 < mul A' (spike d 1) d).
  { assert (X : 0 < rsum (zrange 0 (ndofs V)) (fun r => spike d 1 r * mul A' (spike d 1) r)).
    { apply Pd; [|exists d; split; [exact Hd|unfold spike; rewrite Z.eqb_refl; lra]].
      intros i' j' c Hn' Hf' Hc. unfold spike. destruct (Z.eqb_spec (dof2 V i' j' c) d) as [E|_]; [|reflexivity]. now elim (Nf i' j' c). }
    rewrite (rsum_single _ _ d) in X.
    - unfold spike at 1 in X. rewrite Z.eqb_refl in X. lra.
    - apply NoDup_zrange.
    - now apply in_zrange.
    - intros r _ Nr. unfold spike at 1. destruct (Z.eqb_spec r d); [contradiction|ring]. }
  destruct (residual_spec2 V z v v z B Fz (proj1 Rz)) as (b & nrm & be & sig & Eb & _).
  set (t := (vl b d + 1) / mul A' (spike d 1) d).
  pose proof (fun_arr_rep (ndofs V) (spike d t)) as Rd. set (du := fun_arr (ndofs V) (spike d t)) in *.
  assert (Zd : zero_bnd_field2 V du).
  { intros i' j' c Hn' Hf' Hc. rewrite (proj2 Rd) by now apply dof2_range. unfold spike.
    destruct (Z.eqb_spec (dof2 V i' j' c) d) as [E|_]; [|reflexivity]. now elim (Nf i' j' c). }
  assert (Ru : rep du (ndofs V) (fun r => vl z r + vl du r)).
  { split; [apply Rd|]. intros r Hr. rewrite (rep_val _ _ _ r Rz Hr), (rep_val _ _ _ r Rd Hr), (proj2 Rd r Hr). f_equal. ring. }
  destruct (newton_exact2 V z du du v v z z A B Am M Fz (rep_full _ _ _ Rd) Zd Ru (proj1 Rz) (proj1 Rz))
    as (A2 & b2 & b' & n0 & n1 & E1 & E2 & E3 & Eq & _).
  rewrite EA in E1. injection E1 as <-. rewrite Eb in E2. injection E2 as <- _.
  destruct (residual_spec2 V du v v z B (rep_full _ _ _ Rd) (proj1 Rz)) as (b3 & n3 & be3 & sig3 & E4 & _ & _ & _ & _ & _ & N3).
  rewrite E3 in E4. injection E4 as <- <-.
  assert (X : vl b' d = -1).
  { rewrite (Eq d Hd). assert (Y : mul A' (vl du) d = mul A' (spike d t) d).
    { unfold mul. apply rsum_ext. intros c Hc. f_equal. apply in_zrange in Hc. apply (rep_val _ _ _ c Rd).
      replace (ndofs V) with (e_nrow A'); [exact Hc|]. rewrite (ndofs2 V S D). destruct (stiffness2_spd V z v v A S D G Am M) as (A2 & EA2 & _ & Wf & _).
      rewrite EA in EA2. injection EA2 as <-. apply Wf. }
    rewrite Y, mul_spike. unfold t. field. lra. }
  assert (Big : 1 <= n1).
  { rewrite N3, <- sqrt_1. apply sqrt_le_1_alt. apply Rle_trans with (vl b' d * vl b' d); [rewrite X; lra|].
    apply (rsum_one_le _ (fun r => vl b' r * vl b' r)); [intros; nra|now apply in_zrange]. }
  set (w := mkWork du z z A v v).
  assert (K : wok V w).
  { constructor; cbn [w w_u w_du w_b w_A w_vold w_vnew]; [now apply rep_full in Rd|apply Rz|apply Rz| | |apply Rv].
    - unfold is_mat. rewrite D. exact M.
    - intros e g q He Hg Hq _. exists 0. apply (proj2 Rv). rewrite nvars_eq. unfold intvar_ix. lia. }
  exists w. split; [exact K|]. split.
  { exists d, t. split; [exact Hd|]. intros r Hr. exact (rep_val _ _ _ r Rd Hr). }
  intros P bc bv bl bi be' k h fl i0 ea ND FK BL WH Hl Ll Hi Li He Le.
  destruct (pass_real V w S G K) as (b5 & nl5 & vn5 & er & E & _ & _ & _ & H2). cbn [w w_u w_vold w_vnew w_b] in E.
  rewrite E3 in E. injection E as <- <- <- <-. destruct (H2 ltac:(lra)) as (A5 & vn' & d0 & du5 & u' & _ & _ & _ & _ & _ & _ & Nb).
  exact (newton_text_oob V P bc bv bl bi be' k h w fl i0 ea (or_introl D) dec01_ofZ ND FK BL WH Hl Ll Hi ltac:(lia) He Le _ _ _ Li Nb).
Qed.

Lemma whole_case2 : exists w0, forall ci, let h := home_whole blend2 w0 (OI flag) (OI ci) (OD (blank 1)) in
  body2 blend2 /\ adm blend2 /\ wok blend2 w0 /\ (ndofs blend2 < 2000)%Z /\ is_node2 blend2 1 2 /\ ~ on_edge2 blend2 1 2 /\
  matrix2 2 (v_nx blend2) (v_ny blend2) (w_A w0) /\ vl (w_u w0) 5 <> 0 /\
  whole blend2 home 14 15 w0 h /\ h 11%Z = Some (OI flag) /\ h 12%Z = Some (OI ci) /\ alen flag = 1%Z /\ h 13%Z = Some (OD (blank 1)) /\ blank_from h 16 /\
  NoDup (nr_addrs home 14 15 11 12 13) /\ Forall (fun a => (a < 16)%Z) (nr_addrs home 14 15 11 12 13) /\
  NoDup (mat_addrs home 14 15) /\ Forall (fun a => (a < 16)%Z) (mat_addrs home 14 15) /\
  NoDup (whole_addrs home 14 15) /\ Forall (fun a => (a < 16)%Z) (whole_addrs home 14 15) /\
  NoDup (body_addrs home ++ [a_b home; 11%Z])%list /\ Forall (fun a => (a < 16)%Z) (body_addrs home ++ [a_b home; 11%Z])%list.
Proof.
  destruct (matrix2_inhabited (T := R) 2 (v_nx blend2) (v_ny blend2)) as (A & M); try (cbn; lia).
  pose proof (fun_arr_rep (ndofs blend2) (fun i => IZR i)) as U. pose proof (fun_arr_rep (ndofs blend2) (fun _ : Z => 0)) as Rz.
  pose proof (fun_arr_rep (nvars blend2) (fun _ : Z => 0)) as Rv.
  set (u := fun_arr (ndofs blend2) (fun i => IZR i)) in *. set (z := fun_arr (ndofs blend2) (fun _ : Z => 0)) in *. set (v := fun_arr (nvars blend2) (fun _ : Z => 0)) in *.
  exists (mkWork u z z A v v). intros ci. cbv zeta. split; [exact blend2_body|]. split; [exact blend2_adm|]. split.
  { constructor; cbn [w_u w_du w_b w_A w_vold w_vnew]; [now apply rep_full in U|apply Rz|apply Rz|exact M| |apply Rv].
    intros e g q He Hg Hq _. exists 0. apply (proj2 Rv). rewrite nvars_eq. unfold intvar_ix. lia. }
  split; [reflexivity|]. split; [unfold is_node2; cbn; lia|]. split; [unfold on_edge2; cbn; lia|]. split; [exact M|]. split.
  { cbn [w_u]. rewrite (rep_val _ _ _ 5%Z U) by (vm_compute; split; congruence). lra. }
  destruct (home_whole_case blend2 (mkWork u z z A v v) (OI flag) (OI ci) (OD (blank 1))) as (H1 & H2 & H3 & H4 & H5).
  split; [exact H1|]. split; [exact H2|]. split; [exact H3|]. split; [reflexivity|]. split; [exact H4|exact H5].
Qed.
