(** The Newton loop in IEEE doubles: as long as the field it returns is finite, the prescribed
    displacements stay what they were, and an accepted error is the residual norm of that field. *)
From Coq Require Import Reals Lra ZifyBool ZifyNat.
From Flocq Require Import BinarySingleNaN.
From Verif Require Import Base Scalar BinInst FloatSum EllSpec EllInit EllModel EllAsm EllOp EllBc EllBc2 EllFinal Grid CgPure CgFinal CgProps
  AssemblyModel AsmPure AsmBnd AsmRun FemGen FemAve AsmMat FemMat FemMat2 MicroModel NewtonBase FloatCg.
Open Scope Z_scope.

(** ** Rows of the matrix at prescribed degrees of freedom, for every scalar type *)
Section Ident.
Context {T : Type} `{OT : Ops T}.
Implicit Types (V : env T) (w : work T).

Definition bnddof V (r : Z) : Prop := bndb V (v_nz V) (r / v_dim V) = true.
Definition row_len V : Z := if v_dim V =? 2 then 9 * 2 else 27 * 3.
Definition diag_slot V : Z := if v_dim V =? 2 then 4 else 13.

Lemma dof3_split V r : sane V -> v_dim V = 3 -> 0 <= r < ndofs V -> exists i j k c, 0 <= i < v_nx V /\ 0 <= j < v_ny V /\ 0 <= k < v_nz V /\
  0 <= c < 3 /\ r = node (v_nx V) (v_ny V) i j k * 3 + c /\ (bnddof V r <-> bnd3 (v_nx V) (v_ny V) (v_nz V) i j k).
Proof.
  intros S D Hr. rewrite (ndofs_eq3 V D) in Hr. pose proof (sa_nx V S) as Hx. pose proof (sa_ny V S) as Hy. pose proof (sane_nz V S D) as Hz.
  assert (Hn : 0 <= r / 3 < v_nx V * v_ny V * v_nz V) by (split; [apply Z.div_pos; lia|apply Z.div_lt_upper_bound; lia]).
  destruct (node_surj (v_nx V) (v_ny V) (v_nz V) (r / 3)) as (i & j & k & Hi & Hj & Hk & En); try lia.
  exists i, j, k, (r mod 3). split; [exact Hi|]. split; [exact Hj|]. split; [exact Hk|]. split; [apply Z.mod_pos_bound; lia|].
  split; [rewrite En; pose proof (Z.div_mod r 3); lia|]. unfold bnddof. rewrite D, <- En. now apply bndb3_spec.
Qed.
Lemma dof2_split V r : sane V -> v_dim V = 2 -> 0 <= r < ndofs V -> exists i j c, 0 <= i < v_nx V /\ 0 <= j < v_ny V /\
  0 <= c < 2 /\ r = node (v_nx V) (v_ny V) i j 0 * 2 + c /\ (bnddof V r <-> bnd2 (v_nx V) (v_ny V) i j).
Proof.
  intros S D Hr. rewrite (ndofs_eq2 V S D) in Hr. pose proof (sa_nx V S) as Hx. pose proof (sa_ny V S) as Hy.
  assert (Hn : 0 <= r / 2 < v_nx V * v_ny V * 1) by (split; [apply Z.div_pos; lia|apply Z.div_lt_upper_bound; lia]).
  destruct (node_surj (v_nx V) (v_ny V) 1 (r / 2)) as (i & j & k & Hi & Hj & Hk & En); try lia.
  replace k with 0 in * by lia.
  exists i, j, (r mod 2). split; [exact Hi|]. split; [exact Hj|]. split; [apply Z.mod_pos_bound; lia|].
  split; [rewrite En; pose proof (Z.div_mod r 2); lia|]. unfold bnddof. rewrite D, <- En. now apply bndb2_spec.
Qed.

Lemma ident_rows V u vold vnew A A' vn a : sane V -> full u (ndofs V) -> has_old V vold -> alen vnew = nvars V -> is_mat V A ->
  0 <= a < ndofs V -> bnddof V a -> assembly_mat V u vold vnew A = Ok (A', vn) -> forall q, 0 <= q < row_len V ->
  oval (e_vals A') (a * row_len V + q) = (if q =? diag_slot V * v_dim V + a mod v_dim V then ofZ 1 else ofZ 0) /\
  (q = diag_slot V * v_dim V + a mod v_dim V -> colsf A' (a * row_len V + q) = a).
Proof.
  intros S U O L M Ha Hb E q Hq. pose proof (sa_nx V S) as Hx. pose proof (sa_ny V S) as Hy.
  pose proof (full_oval _ _ U) as RU.
  unfold row_len, diag_slot, is_mat in *. destruct (dim_cases V S) as [D|D]; rewrite D in *; cbn [Z.eqb Pos.eqb] in *.
  - destruct (dof2_split V a S D Ha) as (i & j & c & Hi & Hj & Hc & -> & Bd). apply Bd in Hb.
    pose proof (matrix2_struct 2 _ _ _ Hx Hy ltac:(lia) M) as St.
    destruct (mat2_ok V S u vold vnew A D St) as (A1 & A2 & E0 & E1 & E2). rewrite E in E0. injection E0 as -> _.
    destruct (assemble2_ok 2 (v_nx V) (v_ny V) (fun e => lget (emat2 V e)) (els2 V) A ltac:(lia) St) as (v & E1' & St1 & R1).
    { intros [ex ey] He. now apply in_els2 in He. }
    rewrite E1 in E1'. injection E1' as ->.
    destruct (set_bc_2D_ok (set_vals A v) 2 (v_nx V) (v_ny V) Hx Hy ltac:(lia) St1) as (w' & E2' & _ & G). rewrite E2 in E2'. injection E2' as ->.
    set (s := q / 2). set (d2 := q mod 2). assert (Hs : 0 <= s < 9) by (unfold s; Z.div_mod_to_equations; lia). assert (Hd : 0 <= d2 < 2) by (unfold d2; apply Z.mod_pos_bound; lia).
    assert (Eq : q = s * 2 + d2) by (unfold s, d2; pose proof (Z.div_mod q 2); lia).
    replace ((node (v_nx V) (v_ny V) i j 0 * 2 + c) * (9 * 2) + q) with (cell 9 2 (node (v_nx V) (v_ny V) i j 0) c s d2)
      by (unfold cell; rewrite Eq; ring).
    replace ((node (v_nx V) (v_ny V) i j 0 * 2 + c) mod 2) with c by (rewrite Z.add_comm, Z_mod_plus_full; symmetry; apply Z.mod_small; lia).
    destruct (G i j c s d2 Hi Hj Hc Hs Hd) as (G1 & _). cbn zeta in G1. split.
    + unfold oval. cbn [set_vals e_vals] in *. rewrite (G1 Hb). unfold idv.
      replace (q =? 4 * 2 + c) with ((s =? 4) && (c =? d2))%bool by lia. reflexivity.
    + intros Hq'. assert (s = 4 /\ d2 = c) as (-> & ->) by lia. unfold colsf. cbn [set_vals e_cols].
      rewrite (s2_cols _ _ _ _ St i j c 4 c Hi Hj Hc ltac:(lia) Hc). unfold col2_code, nbr2, insideb.
      change (off_x 4) with 0. change (off_y 4) with 0. rewrite !Z.add_0_r.
      replace ((i =? v_nx V - 1) && (0 <? j) && (j <? v_ny V - 1) && (4 =? 7))%bool with false by (cbn [Z.eqb Pos.eqb]; rewrite Bool.andb_false_r; reflexivity).
      replace ((0 <=? i) && (i <? v_nx V) && ((0 <=? j) && (j <? v_ny V)))%bool with true by lia. reflexivity.
  - pose proof (sane_nz V S D) as Hz. destruct (dof3_split V a S D Ha) as (i & j & k & c & Hi & Hj & Hk & Hc & -> & Bd). apply Bd in Hb.
    pose proof (matrix3_struct 3 _ _ _ _ Hx Hy Hz ltac:(lia) M) as St.
    rewrite (ndofs_eq3 V D) in RU. rewrite nvars_eq in L.
    destruct (mat3_ok V (oval u) (oval vold) S u vold vnew A D RU (has_old_ok _ _ O) L St) as (A1 & A2 & vn2 & E0 & E1 & E2 & _). rewrite E in E0. injection E0 as -> _.
    destruct (assemble3_ok 3 (v_nx V) (v_ny V) (v_nz V) (fun e => lget (emat3 V (oval u) (oval vold) e)) (els3 V) A ltac:(lia) St) as (v & E1' & St1 & R1).
    { intros [[ex ey] ez] He. now apply in_els3 in He. }
    rewrite E1 in E1'. injection E1' as ->.
    destruct (set_bc_3D_ok (set_vals A v) 3 (v_nx V) (v_ny V) (v_nz V) Hx Hy Hz ltac:(lia) St1) as (w' & E2' & _ & G). rewrite E2 in E2'. injection E2' as ->.
    set (s := q / 3). set (d2 := q mod 3). assert (Hs : 0 <= s < 27) by (unfold s; Z.div_mod_to_equations; lia). assert (Hd : 0 <= d2 < 3) by (unfold d2; apply Z.mod_pos_bound; lia).
    assert (Eq : q = s * 3 + d2) by (unfold s, d2; pose proof (Z.div_mod q 3); lia).
    replace ((node (v_nx V) (v_ny V) i j k * 3 + c) * (27 * 3) + q) with (cell 27 3 (node (v_nx V) (v_ny V) i j k) c s d2)
      by (unfold cell; rewrite Eq; ring).
    replace ((node (v_nx V) (v_ny V) i j k * 3 + c) mod 3) with c by (rewrite Z.add_comm, Z_mod_plus_full; symmetry; apply Z.mod_small; lia).
    destruct (G i j k c s d2 Hi Hj Hk Hc Hs Hd) as (G1 & _). cbn zeta in G1. split.
    + unfold oval. cbn [set_vals e_vals] in *. rewrite (G1 Hb). unfold idv.
      replace (q =? 13 * 3 + c) with ((s =? 13) && (c =? d2))%bool by lia. reflexivity.
    + intros Hq'. assert (s = 13 /\ d2 = c) as (-> & ->) by lia. unfold colsf. cbn [set_vals e_cols].
      rewrite (s3_cols _ _ _ _ _ St i j k c 13 c Hi Hj Hk Hc ltac:(lia) Hc). unfold nbr3, insideb.
      change (off_x 13) with 0. change (off_y 13) with 0. change (off_z 13) with 0. rewrite !Z.add_0_r.
      replace ((0 <=? i) && (i <? v_nx V) && ((0 <=? j) && (j <? v_ny V)) && ((0 <=? k) && (k <? v_nz V)))%bool with true by lia. reflexivity.
Qed.

(** the residual at such a degree of freedom, and the norm reported *)
Lemma rhs_bnd V u vold vnew b b' nl vn er : sane V -> full u (ndofs V) -> has_old V vold -> alen vnew = nvars V -> alen b = ndofs V ->
  assembly_rhs V u vold vnew b = Ok (b', nl, vn, er) ->
  er = norm2 (ndofs V) (oval b') /\ forall a, 0 <= a < ndofs V -> bnddof V a -> oval b' a = oopp (dec 0 1).
Proof.
  intros S U O L Lb E. pose proof (full_oval _ _ U) as RU.
  destruct (dim_cases V S) as [D|D].
  - rewrite (ndofs_eq2 V S D) in RU, Lb |- *. 
    destruct (rhs2_ok V (oval u) (oval vold) S u vold vnew b D RU Lb) as (b2 & E2 & R2). rewrite E in E2. injection E2 as <- _ _ ->.
    split; [|].
    + unfold norm2. f_equal. apply sumf_ext. intros a Ha. apply in_zrange in Ha. unfold oval. now rewrite (proj2 R2 a Ha).
    + intros a Ha Hb. unfold oval. rewrite (proj2 R2 a Ha). unfold resid, bnddof in *. rewrite D in Hb. now rewrite Hb.
  - rewrite (ndofs_eq3 V D) in RU, Lb |- *. rewrite nvars_eq in L.
    destruct (rhs3_ok V (oval u) (oval vold) S u vold vnew b D RU (has_old_ok _ _ O) L Lb) as (b2 & vn2 & E2 & R2 & _). rewrite E in E2. injection E2 as <- _ _ ->.
    split; [|].
    + unfold norm2. f_equal. apply sumf_ext. intros a Ha. apply in_zrange in Ha. unfold oval. now rewrite (proj2 R2 a Ha).
    + intros a Ha Hb. unfold oval. rewrite (proj2 R2 a Ha). unfold resid, bnddof in *. rewrite D in Hb. now rewrite Hb.
Qed.
End Ident.

(** ** Zero stays zero in doubles *)
Open Scope R_scope.
Definition nul (x : flt) : Prop := fin x /\ val x = 0.
Lemma nul_mul_r : forall x y, fin x -> nul y -> nul (omul x y).
Proof. intros x y F (G & Z). pose proof (fin_val_0 x y F G Z) as H. split; [exact H|]. apply mul_0; [exact H|rewrite Z; ring]. Qed.
Lemma huge_zero : 0 <= huge.
Proof. unfold huge. apply Rlt_le, Raux.bpow_gt_0. Qed.
Lemma nul_add : forall x y, nul x -> nul y -> nul (oadd x y).
Proof.
  intros x y (F & Z) (G & W). assert (H : fin (oadd x y)).
  { apply add_fin; [exact F|exact G|]. rewrite Z, W, Rplus_0_r, Rabs_R0. exact huge_zero. }
  split; [exact H|]. rewrite (add_0 x y H W). exact Z.
Qed.
Lemma nul_sub : forall x y, nul x -> nul y -> nul (osub x y).
Proof.
  intros x y (F & Z) (G & W). assert (H : fin (osub x y)).
  { apply sub_fin; [exact F|exact G|]. rewrite Z, W, Rminus_0_r, Rabs_R0. exact huge_zero. }
  split; [exact H|]. rewrite (sub_0 x y H W). exact Z.
Qed.
Lemma nul_int : nul (ofZ 0).
Proof. split; [exact fin_0|exact val_0]. Qed.
Lemma nul_dec : nul (dec 0 1).
Proof. assert (E : @dec flt _ 0 1 = ofZ 0) by (vm_compute; reflexivity). rewrite E. exact nul_int. Qed.
Lemma nul_opp : forall x, nul x -> nul (oopp x).
Proof. intros x (F & Z). split; [now apply fin_opp|]. rewrite val_opp, Z. ring. Qed.
Lemma nul_sum {A} : forall (l : list A) f, (forall x, In x l -> nul (f x)) -> nul (sumf l f).
Proof.
  intros l f H. unfold sumf. assert (G : forall z, nul z -> nul (fold_left (fun acc x => oadd acc (f x)) l z)).
  { induction l as [|x l IH]; intros z Hz; [exact Hz|]. cbn [fold_left]. apply IH; [intros; apply H; now right|]. apply nul_add; [exact Hz|apply H; now left]. }
  apply G. exact nul_int.
Qed.
Lemma ident_product : forall nnz cf (vf x : Z -> flt) a n d, (0 <= d < nnz)%Z ->
  (forall q, (0 <= q < nnz)%Z -> vf (a * nnz + q)%Z = if (q =? d)%Z then ofZ 1 else ofZ 0) -> cf (a * nnz + d)%Z = a ->
  (forall q, (0 <= q < nnz)%Z -> (0 <= cf (a * nnz + q) < n)%Z) ->
  (forall i, (0 <= i < n)%Z -> fin (x i)) -> nul (x a) -> nul (mvf nnz cf vf x a).
Proof.
  intros nnz cf vf x a n d Hd Hv Hc Hr Fx Nx. unfold mvf. apply nul_sum. intros q Hq. apply in_zrange in Hq. rewrite (Hv q Hq).
  destruct (Z.eqb_spec q d) as [->|Ne].
  - rewrite Hc. apply nul_mul_r; [|exact Nx]. apply (proj1 (int_exact 1 ltac:(lia))).
  - assert (F := Fx _ (Hr q Hq)). assert (H : fin (omul (ofZ 0) (x (cf (a * nnz + q)%Z)))).
    { apply mul_fin; [exact fin_0|exact F|]. rewrite val_0, Rmult_0_l, Rabs_R0. exact huge_zero. }
    split; [exact H|]. apply mul_0; [exact H|rewrite val_0; ring].
Qed.

(** the iterates of the conjugate gradient method vanish where the row is an identity row and the
    right-hand side is zero *)
Lemma trace_zero : forall n A kf bf x0 xs rs ps ds a K, cg_trace n A kf bf x0 xs rs ps ds -> (0 <= a < n)%Z ->
  (forall x : Z -> flt, (forall i, (0 <= i < n)%Z -> fin (x i)) -> nul (x a) -> nul (A x a)) ->
  fin (kf a) -> nul (bf a) -> (forall i, (0 <= i < n)%Z -> fin (x0 i)) -> nul (x0 a) ->
  (forall i, (0 <= i < n)%Z -> fin (xs K i)) -> val (xs K a) = 0.
Proof.
  intros n A kf bf x0 xs rs ps ds a K (T0 & TS) Ha HA Fk Nb Fx Nx FK.
  assert (Back : forall d k, (k + d = K)%nat -> forall i, (0 <= i < n)%Z -> fin (xs k i)).
  { induction d as [|d IH]; intros k Ek i Hi; [replace k with K by lia; now apply FK|].
    pose proof (IH (S k) ltac:(lia) i Hi) as H. destruct (TS k i) as (_ & _ & X & _). rewrite X in H. now apply fin_sub in H. }
  assert (Pf : forall k, (k < K)%nat -> fin (ds k) /\ forall i, (0 <= i < n)%Z -> fin (ps k i)).
  { intros k Hk. assert (G : forall i, (0 <= i < n)%Z -> fin (ds k) /\ fin (ps k i)).
    { intros i Hi. pose proof (Back (K - S k)%nat (S k) ltac:(lia) i Hi) as H. destruct (TS k i) as (_ & _ & X & _). rewrite X in H.
      apply fin_sub in H. destruct H as [_ H]. now apply fin_mul in H. }
    split; [exact (proj1 (G a Ha))|]. intros i Hi. exact (proj2 (G i Hi)). }
  assert (I : forall k, (k <= K)%nat -> nul (xs k a) /\ nul (rs k a) /\ ((k < K)%nat -> nul (ps k a))).
  { induction k as [|k IH]; intros Hk.
    - destruct (T0 a) as (X & Rr & P). rewrite X. split; [exact Nx|].
      assert (R0 : nul (rs 0%nat a)) by (rewrite Rr; apply nul_sub; [apply HA; assumption|exact Nb]).
      split; [exact R0|]. intros _. rewrite P. apply nul_mul_r; assumption.
    - destruct (IH ltac:(lia)) as (X & Rr & P). specialize (P ltac:(lia)). destruct (Pf k ltac:(lia)) as (Fd & Fp).
      destruct (TS k a) as (EP & _ & EX & ER).
      assert (X1 : nul (xs (S k) a)) by (rewrite EX; apply nul_sub; [exact X|apply nul_mul_r; assumption]).
      assert (R1 : nul (rs (S k) a)) by (rewrite ER; apply nul_sub; [exact Rr|apply nul_mul_r; [exact Fd|apply HA; assumption]]).
      split; [exact X1|]. split; [exact R1|]. intros Hk2. destruct (Pf (S k) Hk2) as (_ & Fp2). pose proof (Fp2 a Ha) as F. rewrite EP in F |- *.
      apply nul_add; [apply nul_mul_r; assumption|]. apply fin_add in F. destruct F as [_ F]. apply fin_mul in F. apply nul_mul_r; [exact (proj1 F)|exact P]. }
  exact (proj2 (proj1 (I K ltac:(lia)))).
Qed.

(** ** One solve, one pass, the loop *)
Implicit Types (V : env flt) (w : work flt).
Definition all_fin V (u : arr flt) : Prop := forall i, (0 <= i < ndofs V)%Z -> fin (oval u i).
Definition keeps V (u u' : arr flt) : Prop := forall a, (0 <= a < ndofs V)%Z -> bnddof V a -> val (oval u' a) = val (oval u a).

Lemma solve_keeps V u vold vn A A' vn' b d0 du : sane V -> full u (ndofs V) -> has_old V vold -> alen vn = nvars V -> is_mat V A ->
  assembly_mat V u vold vn A = Ok (A', vn') -> full b (ndofs V) -> (forall a, (0 <= a < ndofs V)%Z -> bnddof V a -> nul (oval b a)) ->
  rep d0 (ndofs V) (fun _ => dec 0 1) -> solve V A' b d0 = Ok du -> all_fin V du ->
  forall a, (0 <= a < ndofs V)%Z -> bnddof V a -> val (oval du a) = 0.
Proof.
  intros S U O L M E Fb Nb R0 Es Fd a Ha Hb. pose proof (ident_rows V u vold vn A A' vn' a S U O L M Ha Hb E) as I.
  destruct (mat_ok V u vold vn A S U O L M) as (A2 & vn2 & E2 & (M2 & FM) & _). rewrite E in E2. injection E2 as <- <-.
  pose proof (full_oval _ _ Fb) as Rb. pose proof (sa_nx V S) as Hx. pose proof (sa_ny V S) as Hy. unfold all_fin in Fd.
  assert (F1 : fin (odiv (ofZ 1) (ofZ 1 : flt))) by (vm_compute; reflexivity).
  unfold solve, is_mat, row_len, diag_slot in *. destruct (dim_cases V S) as [D|D]; rewrite D in *; cbn [Z.eqb Pos.eqb] in *.
  - rewrite (ndofs_eq2 V S D) in *. pose proof (full_oval _ _ FM) as RV.
    assert (W : wf_ell A' (slots CG2D) 2 (nodes CG2D (v_nx V) (v_ny V) 1)) by (apply matrix2_wfg; try assumption; lia).
    destruct (solve_trace CG2D A' 2 (v_nx V) (v_ny V) 1 b d0 (oval b) (fun _ => dec 0 1) (oval (e_vals A')) W RV Rb R0 (mkSolver cg_its 0 cg_tol (ofZ 0)))
      as (xs & rs & ps & ds & sv' & x' & Tr & Er & k & _ & Rx & _).
    cbn [run_cg] in Er. rewrite Er in Es. cbn [bind snd] in Es. injection Es as <-.
    assert (Eo : forall i, (0 <= i < v_nx V * v_ny V * 2)%Z -> oval x' i = xs k i) by (intros i Hi; unfold oval; now rewrite (proj2 Rx i Hi)).
    rewrite (Eo a Ha). refine (trace_zero _ _ _ _ _ _ _ _ _ a k Tr Ha _ _ (Nb a Ha Hb) _ nul_dec _).
    + intros x Fx Nx. pose proof (Z.mod_pos_bound a 2 ltac:(lia)) as Hm.
      apply (ident_product _ _ _ _ a (v_nx V * v_ny V * 2) (4 * 2 + a mod 2)); try assumption.
      * cbn [slots]. lia.
      * intros q Hq. exact (proj1 (I q Hq)).
      * apply (I (4 * 2 + a mod 2)%Z); [lia|reflexivity].
      * intros q Hq. destruct (wf_reps _ _ _ _ W) as (Lc & _). destruct (wf_cols _ _ _ _ W) as (cf & Rc & Hc). unfold colsf.
        assert (Hr : (0 <= a * (slots CG2D * 2) + q < slots CG2D * 2 * (nodes CG2D (v_nx V) (v_ny V) 1 * 2))%Z) by (cbn [slots nodes] in *; nia).
        rewrite (proj2 Rc _ Hr). exact (Hc _ Hr).
    + unfold diag_ix. destruct (I (4 * 2 + a mod 2)%Z) as (I1 & _); [pose proof (Z.mod_pos_bound a 2); lia|]. cbn [slots dslot]. rewrite I1, Z.eqb_refl. exact F1.
    + intros i _. apply nul_dec.
    + intros i Hi. rewrite <- (Eo i Hi). now apply Fd.
  - rewrite (ndofs_eq3 V D) in *. pose proof (sane_nz V S D) as Hz. pose proof (full_oval _ _ FM) as RV.
    assert (W : wf_ell A' (slots CGstruct3) 3 (nodes CGstruct3 (v_nx V) (v_ny V) (v_nz V))) by (apply matrix3_wfg; try assumption; lia).
    destruct (solve_trace CGstruct3 A' 3 (v_nx V) (v_ny V) (v_nz V) b d0 (oval b) (fun _ => dec 0 1) (oval (e_vals A')) W RV Rb R0 (mkSolver cg_its 0 cg_tol (ofZ 0)))
      as (xs & rs & ps & ds & sv' & x' & Tr & Er & k & _ & Rx & _).
    cbn [run_cg] in Er. unfold nn in Es. rewrite Er in Es. cbn [bind snd] in Es. injection Es as <-.
    assert (Eo : forall i, (0 <= i < v_nx V * v_ny V * v_nz V * 3)%Z -> oval x' i = xs k i) by (intros i Hi; unfold oval; now rewrite (proj2 Rx i Hi)).
    rewrite (Eo a Ha). refine (trace_zero _ _ _ _ _ _ _ _ _ a k Tr Ha _ _ (Nb a Ha Hb) _ nul_dec _).
    + intros x Fx Nx. pose proof (Z.mod_pos_bound a 3 ltac:(lia)) as Hm.
      apply (ident_product _ _ _ _ a (v_nx V * v_ny V * v_nz V * 3) (13 * 3 + a mod 3)); try assumption.
      * cbn [slots]. lia.
      * intros q Hq. exact (proj1 (I q Hq)).
      * apply (I (13 * 3 + a mod 3)%Z); [lia|reflexivity].
      * intros q Hq. destruct (wf_cols _ _ _ _ W) as (cf & Rc & Hc). unfold colsf.
        assert (Hr : (0 <= a * (slots CGstruct3 * 3) + q < slots CGstruct3 * 3 * (nodes CGstruct3 (v_nx V) (v_ny V) (v_nz V) * 3))%Z) by (cbn [slots nodes] in *; nia).
        rewrite (proj2 Rc _ Hr). exact (Hc _ Hr).
    + unfold diag_ix. destruct (I (13 * 3 + a mod 3)%Z) as (I1 & _); [pose proof (Z.mod_pos_bound a 3); lia|]. cbn [slots dslot]. rewrite I1, Z.eqb_refl. exact F1.
    + intros i _. apply nul_dec.
    + intros i Hi. rewrite <- (Eo i Hi). now apply Fd.
Qed.

Lemma pass_keeps V w w' nl er brk : sane V -> wok V w -> newton_body V w = Ok (w', nl, er, brk) -> all_fin V (w_u w') ->
  all_fin V (w_u w) /\ keeps V (w_u w) (w_u w') /\ brk = oltb er nr_tol /\
  (brk = true -> w_u w' = w_u w /\ assembly_rhs V (w_u w) (w_vold w) (w_vnew w) (w_b w) = Ok (w_b w', nl, w_vnew w', er)).
Proof.
  intros S K E F. destruct K as [U Ldu Lb M O L]. destruct (rhs_ok V _ _ _ _ S U O L Lb) as (b & nl2 & vn & er2 & Er & Fb & Lv & _ & _).
  destruct (rhs_bnd V _ _ _ _ _ _ _ _ S U O L Lb Er) as (_ & Zb).
  unfold newton_body in E. rewrite Er in E. cbn [bind] in E. destruct (oltb er2 nr_tol) eqn:Et.
  - injection E as <- <- <- <-. cbn [w_u w_b w_vnew] in *. split; [exact F|]. split; [intros a _ _; reflexivity|]. split; [now rewrite Et|]. intros _. split; [reflexivity|exact Er].
  - destruct (mat_ok V (w_u w) (w_vold w) vn (w_A w) S U O Lv M) as (A' & vn' & Em & FA & _). rewrite Em in E. cbn [bind fst snd] in E.
    destruct (zero_all (oval (w_u w)) (oval (w_u w)) (ndofs V) (w_du w) (ndofs_pos V S) Ldu) as (d0 & E0 & R0). rewrite E0 in E. cbn [bind] in E.
    destruct (solve_ok V A' b d0 S FA Fb) as (du & Es & Fdu); [eapply rep_full; exact R0|]. rewrite Es in E. cbn [bind] in E.
    destruct (sum_full (ndofs V) (w_u w) du U Fdu) as (u' & Eu & Fu & Gu). rewrite Eu in E. cbn [bind] in E. injection E as <- <- <- <-. cbn [w_u] in *.
    assert (G : forall i, (0 <= i < ndofs V)%Z -> fin (oadd (oval (w_u w) i) (oval du i)) /\ oval u' i = oadd (oval (w_u w) i) (oval du i)).
    { intros i Hi. assert (Eo : oval u' i = oadd (oval (w_u w) i) (oval du i)) by (unfold oval at 1; now rewrite (Gu i Hi)). split; [rewrite <- Eo; now apply F|exact Eo]. }
    split; [intros i Hi; exact (proj1 (fin_add _ _ (proj1 (G i Hi))))|]. split; [|split; [now rewrite Et|discriminate]].
    intros a Ha Hb. destruct (G a Ha) as (Fa & Ea). rewrite Ea. apply add_0; [exact Fa|].
    refine (solve_keeps V _ _ _ _ _ _ b d0 du S U O Lv M Em Fb _ R0 Es _ a Ha Hb).
    + intros r Hr Br. rewrite (Zb r Hr Br). apply nul_opp, nul_dec.
    + intros i Hi. exact (proj2 (fin_add _ _ (proj1 (G i Hi)))).
Qed.
Lemma passes_keep V n w w' : sane V -> wok V w -> passes V n w w' -> all_fin V (w_u w') -> all_fin V (w_u w) /\ keeps V (w_u w) (w_u w').
Proof.
  intros S K P. revert K. induction P as [w|n w w1 nl er w2 E P IH]; intros K F; [split; [exact F|intros a _ _; reflexivity]|].
  destruct (body_ok V w S K) as (w1' & nl' & er' & brk & E' & K1 & _). rewrite E in E'. injection E' as <- <- <- <-.
  destruct (IH K1 F) as (F1 & K2). destruct (pass_keeps V w w1 nl er false S K E F1) as (F0 & K0 & _). split; [exact F0|].
  intros a Ha Hb. now rewrite (K2 a Ha Hb), (K0 a Ha Hb).
Qed.
Theorem newton_double V fuel pk w w' nl its er : sane V -> wok V w -> newton fuel pk V w = Ok (w', nl, its, er) -> all_fin V (w_u w') ->
  all_fin V (w_u w) /\ keeps V (w_u w) (w_u w') /\ w_vold w' = w_vold w /\ wok V w' /\
  (oltb er nr_tol = true -> exists vn b, alen vn = nvars V /\ alen b = ndofs V /\
     assembly_rhs V (w_u w') (w_vold w) vn b = Ok (w_b w', nl, w_vnew w', er)).
Proof.
  intros S K E F. pose proof (newton_ok V pk fuel w S K) as H. rewrite E in H.
  destruct H as (I & K' & O' & _ & _ & n & w0 & brk & P & _ & K0 & O0 & Eb & _).
  destruct (pass_keeps V w0 w' nl er brk S K0 Eb F) as (F0 & B0 & Ek & Hk). destruct (passes_keep V n w w0 S K P F0) as (F1 & B1).
  split; [exact F1|]. split; [intros a Ha Hb; now rewrite (B0 a Ha Hb), (B1 a Ha Hb)|]. split; [exact O'|]. split; [exact K'|].
  intros Ht. rewrite <- Ek in Ht. destruct (Hk Ht) as (Eu & Er). exists (w_vnew w0), (w_b w0). split; [exact (wk_new V w0 K0)|]. split; [exact (wk_b V w0 K0)|].
  rewrite Eu, <- O0. exact Er.
Qed.
