(** Concrete cases for the monotonicity and tangent theorems: a box of one plastic material
    with any uniform history, under pure shear. *)
From Coq Require Import Reals Lra ZifyBool.
From Verif Require Import Base Scalar Grid EllModel EllSpec EllFinal EllProps CgPure CgFinal CgProps AssemblyModel AsmPure AsmBnd FemGen FemAve AsmRun AsmMat
  FemMat FemMat2 FemDef FemPd FemRhs FemEquil PlastProps AsmEx PlastRef AsmSpec AsmProps AsmPoint AsmEquil AsmCases MonoPoint MonoBody MonoUnif TanModel TanProps.
Open Scope Z_scope.
Open Scope R_scope.

Definition lump (m : material R) : env R := box 3 4 5 3 1 2 3 m m.
Definition hist (m : material R) (ep : Z -> R) (al : R) : arr R :=
  fun_arr (ncells (lump m) * 56) (fun k => if (k mod 7 =? 6)%Z then al else ep (k mod 7)%Z).
Lemma lump_body m p : m_plast m = Some p -> body3 (lump m).
Proof.
  intros P. split; [|split; [|reflexivity]]; [exact (box_sane 3 4 5 3 1 2 3 m m gb3 p p P P)|apply (box_geom 3 4 5 3 1 2 3 m m gb3); lra].
Qed.
Lemma lump_mat m ex ey ez p : m_plast m = Some p -> is_cell3 (lump m) ex ey ez -> cell_mat (lump m) ex ey ez m.
Proof.
  intros P Hc. assert (Hr : (0 <= cell3 (lump m) ex ey ez < ncells (lump m))%Z).
  { destruct (lump_body m p P) as (S & G & D). rewrite cell3_ix. apply (ix3_range (lump m) (ex, ey, ez) D). now apply in_els3. }
  exists (cell3 (lump m) ex ey ez mod 2)%Z. split.
  - change (ncells (lump m)) with ((4 - 1) * (5 - 1) * (3 - 1))%Z in Hr. exact (proj2 (fun_arr_rep _ (fun e => e mod 2)%Z) _ Hr).
  - unfold lump, box; cbn [v_mats]. destruct (_ mod 2 =? 0)%Z; reflexivity.
Qed.
Lemma lump_hist m ep al : m_plast m = Some true -> one_plastic (lump m) m (hist m ep al) ep al.
Proof.
  intros P. split; [exact P|]. split; [intros; now apply (lump_mat m ex ey ez true)|]. intros ex ey ez g Hc Hg.
  assert (Hr : (0 <= cell3 (lump m) ex ey ez < ncells (lump m))%Z).
  { destruct (lump_body m true P) as (S & G & D). rewrite cell3_ix. apply (ix3_range (lump m) (ex, ey, ez) D). now apply in_els3. }
  assert (X : forall i, (0 <= i < 7)%Z -> aget (hist m ep al) (var3 (lump m) ex ey ez g i) = Some (if (i =? 6)%Z then al else ep i)).
  { intros i Hi. unfold hist, var3. set (c := cell3 (lump m) ex ey ez) in *.
    rewrite (proj2 (fun_arr_rep _ _)) by (clear - Hr Hi Hg; lia).
    replace ((c * 8 * 7 + g * 7 + i) mod 7)%Z with i; [reflexivity|].
    replace (c * 8 * 7 + g * 7 + i)%Z with (i + (c * 8 + g) * 7)%Z by ring. rewrite Z.mod_add, Z.mod_small by lia. reflexivity. }
  split; [|exact (X 6%Z ltac:(lia))]. intros i Hi. rewrite X by lia. now replace (i =? 6)%Z with false by lia.
Qed.

(** ** pure shear x of mat1 0 Sy (shear modulus 1, no hardening) from the plastic shear y *)
Definition limit (Sy : R) : R := sqrt (2 / 3) * Sy / sqrt 2.
Lemma q_lt_w : 0 < sqrt (2 / 3) < sqrt 2.
Proof. split; [apply sqrt_lt_R0; lra|apply sqrt_lt_1; lra]. Qed.
Lemma shear_step Sy x y : 0 <= Sy -> let p := plastic_step (mat1 0 Sy) (shear x) (shear y) 0 in
  (Sy < x - y -> ps_nl p = true /\ lget (ps_stress p) 3 = limit Sy) /\
  (0 < Sy -> Rabs (x - y) <= limit Sy -> ps_nl p = false /\ lget (ps_stress p) 3 = x - y).
Proof.
  intros HS p. assert (Hmu : 0 < m_mu (mat1 0 Sy)) by (rewrite mat1_mu; lra). pose proof q_lt_w as (Q0 & Q1).
  destruct (step_forms (mat1 0 Sy) (shear x) (shear y) 0 Hmu) as (N & Q & _). fold p in N, Q.
  assert (Fr : sqrt (frob2 (trial (mat1 0 Sy) (shear x) (shear y))) = sqrt 2 * Rabs (x - y)).
  { rewrite shear_frob, sqrt_mult by (try apply Rle_0_sqr; lra). f_equal. exact (sqrt_Rsqr_abs (x - y)). }
  assert (F : ftrial (mat1 0 Sy) (shear x) (shear y) 0 = sqrt 2 * Rabs (x - y) - sqrt (2 / 3) * Sy).
  { unfold ftrial. rewrite Fr. unfold mat1, elas; cbn [m_Sy m_Ka]; ring. }
  assert (Tr3 : trial (mat1 0 Sy) (shear x) (shear y) 3 = x - y) by (rewrite shear_trial by lia; reflexivity).
  destruct (Q 3%Z ltac:(lia)) as (_ & Q3). cbn [Z.ltb Z.compare Pos.compare Pos.compare_cont] in Q3. rewrite F, Tr3, Fr in Q3. rewrite F in N. split.
  - intros L. assert (Px : 0 < x - y) by lra. rewrite (Rabs_pos_eq (x - y)) in N, Q3 by lra.
    assert (E : ps_nl p = true) by (apply N; assert (sqrt (2 / 3) * Sy <= sqrt 2 * Sy) by (apply Rmult_le_compat_r; lra); nra).
    split; [exact E|]. rewrite Q3, E. unfold limit. field. split; lra.
  - intros SP L. assert (E : ps_nl p = false).
    { destruct (ps_nl p); [|reflexivity]. exfalso. destruct N as (N & _). specialize (N eq_refl).
      assert (sqrt 2 * Rabs (x - y) <= sqrt 2 * limit Sy) by (apply Rmult_le_compat_l; lra).
      unfold limit in H. replace (sqrt 2 * (sqrt (2 / 3) * Sy / sqrt 2)) with (sqrt (2 / 3) * Sy) in H by (field; lra). lra. }
    split; [exact E|]. rewrite Q3, E. ring.
Qed.
Lemma limit_pos Sy : 0 < Sy -> 0 < limit Sy.
Proof. intros H. pose proof q_lt_w. unfold limit. apply Rdiv_lt_0_compat; [apply Rmult_lt_0_compat; lra|lra]. Qed.
Lemma limit_lt Sy : 0 < Sy -> limit Sy < Sy.
Proof.
  intros H. pose proof q_lt_w as (? & ?). unfold limit. apply (Rmult_lt_reg_r (sqrt 2)); [lra|].
  replace (sqrt (2 / 3) * Sy / sqrt 2 * sqrt 2) with (Sy * sqrt (2 / 3)) by (field; lra). apply Rmult_lt_compat_l; lra.
Qed.

Definition one : material R := mat1 0 1.
Definition bar : env R := lump one.
(** plastic shear y everywhere, no hardening *)
Definition sheared (y : R) : arr R := hist one (lget (shear y)) 0.
Definition junk56 : arr R := fun_arr (ncells bar * 56) (fun _ => 0).
Lemma one_adm : admissible one. Proof. apply elas_adm; lra. Qed.
Lemma bar_body : body3 bar. Proof. exact (lump_body one true eq_refl). Qed.
Lemma bar_adm : adm bar. Proof. exact (box_adm 3 4 5 3 1 2 3 one one one_adm one_adm). Qed.
Lemma bar_hist y : one_plastic bar one (sheared y) (lget (shear y)) 0. Proof. exact (lump_hist one _ 0 eq_refl). Qed.
Lemma junk_len : alen junk56 = (ncells bar * 56)%Z. Proof. exact (proj1 (fun_arr_rep _ _)). Qed.
Lemma bar_vars y : vars_ok bar (sheared y) junk56.
Proof. exact (unif_vars bar one (sheared y) junk56 _ 0 bar_body (bar_hist y) junk_len). Qed.
Lemma one_yield : 0 <= m_Sy one + m_Ka one * 0. Proof. unfold one, mat1, elas; cbn [m_Sy m_Ka]. lra. Qed.
Lemma bar_yield y : yield_ok bar (sheared y).
Proof. exact (unif_yield bar one (sheared y) _ 0 bar_body (bar_hist y) one_yield). Qed.
Lemma bar_cell : is_cell3 bar 1 2 1. Proof. unfold is_cell3, bar, lump, box; cbn [v_nx v_ny v_nz]. lia. Qed.
Lemma bar_mat : cell_mat bar 1 2 1 one. Proof. exact (lump_mat one 1 2 1 true eq_refl bar_cell). Qed.
Lemma shear_list x : ltab 6 (lget (shear x)) = shear x. Proof. reflexivity. Qed.

(** stress of the bar at a Gauss point, any strain that is a pure shear *)
Lemma bar_point y ex ey ez g eps x : is_cell3 bar ex ey ez -> (0 <= g < 8)%Z -> (forall i, (0 <= i < 6)%Z -> lget eps i = lget (shear x) i) ->
  exists vn, get_stress3D bar (sheared y) junk56 ex ey ez g eps = Ok (ps_nl (plastic_step one (shear x) (shear y) 0), ps_stress (plastic_step one (shear x) (shear y) 0), vn).
Proof.
  intros Hc Hg He. destruct (point_step bar (sheared y) junk56 ex ey ez g eps one bar_body (bar_vars y) Hc Hg (lump_mat one ex ey ez true eq_refl Hc) eq_refl) as (vn & E & _).
  exists vn. rewrite E. destruct (bar_hist y) as (_ & _ & H2). destruct (H2 ex ey ez g Hc Hg) as (Q1 & Q2).
  assert (E1 : ltab 6 (fun i => val (sheared y) (var3 bar ex ey ez g i)) = shear y).
  { rewrite <- (shear_list y). apply ltab_ext6. intros i Hi. unfold val. now rewrite Q1. }
  assert (E2 : val (sheared y) (var3 bar ex ey ez g 6) = 0) by (unfold val; now rewrite Q2).
  rewrite E1, E2, (step_ext_eps one eps (shear x)) by exact He. reflexivity.
Qed.
Lemma bar_flow y x ex ey ez g : is_cell3 bar ex ey ez -> (0 <= g < 8)%Z -> 1 < x - y ->
  exists s vn, get_stress3D bar (sheared y) junk56 ex ey ez g (shear x) = Ok (true, s, vn) /\ lget s 3 = limit 1.
Proof.
  intros Hc Hg L. destruct (bar_point y ex ey ez g (shear x) x Hc Hg ltac:(auto)) as (vn & E). destruct (shear_step 1 x y ltac:(lra)) as (Q & _).
  destruct (Q L) as (N & V3). fold one in N, V3. rewrite N in E. eauto.
Qed.

(** a displacement field of the bar with strain shear x *)
Definition sfield (x : R) : arr R := fun_arr (ndofs bar) (afield3 bar (shear x)).
Lemma sfield_full x : full (sfield x) (ndofs bar). Proof. exact (rep_full _ _ _ (fun_arr_rep _ _)). Qed.
Lemma sfield_strain x ex ey ez g : is_cell3 bar ex ey ez -> (0 <= g < 8)%Z ->
  exists eps, get_strain3D bar (sfield x) ex ey ez g = Ok eps /\ forall i, (0 <= i < 6)%Z -> lget eps i = lget (shear x) i.
Proof.
  intros Hc Hg. destruct bar_body as (S & G & D). assert (He : In (ex, ey, ez) (els3 bar)) by now apply in_els3.
  exists (strain3 bar (afield3 bar (shear x)) (ex, ey, ez) g). split.
  - apply strain3_ok; [|exact He]. pose proof (fun_arr_rep (ndofs bar) (afield3 bar (shear x))) as Q. rewrite (ndofs3 bar D) in Q at 2. exact Q.
  - intros i Hi. rewrite strain3_str by assumption. now apply str3_afield.
Qed.

(** ** small strains of the bar without history do not flow *)
Lemma half_lt : 1 / 2 < sqrt (2 / 3).
Proof.
  replace (1 / 2) with (sqrt (1 / 2 * (1 / 2))) by (apply sqrt_square; lra). apply sqrt_lt_1; lra.
Qed.
Lemma half_limit : 1 / 2 < limit 1.
Proof.
  unfold limit. pose proof q_lt_w as (? & W0). apply (Rmult_lt_reg_r (sqrt 2)); [lra|].
  replace (sqrt (2 / 3) * 1 / sqrt 2 * sqrt 2) with (sqrt (2 / 3)) by (field; lra).
  replace (1 / 2 * sqrt 2) with (sqrt (1 / 2 * (1 / 2) * 2)) by (rewrite sqrt_mult, sqrt_square; lra). apply sqrt_lt_1; lra.
Qed.
Lemma small_step eps : (forall i, (0 <= i < 6)%Z -> Rabs (lget eps i) <= 1 / 100) -> ps_nl (plastic_step one eps (shear 0) 0) = false.
Proof.
  intros H. assert (Hmu : 0 < m_mu one) by (unfold one; rewrite mat1_mu; lra).
  destruct (step_forms one eps (shear 0) 0 Hmu) as (N & _). destruct (ps_nl (plastic_step one eps (shear 0) 0)); [|reflexivity]. exfalso.
  destruct N as (N & _). specialize (N eq_refl). unfold ftrial in N.
  assert (B : forall i, (0 <= i < 6)%Z -> - (1 / 100) <= lget eps i <= 1 / 100).
  { intros i Hi. pose proof (H i Hi) as Q. unfold Rabs in Q. destruct (Rcase_abs (lget eps i)); lra. }
  assert (T : forall i, (0 <= i < 6)%Z -> trial one eps (shear 0) i * trial one eps (shear 0) i <= 4 / 100 * (4 / 100)).
  { intros i Hi. assert (- (4 / 100) <= trial one eps (shear 0) i <= 4 / 100) as Q; [|nra].
    unfold trial, tr. unfold one at 1 2 3 4. rewrite mat1_mu. rewrite !shear_get by lia. cbn [Z.eqb Pos.eqb].
    pose proof (B 0%Z ltac:(lia)). pose proof (B 1%Z ltac:(lia)). pose proof (B 2%Z ltac:(lia)). pose proof (B i Hi).
    assert (Z0 : (if (i =? 3)%Z then 0 else 0) = 0) by (destruct (i =? 3)%Z; reflexivity). rewrite Z0. destruct (i <? 3)%Z; lra. }
  assert (Fb : frob2 (trial one eps (shear 0)) <= 12 / 100 * (12 / 100)).
  { unfold frob2. pose proof (T 0%Z ltac:(lia)). pose proof (T 1%Z ltac:(lia)). pose proof (T 2%Z ltac:(lia)). pose proof (T 3%Z ltac:(lia)).
    pose proof (T 4%Z ltac:(lia)). pose proof (T 5%Z ltac:(lia)). lra. }
  apply sqrt_le_1_alt in Fb. rewrite sqrt_square in Fb by lra. pose proof half_lt. unfold one in N at 2 3. cbn [m_Sy m_Ka mat1 elas] in N. lra.
Qed.
Lemma bar_small eps ex ey ez g : is_cell3 bar ex ey ez -> (0 <= g < 8)%Z -> (forall i, (0 <= i < 6)%Z -> Rabs (lget eps i) <= 1 / 100) ->
  exists s vn, get_stress3D bar (sheared 0) junk56 ex ey ez g eps = Ok (false, s, vn).
Proof.
  intros Hc Hg He. destruct (point_step bar (sheared 0) junk56 ex ey ez g eps one bar_body (bar_vars 0) Hc Hg (lump_mat one ex ey ez true eq_refl Hc) eq_refl) as (vn & E & _).
  destruct (bar_hist 0) as (_ & _ & H2). destruct (H2 ex ey ez g Hc Hg) as (Q1 & Q2).
  assert (E1 : ltab 6 (fun i => val (sheared 0) (var3 bar ex ey ez g i)) = shear 0).
  { rewrite <- (shear_list 0). apply ltab_ext6. intros i Hi. unfold val. now rewrite Q1. }
  assert (E2 : val (sheared 0) (var3 bar ex ey ez g 6) = 0) by (unfold val; now rewrite Q2).
  rewrite E1, E2, (small_step eps He) in E. eauto.
Qed.

(** C78 *)
Lemma point_ex : exists s1 v1 s2 v2, body3 bar /\ vars_ok bar (sheared 1) junk56 /\ is_cell3 bar 1 2 1 /\ cell_mat bar 1 2 1 one /\ admissible one /\ m_plast one = Some true /\
  0 <= m_Sy one + m_Ka one * val (sheared 1) (var3 bar 1 2 1 5 6) /\
  get_stress3D bar (sheared 1) junk56 1 2 1 5 (shear 3) = Ok (true, s1, v1) /\ get_stress3D bar (sheared 1) junk56 1 2 1 5 (shear 1) = Ok (false, s2, v2) /\
  lget s1 3 = limit 1 /\ 0 < limit 1 < 1 /\ lget s2 3 = 0.
Proof.
  destruct (bar_flow 1 3 1 2 1 5 bar_cell ltac:(lia) ltac:(lra)) as (s1 & v1 & E1 & L1).
  destruct (bar_point 1 1 2 1 5 (shear 1) 1 bar_cell ltac:(lia) ltac:(auto)) as (v2 & E2). destruct (shear_step 1 1 1 ltac:(lra)) as (_ & Q).
  destruct (Q ltac:(lra)) as (N & L2). { rewrite Rminus_eq_0, Rabs_R0. pose proof half_limit. lra. }
  fold one in N, L2. rewrite N in E2. exists s1, v1, (ps_stress (plastic_step one (shear 1) (shear 1) 0)), v2.
  split; [exact bar_body|]. split; [exact (bar_vars 1)|]. split; [exact bar_cell|]. split; [exact bar_mat|]. split; [exact one_adm|]. split; [reflexivity|].
  split; [exact (bar_yield 1 1%Z 2%Z 1%Z 5%Z one bar_cell ltac:(lia) bar_mat eq_refl)|]. split; [exact E1|]. split; [exact E2|]. split; [exact L1|].
  split; [|lra]. pose proof (limit_pos 1 ltac:(lra)). pose proof (limit_lt 1 ltac:(lra)). lra.
Qed.
(** C79 *)
Lemma flow_tan_ex : exists eps s v c vn, body3 bar /\ full (sfield 2) (ndofs bar) /\ vars_ok bar (sheared 0) junk56 /\ is_cell3 bar 1 2 1 /\ cell_mat bar 1 2 1 one /\ admissible one /\
  0 <= m_Sy one + m_Ka one * val (sheared 0) (var3 bar 1 2 1 5 6) /\
  get_strain3D bar (sfield 2) 1 2 1 5 = Ok eps /\ lget eps 3 = 2 /\ get_stress3D bar (sheared 0) junk56 1 2 1 5 eps = Ok (true, s, v) /\
  ctan_plast_pert bar (sfield 2) (sheared 0) junk56 1 2 1 5 = Ok (c, vn).
Proof.
  destruct (sfield_strain 2 1 2 1 5 bar_cell ltac:(lia)) as (eps & Ee & He). destruct (bar_point 0 1 2 1 5 eps 2 bar_cell ltac:(lia) He) as (v & Es).
  destruct (shear_step 1 2 0 ltac:(lra)) as (Q & _). destruct (Q ltac:(lra)) as (N & _). fold one in N. rewrite N in Es.
  destruct (pert_total bar (sfield 2) (sheared 0) junk56 1 2 1 5 bar_body (sfield_full 2) (bar_vars 0) bar_cell ltac:(lia)) as (c & vn & Et).
  exists eps, (ps_stress (plastic_step one (shear 2) (shear 0) 0)), v, c, vn.
  split; [exact bar_body|]. split; [exact (sfield_full 2)|]. split; [exact (bar_vars 0)|]. split; [exact bar_cell|]. split; [exact bar_mat|]. split; [exact one_adm|].
  split; [exact (bar_yield 0 1%Z 2%Z 1%Z 5%Z one bar_cell ltac:(lia) bar_mat eq_refl)|]. split; [exact Ee|]. split; [exact (He 3%Z ltac:(lia))|]. split; [exact Es|exact Et].
Qed.
Lemma quiet_ex : exists c vn, full (sfield 0) (ndofs bar) /\ m_plast one = Some true /\
  (forall eps, get_strain3D bar (sfield 0) 1 2 1 5 = Ok eps -> forall x, (x = eps \/ exists i, (0 <= i < 6)%Z /\ x = ltab 6 (fun j => lget eps j + if (j =? i)%Z then 1 / 100000000 else 0)) ->
     exists s v', get_stress3D bar (sheared 0) junk56 1 2 1 5 x = Ok (false, s, v')) /\
  ctan_plast_pert bar (sfield 0) (sheared 0) junk56 1 2 1 5 = Ok (c, vn).
Proof.
  destruct (pert_total bar (sfield 0) (sheared 0) junk56 1 2 1 5 bar_body (sfield_full 0) (bar_vars 0) bar_cell ltac:(lia)) as (c & vn & Et).
  exists c, vn. split; [exact (sfield_full 0)|]. split; [reflexivity|]. split; [|exact Et].
  destruct (sfield_strain 0 1 2 1 5 bar_cell ltac:(lia)) as (eps' & Ee & He). intros eps Es. rewrite Ee in Es. injection Es as <-.
  assert (Z0 : forall i, (0 <= i < 6)%Z -> lget eps' i = 0) by (intros i Hi; rewrite He, shear_get by assumption; destruct (i =? 3)%Z; reflexivity).
  intros x [-> | (i & Hi & ->)]; (apply bar_small; [exact bar_cell|lia|]); intros k Hk.
  - rewrite Z0, Rabs_R0 by assumption. lra.
  - rewrite lget_ltab by assumption. rewrite Z0 by assumption. destruct (k =? i)%Z; rewrite Rplus_0_l; [rewrite Rabs_pos_eq; lra|rewrite Rabs_R0; lra].
Qed.
(** the secant one, no plastic strain *)
Lemma quiet_sec_ex : exists eps c vn, (forall i, (0 <= i < 6)%Z -> val (sheared 0) (var3 bar 1 2 1 5 i) = 0) /\ get_strain3D bar (sfield (1 / 200)) 1 2 1 5 = Ok eps /\ lget eps 3 <> 0 /\
  (forall i, (0 <= i < 6)%Z -> exists s v', get_stress3D bar (sheared 0) junk56 1 2 1 5 (only (probe (lget eps i)) i) = Ok (false, s, v')) /\
  ctan_plast_sec bar (sfield (1 / 200)) (sheared 0) junk56 1 2 1 5 = Ok (c, vn).
Proof.
  destruct (sec_total bar (sfield (1 / 200)) (sheared 0) junk56 1 2 1 5 bar_body (sfield_full _) (bar_vars 0) bar_cell ltac:(lia)) as (vn & Et).
  destruct (sfield_strain (1 / 200) 1 2 1 5 bar_cell ltac:(lia)) as (eps & Ee & He). exists eps, (stan bar (val (sfield (1 / 200))) (val (sheared 0)) (1, 2, 1)%Z 5), vn.
  split. { intros i Hi. destruct (bar_hist 0) as (_ & _ & H2). destruct (H2 1 2 1 5 bar_cell ltac:(lia))%Z as (Q1 & _). unfold val. rewrite Q1 by assumption. rewrite shear_get by assumption. now destruct (i =? 3)%Z. }
  split; [exact Ee|]. split; [rewrite He by lia; change (1 / 200 <> 0); lra|]. split; [|exact Et].
  intros i Hi. apply bar_small; [exact bar_cell|lia|]. intros k Hk. unfold only. rewrite lget_ltab by assumption.
  destruct (k =? i)%Z; [|rewrite Rabs_R0; lra]. unfold probe. rewrite He, shear_get by assumption.
  destruct (i =? 3)%Z; destruct (Rlt_dec _ _); rewrite ?Rabs_R0, ?Rabs_pos_eq; lra.
Qed.
(** C82 *)
Theorem exact_not_tangent : exists V u vold vnew ex ey ez g m eps s0 v0 c, body3 V /\ full u (ndofs V) /\ vars_ok V vold vnew /\ is_cell3 V ex ey ez /\ (0 <= g < 8)%Z /\
  cell_mat V ex ey ez m /\ admissible m /\ get_strain3D V u ex ey ez g = Ok eps /\ get_stress3D V vold vnew ex ey ez g eps = Ok (true, s0, v0) /\
  (forall h, Rabs h < 1 / 2 -> exists s v, get_stress3D V vold vnew ex ey ez g (ltab 6 (fun j => lget eps j + if (j =? 3)%Z then h else 0)) = Ok (true, s, v) /\ lget s 3 = lget s0 3) /\
  ctan_plast_exact V u ex ey ez g = Ok c /\ c 3%Z 3%Z = m_mu m /\ 0 < m_mu m.
Proof.
  destruct (sfield_strain 2 1 2 1 5 bar_cell ltac:(lia)) as (eps & Ee & He).
  assert (F : forall e x, 1 < x -> (forall i, (0 <= i < 6)%Z -> lget e i = lget (shear x) i) -> exists s v, get_stress3D bar (sheared 0) junk56 1 2 1 5 e = Ok (true, s, v) /\ lget s 3 = limit 1).
  { intros e x Hx H. destruct (bar_point 0 1 2 1 5 e x bar_cell ltac:(lia) H) as (v & Es). destruct (shear_step 1 x 0 ltac:(lra)) as (Q & _).
    destruct (Q ltac:(lra)) as (N & L). fold one in N, L. rewrite N in Es. eauto. }
  destruct (F eps 2 ltac:(lra) He) as (s0 & v0 & E0 & L0).
  destruct (exact_elastic bar (sfield 2) 1 2 1 5 one bar_body (sfield_full 2) bar_cell ltac:(lia) bar_mat) as (c & Ec & Hc).
  exists bar, (sfield 2), (sheared 0), junk56, 1%Z, 2%Z, 1%Z, 5%Z, one, eps, s0, v0, c.
  split; [exact bar_body|]. split; [exact (sfield_full 2)|]. split; [exact (bar_vars 0)|]. split; [exact bar_cell|]. split; [lia|]. split; [exact bar_mat|]. split; [exact one_adm|].
  split; [exact Ee|]. split; [exact E0|]. split.
  - intros h Hh. assert (- (1 / 2) < h < 1 / 2) by (unfold Rabs in Hh; destruct (Rcase_abs h); lra).
    destruct (F (ltab 6 (fun j => lget eps j + (if (j =? 3)%Z then h else 0))) (2 + h) ltac:(lra)) as (s & v & E & L).
    { intros i Hi. rewrite lget_ltab by assumption. rewrite He, !shear_get by assumption. destruct (i =? 3)%Z; lra. }
    exists s, v. split; [exact E|]. now rewrite L.
  - split; [exact Ec|]. split; [rewrite Hc, elastic_tan_diag by lia; reflexivity|unfold one; rewrite mat1_mu; lra].
Qed.
Theorem sec_negative : exists V u vold vnew ex ey ez g m eps s0 v0 c vn, body3 V /\ full u (ndofs V) /\ vars_ok V vold vnew /\ is_cell3 V ex ey ez /\ (0 <= g < 8)%Z /\
  cell_mat V ex ey ez m /\ admissible m /\ 0 < m_mu m /\ get_strain3D V u ex ey ez g = Ok eps /\ get_stress3D V vold vnew ex ey ez g eps = Ok (false, s0, v0) /\
  ctan_plast_sec V u vold vnew ex ey ez g = Ok (c, vn) /\ c 3%Z 3%Z < -1000000 * m_mu m.
Proof.
  destruct (sec_total bar (sfield 0) (sheared (1 / 2)) junk56 1 2 1 5 bar_body (sfield_full _) (bar_vars _) bar_cell ltac:(lia)) as (vn & Et).
  destruct (sfield_strain 0 1 2 1 5 bar_cell ltac:(lia)) as (eps & Ee & He).
  pose proof half_limit as HL.
  assert (F : forall e x, 0 <= x <= 1 -> (forall i, (0 <= i < 6)%Z -> lget e i = lget (shear x) i) -> exists s v, get_stress3D bar (sheared (1 / 2)) junk56 1 2 1 5 e = Ok (false, s, v) /\ lget s 3 = x - 1 / 2).
  { intros e x Hx H. destruct (bar_point (1 / 2) 1 2 1 5 e x bar_cell ltac:(lia) H) as (v & Es). destruct (shear_step 1 x (1 / 2) ltac:(lra)) as (_ & Q).
    destruct (Q ltac:(lra)) as (N & L); [unfold Rabs; destruct (Rcase_abs _); lra|]. fold one in N, L. rewrite N in Es. eauto. }
  destruct (F eps 0 ltac:(lra) He) as (s0 & v0 & E0 & _).
  exists bar, (sfield 0), (sheared (1 / 2)), junk56, 1%Z, 2%Z, 1%Z, 5%Z, one, eps, s0, v0, (stan bar (val (sfield 0)) (val (sheared (1 / 2))) (1, 2, 1)%Z 5), vn.
  split; [exact bar_body|]. split; [exact (sfield_full _)|]. split; [exact (bar_vars _)|]. split; [exact bar_cell|]. split; [lia|]. split; [exact bar_mat|]. split; [exact one_adm|].
  split; [unfold one; rewrite mat1_mu; lra|]. split; [exact Ee|]. split; [exact E0|]. split; [exact Et|]. change (m_mu one) with (m_mu (mat1 0 1)). rewrite mat1_mu.
  rewrite stan_R by lia. unfold ssec. rewrite sec_only.
  pose proof bar_body as (S & G & D). assert (Hc : In (1, 2, 1)%Z (els3 bar)) by (apply in_els3; exact bar_cell).
  pose proof (full_rep _ _ (sfield_full 0)) as Ru. rewrite (ndofs3 bar D) in Ru.
  rewrite (strain3_ok bar (val (sfield 0))) in Ee by assumption. injection Ee as Ee. rewrite Ee.
  assert (P0 : probe (lget eps 3) = 1 / 100000000).
  { rewrite He by lia. unfold probe. change (lget (shear 0) 3) with 0. destruct (Rlt_dec _ _) as [L|]; [|reflexivity]. rewrite Rabs_R0 in L. lra. }
  rewrite P0. destruct (F (only (1 / 100000000) 3) (1 / 100000000) ltac:(lra)) as (s & v & E & L).
  { intros i Hi. unfold only. rewrite lget_ltab, shear_get by assumption. destruct (i =? 3)%Z; reflexivity. }
  rewrite (stress3_ok bar (val (sfield 0)) (val (sheared (1 / 2)))) in E by (assumption || lia || exact (vars_old _ _ _ (bar_vars (1 / 2)))).
  destruct (run_stores _ junk56) as [y|] in E; [|discriminate]. injection E as _ -> _. rewrite L. unfold only. rewrite lget_ltab by lia. cbn [Z.eqb Pos.eqb]. lra.
Qed.

(** C80, C81: a homogeneous body in equilibrium that flows everywhere *)
Lemma bar_state y x : exists u b s, state3 bar (shear x) u (sheared y) b 0 s.
Proof. destruct (unif_state bar one (sheared y) junk56 _ 0 (shear x) bar_body (bar_hist y) junk_len) as (u & b & s & H & _). eauto. Qed.
Lemma flowing_equil : exists u b s s' v', body3 bar /\ adm bar /\ yield_ok bar (sheared 1) /\ state3 bar (shear 3) u (sheared 1) b 0 s /\ vars_ok bar (sheared 1) junk56 /\
  get_stress3D bar (sheared 1) junk56 0 0 0 0 (shear 3) = Ok (true, s', v') /\ 0 < lget s' 3 /\ admissible one /\ one_plastic bar one (sheared 1) (lget (shear 1)) 0 /\
  0 <= m_Sy one + m_Ka one * 0 /\ alen junk56 = (ncells bar * 56)%Z.
Proof.
  destruct (bar_state 1 3) as (u & b & s & St). destruct (bar_flow 1 3 0 0 0 0 (first_cell bar bar_body) ltac:(lia) ltac:(lra)) as (s' & v' & E & L).
  exists u, b, s, s', v'. split; [exact bar_body|]. split; [exact bar_adm|]. split; [exact (bar_yield 1)|]. split; [exact St|]. split; [exact (bar_vars 1)|].
  split; [exact E|]. split; [rewrite L; apply limit_pos; lra|]. split; [exact one_adm|]. split; [exact (bar_hist 1)|]. split; [exact one_yield|exact junk_len].
Qed.
