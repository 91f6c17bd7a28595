(** One cell of a plastic material, built by the constructor: histories and shortcuts of
    the object worked out exactly. *)
From Coq Require Import Reals Lra ZifyBool.
From Verif Require Import Base Scalar EllSpec EllInit EllModel EllFinal Grid CgPure CgFinal CgProps AssemblyModel AsmPure AsmBnd AsmRun FemGen FemAve AsmMat FemMat FemMat2 FemDef FemPd FemRhs FemEquil PlastProps
  AsmEx PlastRef AsmSpec AsmProps AsmPoint MicroModel OutputModel NewtonBase ApiBase ApiRun ApiHist Build ApiExact ApiSpec ApiProps ApiCommit ApiCases NewtonReal Thin.
Open Scope Z_scope.
Open Scope R_scope.

(** ** Bodies built by the constructor *)
Lemma built_geom3 nx ny nz mtype mp mt ps tol V : (2 <= nx)%Z -> (2 <= ny)%Z -> (2 <= nz)%Z -> env_of 3 nx ny nz mtype mp mt ps tol V ->
  0 < lget mp 0 -> 0 < lget mp 1 -> 0 < lget mp 2 -> geom V.
Proof.
  intros Hx Hy Hz E L0 L1 L2. pose proof (eo_nx _ _ _ _ _ _ _ _ _ _ E) as Ex. pose proof (eo_ny _ _ _ _ _ _ _ _ _ _ E) as Ey. pose proof (eo_nz _ _ _ _ _ _ _ _ _ _ E) as Ez. cbn [Z.eqb Pos.eqb] in Ez.
  pose proof (eo_lx _ _ _ _ _ _ _ _ _ _ E) as Fx. pose proof (eo_ly _ _ _ _ _ _ _ _ _ _ E) as Fy. pose proof (eo_lz _ _ _ _ _ _ _ _ _ _ E) as Fz. cbn [Z.eqb Pos.eqb] in Fz.
  assert (0 < IZR (nx - 1)) by (apply (IZR_lt 0); lia). assert (0 < IZR (ny - 1)) by (apply (IZR_lt 0); lia). assert (0 < IZR (nz - 1)) by (apply (IZR_lt 0); lia).
  pose proof (eo_dx _ _ _ _ _ _ _ _ _ _ E) as Dx. pose proof (eo_dy _ _ _ _ _ _ _ _ _ _ E) as Dy. pose proof (eo_dz _ _ _ _ _ _ _ _ _ _ E) as Dz.
  change (v_dx V = v_lx V / IZR (nx - 1)) in Dx. change (v_dy V = v_ly V / IZR (ny - 1)) in Dy. change (v_dz V = v_lz V / IZR (v_nz V - 1)) in Dz. rewrite Ez in Dz.
  constructor; rewrite ?Ex, ?Ey, ?Ez, ?Dx, ?Dy, ?Dz, ?Fx, ?Fy, ?Fz; intros.
  - field. lra.
  - field. lra.
  - field. lra.
  - now apply Rdiv_lt_0_compat.
  - now apply Rdiv_lt_0_compat.
  - now apply Rdiv_lt_0_compat.
Qed.

(** ** The cell *)
Definition cmp : list R := [1; 1; 1; 0; 0].
Definition cps (Ka Sy : R) : list R := [2; 0; Sy; Ka; 0; 0; 0; 0; 0; 0; 2; 0; Sy; Ka].
Lemma cargs Ka Sy : valid_args 3 2 2 2 0 cmp [1%Z; 1%Z] (cps Ka Sy).
Proof. constructor; try lia; [cbn; lia| |cbn; lia]. exists 1%Z, 1%Z, []. unfold mat_type_ok. auto. Qed.
Record cell_env (Ka Sy tol : R) (V : env R) : Prop := {
  ce_body : body3 V; ce_thin : thin3 V; ce_els : els3 V = [(0, 0, 0)%Z]; ce_mat : mat_at V 0 = mat1 Ka Sy; ce_pl : plastic_at V 0 = true;
  ce_wg : wg3 V = 1 / 8; ce_area : v_lx V * v_ly V = 1; ce_nv : nvars V = 56%Z; ce_tol : v_inv_tol V = tol }.
Lemma cell_built Ka Sy tol V : sane V -> env_of 3 2 2 2 0 cmp [1%Z; 1%Z] (cps Ka Sy) tol V -> cell_env Ka Sy tol V.
Proof.
  intros S E. pose proof (built_geom3 2 2 2 0 cmp _ _ tol V ltac:(lia) ltac:(lia) ltac:(lia) E) as G. cbn in G. specialize (G Rlt_0_1 Rlt_0_1 Rlt_0_1).
  pose proof (eo_nx _ _ _ _ _ _ _ _ _ _ E) as Ex. pose proof (eo_ny _ _ _ _ _ _ _ _ _ _ E) as Ey. pose proof (eo_nz _ _ _ _ _ _ _ _ _ _ E) as Ez. cbn [Z.eqb Pos.eqb] in Ez.
  pose proof (eo_dim _ _ _ _ _ _ _ _ _ _ E) as D.
  assert (EL : els3 V = [(0, 0, 0)%Z]) by (unfold els3; rewrite Ex, Ey, Ez; reflexivity).
  assert (EM : mat_at V 0 = mat1 Ka Sy).
  { destruct (eo_mats _ _ _ _ _ _ _ _ _ _ E) as (t0 & t1 & r & [= <- <- <-] & Em). unfold mat_at. rewrite Em.
    pose proof (eo_etype3 _ _ _ _ _ _ _ _ _ _ E eq_refl 0%Z 0%Z 0%Z ltac:(lia) ltac:(lia) ltac:(lia)) as Et. change (0 * (2 - 1) * (2 - 1) + 0 * (2 - 1) + 0)%Z with 0%Z in Et. rewrite Et.
    destruct (class3 V 0 0 0); reflexivity. }
  constructor.
  - split; [exact S|]. split; [exact G|exact D].
  - left. exact Ex.
  - exact EL.
  - exact EM.
  - unfold plastic_at. rewrite EM. reflexivity.
  - rewrite wg3_R. pose proof (eo_dx _ _ _ _ _ _ _ _ _ _ E) as Dx. pose proof (eo_dy _ _ _ _ _ _ _ _ _ _ E) as Dy. pose proof (eo_dz _ _ _ _ _ _ _ _ _ _ E) as Dz.
    rewrite (eo_lx _ _ _ _ _ _ _ _ _ _ E) in Dx. rewrite (eo_ly _ _ _ _ _ _ _ _ _ _ E) in Dy. rewrite (eo_lz _ _ _ _ _ _ _ _ _ _ E), Ez in Dz.
    change (v_dx V = 1 / 1) in Dx. change (v_dy V = 1 / 1) in Dy. change (v_dz V = 1 / 1) in Dz. rewrite Dx, Dy, Dz. field.
  - rewrite (eo_lx _ _ _ _ _ _ _ _ _ _ E), (eo_ly _ _ _ _ _ _ _ _ _ _ E). change (1 * 1 = 1). ring.
  - rewrite nvars_eq. unfold ncells, nelem. rewrite D, Ex, Ey, Ez. reflexivity.
  - exact (eo_tol _ _ _ _ _ _ _ _ _ _ E).
Qed.

(** the same variables at the eight Gauss points *)
Definition points (vo : arr R) (ep : list R) (al : R) : Prop :=
  forall g, (0 <= g < 8)%Z -> (forall i, (0 <= i < 6)%Z -> aget vo (g * 7 + i)%Z = Some (lget ep i)) /\ aget vo (g * 7 + 6)%Z = Some al.
Definition uniform (vo : arr R) (ep : list R) (al : R) : Prop := full vo 56 /\ points vo ep al.
Lemma cell_step Ka Sy tol V vo ep al g eps : cell_env Ka Sy tol V -> uniform vo ep al -> (0 <= g < 8)%Z ->
  step3 V (val vo) (0, 0, 0)%Z g eps = plastic_step (mat1 Ka Sy) eps ep al.
Proof.
  intros C (_ & U) Hg. destruct (U g Hg) as (U1 & U2). unfold step3. change (ix3 V (0, 0, 0)%Z) with 0%Z. rewrite (ce_mat _ _ _ _ C).
  assert (I : forall i, intvar_ix 0 g i = (g * 7 + i)%Z) by (intros; unfold intvar_ix; ring).
  rewrite I. unfold val at 2. rewrite U2. apply step_ext. intros i Hi. rewrite lget_ltab by exact Hi. rewrite I. unfold val. now rewrite U1.
Qed.
(** one response of the cell *)
Lemma cell_respond Ka Sy tol V fuel pk eps w ep al : cell_env Ka Sy tol V -> wok V w -> uniform (w_vold w) ep al -> (1 <= fuel)%nat ->
  let p := plastic_step (mat1 Ka Sy) (e6 eps) ep al in
  exists w' s, respond fuel pk V eps w = Ok (w', ps_nl p, 0%Z, 0, s) /\ w_vold w' = w_vold w /\
    (forall v, (0 <= v < 6)%Z -> lget s v = lget (ps_stress p) v) /\
    (full (w_vnew w) 56 -> uniform (w_vnew w') (ps_eps_p p) (ps_alpha p)).
Proof.
  intros C K U Hf p. destruct fuel as [|fuel]; [lia|].
  assert (I : forall g i, intvar_ix 0 g i = (g * 7 + i)%Z) by (intros; unfold intvar_ix; ring).
  destruct (thin_respond V fuel pk eps w (ce_body _ _ _ _ C) (ce_thin _ _ _ _ C) K) as (w' & s & E & O & _ & F & Hs & Hv).
  assert (X : forall g, (0 <= g < 8)%Z -> step3 V (val (w_vold w)) (0, 0, 0)%Z g (e6 eps) = p) by (intros; now apply (cell_step Ka Sy tol)).
  exists w', s. split; [|split; [exact O|split]].
  - rewrite E. do 4 f_equal. unfold thin_flag. rewrite (ce_els _ _ _ _ C). cbn [existsb]. unfold nl3. change (ix3 V (0, 0, 0)%Z) with 0%Z.
    rewrite (ce_pl _ _ _ _ C), X by lia. now rewrite Bool.orb_false_r.
  - intros v Hv'. rewrite Hs by exact Hv'. unfold thin_stress. rewrite (ce_els _ _ _ _ C), (ce_area _ _ _ _ C), (ce_wg _ _ _ _ C). cbn [rsum].
    rewrite (rsum_ext _ _ (fun _ => lget (ps_stress p) v * (1 / 8))).
    + rewrite rsum_zrange_const by lia. cbn [Z.sub Z.add Z.opp Pos.add]. lra.
    + intros g Hg. apply in_zrange in Hg. unfold sig3. change (ix3 V (0, 0, 0)%Z) with 0%Z. now rewrite (ce_pl _ _ _ _ C), X.
  - intros Fn. split; [rewrite <- (ce_nv _ _ _ _ C) in *; now apply F|]. intros g Hg.
    assert (Y : forall i, (0 <= i < 7)%Z -> aget (w_vnew w') (g * 7 + i)%Z = Some (newv V (val (w_vold w)) (0, 0, 0)%Z g (e6 eps) i)).
    { intros i Hi. specialize (Hv (0, 0, 0)%Z g i). rewrite (ce_els _ _ _ _ C) in Hv. specialize (Hv (or_introl eq_refl) Hg Hi).
      change (ix3 V (0, 0, 0)%Z) with 0%Z in Hv. rewrite (ce_pl _ _ _ _ C), I in Hv. exact Hv. }
    split; [intros i Hi|]; rewrite Y by lia; unfold newv; rewrite X by exact Hg.
    + replace (i =? 6)%Z with false by lia. reflexivity.
    + reflexivity.
Qed.

(** ** Objects of the cell *)
Lemma cell_object Ka Sy tol (j : junk R) : total_junk j -> j_tol j = Some tol ->
  exists o, construct fuel40 (fun _ => counting) j 3 [2%Z; 2%Z; 2%Z] 0 cmp [1%Z; 1%Z] (cps Ka Sy) = Ok o /\ is_object o /\ cell_env Ka Sy tol (o_env o) /\
    forall ep al, uniform (alloc (j_vold j) 56) ep al -> forall i v, (0 <= i < 6)%Z -> (0 <= v < 6)%Z ->
      aget (o_ctan o) (v * 6 + i)%Z = Some (lget (ps_stress (plastic_step (mat1 Ka Sy) (e6 (bump 6 (AssemblyModel.zeros 6) i)) ep al)) v / d_eps).
Proof.
  intros J Jt. pose proof (construct_ok fuel40 (fun _ => counting) j 3 2 2 2 0 cmp [1%Z; 1%Z] (cps Ka Sy) (cargs Ka Sy) J) as H.
  destruct (construct fuel40 (fun _ => counting) j 3 [2%Z; 2%Z; 2%Z] 0 cmp [1%Z; 1%Z] (cps Ka Sy)) as [o|e] eqn:E.
  2:{ destruct H as (i & H). elim (counting_good _ _ fuel40_ok H). }
  destruct H as (F & (t & Et & EV) & _ & _ & _ & A & EA & Ec). rewrite Jt in Et. injection Et as <-.
  pose proof (ok_sane _ (proj1 F)) as S. pose proof (cell_built Ka Sy tol _ S EV) as C.
  exists o. split; [reflexivity|]. split; [|split; [exact C|]].
  - exists 3%Z, 2%Z, 2%Z, 2%Z, 0%Z, cmp, [1%Z; 1%Z], (cps Ka Sy), fuel40, (fun _ => counting), j. split; [apply cargs|]. split; [exact J|exact E].
  - intros ep al U i v Hi Hv. cbn [Z.eqb Pos.eqb] in EA.
    pose proof (eo_dim _ _ _ _ _ _ _ _ _ _ EV) as D. assert (Nv : nvoi (o_env o) = 6%Z) by (unfold nvoi; rewrite D; reflexivity).
    rewrite (ce_nv _ _ _ _ C) in Ec.
    match type of Ec with calc_ctan_lin _ _ _ ?w0 _ = _ => set (w := w0) in *; assert (W : wfull (o_env o) w) end.
    { split; [|rewrite (ce_nv _ _ _ _ C); split; [exact (proj1 U)|exact (alloc_full (j_vnew j) 56 (tj_new _ J))]].
      constructor; cbn [w w_u w_du w_b w_A w_vold w_vnew]; try reflexivity.
      - exact (alloc_full (j_u j) _ (tj_u _ J)).
      - unfold is_mat. rewrite D. cbn [Z.eqb Pos.eqb]. rewrite (eo_nx _ _ _ _ _ _ _ _ _ _ EV), (eo_ny _ _ _ _ _ _ _ _ _ _ EV), (eo_nz _ _ _ _ _ _ _ _ _ _ EV). cbn [Z.eqb Pos.eqb].
        exists A, (e_vals A). split; [exact EA|]. split; [reflexivity|now destruct A].
      - intros e g k He Hg Hk _. apply (proj2 (proj1 U)). pose proof (nvars_eq (o_env o)) as Q. rewrite (ce_nv _ _ _ _ C) in Q. unfold intvar_ix. lia.
      - now rewrite (ce_nv _ _ _ _ C). }
    pose proof (ctan_lin_ok (o_env o) fuel40 (fun _ => counting) w (malloc 36) S W eq_refl) as X. rewrite Ec in X.
    destruct X as (_ & _ & _ & _ & X). rewrite Nv in X. destruct (X i Hi) as (w1 & w2 & nl & it & er & s & W1 & O1 & R1 & G1).
    rewrite (G1 v Hv). f_equal. change (lget s v / d_eps = lget (ps_stress (plastic_step (mat1 Ka Sy) (e6 (bump 6 (AssemblyModel.zeros 6) i)) ep al)) v / d_eps). f_equal.
    destruct (cell_respond Ka Sy tol (o_env o) fuel40 counting (bump 6 (AssemblyModel.zeros 6) i) w1 ep al C (proj1 W1)) as (w3 & s3 & R3 & _ & H3 & _).
    + rewrite O1. exact U.
    + pose proof fuel40_ok. lia.
    + rewrite R1 in R3. injection R3 as _ _ _ _ ->. now apply H3.
Qed.
Lemma uniform_alloc (f : Z -> option R) ep al : (forall i, exists x, f i = Some x) ->
  (forall g, (0 <= g < 8)%Z -> (forall i, (0 <= i < 6)%Z -> f (g * 7 + i)%Z = Some (lget ep i)) /\ f (g * 7 + 6)%Z = Some al) -> uniform (alloc f 56) ep al.
Proof.
  intros F H. split; [now apply alloc_full|]. intros g Hg. destruct (H g Hg) as (H1 & H2). split; [intros i Hi|]; rewrite alloc_get by lia; auto.
Qed.
Lemma flat_uniform tol : uniform (alloc (j_vold (flat_junk tol)) 56) z6 0.
Proof. apply uniform_alloc; [cbn; eauto|]. intros g Hg. split; [intros i Hi; rewrite z6_get by exact Hi|]; reflexivity. Qed.
Lemma flat_object Ka Sy tol : exists o, is_object o /\ cell_env Ka Sy tol (o_env o) /\
  forall i v, (0 <= i < 6)%Z -> (0 <= v < 6)%Z ->
      aget (o_ctan o) (v * 6 + i)%Z = Some (lget (ps_stress (plastic_step (mat1 Ka Sy) (e6 (bump 6 (AssemblyModel.zeros 6) i)) z6 0)) v / d_eps).
Proof.
  destruct (cell_object Ka Sy tol (flat_junk tol) (flat_total tol) eq_refl) as (o & _ & O & C & H). exists o. split; [exact O|]. split; [exact C|]. exact (H _ _ (flat_uniform tol)).
Qed.

(** ** One homogenisation of the cell *)
Definition no_files : files R := mkFiles [] [] [] [] [].
Lemma e6_shear x : e6 (shear x) = shear x.
Proof. reflexivity. Qed.
Lemma plastic_ext m eps eps' ep al : (forall i, (0 <= i < 6)%Z -> lget eps i = lget eps' i) -> plastic_step m (e6 eps) ep al = plastic_step m (e6 eps') ep al.
Proof. intros H. f_equal. unfold e6. apply ltab_ext. exact H. Qed.
(** the committed variables of g *)
Definition has_vars V (g : gp R) (ep : list R) (al : R) : Prop :=
  forall q, (0 <= q < 8)%Z -> (forall i, (0 <= i < 6)%Z -> committed V g (q * 7 + i)%Z = Some (lget ep i)) /\ committed V g (q * 7 + 6)%Z = Some al.
Lemma cell_homog Ka Sy V fuel orc w g g' eps ep al : cell_env Ka Sy 0 V -> wfull V w -> solved V fuel orc w g g' -> (1 <= fuel)%nat ->
  (forall i, (0 <= i < 6)%Z -> aget (g_strain g) i = Some (lget eps i)) -> has_vars V g ep al ->
  let p := plastic_step (mat1 Ka Sy) (e6 eps) ep al in
  (forall v, (0 <= v < 6)%Z -> aget (g_stress g') v = Some (lget (ps_stress p) v)) /\
  (ps_nl p = true -> g_n g' <> None /\ exists k, g_k g' = Some k /\ points k (ps_eps_p p) (ps_alpha p)) /\
  (ps_nl p = false -> g_n g' = g_n g /\ g_k g' = g_k g).
Proof.
  intros C W (vo & w1 & nl & it & er & s & Vo & Fo & R & Hs & _ & _ & Nf & Nt & _) Hf He Hv p.
  assert (D : nvoi V = 6%Z) by (destruct (ce_body _ _ _ _ C) as (_ & _ & D); unfold nvoi; now rewrite D). rewrite D in *. rewrite (ce_nv _ _ _ _ C) in *.
  assert (U : uniform vo ep al).
  { split; [exact Fo|]. intros q Hq. destruct (Hv q Hq) as (H1 & H2). split; [intros i Hi|]; rewrite Vo by lia; auto. }
  assert (K : wok V (set_vold w vo)).
  { destruct W as ([A1 A2 A3 A4 A5 A6] & _). constructor; try assumption. cbn. intros e q i He' Hq Hi _. apply (proj2 Fo).
    pose proof (nvars_eq V) as Q. rewrite (ce_nv _ _ _ _ C) in Q. unfold intvar_ix. lia. }
  destruct (cell_respond Ka Sy 0 V fuel (orc 0%Z) (map (oval (g_strain g)) (zrange 0 6)) (set_vold w vo) ep al C K U Hf) as (w2 & s2 & R2 & O2 & S2 & N2).
  assert (Ep : plastic_step (mat1 Ka Sy) (e6 (map (oval (g_strain g)) (zrange 0 6))) ep al = p).
  { apply plastic_ext. intros i Hi. rewrite lget_map by exact Hi. unfold oval. now rewrite He. }
  rewrite Ep in *. rewrite R in R2. injection R2 as -> -> _ _ ->.
  split; [|split].
  - intros v Hv'. rewrite Hs by exact Hv'. f_equal. now apply S2.
  - intros E. destruct (Nt E) as (H1 & k & Ek & Hk). split; [exact H1|]. exists k. split; [exact Ek|].
    assert (Un : uniform (w_vnew w2) (ps_eps_p p) (ps_alpha p)) by (apply N2; cbn; rewrite <- (ce_nv _ _ _ _ C); exact (proj2 (proj2 W))).
    intros q Hq. destruct (proj2 Un q Hq) as (U1 & U2). split; [intros i Hi|]; rewrite Hk; auto.
  - exact Nf.
Qed.

(** ** Histories *)
Lemma reach_last (o0 : obj R) cs c o fs : reaches o0 (cs ++ [c]) o fs -> exists o1 fs1 r, reaches o0 cs o1 fs1 /\ step c (o1, fs1) = Ok (o, fs, r).
Proof. intros (fs0 & rs & E). apply run_snoc in E. destruct E as ((o1, fs1) & rs1 & r & E1 & E2 & _). exists o1, fs1, r. split; [exists fs0, rs1; exact E1|exact E2]. Qed.
Lemma reach_env (o0 : obj R) cs o fs : is_object o0 -> reaches o0 cs o fs -> o_env o = o_env o0 /\ o_ctan o = o_ctan o0.
Proof. intros O R. destruct (reach_inv o0 cs o fs O R) as (_ & (E & C & _) & _). auto. Qed.
Lemma not_below (o : obj R) g : v_inv_tol (o_env o) = 0 -> ~ below o g.
Proof. intros E B. unfold below in B. rewrite E in B. change (Rltb (Rabs (predicted_trace o g)) 0 = true) in B. apply Rltb_true in B. pose proof (Rabs_pos (predicted_trace o g)). lra. Qed.
Lemma fresh_vars V (g : gp R) : g_n g = None -> has_vars V g z6 0.
Proof.
  intros N. assert (Z0 : committed V g = fun _ => Some 0) by (unfold committed; rewrite N; unfold dec; cbn; replace (0 / _) with 0 by lra; reflexivity).
  intros q Hq. rewrite Z0. split; [intros i Hi; now rewrite z6_get|reflexivity].
Qed.
Lemma cell_hom Ka Sy o0 cs o fs o' fs' r id eps g ep al : is_object o0 -> cell_env Ka Sy 0 (o_env o0) -> reaches o0 cs o fs ->
  step hom (o, fs) = Ok (o', fs', r) -> last_set id eps cs -> lookup id (o_gps o) = Some g -> has_vars (o_env o) g ep al ->
  let p := plastic_step (mat1 Ka Sy) (e6 eps) ep al in
  exists g', lookup id (o_gps o') = Some g' /\ has_vars (o_env o') g' ep al /\
    (forall v, (0 <= v < 6)%Z -> aget (g_stress g') v = Some (lget (ps_stress p) v)) /\
    (ps_nl p = true -> g_n g' <> None /\ exists k, g_k g' = Some k /\ points k (ps_eps_p p) (ps_alpha p)) /\
    (ps_nl p = false -> g_n g' = g_n g /\ g_k g' = g_k g).
Proof.
  intros O C R St Ls Lk Hv p. destruct (reach_env o0 cs o fs O R) as (Ee & _).
  pose proof (reach_step _ _ _ _ _ _ _ _ R St) as R'. destruct (reach_env o0 _ o' fs' O R') as (Ee' & _).
  destruct (point_solved o0 cs o fs fuel40 cnt2 o' fs' r id g O R St Lk) as (g' & w & j & Lk' & W & So).
  { right. apply not_below. rewrite Ee. exact (ce_tol _ _ _ _ C). }
  destruct (keyed_store o0 cs o fs O R) as (_ & _ & _ & KS). destruct (KS id eps Ls) as (g2 & L2 & St2). rewrite Lk in L2. injection L2 as <-.
  assert (D : nvoi (o_env o) = 6%Z) by (destruct (ce_body _ _ _ _ C) as (_ & _ & D); unfold nvoi; now rewrite Ee, D).
  rewrite <- Ee in C. destruct (cell_homog Ka Sy (o_env o) fuel40 (cnt2 j) w g g' eps ep al C W So) as (H1 & H2 & H3).
  - pose proof fuel40_ok. lia.
  - intros i Hi. apply strain_is_stored in St2. apply St2. rewrite D. exact Hi.
  - exact Hv.
  - destruct (homogenize_keeps o0 cs o fs fuel40 cnt2 o' fs' r O R St) as (_ & HK). destruct (HK id g Lk) as (g3 & L3 & _ & HC). rewrite Lk' in L3. injection L3 as <-.
    exists g'. split; [exact Lk'|]. split; [|auto].
    intros q Hq. destruct (Hv q Hq) as (V1 & V2). rewrite Ee', <- Ee. rewrite (ce_nv _ _ _ _ C) in HC. split; [intros i Hi|]; rewrite HC by lia; auto.
Qed.

(** a strained point flows; unloading and homogenising again leaves its trial variables *)
Definition load : list (call R) := [SetStrain 1 (shear 2)].
Definition unload : list (call R) := [SetStrain 1 (shear 2); hom; SetStrain 1 (shear 0)].
Lemma unload_runs : exists o0 o1 fs1 o2 fs2 r2 o3 fs3 r3 o4 fs4 r4 o5 fs5 r5, is_object o0 /\ cell_env 1 0 0 (o_env o0) /\
  reaches o0 load o1 fs1 /\ step hom (o1, fs1) = Ok (o2, fs2, r2) /\ step (SetStrain 1 (shear 0)) (o2, fs2) = Ok (o3, fs3, r3) /\
  reaches o0 unload o3 fs3 /\ step hom (o3, fs3) = Ok (o4, fs4, r4) /\ step UpdateVars (o4, fs4) = Ok (o5, fs5, r5).
Proof.
  destruct (flat_object 1 0 0) as (o0 & O & C & _).
  destruct (harmless_runs o0 no_files (load ++ [hom; SetStrain 1 (shear 0); hom; UpdateVars]) O) as (o5 & fs5 & R5).
  { unfold load. repeat constructor; cbn; lia. }
  change (load ++ [hom; SetStrain 1 (shear 0); hom; UpdateVars]) with ((((load ++ [hom]) ++ [SetStrain 1 (shear 0)]) ++ [hom]) ++ [UpdateVars]) in R5.
  apply reach_last in R5. destruct R5 as (o4 & fs4 & r5 & R4 & S5). apply reach_last in R4. destruct R4 as (o3 & fs3 & r4 & R3 & S4).
  pose proof R3 as R3'. apply reach_last in R3. destruct R3 as (o2 & fs2 & r3 & R2 & S3). apply reach_last in R2. destruct R2 as (o1 & fs1 & r2 & R1 & S2).
  exists o0, o1, fs1, o2, fs2, r2, o3, fs3, r3, o4, fs4, r4, o5, fs5, r5. repeat (split; [assumption|]). assumption.
Qed.
Lemma ls_load : last_set 1 (shear 2) load.
Proof. exists [], []. split; [reflexivity|]. intros e []. Qed.
Lemma ls_unload : last_set 1 (shear 0) unload.
Proof. exists [SetStrain 1 (shear 2); hom], []. split; [reflexivity|]. intros e []. Qed.
Lemma shear0_still : let p := plastic_step (mat1 1 0) (e6 (shear 0)) z6 0 in ps_nl p = false /\ lget (ps_eps_p p) 3 = 0.
Proof.
  intros p. assert (Hmu : 0 < m_mu (mat1 1 0)) by (rewrite mat1_mu; lra).
  destruct (step_forms (mat1 1 0) (e6 (shear 0)) z6 0 Hmu) as (N & Q & _). fold p in N, Q.
  assert (F : ftrial (mat1 1 0) (e6 (shear 0)) z6 0 = 0).
  { unfold ftrial. rewrite e6_shear. unfold z6. rewrite shear_frob. replace (2 * ((0 - 0) * (0 - 0))) with 0 by ring. rewrite sqrt_0. cbn [m_Sy m_Ka mat1 elas]. ring. }
  rewrite F in N. assert (E : ps_nl p = false) by (apply Bool.not_true_is_false; intros X; apply N in X; lra). split; [exact E|].
  destruct (Q 3%Z ltac:(lia)) as (-> & _). rewrite E, z6_get by lia. ring.
Qed.
(** the fresh point after the first call *)
Lemma fresh_after_set o0 o fs g : is_object o0 -> reaches o0 load o fs -> lookup 1 (o_gps o) = Some g -> g_n g = None.
Proof.
  intros O R L. destruct (reach_inv o0 load o fs O R) as (_ & _ & _ & H). destruct (H 1%Z g L) as (_ & [(Hh & _)|(_ & F)]).
  - destruct Hh as (a & e & b & f & q & E & I). unfold load in E. destruct a as [|c [|c' a]]; cbn in E; [|discriminate|discriminate]. injection E as _ <-. destruct I.
  - destruct F as (_ & _ & _ & _ & F & _). exact F.
Qed.

(** the variables the last homogenize computed are not the ones committed *)
Lemma stale_commit : exists (o0 : obj R) cs o fs fuel orc o1 fs1 r1 o2 fs2 r2 id g g2 i, is_object o0 /\ reaches o0 cs o fs /\
  step (Homogenize fuel orc) (o, fs) = Ok (o1, fs1, r1) /\ step UpdateVars (o1, fs1) = Ok (o2, fs2, r2) /\
  lookup id (o_gps o) = Some g /\ lookup id (o_gps o2) = Some g2 /\ (0 <= i < nvars (o_env o))%Z /\
  forall f pk w vo w' nl it er s, wfull (o_env o) w -> full vo (nvars (o_env o)) ->
    (forall k, (0 <= k < nvars (o_env o))%Z -> aget vo k = committed (o_env o) g k) ->
    respond f pk (o_env o) (map (oval (g_strain g)) (zrange 0 (nvoi (o_env o)))) (set_vold w vo) = Ok (w', nl, it, er, s) ->
    aget (w_vnew w') i <> committed (o_env o) g2 i.
Proof.
  destruct unload_runs as (o0 & o1 & fs1 & o2 & fs2 & r2 & o3 & fs3 & r3 & o4 & fs4 & r4 & o5 & fs5 & r5 & O & C & R1 & S2 & S3 & R3 & S4 & S5).
  destruct (lookup_set o0 load o1 fs1 1%Z O R1 ltac:(left; reflexivity)) as (g1 & L1).
  pose proof (fresh_after_set o0 o1 fs1 g1 O R1 L1) as N1.
  destruct (cell_hom 1 0 o0 load o1 fs1 o2 fs2 r2 1%Z (shear 2) g1 z6 0 O C R1 S2 ls_load L1 (fresh_vars _ _ N1)) as (g2 & L2 & V2 & _ & Y2 & _).
  rewrite e6_shear in Y2. destruct (shear_flow 1) as (Fl & Ep & _). destruct (Y2 Fl) as (N2 & k & K2 & P2).
  pose proof (reach_step _ _ _ _ _ _ _ _ R1 S2) as R2.
  destruct (set_only_one o0 _ o2 fs2 1%Z (shear 0) o3 fs3 r3 O R2 S3) as (_ & H3 & _). destruct (H3 g2 L2) as (g3 & L3 & _ & _ & N3 & K3 & _).
  assert (V3 : has_vars (o_env o3) g3 z6 0).
  { intros q Hq. destruct (V2 q Hq) as (A & B). unfold committed in *. rewrite N3. split; [exact A|exact B]. }
  destruct (cell_hom 1 0 o0 unload o3 fs3 o4 fs4 r4 1%Z (shear 0) g3 z6 0 O C R3 S4 ls_unload L3 V3) as (g4 & L4 & V4 & _ & _ & Y4).
  destruct shear0_still as (Fs & Es). destruct (Y4 Fs) as (N4 & K4).
  pose proof (reach_step _ _ _ _ _ _ _ _ R3 S4) as R4.
  destruct (commit_pair o0 _ o4 fs4 o5 fs5 r5 1%Z g4 O R4 S5 L4) as (g5 & L5 & _ & H5).
  destruct H5 as (k5 & K5 & H5); [congruence|]. assert (k5 = k) by congruence. subst k5.
  destruct (reach_env o0 _ o3 fs3 O R3) as (E3 & _). destruct (reach_env o0 _ o4 fs4 O R4) as (E4 & _).
  assert (C3 : cell_env 1 0 0 (o_env o3)) by (now rewrite E3). assert (Nv : nvars (o_env o3) = 56%Z) by apply C3.
  assert (NV : nvoi (o_env o3) = 6%Z) by (destruct (ce_body _ _ _ _ C3) as (_ & _ & D); unfold nvoi; now rewrite D).
  exists o0, unload, o3, fs3, fuel40, cnt2, o4, fs4, r4, o5, fs5, r5, 1%Z, g3, g5, 3%Z. repeat (split; [assumption|]). split; [rewrite Nv; lia|].
  intros f pk w vo w' nl it er s W Fo Vo Re. rewrite NV in Re. rewrite Nv in Vo, Fo.
  assert (G5 : committed (o_env o3) g5 3 = Some 1).
  { rewrite E3, <- E4. rewrite H5 by (rewrite E4, <- E3, Nv; lia). destruct (P2 0%Z ltac:(lia)) as (P & _). rewrite <- Ep. exact (P 3%Z ltac:(lia)). }
  rewrite G5. destruct f as [|f]; [unfold respond in Re; match type of Re with context [set_displ ?a ?b ?c] => destruct (set_displ a b c) end; cbn in Re; discriminate|].
  assert (K : wok (o_env o3) (set_vold w vo)).
  { destruct W as ([A1 A2 A3 A4 A5 A6] & _). constructor; try assumption. cbn. intros e q i He' Hq Hi _. apply (proj2 Fo).
    pose proof (nvars_eq (o_env o3)) as Q. rewrite Nv in Q. unfold intvar_ix. lia. }
  assert (U : uniform vo z6 0).
  { split; [exact Fo|]. intros q Hq. destruct (V3 q Hq) as (H1 & H2). split; [intros i Hi|]; rewrite Vo by lia; auto. }
  destruct (cell_respond 1 0 0 (o_env o3) (S f) pk (map (oval (g_strain g3)) (zrange 0 6)) (set_vold w vo) z6 0 C3 K U ltac:(lia)) as (w2 & s2 & Q2 & _ & _ & X2).
  rewrite Re in Q2. injection Q2 as -> _ _ _ _.
  destruct (X2 ltac:(cbn; rewrite <- Nv; exact (proj2 (proj2 W)))) as (_ & X). destruct (X 0%Z ltac:(lia)) as (X3 & _). pose proof (X3 3%Z ltac:(lia)) as X4. cbn [Z.mul Z.add] in X4. rewrite X4.
  destruct (keyed_store o0 unload o3 fs3 O R3) as (_ & _ & _ & KS). destruct (KS 1%Z (shear 0) ls_unload) as (g3' & L3' & St). rewrite L3 in L3'. injection L3' as <-.
  rewrite (plastic_ext _ _ (shear 0)), Es.
  - intros [=]. lra.
  - intros i Hi. rewrite lget_map by exact Hi. unfold oval. apply strain_is_stored in St. now rewrite St by (rewrite NV; exact Hi).
Qed.

(** the flag of a point that flowed *)
Lemma flagged : exists (o0 : obj R) cs o fs id, is_object o0 /\ reaches o0 cs o fs /\ get_nl_flag id (o_gps o) = 1%Z.
Proof.
  destruct unload_runs as (o0 & o1 & fs1 & o2 & fs2 & r2 & o3 & fs3 & r3 & o4 & fs4 & r4 & o5 & fs5 & r5 & O & C & R1 & S2 & _).
  destruct (lookup_set o0 load o1 fs1 1%Z O R1 ltac:(left; reflexivity)) as (g1 & L1).
  pose proof (fresh_after_set o0 o1 fs1 g1 O R1 L1) as N1.
  destruct (cell_hom 1 0 o0 load o1 fs1 o2 fs2 r2 1%Z (shear 2) g1 z6 0 O C R1 S2 ls_load L1 (fresh_vars _ _ N1)) as (g2 & L2 & _ & _ & Y2 & _).
  rewrite e6_shear in Y2. destruct (shear_flow 1) as (Fl & _). destruct (Y2 Fl) as (N2 & _).
  exists o0, (load ++ [hom]), o2, fs2, 1%Z. split; [exact O|]. split; [exact (reach_step _ _ _ _ _ _ _ _ R1 S2)|].
  unfold get_nl_flag. rewrite L2. destruct (g_n g2); [reflexivity|now elim N2].
Qed.

(** ** Pure shear of the cell *)
Definition sgap (Ka Sy x y al : R) : R := sqrt (2 * ((x - y) * (x - y))) - sqrt (2 / 3) * (Sy + Ka * al).
Lemma sgap_eq Ka Sy x y al : ftrial (mat1 Ka Sy) (shear x) (shear y) al = sgap Ka Sy x y al.
Proof. unfold ftrial, sgap. rewrite shear_frob. reflexivity. Qed.
Lemma shear_off Ka Sy x y al i : (0 <= i < 6)%Z -> i <> 3%Z -> lget (ps_stress (plastic_step (mat1 Ka Sy) (shear x) (shear y) al)) i = 0.
Proof.
  intros Hi Ni. assert (Hmu : 0 < m_mu (mat1 Ka Sy)) by (rewrite mat1_mu; lra).
  destruct (step_forms (mat1 Ka Sy) (shear x) (shear y) al Hmu) as (_ & Q & _). destruct (Q i Hi) as (_ & ->). rewrite shear_trial by exact Hi.
  replace (i =? 3)%Z with false by lia. unfold tr. rewrite !shear_get by lia. cbn [Z.eqb Pos.eqb]. unfold Rdiv. destruct (i <? 3)%Z, (ps_nl _); ring.
Qed.
Lemma shear_elastic Ka Sy x y al : sgap Ka Sy x y al <= 0 ->
  ps_nl (plastic_step (mat1 Ka Sy) (shear x) (shear y) al) = false /\ lget (ps_stress (plastic_step (mat1 Ka Sy) (shear x) (shear y) al)) 3 = x - y.
Proof.
  intros F. assert (Hmu : 0 < m_mu (mat1 Ka Sy)) by (rewrite mat1_mu; lra).
  destruct (step_forms (mat1 Ka Sy) (shear x) (shear y) al Hmu) as (N & Q & _). rewrite sgap_eq in N.
  assert (E : ps_nl (plastic_step (mat1 Ka Sy) (shear x) (shear y) al) = false) by (apply Bool.not_true_is_false; intros X; apply N in X; lra).
  split; [exact E|]. destruct (Q 3%Z ltac:(lia)) as (_ & ->). rewrite E, shear_trial by lia. cbn [Z.ltb Z.compare Pos.compare Pos.compare_cont Z.eqb Pos.eqb]. lra.
Qed.
Lemma shear_plastic Ka Sy x y al : 0 < sgap Ka Sy x y al -> x <> y ->
  ps_nl (plastic_step (mat1 Ka Sy) (shear x) (shear y) al) = true /\ lget (ps_stress (plastic_step (mat1 Ka Sy) (shear x) (shear y) al)) 3 <> x - y.
Proof.
  intros F D. assert (Hmu : 0 < m_mu (mat1 Ka Sy)) by (rewrite mat1_mu; lra).
  destruct (step_forms (mat1 Ka Sy) (shear x) (shear y) al Hmu) as (N & Q & _). rewrite sgap_eq in N.
  assert (E : ps_nl (plastic_step (mat1 Ka Sy) (shear x) (shear y) al) = true) by (now apply N).
  split; [exact E|]. destruct (Q 3%Z ltac:(lia)) as (_ & ->). rewrite E, shear_trial, sgap_eq, shear_frob by lia. cbn [Z.ltb Z.compare Pos.compare Pos.compare_cont Z.eqb Pos.eqb].
  assert (P : 0 < sqrt (2 * ((x - y) * (x - y)))) by (apply sqrt_lt_R0; assert (0 < (x - y) * (x - y)) by (apply Rsqr_pos_lt; lra); lra).
  intros X. assert (Y : sgap Ka Sy x y al * ((x - y) / sqrt (2 * ((x - y) * (x - y)))) = 0) by lra.
  apply Rmult_integral in Y. destruct Y as [Y|Y]; [lra|]. unfold Rdiv in Y. apply Rmult_integral in Y. destruct Y as [Y|Y]; [lra|].
  apply Rinv_neq_0_compat in Y; [exact Y|lra].
Qed.
Lemma sgap_small Ka x y : 2 * ((x - y) * (x - y)) <= 2 / 3 -> sgap Ka 1 x y 0 <= 0.
Proof. intros H. unfold sgap. replace (1 + Ka * 0) with 1 by ring. pose proof (sqrt_le_1_alt (2 * ((x - y) * (x - y))) (2 / 3) H). lra. Qed.
Lemma sgap_big Ka x y : 2 / 3 < 2 * ((x - y) * (x - y)) -> 0 < sgap Ka 1 x y 0.
Proof. intros H. unfold sgap. replace (1 + Ka * 0) with 1 by ring. pose proof (sqrt_lt_1_alt (2 / 3) (2 * ((x - y) * (x - y))) ltac:(lra)). lra. Qed.
Lemma deps_R : d_eps = 1 / 100000000 :> R.
Proof. unfold d_eps, dec. cbn. lra. Qed.
Lemma bump3 : e6 (bump 6 (AssemblyModel.zeros 6) 3) = shear d_eps.
Proof.
  transitivity (e6 (shear d_eps)); [|apply e6_shear]. unfold e6. apply ltab_ext. intros i Hi. rewrite shear_get by exact Hi.
  unfold bump. rewrite lget_ltab by exact Hi.
  assert (Z0 : lget (AssemblyModel.zeros (T:=R) 6) i = 0) by (unfold AssemblyModel.zeros; rewrite lget_ltab by exact Hi; unfold dec; cbn; lra).
  rewrite Z0. change ((0 + d_eps)%num : R) with (0 + d_eps). destruct (i =? 3)%Z; lra.
Qed.

(** ** The shortcut is taken although the body yields *)
Lemma load_point o0 : is_object o0 -> exists o fs g, reaches o0 load o fs /\ lookup 1 (o_gps o) = Some g /\ g_n g = None /\ o_env o = o_env o0 /\ o_ctan o = o_ctan o0 /\
  forall i, (0 <= i < nvoi (o_env o0))%Z -> oval (g_strain g) i = lget (shear 2) i.
Proof.
  intros O. destruct (harmless_runs o0 no_files load O) as (o & fs & R); [unfold load; repeat constructor; cbn; lia|].
  destruct (lookup_set o0 load o fs 1%Z O R ltac:(left; reflexivity)) as (g & L).
  pose proof (fresh_after_set o0 o fs g O R L) as N. destruct (reach_env o0 load o fs O R) as (E & Ec).
  destruct (keyed_store o0 load o fs O R) as (_ & _ & _ & KS). destruct (KS 1%Z (shear 2) ls_load) as (g' & L' & St). rewrite L in L'. injection L' as <-.
  exists o, fs, g. do 5 (split; [assumption|]). apply strain_is_stored in St. rewrite E in St. intros i Hi. unfold oval. now rewrite St.
Qed.
Lemma cell_nvoi Ka Sy tol V : cell_env Ka Sy tol V -> nvoi V = 6%Z.
Proof. intros C. destruct (ce_body _ _ _ _ C) as (_ & _ & D). unfold nvoi. now rewrite D. Qed.
Lemma shear_predicted o g : nvoi (o_env o) = 6%Z -> (forall i, (0 <= i < 6)%Z -> oval (g_strain g) i = lget (shear 2) i) ->
  forall v, (0 <= v < 6)%Z -> predicted o g v = oval (o_ctan o) (v * 6 + 3) * 2.
Proof.
  intros NV St v Hv. unfold predicted. rewrite NV, sumf_R. rewrite (rsum_ext _ _ (fun j => if (j =? 3)%Z then oval (o_ctan o) (v * 6 + 3) * 2 else 0)).
  - change (zrange 0 6) with [0; 1; 2; 3; 4; 5]%Z. cbn [rsum Z.eqb Pos.eqb]. lra.
  - intros j Hj. apply in_zrange in Hj. rewrite St, shear_get by lia. destruct (Z.eqb_spec j 3) as [->|n]; [reflexivity|].
    change (oval (o_ctan o) (v * 6 + j) * 0 = 0). ring.
Qed.
(** the linear tangent of the cell on a shear strain *)
Definition shear_ctan (Ka Sy : R) (c : arr R) : Prop := forall v, (0 <= v < 6)%Z -> aget c (v * 6 + 3)%Z = Some (lget (ps_stress (plastic_step (mat1 Ka Sy) (shear d_eps) z6 0)) v / d_eps).
Lemma shear_below Ka Sy tol o g : cell_env Ka Sy tol (o_env o) -> shear_ctan Ka Sy (o_ctan o) -> (forall i, (0 <= i < 6)%Z -> oval (g_strain g) i = lget (shear 2) i) ->
  0 < tol -> below o g.
Proof.
  intros C H St Ht. pose proof (cell_nvoi _ _ _ _ C) as NV. assert (Dim : v_dim (o_env o) = 3%Z) by (destruct (ce_body _ _ _ _ C) as (_ & _ & D); exact D).
  assert (Z0 : forall v, (0 <= v < 3)%Z -> predicted o g v = 0).
  { intros v Hv. rewrite shear_predicted by (assumption || lia). unfold oval. rewrite H by lia. unfold z6. rewrite shear_off by lia. unfold Rdiv. ring. }
  unfold below, predicted_trace. rewrite Dim. cbn [Z.eqb Pos.eqb]. rewrite !Z0 by lia. rewrite (ce_tol _ _ _ _ C).
  change (Rltb (Rabs (0 + 0 + 0)) tol = true). apply Rltb_true. rewrite !Rplus_0_r, Rabs_R0. exact Ht.
Qed.
Lemma wrong_shortcut : exists (o0 : obj R) cs o fs id g, is_object o0 /\ reaches o0 cs o fs /\ lookup id (o_gps o) = Some g /\ g_n g = None /\ below o g /\
  (forall f pk w vo, (1 <= f)%nat -> wfull (o_env o) w -> full vo (nvars (o_env o)) -> (forall k, (0 <= k < nvars (o_env o))%Z -> aget vo k = committed (o_env o) g k) ->
    exists w' s, respond f pk (o_env o) (map (oval (g_strain g)) (zrange 0 (nvoi (o_env o)))) (set_vold w vo) = Ok (w', true, 0%Z, 0, s) /\
      lget s 3 <> predicted o g 3).
Proof.
  destruct (flat_object 0 1 1) as (o0 & O & C & H). destruct (load_point o0 O) as (o & fs & g & R & L & N & E & Ec & St).
  rewrite (cell_nvoi _ _ _ _ C) in St. rewrite <- E in C. pose proof (cell_nvoi _ _ _ _ C) as NV.
  assert (SC : shear_ctan 0 1 (o_ctan o)) by (intros v Hv; rewrite Ec, H, bump3 by lia; reflexivity).
  exists o0, load, o, fs, 1%Z, g. do 4 (split; [assumption|]). split; [apply (shear_below 0 1 1); try assumption; lra|].
  intros f pk w vo Hf W Fo Vo. rewrite NV. rewrite (ce_nv _ _ _ _ C) in Fo, Vo.
  assert (U : uniform vo z6 0).
  { split; [exact Fo|]. intros q Hq. destruct (fresh_vars (o_env o) g N q Hq) as (H1 & H2). split; [intros i Hi|]; rewrite Vo by lia; auto. }
  assert (K : wok (o_env o) (set_vold w vo)).
  { destruct W as ([A1 A2 A3 A4 A5 A6] & _). constructor; try assumption. cbn. intros e q i He' Hq Hi _. apply (proj2 Fo).
    pose proof (nvars_eq (o_env o)) as Q. rewrite (ce_nv _ _ _ _ C) in Q. unfold intvar_ix. lia. }
  destruct (cell_respond 0 1 1 (o_env o) f pk (map (oval (g_strain g)) (zrange 0 6)) (set_vold w vo) z6 0 C K U Hf) as (w2 & s2 & Q2 & _ & S2 & _).
  rewrite (plastic_ext _ _ (shear 2)), e6_shear in Q2, S2 by (intros i Hi; rewrite lget_map by exact Hi; now apply St).
  destruct (shear_plastic 0 1 2 0 0) as (F1 & F2); [apply sgap_big; lra|lra|].
  exists w2, s2. split; [unfold z6 in Q2; rewrite F1 in Q2; exact Q2|]. rewrite S2, shear_predicted by (assumption || lia). unfold oval. rewrite SC by lia.
  destruct (shear_elastic 0 1 d_eps 0 0) as (_ & Q); [apply sgap_small; rewrite deps_R; lra|]. unfold z6. rewrite Q.
  replace ((d_eps - 0) / d_eps * 2) with (2 - 0) by (rewrite deps_R; field). exact F2.
Qed.

(** ** The linear tangent depends on the content of fresh memory *)
Definition old_junk (tol : R) : junk R := mkJunk (fun _ => Some 0) (fun i => Some (if (i mod 7 =? 3)%Z then 1 / 2 else 0)) (fun _ => Some 0) (Some tol).
Lemma old_total tol : total_junk (old_junk tol).
Proof. constructor; cbn; eauto. Qed.
Lemma old_uniform tol : uniform (alloc (j_vold (old_junk tol)) 56) (shear (1 / 2)) 0.
Proof.
  apply uniform_alloc; [cbn; eauto|]. intros g Hg. cbn [j_vold old_junk]. split.
  - intros i Hi. rewrite shear_get by exact Hi. rewrite Z.add_comm, Z.mod_add, Z.mod_small by lia. reflexivity.
  - rewrite Z.add_comm, Z.mod_add, Z.mod_small by lia. reflexivity.
Qed.
Lemma junk_tangent : exists dim nx ny nz mtype mp mt ps fuel orc (j1 j2 : junk R) o1 o2 k, valid_args dim nx ny nz mtype mp mt ps /\
  total_junk j1 /\ total_junk j2 /\ j_tol j1 = j_tol j2 /\ (forall z, orc z = counting) /\
  construct fuel orc j1 dim [nx; ny; nz] mtype mp mt ps = Ok o1 /\ construct fuel orc j2 dim [nx; ny; nz] mtype mp mt ps = Ok o2 /\
  (0 <= k < nvoi (o_env o1) * nvoi (o_env o1))%Z /\ aget (o_ctan o1) k <> aget (o_ctan o2) k.
Proof.
  destruct (cell_object 0 1 1 (flat_junk 1) (flat_total 1) eq_refl) as (o1 & E1 & _ & C1 & H1). specialize (H1 _ _ (flat_uniform 1)).
  destruct (cell_object 0 1 1 (old_junk 1) (old_total 1) eq_refl) as (o2 & E2 & _ & C2 & H2). specialize (H2 _ _ (old_uniform 1)).
  assert (NV : nvoi (o_env o1) = 6%Z) by (destruct (ce_body _ _ _ _ C1) as (_ & _ & D); unfold nvoi; now rewrite D).
  exists 3%Z, 2%Z, 2%Z, 2%Z, 0%Z, cmp, [1%Z; 1%Z], (cps 0 1), fuel40, (fun _ => counting), (flat_junk 1), (old_junk 1), o1, o2, 21%Z.
  split; [apply cargs|]. split; [apply flat_total|]. split; [apply old_total|]. split; [reflexivity|]. split; [reflexivity|]. split; [exact E1|]. split; [exact E2|].
  split; [rewrite NV; lia|]. specialize (H1 3%Z 3%Z ltac:(lia) ltac:(lia)). specialize (H2 3%Z 3%Z ltac:(lia) ltac:(lia)). change (3 * 6 + 3)%Z with 21%Z in H1, H2.
  rewrite H1, H2, bump3. unfold z6.
  destruct (shear_elastic 0 1 d_eps 0 0) as (_ & ->); [apply sgap_small; rewrite deps_R; lra|].
  destruct (shear_elastic 0 1 d_eps (1 / 2) 0) as (_ & ->); [apply sgap_small; rewrite deps_R; lra|].
  rewrite deps_R. intros X. apply (f_equal (fun o => match o with Some x => x | None => 0 end)) in X. lra.
Qed.

(** ** The threshold is not the one given *)
Lemma junk_threshold : exists dim nx ny nz mtype mp mt ps fuel orc (j1 j2 : junk R) o1 o2 cs o1' fs1 o2' fs2 id, valid_args dim nx ny nz mtype mp mt ps /\
  total_junk j1 /\ total_junk j2 /\ (forall z, orc z = counting) /\
  construct fuel orc j1 dim [nx; ny; nz] mtype mp mt ps = Ok o1 /\ construct fuel orc j2 dim [nx; ny; nz] mtype mp mt ps = Ok o2 /\
  reaches o1 cs o1' fs1 /\ reaches o2 cs o2' fs2 /\ get_nl_flag id (o_gps o1') = 0%Z /\ get_nl_flag id (o_gps o2') = 1%Z.
Proof.
  destruct (cell_object 0 1 1 (flat_junk 1) (flat_total 1) eq_refl) as (o1 & E1 & O1 & C1 & H1). specialize (H1 _ _ (flat_uniform 1)).
  destruct (cell_object 0 1 0 (flat_junk 0) (flat_total 0) eq_refl) as (o2 & E2 & O2 & C2 & _).
  assert (X : forall o0, is_object o0 -> exists o fs r o' fs', reaches o0 load o fs /\ step hom (o, fs) = Ok (o', fs', r) /\ reaches o0 (load ++ [hom]) o' fs').
  { intros o0 O. destruct (harmless_runs o0 no_files (load ++ [hom]) O) as (o' & fs' & R); [unfold load; repeat constructor; cbn; lia|].
    pose proof R as R'. apply reach_last in R. destruct R as (o & fs & r & R & S). eauto 8. }
  destruct (X o1 O1) as (a1 & f1 & r1 & b1 & h1 & R1 & S1 & T1). destruct (X o2 O2) as (a2 & f2 & r2 & b2 & h2 & R2 & S2 & T2).
  exists 3%Z, 2%Z, 2%Z, 2%Z, 0%Z, cmp, [1%Z; 1%Z], (cps 0 1), fuel40, (fun _ => counting), (flat_junk 1), (flat_junk 0), o1, o2, (load ++ [hom]), b1, h1, b2, h2, 1%Z.
  split; [apply cargs|]. split; [apply flat_total|]. split; [apply flat_total|]. split; [reflexivity|]. do 4 (split; [assumption|]). split.
  - destruct (lookup_set o1 load a1 f1 1%Z O1 R1 ltac:(left; reflexivity)) as (g & L). pose proof (fresh_after_set o1 a1 f1 g O1 R1 L) as N.
    destruct (reach_env o1 load a1 f1 O1 R1) as (E & Ec). destruct (keyed_store o1 load a1 f1 O1 R1) as (_ & _ & _ & KS). destruct (KS 1%Z (shear 2) ls_load) as (g' & L' & St).
    rewrite L in L'. injection L' as <-. apply strain_is_stored in St. rewrite <- E in C1. pose proof (cell_nvoi _ _ _ _ C1) as NV.
    destruct (linear_point o1 load a1 f1 fuel40 cnt2 b1 h1 r1 1%Z g O1 R1 S1 L N) as (_ & _ & F).
    + apply (shear_below 0 1 1); [exact C1| | |lra].
      * intros v Hv. rewrite Ec, H1, bump3 by lia. reflexivity.
      * intros i Hi. unfold oval. now rewrite St by (rewrite NV; exact Hi).
    + cbn [step] in F. injection F as F. exact F.
  - destruct (lookup_set o2 load a2 f2 1%Z O2 R2 ltac:(left; reflexivity)) as (g & L). pose proof (fresh_after_set o2 a2 f2 g O2 R2 L) as N.
    destruct (cell_hom 0 1 o2 load a2 f2 b2 h2 r2 1%Z (shear 2) g z6 0 O2 C2 R2 S2 ls_load L (fresh_vars _ _ N)) as (g' & L' & _ & _ & Y & _).
    rewrite e6_shear in Y. destruct (shear_plastic 0 1 2 0 0) as (F1 & _); [apply sgap_big; lra|lra|]. destruct (Y F1) as (Nn & _).
    unfold get_nl_flag. rewrite L'. destruct (g_n g'); [reflexivity|now elim Nn].
Qed.
