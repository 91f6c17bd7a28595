(** C88: a node whose cells have no stiffness, in IEEE doubles. *)
From Coq Require Import ZifyBool ZifyNat Floats.SpecFloat.
From Verif Require Import Base Scalar EllSpec EllModel Grid AssemblyModel AsmPure AsmRun MicroModel OutputModel NewtonBase ApiBase ApiRun ApiHist Build ApiSpec ApiProps ApiCases
  LogProps OutProps FloatInst NanBase NanRun NanProps NanEx VoidBase VoidRun DriverModel DriverProps.
Open Scope Z_scope.

Definition is_zn (x : double) : Prop := x = NaN \/ exists s, x = S754_zero s.
Lemma f64_zero : zero_like is_nan is_zn.
Proof.
  unfold is_nan, is_zn, NaN. constructor.
  - auto.
  - right. exists false. reflexivity.
  - intros x y [->|(s & ->)] [->|(s' & ->)]; try (left; reflexivity); cbn [F64 oadd SFadd]. destruct s, s'; cbn; eauto.
  - intros x y [->|(s & ->)] [->|(s' & ->)]; try (left; reflexivity); cbn [F64 osub SFsub]. destruct s, s'; cbn; eauto.
  - intros x [->|(s & ->)]; cbn; eauto.
  - intros x y [->|(s & ->)]; [left; reflexivity|]. destruct y; cbn; eauto.
  - intros x y [->|(s & ->)]; [left; destruct x; reflexivity|]. destruct x; cbn; eauto.
  - intros x y [->|(s & ->)]; [left; reflexivity|]. destruct y; cbn; eauto.
  - intros x y [->|(s & ->)] [->|(s' & ->)]; reflexivity.
  - intros x y [->|(s & ->)]; [left; reflexivity|]. destruct y as [s'|s'| |s' m e].
    + right. destruct s, s'; reflexivity.
    + right. destruct s'; reflexivity.
    + left. reflexivity.
    + right. destruct s'; reflexivity.
  - intros x. change (cg_tol : double) with (dec 1 8 : double). change (nr_tol : double) with (dec 1 5 : double).
    replace (dec 1 8 : double) with (S754_finite false 6044629098073146 (-79)) by reflexivity.
    replace (dec 1 5 : double) with (S754_finite false 5902958103587057 (-69)) by reflexivity.
    cbn [oltb F64]. unfold SFltb, SFcompare. destruct x as [s|s| |s m e]; try (intros H; exact H).
    destruct s; [reflexivity|]. destruct (Z.compare_spec e (-79)); [|destruct (Z.compare_spec e (-69)); try lia; reflexivity|discriminate].
    subst e. intros _. reflexivity.
Qed.

(** ** A node inside with cells of the second phase only around it *)
Section Surrounded.
Context {T : Type} `{OT : Ops T}.
Definition surrounded (V : env T) : Prop := exists i j k, 0 < i < v_nx V - 1 /\ 0 < j < v_ny V - 1 /\
  (v_dim V = 2 -> forall ex ey, i - 1 <= ex <= i -> j - 1 <= ey <= j -> elem_type2D V ex ey = Ok 1) /\
  (v_dim V = 3 -> 0 < k < v_nz V - 1 /\ forall ex ey ez, i - 1 <= ex <= i -> j - 1 <= ey <= j -> k - 1 <= ez <= k -> elem_type3D V ex ey ez = Ok 1).
End Surrounded.

Lemma surrounded_void (V : env double) dim nx ny nz mtype mp mt ps tol : valid_args dim nx ny nz mtype mp mt ps -> env_of dim nx ny nz mtype mp mt ps tol V ->
  surrounded V -> (exists s, lget ps 10 = S754_zero s) -> (dim = 3 -> nth 1 mt 0 <> 1) -> exists a, void_dof is_zn V a.
Proof.
  intros A EV (i & j & k & Hi & Hj & H2 & H3) (s & Ez) Hp.
  destruct (eo_mats _ _ _ _ _ _ _ _ _ _ EV) as (t0 & t1 & r & -> & Em).
  assert (Ht : mat_type_ok t1). { destruct (va_mt _ _ _ _ _ _ _ _ A) as (a & b & c & [= <- <- <-] & _ & Hb). exact Hb. }
  pose proof (eo_nx _ _ _ _ _ _ _ _ _ _ EV) as Enx. pose proof (eo_ny _ _ _ _ _ _ _ _ _ _ EV) as Eny. pose proof (eo_nz _ _ _ _ _ _ _ _ _ _ EV) as Enz.
  pose proof (eo_dim _ _ _ _ _ _ _ _ _ _ EV) as Ed.
  assert (ZE : is_zn (lget ps (1 * 10))) by (right; exists s; exact Ez).
  assert (Zi : is_zn (lget ps (1 * 10))) by exact ZE.
  assert (Et : forall e, aget (v_etype V) e = Some 1 -> mat_at V e = mat_i t1 ps 1).
  { intros e Ee. unfold mat_at. rewrite Ee, Em. reflexivity. }
  destruct (va_dim _ _ _ _ _ _ _ _ A) as [D|(D & Hz)].
  - rewrite D in Ed. specialize (H2 Ed). exists (node (v_nx V) (v_ny V) i j 0 * v_dim V + 0), i, j, 0, 0. rewrite Ed. cbn [Z.eqb Pos.eqb].
    repeat split; try lia. intros ex ey Hx Hy. unfold void2, ix2, glo_elem3D.
    pose proof (eo_etype2 _ _ _ _ _ _ _ _ _ _ EV D ex ey) as Ee. specialize (Ee ltac:(lia) ltac:(lia)).
    unfold class2 in Ee. rewrite H2 in Ee by lia. rewrite Enx, Eny. replace (0 * (nx - 1) * (ny - 1) + ey * (nx - 1) + ex) with (ey * (nx - 1) + ex) by ring.
    rewrite (Et _ Ee). exact ZE.
  - rewrite D in Ed. specialize (Hp D). cbn [nth] in Hp. destruct (H3 Ed) as (Hk & Hc). exists (node (v_nx V) (v_ny V) i j k * v_dim V + 0), i, j, k, 0. rewrite Ed. cbn [Z.eqb Pos.eqb].
    split; [lia|]. split; [lia|]. split; [lia|]. split; [reflexivity|]. split; [exact Hk|]. intros ex ey ez Hx Hy Hez. unfold void3, plastic_at, ix3, glo_elem3D. rewrite D in Enz. cbn [Z.eqb Pos.eqb] in Enz.
    pose proof (eo_etype3 _ _ _ _ _ _ _ _ _ _ EV D ex ey ez) as Ee. specialize (Ee ltac:(lia) ltac:(lia) ltac:(lia)).
    unfold class3 in Ee. rewrite Hc in Ee by lia. rewrite Enx, Eny, (Et _ Ee). unfold mat_i, the_mat. cbn [m_plast m_lambda m_mu].
    split; [destruct Ht as [->|[->| ->]]; [reflexivity|now elim Hp|reflexivity]|].
    split; [apply (z_div _ _ f64_zero), (z_mul_r _ _ f64_zero); exact ZE|apply (z_div _ _ f64_zero); exact ZE].
Qed.

Lemma nan_tangent_no_shortcut (o0 o1 : obj double) g : sane (o_env o0) -> o_env o1 = o_env o0 -> o_ctan o1 = o_ctan o0 -> col_nan is_nan (o_env o0) (o_ctan o0) -> ~ (below o1 g /\ g_n g = None).
Proof.
  intros S Ev Ect Cn (B & _). unfold below in B. pose proof (nvoi_range _ S) as Nv.
  assert (P : forall i, 0 <= i < nvoi (o_env o0) -> is_nan (predicted o1 g i)).
  { intros i Hi. unfold predicted. rewrite Ev, Ect. apply (sumf_nan is_nan f64_nan _ _ 0); [apply in_zrange; lia|]. apply (nan_mul_l is_nan f64_nan).
    destruct (Cn (i * nvoi (o_env o0) + 0)) as (x & Ex & Hx); [nia|]. unfold oval. now rewrite Ex. }
  assert (X : is_nan (oabs (predicted_trace o1 g))).
  { apply (nan_abs is_nan f64_nan). unfold predicted_trace. destruct (v_dim (o_env o1) =? 2).
    - apply (nan_add_l is_nan f64_nan), P. lia.
    - apply (nan_add_l is_nan f64_nan), (nan_add_l is_nan f64_nan), P. lia. }
  rewrite (nan_lt_l is_nan f64_nan _ _ X) in B. discriminate.
Qed.

(** ** The object *)
Section Object.
Variables (fuel : nat) (orc : Z -> peek) (j : junk double) (dim nx ny nz mtype : Z) (mp : list double) (mt : list Z) (ps : list double) (o0 : obj double).
Hypothesis A : valid_args dim nx ny nz mtype mp mt ps.
Hypothesis J : total_junk j.
Hypothesis E : construct fuel orc j dim [nx; ny; nz] mtype mp mt ps = Ok o0.
Hypothesis HS : surrounded (o_env o0).
Hypothesis HE : exists s, lget ps 10 = S754_zero s.
Hypothesis HP : dim = 3 -> nth 1 mt 0 <> 1.

Lemma built : exists tol A0, obj_ok o0 /\ env_of dim nx ny nz mtype mp mt ps tol (o_env o0) /\ (exists a, void_dof is_zn (o_env o0) a) /\
  (forall a, inner (o_env o0) a <-> inner_dof dim nx ny nz a) /\
  let w := mkWork (alloc (j_u j) (ndofs (o_env o0))) (malloc (ndofs (o_env o0))) (malloc (ndofs (o_env o0))) A0
           (alloc (j_vold j) (nvars (o_env o0))) (alloc (j_vnew j) (nvars (o_env o0))) in
  wfull (o_env o0) w /\ calc_ctan_lin fuel orc (o_env o0) w (malloc 36) = Ok (o_work o0, o_ctan o0).
Proof.
  pose proof (construct_ok fuel orc j dim nx ny nz mtype mp mt ps A J) as H. rewrite E in H.
  destruct H as (Fr & (tol & _ & EV) & _ & _ & _ & A0 & EA & Ec). destruct Fr as (K0 & G0). exists tol, A0.
  split; [exact K0|]. split; [exact EV|]. split; [exact (surrounded_void _ _ _ _ _ _ _ _ _ _ A EV HS HE HP)|]. split.
  { intros a. unfold inner, inner_dof. rewrite (eo_dim _ _ _ _ _ _ _ _ _ _ EV), (eo_nx _ _ _ _ _ _ _ _ _ _ EV), (eo_ny _ _ _ _ _ _ _ _ _ _ EV), (eo_nz _ _ _ _ _ _ _ _ _ _ EV).
    split; intros (i & jj & k & c & Hi & Hj' & Hk & Hc & ->); exists i, jj, k, c; repeat split; try lia; destruct (dim =? 2); (exact Hk || lia). }
  cbv zeta. split; [|exact Ec].
  pose proof (alloc_full (j_vold j) (nvars (o_env o0)) (tj_old j J)) as Fo. pose proof (alloc_full (j_vnew j) (nvars (o_env o0)) (tj_new j J)) as Fn.
  split; [|split; assumption]. constructor; cbn; try reflexivity; [exact (alloc_full (j_u j) _ (tj_u j J))| |].
  - unfold is_mat. rewrite (eo_dim _ _ _ _ _ _ _ _ _ _ EV), (eo_nx _ _ _ _ _ _ _ _ _ _ EV), (eo_ny _ _ _ _ _ _ _ _ _ _ EV), (eo_nz _ _ _ _ _ _ _ _ _ _ EV).
    destruct (dim =? 2); exists A0, (e_vals A0); (split; [exact EA|]); (split; [reflexivity|now destruct A0]).
  - intros e g i He Hg Hi _. apply (proj2 Fo). rewrite nvars_eq. unfold intvar_ix. lia.
Qed.
Lemma void_inside cs o fs : reaches o0 cs o fs ->
  (forall a, inner_dof dim nx ny nz a -> aget (w_u (o_work o)) a = j_u j a) \/ (forall a, inner_dof dim nx ny nz a -> aget (w_u (o_work o)) a = Some NaN).
Proof.
  intros (fs0 & rs & R). destruct built as (tol & A0 & K0 & EV & Hv & Hin & W & Ec). pose proof (ok_sane o0 K0) as S.
  pose proof (moved_lin is_nan is_zn f64_nan f64_zero _ _ _ _ (malloc 36) _ _ S W Hv eq_refl Ec) as M1.
  destruct (moved_run is_nan is_zn f64_nan f64_zero cs _ _ _ _ _ K0 Hv R) as (K1 & (Ev & _) & M2).
  pose proof (moved_trans _ _ _ _ _ M1 M2) as M. cbn [w_u] in M. destruct M as [M|M]; [left|right]; intros a Ha; apply Hin in Ha; specialize (M a Ha); pose proof (inner_range _ a S Ha) as Hr.
  - rewrite M. now apply alloc_get.
  - rewrite <- Ev in Hr. pose proof (wk_u _ _ (proj1 (ok_work o K1))) as (_ & Fu). destruct (Fu a Hr) as (x & Ex). unfold oval in M. rewrite Ex in *. now rewrite <- M.
Qed.
Lemma void_answers cs o fs f q o' fs' r id g g' : reaches o0 cs o fs -> step (Homogenize f q) (o, fs) = Ok (o', fs', r) ->
  lookup id (o_gps o) = Some g -> lookup id (o_gps o') = Some g' -> ~ (below o g /\ g_n g = None) ->
  answers_nan o' fs' id \/ exists er, aget (g_err g') 0 = Some er /\ oltb er (dec 1 5) = true.
Proof.
  intros (fs0 & rs & R) Eh Lg Lg' Nb. destruct built as (tol & A0 & K0 & EV & Hv & _).
  destruct (moved_run is_nan is_zn f64_nan f64_zero cs _ _ _ _ _ K0 Hv R) as (K1 & (Ev & _) & _). rewrite <- Ev in Hv.
  destruct (step_homog_void is_nan is_zn f64_nan f64_zero f q o fs o' fs' r K1 Hv Eh id g' Lg') as (g2 & L2 & [Tl|[Er|(B & C)]]); rewrite Lg in L2; injection L2 as <-.
  - elim Nb. exact Tl.
  - right. exact Er.
  - left. pose proof (step_ok (Homogenize f q) o fs K1) as Q. rewrite Eh in Q. destruct Q as (_ & (Ev2 & _) & _). rewrite <- Ev2 in B, C. exact (answers o' fs' id g' Lg' B C).
Qed.
(** what the first pass of the first Newton loop of the constructor finds *)
Definition first_residual (er : double) : Prop := exists u b nl vn,
  set_displ (o_env o0) (dec 1 8 :: repeat (dec 0 1) (Z.to_nat (nvoi (o_env o0)) - 1)) (alloc (j_u j) (ndofs (o_env o0))) = Ok u /\
  assembly_rhs (o_env o0) u (alloc (j_vold j) (nvars (o_env o0))) (alloc (j_vnew j) (nvars (o_env o0))) (malloc (ndofs (o_env o0))) = Ok (b, nl, vn, er).
Lemma void_nan er : first_residual er -> oltb er (dec 1 5) = false ->
  (forall i, 0 <= i < nvoi (o_env o0) * nvoi (o_env o0) -> aget (o_ctan o0) i = Some NaN) /\
  forall cs f q o fs id, reaches o0 (cs ++ [Homogenize f q]) o fs -> In id (set_ids cs) -> answers_nan o fs id.
Proof.
  intros (u & b & nl & vn & Eu & Eb) Et. destruct built as (tol & A0 & K0 & EV & Hv & Hin & W & Ec). pose proof (ok_sane o0 K0) as S.
  match type of Ec with calc_ctan_lin _ _ _ ?x _ = _ => set (w := x) in * end.
  assert (Rj : rejected (o_env o0) w (bump (nvoi (o_env o0)) (AssemblyModel.zeros (nvoi (o_env o0))) 0)).
  { exists u, b, nl, vn, er. split; [|split; [exact Eb|exact Et]]. rewrite <- Eu. unfold w. cbn [w_u].
    assert (X : bump (nvoi (o_env o0)) (AssemblyModel.zeros (nvoi (o_env o0))) 0 = (dec 1 8 :: repeat (dec 0 1) (Z.to_nat (nvoi (o_env o0)) - 1) : list double)).
    { unfold nvoi. destruct (v_dim (o_env o0) =? 2); reflexivity. }
    now rewrite X. }
  destruct (lin_rejected is_nan is_zn f64_nan f64_zero _ _ _ _ (malloc 36) _ _ S W Hv eq_refl Rj Ec) as (Pn & Cn). split.
  - intros i Hi. destruct (Cn i Hi) as (x & Ex & Hx). rewrite Ex, Hx. reflexivity.
  - intros cs f q o fs id (fs0 & rs & R) I. apply run_snoc in R. destruct R as ((o1, fs1) & rs1 & r & R1 & R2 & _).
    destruct (run_keeps is_nan f64_nan cs _ _ _ _ _ K0 R1) as (K1 & (Ev & Ect & _) & Kp1).
    assert (O : is_object o0) by (exists dim, nx, ny, nz, mtype, mp, mt, ps, fuel, orc, j; auto).
    destruct (lookup_set o0 cs o1 fs1 id O (ex_intro _ fs0 (ex_intro _ rs1 R1)) I) as (g & Lg).
    apply (spoiled o1 fs1 f q o fs r id g K1 R2); [|exact Lg|].
    + destruct Hv as (a & Ha). pose proof (void_inner is_zn _ a Ha) as Hi. exists a. rewrite Ev. split; [exact Hi|]. apply Kp1; [exact Hi|]. now apply Pn.
    + exact (nan_tangent_no_shortcut o0 o1 g S Ev Ect Cn).
Qed.
End Object.

(** ** test3d_8 *)
Definition in_layer (ny ey : Z) : Prop :=
  let dy : double := odiv (ofZ 1) (ofZ (ny - 1)) in oltb (oadd (omul (ofZ ey) dy) (odiv dy (ofZ 2))) (dec 1 1) = true.
Lemma layer_row (V : env double) nx ny nz tol ex ey ez : env_of 3 nx ny nz 1 (cell_params_8 : list double) [1; 0] mats_3d_8 tol V -> in_layer ny ey -> elem_type3D V ex ey ez = Ok 1.
Proof.
  intros E L. unfold elem_type3D. rewrite (eo_type _ _ _ _ _ _ _ _ _ _ E). cbn [Z.eqb Pos.eqb].
  rewrite (eo_dy _ _ _ _ _ _ _ _ _ _ E), (eo_ly _ _ _ _ _ _ _ _ _ _ E), (eo_width _ _ _ _ _ _ _ _ _ _ E).
  change (lget (cell_params_8 : list double) 1) with (ofZ 1 : double). change (lget (cell_params_8 : list double) 3) with (dec 1 1 : double).
  unfold in_layer in L. cbv zeta in L. rewrite L. reflexivity.
Qed.
Lemma run_length cs : forall (s s' : obj double * files double) rs, run cs s = Ok (s', rs) -> length rs = length cs.
Proof.
  induction cs as [|c cs IH]; intros s s' rs E; cbn [run] in E; [now injection E as _ <-|]. apply bind_ok in E. destruct E as ((s1, r) & _ & E).
  apply bind_ok in E. destruct E as ((s2, rs2) & E2 & E). injection E as _ <-. cbn [fst snd length] in *. f_equal. now apply (IH s1 s2).
Qed.
Lemma run_at c cs1 cs2 (s s' : obj double * files double) rs : run (cs1 ++ c :: cs2) s = Ok (s', rs) ->
  exists s1 rs1 s2 r rs2, run cs1 s = Ok (s1, rs1) /\ step c s1 = Ok (s2, r) /\ run cs2 s2 = Ok (s', rs2) /\ rs = rs1 ++ r :: rs2 /\ length rs1 = length cs1.
Proof.
  rewrite run_app. intros E. apply bind_ok in E. destruct E as ((s1, rs1) & E1 & E). cbn [fst snd run] in E. apply bind_ok in E. destruct E as ((s3, rs3) & E3 & E). injection E as <- <-.
  apply bind_ok in E3. destruct E3 as ((s2, r) & E2 & E3). cbn [fst snd] in E3. apply bind_ok in E3. destruct E3 as ((s4, rs4) & E4 & E3). injection E3 as <- <-.
  exists s1, rs1, s2, r, rs4. split; [exact E1|]. split; [exact E2|]. split; [exact E4|]. split; [reflexivity|]. exact (run_length _ _ _ _ E1).
Qed.
Theorem void_3d_8 fuel q0 orc (jk : junk double) nx ny nz j r fs0 code fs out : 3 <= nx -> 3 <= nz -> 0 < j < ny - 1 -> total_junk jk ->
  (forall ey, j - 1 <= ey <= j -> in_layer ny ey) -> test3d_8 fuel q0 orc jk (nx :: ny :: nz :: r) fs0 = Ok (code, fs, out) ->
  exists o0 o, construct fuel q0 jk 3 [nx; ny; nz] 1 cell_params_8 [1; 0] mats_3d_8 = Ok o0 /\ reaches o0 (flat_map (turn8 fuel orc) (zrange 0 (steps_of r))) o fs /\
    ((forall a, inner_dof 3 nx ny nz a -> aget (w_u (o_work o)) a = j_u jk a) \/ (forall a, inner_dof 3 nx ny nz a -> aget (w_u (o_work o)) a = Some NaN)) /\
    forall er, first_residual jk o0 er -> oltb er (dec 1 5) = false ->
      out = flat_map (fun t => text8 t (strain 2 (S (Z.to_nat t))) (repeat NaN 6) (repeat NaN 6)) (zrange 0 (steps_of r)).
Proof.
  intros Hx Hz Hj J L Er. pose proof (run_3d_8 fuel q0 orc jk nx ny nz r fs0 ltac:(lia) ltac:(lia) ltac:(lia) J) as K. rewrite Er in K.
  destruct K as (_ & _ & (o0 & o & s0 & s1 & C & R & ->) & _). exists o0, o. split; [exact C|].
  assert (Re : reaches o0 (flat_map (turn8 fuel orc) (zrange 0 (steps_of r))) o fs) by (exists (construct_files o0 fs0); eexists; exact R). split; [exact Re|].
  assert (A : valid_args 3 nx ny nz 1 (cell_params_8 : list double) [1; 0] mats_3d_8) by (apply layer_args; try lia; [right; now left|now left|cbn; lia|rewrite mats8_len; lia]).
  pose proof (construct_ok fuel q0 jk 3 nx ny nz 1 cell_params_8 [1; 0] mats_3d_8 A J) as Co. rewrite C in Co. destruct Co as (_ & (tol & _ & V) & _).
  assert (HS : surrounded (o_env o0)).
  { exists 1, j, 1. rewrite (eo_nx _ _ _ _ _ _ _ _ _ _ V), (eo_ny _ _ _ _ _ _ _ _ _ _ V), (eo_nz _ _ _ _ _ _ _ _ _ _ V), (eo_dim _ _ _ _ _ _ _ _ _ _ V). cbn [Z.eqb Pos.eqb].
    split; [lia|]. split; [lia|]. split; [lia|]. intros _. split; [lia|]. intros ex ey ez _ Hy _. apply (layer_row _ nx ny nz tol); [exact V|]. now apply L. }
  assert (HE : exists s, lget (mats_3d_8 : list double) 10 = S754_zero s) by (exists false; reflexivity).
  assert (HP : 3 = 3 -> nth 1 [1; 0] 0 <> 1) by (cbn; lia).
  split; [exact (void_inside fuel q0 jk 3 nx ny nz 1 cell_params_8 [1; 0] mats_3d_8 o0 A J C HS HE HP _ _ _ Re)|].
  intros er Fr Ht. destruct (void_nan fuel q0 jk 3 nx ny nz 1 cell_params_8 [1; 0] mats_3d_8 o0 A J C HS HE HP er Fr Ht) as (_ & Ans). clear Re Fr Ht Er.
  assert (O : is_object o0) by (exists 3, nx, ny, nz, 1, cell_params_8, [1; 0], mats_3d_8, fuel, q0, jk; auto).
  pose proof (eo_dim _ _ _ _ _ _ _ _ _ _ V) as D.
  assert (X : forall t, 0 <= t < steps_of r -> s0 t = repeat NaN 6 /\ s1 t = repeat NaN 6).
  { intros t Ht. rewrite (zrange_app 0 t) in R by lia. rewrite (zrange_cons t) in R by lia. rewrite !flat_map_app in R. cbn [flat_map] in R.
    set (p := flat_map (turn8 fuel orc) (zrange 0 t)) in *. set (q := flat_map (fun t => replies8 (s0 t) (s1 t)) (zrange 0 t)) in *.
    assert (Lp : length p = length q). { unfold p, q. clear. induction (zrange 0 t) as [|x l IH]; [reflexivity|]. cbn [flat_map]. rewrite !app_length, IH. reflexivity. }
    set (cs := p ++ [SetStrain 0 (strain 2 (S (Z.to_nat t))); SetStrain 1 (strain 2 (S (Z.to_nat t)))]).
    assert (G : forall id, id = 0 \/ id = 1 -> forall oa fa, reaches o0 (cs ++ [Homogenize fuel (orc t)]) oa fa ->
      step (GetStress id) (oa, fa) = Ok (oa, fa, RBuf (Some (repeat NaN 6)))).
    { intros id Hid oa fa Ra. destruct (Ans cs fuel (orc t) oa fa id Ra) as (Q & _).
      { unfold cs. rewrite set_ids_app. apply in_or_app. right. cbn. destruct Hid; subst id; auto. }
      destruct (reach_inv o0 _ oa fa O Ra) as (_ & (Ev & _) & _). unfold nvoi in Q. rewrite Ev, D in Q. exact Q. }
    replace (p ++ turn8 fuel orc t ++ flat_map (turn8 fuel orc) (zrange (t + 1) (steps_of r)))
      with ((cs ++ [Homogenize fuel (orc t)]) ++ GetStress 0 :: GetStress 1 :: [UpdateVars; WriteInfo] ++ flat_map (turn8 fuel orc) (zrange (t + 1) (steps_of r))) in R
      by (unfold cs, turn8; rewrite <- !app_assoc; reflexivity).
    destruct (run_at _ _ _ _ _ _ R) as ((oa, fa) & rs1 & sb & ra & rs2 & Ra & Sa & Rb & Er & L1). clear R.
    rewrite (G 0 (or_introl eq_refl) oa fa) in Sa by (exists (construct_files o0 fs0), rs1; exact Ra). injection Sa as <- <-.
    cbn [run] in Rb. rewrite (G 1 (or_intror eq_refl) oa fa) in Rb by (exists (construct_files o0 fs0), rs1; exact Ra). cbn [bind fst snd] in Rb.
    apply bind_ok in Rb. destruct Rb as ((sc, rs3) & _ & Rb). injection Rb as _ <-. cbn [fst snd] in *.
    assert (L3 : length rs1 = (length q + 3)%nat) by (rewrite L1; unfold cs; rewrite !app_length, Lp; cbn [length]; lia).
    assert (N : forall k d, nth (length q + 3 + k) (q ++ replies8 (s0 t) (s1 t) ++ flat_map (fun t0 => replies8 (s0 t0) (s1 t0)) (zrange (t + 1) (steps_of r))) d =
      nth k (RBuf (Some (repeat NaN 6)) :: RBuf (Some (repeat NaN 6)) :: rs3) d).
    { intros k d. rewrite Er. rewrite app_nth2 by lia. f_equal. lia. }
    pose proof (N 0%nat RUnit) as N0. pose proof (N 1%nat RUnit) as N1. rewrite app_nth2 in N0, N1 by lia.
    replace (length q + 3 + 0 - length q)%nat with 3%nat in N0 by lia. replace (length q + 3 + 1 - length q)%nat with 4%nat in N1 by lia.
    cbn [replies8 app nth] in N0, N1. split; congruence. }
  apply flat_ext. intros t Ht. apply in_zrange in Ht. destruct (X t Ht) as (-> & ->). reflexivity.
Qed.

(** ** A case: two rows of a 3 x 5 node rectangle, E = 1 above and E = 0 below *)
Definition env_from (j : junk double) (dim : Z) (size : list Z) (mtype : Z) (mp : list double) (mt : list Z) (ps : list double) : res (env double) :=
  V <- make_env j dim size mtype mp ;;
  mats <- mapM (make_material mt ps) (zrange 0 2) ;;
  let V := mkEnv (v_dim V) (v_nx V) (v_ny V) (v_nz V) (v_lx V) (v_ly V) (v_lz V) (v_dx V) (v_dy V) (v_dz V) (v_width V) (v_inv_tol V) (v_type V) mats (v_etype V) in
  et <- fill_types V ;;
  Ok (mkEnv (v_dim V) (v_nx V) (v_ny V) (v_nz V) (v_lx V) (v_ly V) (v_lz V) (v_dx V) (v_dy V) (v_dz V) (v_width V) (v_inv_tol V) (v_type V) mats et).
Lemma env_from_ok fuel orc j dim size mtype mp mt ps o : construct fuel orc j dim size mtype mp mt ps = Ok o -> env_from j dim size mtype mp mt ps = Ok (o_env o).
Proof.
  unfold construct, env_from. intros E. apply bind_ok in E. destruct E as (V & -> & E). cbn [bind].
  destruct (negb _); [discriminate|]. destruct (negb _); [discriminate|]. apply bind_ok in E. destruct E as (p5 & _ & E).
  apply bind_ok in E. destruct E as (m & -> & E). cbn [bind]. apply bind_ok in E. destruct E as (et & -> & E). cbn [bind].
  apply bind_ok in E. destruct E as (A & _ & E). apply bind_ok in E. destruct E as (r & _ & E). now injection E as <-.
Qed.
Definition first_test (j : junk double) (dim : Z) (size : list Z) (mtype : Z) (mp : list double) (mt : list Z) (ps : list double) : bool :=
  match env_from j dim size mtype mp mt ps with
  | Ok V =>
    match set_displ V (dec 1 8 :: repeat (dec 0 1) (Z.to_nat (nvoi V) - 1)) (alloc (j_u j) (ndofs V)) with
    | Ok u =>
      match assembly_rhs V u (alloc (j_vold j) (nvars V)) (alloc (j_vnew j) (nvars V)) (malloc (ndofs V)) with
      | Ok (_, _, _, er) => negb (oltb er (dec 1 5))
      | Err _ => false
      end
    | Err _ => false
    end
  | Err _ => false
  end.
Lemma first_test_ok fuel orc j dim size mtype mp mt ps o : construct fuel orc j dim size mtype mp mt ps = Ok o -> first_test j dim size mtype mp mt ps = true ->
  exists er, first_residual j o er /\ oltb er (dec 1 5) = false.
Proof.
  intros E F. unfold first_test in F. rewrite (env_from_ok _ _ _ _ _ _ _ _ _ _ E) in F. destruct (set_displ _ _ _) as [u|] eqn:Eu; [|discriminate].
  destruct (assembly_rhs _ _ _ _ _) as [(((b, nl), vn), er)|] eqn:Eb; [|discriminate]. exists er. split; [exists u, b, nl, vn; auto|]. now apply negb_true_iff in F.
Qed.
Definition mp_v : list double := [ofZ 1; ofZ 1; ofZ 1; dec 5 1; ofZ 0].
Definition ps_v : list double := [ofZ 1000000; dec 25 2; ofZ 1; ofZ 1] ++ repeat (ofZ 0) 16.
Lemma test_v : first_test (flat_junk (ofZ 0)) 2 [3; 5; 1] 1 mp_v [0; 0] ps_v = true.
Proof. vm_compute. reflexivity. Qed.
Lemma args_v : valid_args 2 3 5 1 1 mp_v [0; 0] ps_v.
Proof. constructor; [now left|lia|lia|now right|cbn; lia|exists 0, 0, []; unfold mat_type_ok; auto|cbn; lia]. Qed.
Definition zero_v : junk double := flat_junk (ofZ 0).
(** a finite answer nowhere: everything this object gives is NaN *)
Theorem void_case : exists o0 : obj double, total_junk zero_v /\ valid_args 2 3 5 1 1 mp_v [0; 0] ps_v /\
  construct fuel40 (fun _ => counting) zero_v 2 [3; 5; 1] 1 mp_v [0; 0] ps_v = Ok o0 /\
  surrounded (o_env o0) /\ (exists s, lget ps_v 10 = S754_zero s) /\ (exists er, first_residual zero_v o0 er /\ oltb er (dec 1 5) = false) /\
  (exists o fs, reaches o0 ([SetStrain 2 no_strain] ++ [hom_f]) o fs) /\
  (forall i, 0 <= i < nvoi (o_env o0) * nvoi (o_env o0) -> aget (o_ctan o0) i = Some NaN) /\
  forall cs f q o fs id, reaches o0 (cs ++ [Homogenize f q]) o fs -> In id (set_ids cs) -> answers_nan o fs id.
Proof.
  pose proof (flat_total (ofZ 0 : double)) as J. pose proof (construct_ok fuel40 (fun _ => counting) zero_v 2 3 5 1 1 mp_v [0; 0] ps_v args_v J) as H.
  destruct (construct fuel40 (fun _ => counting) zero_v 2 [3; 5; 1] 1 mp_v [0; 0] ps_v) as [o0|e] eqn:E.
  2:{ destruct H as (i & H). elim (counting_good _ _ fuel40_ok H). }
  destruct H as (_ & (tol & _ & V) & _).
  assert (HS : surrounded (o_env o0)).
  { exists 1, 1, 0. rewrite (eo_nx _ _ _ _ _ _ _ _ _ _ V), (eo_ny _ _ _ _ _ _ _ _ _ _ V), (eo_dim _ _ _ _ _ _ _ _ _ _ V).
    split; [lia|]. split; [lia|]. split; [|discriminate]. intros _ ex ey Hx Hy. unfold elem_type2D.
    rewrite (eo_type _ _ _ _ _ _ _ _ _ _ V), (eo_dy _ _ _ _ _ _ _ _ _ _ V), (eo_ly _ _ _ _ _ _ _ _ _ _ V), (eo_width _ _ _ _ _ _ _ _ _ _ V). cbn [Z.eqb Pos.eqb].
    assert (ey = 0 \/ ey = 1) as [->| ->] by lia; reflexivity. }
  assert (HE : exists s, lget ps_v 10 = S754_zero s) by (exists false; reflexivity).
  assert (HP : 2 = 3 -> nth 1 [0; 0] 0 <> 1) by discriminate.
  destruct (first_test_ok _ _ _ _ _ _ _ _ _ _ E test_v) as (er & Fr & Ht).
  destruct (void_nan fuel40 (fun _ => counting) zero_v 2 3 5 1 1 mp_v [0; 0] ps_v o0 args_v J E HS HE HP er Fr Ht) as (C & Ans).
  assert (O : is_object o0). { exists 2, 3, 5, 1, 1, mp_v, [0; 0], ps_v, fuel40, (fun _ => counting), zero_v. split; [exact args_v|]. split; [exact J|exact E]. }
  destruct (harmless_runs o0 no_files [SetStrain 2 no_strain; hom_f] O) as (o & fs & R).
  { repeat constructor; cbn; unfold fuel40; try reflexivity; lia. }
  exists o0. split; [exact J|]. split; [exact args_v|]. split; [reflexivity|]. split; [exact HS|]. split; [exact HE|]. split; [exists er; auto|]. split; [exists o, fs; exact R|]. split; [exact C|exact Ans].
Qed.
(** on 17 nodes in y, the two lowest rows of test3d_8 are in the layer *)
Lemma layer_17 : forall ey, 1 - 1 <= ey <= 1 -> in_layer 17 ey.
Proof. intros ey H. assert (ey = 0 \/ ey = 1) as [->| ->] by lia; vm_compute; reflexivity. Qed.
Lemma ends_8_17 : exists fs out, test3d_8 fuel40 (fun _ => counting) (fun _ _ _ => counting) zero_v [4; 17; 3; 20] no_files = Ok (0, fs, out).
Proof. exact (ends_3d_8 fuel40 zero_v 4 17 3 [20] no_files fuel40_ok eq_refl eq_refl eq_refl (flat_total _)). Qed.
