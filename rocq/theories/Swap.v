(** Replacing the table of materials by one that looks the same to every cell, up to the
    damage flags, changes no result of any call. *)
From Verif Require Import Base Scalar EllSpec Grid EllModel AssemblyModel AsmPure AsmRun MicroModel OutputModel.

Section Swap.
Context {T : Type} `{OT : Ops T}.
Implicit Types (V : env T) (w : work T) (g : gp T).
Variable l : list (material T).

Definition undam (m : material T) : material T := mkMat (m_E m) (m_nu m) (m_k m) (m_mu m) (m_lambda m) (m_Ka m) (m_Sy m) (m_plast m) None.
Definition sw V : env T := mkEnv (v_dim V) (v_nx V) (v_ny V) (v_nz V) (v_lx V) (v_ly V) (v_lz V) (v_dx V) (v_dy V) (v_dz V) (v_width V) (v_inv_tol V) (v_type V) l (v_etype V).
Definition seen (r : res (material T * bool)) : res (material T * bool) := match r with Ok (m, p) => Ok (undam m, p) | Err e => Err e end.
Definition agree V : Prop := forall e, 0 <= e < ncells V -> seen (get_material V e) = seen (get_material (sw V) e).

(** what a stress or stiffness routine does with its material *)
Lemma use_mat {B} (f : material T -> bool -> res B) V e : agree V -> 0 <= e < ncells V -> (forall m p, f m p = f (undam m) p) ->
  (' mp <- get_material (sw V) e ;; f (fst mp) (snd mp)) = (' mp <- get_material V e ;; f (fst mp) (snd mp)).
Proof.
  intros A He Hf. specialize (A e He). destruct (get_material V e) as [(m, p)|x], (get_material (sw V) e) as [(m', p')|x']; cbn [seen] in A; try discriminate.
  - assert (E1 : undam m = undam m') by (injection A; intros; unfold undam; congruence). assert (E2 : p = p') by congruence. cbn [bind fst snd]. now rewrite Hf, <- E1, <- E2, <- Hf.
  - cbn [bind]. congruence.
Qed.
Lemma sw_els2 V : els2 (sw V) = els2 V. Proof. reflexivity. Qed.
Lemma sw_els3 V : els3 (sw V) = els3 V. Proof. reflexivity. Qed.

Section Assembly.
Variable V : env T.
Hypothesis A : agree V.

Section Flat.
Hypothesis D : v_dim V = 2.
Variables ex ey : Z.
Hypothesis He : In (ex, ey) (els2 V).
Lemma cell2 : 0 <= glo_elem3D (v_nx V) (v_ny V) ex ey 0 < ncells V.
Proof. exact (ix2_range V (ex, ey) D He). Qed.
Lemma stress2_sw gp eps : get_stress2D (sw V) ex ey gp eps = get_stress2D V ex ey gp eps.
Proof. exact (use_mat (fun m _ => Ok (false, stress2 (m_E m) (m_nu m) eps)) V _ A cell2 (fun _ _ => eq_refl)). Qed.
Lemma mat2_sw : get_elem_mat2D (sw V) ex ey = get_elem_mat2D V ex ey.
Proof.
  exact (use_mat (fun m _ => Ok (fold_left (fun Ae gp => add_mat 3 8 (B2 V gp) (ctan2 (m_E m) (m_nu m)) (wg2 V) Ae) (zrange 0 4) (zeros 64))) V _ A cell2 (fun _ _ => eq_refl)).
Qed.
Lemma rhs2_sw u : get_elem_rhs2D (sw V) u ex ey = get_elem_rhs2D V u ex ey.
Proof.
  unfold get_elem_rhs2D. apply foldM_ext. intros st gp _. change (get_strain2D (sw V) u ex ey gp) with (get_strain2D V u ex ey gp).
  destruct (get_strain2D V u ex ey gp) as [eps|]; cbn [bind]; [|reflexivity]. rewrite stress2_sw. reflexivity.
Qed.
End Flat.

Section Solid.
Hypothesis D : v_dim V = 3.
Variables ex ey ez : Z.
Hypothesis He : In (ex, ey, ez) (els3 V).
Lemma cell3 : 0 <= glo_elem3D (v_nx V) (v_ny V) ex ey ez < ncells V.
Proof. exact (ix3_range V (ex, ey, ez) D He). Qed.
Lemma stress3_sw vold vnew gp eps : get_stress3D (sw V) vold vnew ex ey ez gp eps = get_stress3D V vold vnew ex ey ez gp eps.
Proof.
  exact (use_mat (fun m (p : bool) => let e := glo_elem3D (v_nx V) (v_ny V) ex ey ez in
    if p then
      ep <- mapM (fun i => rd vold (intvar_ix e gp i)) (zrange 0 6) ;;
      alpha <- rd vold (intvar_ix e gp 6) ;;
      let p := plastic_step m eps ep alpha in
      vnew <- run_stores (map (fun i => (intvar_ix e gp i, lget (ps_eps_p p) i)) (zrange 0 6) ++ [(intvar_ix e gp 6, ps_alpha p)]) vnew ;;
      Ok (ps_nl p, ps_stress p, vnew)
    else Ok (false, lin_stress3 (m_lambda m) (m_mu m) eps, vnew)) V _ A cell3 (fun _ _ => eq_refl)).
Qed.
Lemma pert_sw u vold vnew gp : ctan_plast_pert (sw V) u vold vnew ex ey ez gp = ctan_plast_pert V u vold vnew ex ey ez gp.
Proof.
  unfold ctan_plast_pert. change (get_strain3D (sw V) u ex ey ez gp) with (get_strain3D V u ex ey ez gp).
  destruct (get_strain3D V u ex ey ez gp) as [e0|]; cbn [bind]; [|reflexivity]. rewrite stress3_sw.
  destruct (get_stress3D V vold vnew ex ey ez gp e0) as [s0|]; cbn [bind]; [|reflexivity].
  rewrite (foldM_ext _ (fun st i => let ep := ltab 6 (fun j => if j =? i then oadd (lget e0 j) deps_pert else lget e0 j) in
    ' s <- get_stress3D V vold (snd st) ex ey ez gp ep ;;
    Ok (fst st ++ [ltab 6 (fun j => odiv (osub (lget (snd (fst s)) j) (lget (snd (fst s0)) j)) deps_pert)], snd s))); [reflexivity|].
  intros st i _. cbv zeta. rewrite stress3_sw. reflexivity.
Qed.
Lemma mat3_sw u vold vnew : get_elem_mat3D (sw V) u vold vnew ex ey ez = get_elem_mat3D V u vold vnew ex ey ez.
Proof.
  pose (F := fun (pf : arr T -> arr T -> arr T -> Z -> Z -> Z -> Z -> res ((Z -> Z -> T) * arr T)) (m : material T) (p : bool) => foldM (fun st gp =>
    ' cv <- (if p then pf u vold (snd st) ex ey ez gp else Ok (ctan3 (m_lambda m) (m_mu m), snd st)) ;;
    Ok (add_mat 6 24 (B3 V gp) (fst cv) (wg3 V) (fst st), snd cv)) (zrange 0 8) (zeros 576, vnew)).
  change (get_elem_mat3D (sw V) u vold vnew ex ey ez) with (' mp <- get_material (sw V) (glo_elem3D (v_nx V) (v_ny V) ex ey ez) ;; F (ctan_plast_pert (sw V)) (fst mp) (snd mp)).
  change (get_elem_mat3D V u vold vnew ex ey ez) with (' mp <- get_material V (glo_elem3D (v_nx V) (v_ny V) ex ey ez) ;; F (ctan_plast_pert V) (fst mp) (snd mp)).
  rewrite (use_mat (F (ctan_plast_pert (sw V))) V _ A cell3 (fun _ _ => eq_refl)). destruct (get_material V _) as [(m, p)|]; cbn [bind fst snd]; [|reflexivity].
  apply foldM_ext. intros st gp _. destruct p; [now rewrite pert_sw|reflexivity].
Qed.
Lemma rhs3_sw u vold vnew : get_elem_rhs3D (sw V) u vold vnew ex ey ez = get_elem_rhs3D V u vold vnew ex ey ez.
Proof.
  unfold get_elem_rhs3D. apply foldM_ext. intros st gp _. change (get_strain3D (sw V) u ex ey ez gp) with (get_strain3D V u ex ey ez gp).
  destruct (get_strain3D V u ex ey ez gp) as [eps|]; cbn [bind]; [|reflexivity]. rewrite stress3_sw. reflexivity.
Qed.
End Solid.

(** the two kinds of loops over cells *)
Lemma loop2 {S} (f g : S -> Z * Z -> res S) s : v_dim V = 2 -> (forall st ex ey, In (ex, ey) (els2 V) -> f st (ex, ey) = g st (ex, ey)) -> foldM f (els2 V) s = foldM g (els2 V) s.
Proof. intros _ H. apply foldM_ext. intros st (ex, ey) Hin. now apply H. Qed.
Lemma loop3 {S} (f g : S -> Z * Z * Z -> res S) s : v_dim V = 3 -> (forall st ex ey ez, In (ex, ey, ez) (els3 V) -> f st (ex, ey, ez) = g st (ex, ey, ez)) -> foldM f (els3 V) s = foldM g (els3 V) s.
Proof. intros _ H. apply foldM_ext. intros st ((ex, ey), ez) Hin. now apply H. Qed.

Lemma assembly_rhs_sw u vold vnew b : assembly_rhs (sw V) u vold vnew b = assembly_rhs V u vold vnew b.
Proof.
  unfold assembly_rhs. cbn [sw v_dim v_nx v_ny v_nz]. rewrite sw_els2, sw_els3. change (ndofs (sw V)) with (ndofs V). destruct run_stores as [b0|]; cbn [bind]; [|reflexivity].
  destruct (Z.eqb_spec (v_dim V) 2) as [D|]; [|destruct (Z.eqb_spec (v_dim V) 3) as [D|]]; [| |reflexivity].
  - rewrite (loop2 _ (fun st e => let '(ex, ey) := e in
       ' r <- get_elem_rhs2D V u ex ey ;; b <- run_adds (rhs_adds 2 (sn2 (v_nx V) ex ey) (fst r)) (fst st) ;; Ok (b, if snd r then true else snd st)) _ D); [reflexivity|].
    intros st ex ey He. now rewrite rhs2_sw.
  - rewrite (loop3 _ (fun st e => let '(ex, ey, ez) := e in
       ' r <- get_elem_rhs3D V u vold (snd st) ex ey ez ;;
       b <- run_adds (rhs_adds 3 (sn3 (v_nx V) (v_ny V) ex ey ez) (fst (fst r))) (fst (fst st)) ;;
       Ok (b, (if snd (fst r) then true else snd (fst st)), snd r)) _ D); [reflexivity|].
    intros st ex ey ez He. now rewrite rhs3_sw.
Qed.
Lemma assembly_mat_sw u vold vnew m : assembly_mat (sw V) u vold vnew m = assembly_mat V u vold vnew m.
Proof.
  unfold assembly_mat. cbn [sw v_dim v_nx v_ny v_nz]. rewrite sw_els2, sw_els3. destruct ell_set_zero_mat as [m0|]; cbn [bind]; [|reflexivity].
  destruct (Z.eqb_spec (v_dim V) 2) as [D|]; [|destruct (Z.eqb_spec (v_dim V) 3) as [D|]]; [| |reflexivity].
  - rewrite (loop2 _ (fun A e => let '(ex, ey) := e in
       Ae <- get_elem_mat2D V ex ey ;; ell_add_struct2D A ex ey (lget Ae) 2 (v_nx V) (v_ny V)) _ D); [reflexivity|].
    intros st ex ey He. now rewrite mat2_sw.
  - rewrite (loop3 _ (fun st e => let '(ex, ey, ez) := e in
       ' r <- get_elem_mat3D V u vold (snd st) ex ey ez ;;
       A <- ell_add_struct3D (fst st) ex ey ez (lget (fst r)) 3 (v_nx V) (v_ny V) (v_nz V) ;; Ok (A, snd r)) _ D); [reflexivity|].
    intros st ex ey ez He. now rewrite mat3_sw.
Qed.
Lemma ave_stress_sw u vold vnew : calc_ave_stress (sw V) u vold vnew = calc_ave_stress V u vold vnew.
Proof.
  unfold calc_ave_stress. cbn [sw v_dim v_nx v_ny v_nz v_lx v_ly]. rewrite sw_els2, sw_els3. change (nvoi (sw V)) with (nvoi V). f_equal.
  destruct (Z.eqb_spec (v_dim V) 2) as [D|]; [|destruct (Z.eqb_spec (v_dim V) 3) as [D|]]; [| |reflexivity].
  - apply (loop2 _ _ _ D). intros st ex ey He. f_equal. apply foldM_ext. intros a gp _. change (get_strain2D (sw V) u ex ey gp) with (get_strain2D V u ex ey gp).
    destruct (get_strain2D V u ex ey gp) as [eps|]; cbn [bind]; [|reflexivity]. now rewrite stress2_sw.
  - apply (loop3 _ _ _ D). intros st ex ey ez He. f_equal. apply foldM_ext. intros a gp _. change (get_strain3D (sw V) u ex ey ez gp) with (get_strain3D V u ex ey ez gp).
    destruct (get_strain3D V u ex ey ez gp) as [eps|]; cbn [bind]; [|reflexivity]. now rewrite stress3_sw.
Qed.
Lemma fields_sw u vold vnew es et : calc_fields (sw V) u vold vnew es et = calc_fields V u vold vnew es et.
Proof.
  unfold calc_fields. cbn [sw v_dim v_nx v_ny v_nz v_dx v_dy v_dz]. rewrite sw_els2, sw_els3.
  destruct (Z.eqb_spec (v_dim V) 2) as [D|]; [|destruct (Z.eqb_spec (v_dim V) 3) as [D|]]; [| |reflexivity].
  - apply (loop2 _ _ _ D). intros st ex ey He. f_equal. apply foldM_ext. intros a gp _. change (get_strain2D (sw V) u ex ey gp) with (get_strain2D V u ex ey gp).
    destruct (get_strain2D V u ex ey gp) as [eps|]; cbn [bind]; [|reflexivity]. now rewrite stress2_sw.
  - apply (loop3 _ _ _ D). intros st ex ey ez He. f_equal. apply foldM_ext. intros a gp _. change (get_strain3D (sw V) u ex ey ez gp) with (get_strain3D V u ex ey ez gp).
    destruct (get_strain3D V u ex ey ez gp) as [eps|]; cbn [bind]; [|reflexivity]. now rewrite stress3_sw.
Qed.

(** Newton and the responses *)
Lemma body_sw w : newton_body (sw V) w = newton_body V w.
Proof.
  unfold newton_body. rewrite assembly_rhs_sw. destruct assembly_rhs as [(((b, nl), vn), er)|]; cbn [bind]; [|reflexivity].
  destruct oltb; [reflexivity|]. rewrite assembly_mat_sw. reflexivity.
Qed.
Lemma loop_sw fuel pk : forall cell k w, newton_loop fuel pk (sw V) cell k w = newton_loop fuel pk V cell k w.
Proof.
  induction fuel as [|fuel IH]; intros cell k w; cbn [newton_loop]; [reflexivity|]. rewrite body_sw. destruct newton_body as [(((w1, nl), er), brk)|]; cbn [bind]; [|reflexivity].
  destruct brk; [reflexivity|]. destruct (if k + 1 =? 0 then Ok cell else pk (k + 1)) as [i|]; cbn [bind]; [|reflexivity]. destruct (_ && _)%bool; [apply IH|reflexivity].
Qed.
Lemma newton_sw fuel pk w : newton fuel pk (sw V) w = newton fuel pk V w.
Proof. apply loop_sw. Qed.
Lemma respond_sw fuel pk eps w : respond fuel pk (sw V) eps w = respond fuel pk V eps w.
Proof.
  unfold respond. change (set_displ (sw V) eps (w_u w)) with (set_displ V eps (w_u w)). destruct set_displ as [u|]; cbn [bind]; [|reflexivity].
  rewrite newton_sw. destruct newton as [(((w1, nl), it), er)|]; cbn [bind]; [|reflexivity]. now rewrite ave_stress_sw.
Qed.
Lemma ctan_lin_sw fuel orc w c : calc_ctan_lin fuel orc (sw V) w c = calc_ctan_lin fuel orc V w c.
Proof.
  unfold calc_ctan_lin. change (nvoi (sw V)) with (nvoi V). apply foldM_ext. intros st i _. rewrite respond_sw. reflexivity.
Qed.
Lemma homog_ctan_sw fuel orc eps s0 w c its ers : homog_ctan fuel orc (sw V) eps s0 w c its ers = homog_ctan fuel orc V eps s0 w c its ers.
Proof.
  unfold homog_ctan. change (nvoi (sw V)) with (nvoi V). apply foldM_ext. intros (((w1, c1), i1), e1) i _. rewrite respond_sw. reflexivity.
Qed.
Lemma homog_gp_sw fuel orc c w g : homog_gp fuel orc (sw V) c w g = homog_gp fuel orc V c w g.
Proof.
  unfold homog_gp. change (load_vars (sw V)) with (load_vars V). destruct load_vars as [vo|]; cbn [bind]; [|reflexivity].
  change (is_linear (sw V)) with (is_linear V). destruct is_linear as [(li, inv)|]; cbn [bind fst snd]; [|reflexivity].
  destruct (_ && _)%bool; [reflexivity|]. change (nvoi (sw V)) with (nvoi V). destruct rdl as [eps|]; cbn [bind]; [|reflexivity].
  rewrite respond_sw. destruct respond as [((((w1, nl), it), er), s)|]; cbn [bind]; [|reflexivity]. destruct wrl as [st|]; cbn [bind]; [|reflexivity].
  change (keep_vars (sw V)) with (keep_vars V). destruct keep_vars as [nk|]; cbn [bind]; [|reflexivity]. destruct wr as [i1|]; cbn [bind]; [|reflexivity].
  destruct wr as [e1|]; cbn [bind]; [|reflexivity]. rewrite homog_ctan_sw. reflexivity.
Qed.
Lemma homog_list_sw fuel orc c gs w inv : homog_list fuel orc (sw V) c gs w inv = homog_list fuel orc V c gs w inv.
Proof. unfold homog_list. apply foldM_ext. intros (((w1, i1), d1), j1) g _. now rewrite homog_gp_sw. Qed.
End Assembly.

(** ** Objects *)
Definition swo (o : obj T) : obj T := mkObj (sw (o_env o)) (o_work o) (o_params o) (o_ctan o) (o_gps o) (o_estrain o) (o_estress o) (o_inv_max o) (o_header o).
Definition sws (s : obj T * files T) : obj T * files T := (swo (fst s), snd s).
Definition rmap {A B} (f : A -> B) (r : res A) : res B := match r with Ok x => Ok (f x) | Err e => Err e end.

Lemma step_sw c o fs : agree (o_env o) -> step c (swo o, fs) = rmap (fun r => (sws (fst r), snd r)) (step c (o, fs)).
Proof.
  intros A. destruct c as [id eps|id|id|id|fuel orc| |fuel pk t id|]; cbn [step].
  - change (nvoi (o_env (swo o))) with (nvoi (o_env o)). destruct (_ <? _); [reflexivity|]. change (set_strain (o_env (swo o)) id eps (o_gps (swo o))) with (set_strain (sw (o_env o)) id eps (o_gps o)).
    assert (E : forall gs, set_strain (sw (o_env o)) id eps gs = set_strain (o_env o) id eps gs).
    { induction gs as [|g gs IH]; [reflexivity|]. cbn [set_strain]. rewrite IH. reflexivity. }
    rewrite E. destruct set_strain; reflexivity.
  - change (get_macro_stress (o_env (swo o)) id (o_gps (swo o))) with (get_macro_stress (o_env o) id (o_gps o)). destruct get_macro_stress; reflexivity.
  - change (get_macro_ctan (o_env (swo o)) id (o_gps (swo o))) with (get_macro_ctan (o_env o) id (o_gps o)). destruct get_macro_ctan; reflexivity.
  - reflexivity.
  - unfold homogenize. cbn [swo o_env o_ctan o_gps o_work o_inv_max o_params o_estrain o_estress o_header]. rewrite homog_list_sw by exact A.
    destruct homog_list as [(((w, inv), gs), j)|]; reflexivity.
  - unfold update_vars. change (mapM (update_gp (o_env (swo o))) (o_gps (swo o))) with (mapM (update_gp (o_env o)) (o_gps o)). destruct mapM; reflexivity.
  - unfold output. cbn [swo o_env o_gps o_work o_estrain o_estress]. destruct (lookup id (o_gps o)) as [g|]; [|reflexivity].
    change (load_vars (sw (o_env o))) with (load_vars (o_env o)). destruct load_vars as [vo|]; cbn [bind rmap]; [|reflexivity].
    change (nvoi (sw (o_env o))) with (nvoi (o_env o)). destruct rdl as [e|]; cbn [bind rmap]; [|reflexivity].
    change (set_displ (sw (o_env o))) with (set_displ (o_env o)). destruct set_displ as [u|]; cbn [bind rmap]; [|reflexivity].
    rewrite newton_sw by exact A. destruct newton as [(((w, nl), it), er)|]; cbn [bind rmap fst snd]; [|reflexivity].
    rewrite fields_sw by exact A. destruct calc_fields as [((es, et), vn)|]; cbn [bind rmap fst snd]; [|reflexivity].
    change (write_vtu (with_work (swo o) (set_vnew w vn) es et)) with (write_vtu (with_work o (set_vnew w vn) es et)). destruct write_vtu; reflexivity.
  - unfold write_info_files. cbn [swo o_header o_env o_gps]. change (conv_head (swo o)) with (conv_head o). change (esc_head (swo o)) with (esc_head o).
    change (conv_line (sw (o_env o))) with (conv_line (o_env o)). change (vars_line (sw (o_env o))) with (vars_line (o_env o)).
    destruct (o_header o); (destruct conv_line; cbn [bind rmap]; [|reflexivity]); (destruct esc_line; cbn [bind rmap]; [|reflexivity]); destruct vars_line; reflexivity.
Qed.
Lemma step_env_same c o fs o' fs' r : step c (o, fs) = Ok (o', fs', r) -> o_env o' = o_env o.
Proof.
  destruct c as [id eps|id|id|id|fuel orc| |fuel pk t id|]; cbn [step].
  - destruct (_ <? _); [discriminate|]. destruct set_strain; cbn [bind]; [|discriminate]. now intros [= <- _ _].
  - destruct get_macro_stress; cbn [bind]; [|discriminate]. now intros [= <- _ _].
  - destruct get_macro_ctan; cbn [bind]; [|discriminate]. now intros [= <- _ _].
  - now intros [= <- _ _].
  - unfold homogenize. destruct homog_list as [(((w, inv), gs), j)|]; cbn [bind]; [|discriminate]. now intros [= <- _ _].
  - unfold update_vars. destruct mapM; cbn [bind]; [|discriminate]. now intros [= <- _ _].
  - unfold output. destruct lookup; [|now intros [= <- _ _]]. destruct load_vars; cbn [bind]; [|discriminate]. destruct rdl; cbn [bind]; [|discriminate].
    destruct set_displ; cbn [bind]; [|discriminate]. destruct newton; cbn [bind]; [|discriminate]. destruct calc_fields; cbn [bind]; [|discriminate].
    destruct write_vtu; cbn [bind]; [|discriminate]. now intros [= <- _ _].
  - unfold write_info_files. destruct (o_header o); (destruct conv_line; cbn [bind]; [|discriminate]); (destruct esc_line; cbn [bind]; [|discriminate]);
    (destruct vars_line; cbn [bind]; [|discriminate]); now intros [= <- _ _].
Qed.
Lemma run_sw cs : forall o fs, agree (o_env o) -> run cs (swo o, fs) = rmap (fun r => (sws (fst r), snd r)) (run cs (o, fs)).
Proof.
  induction cs as [|c cs IH]; intros o fs A; cbn [run]; [reflexivity|]. rewrite step_sw by exact A.
  destruct (step c (o, fs)) as [((o1, fs1), r)|e] eqn:E; cbn [bind rmap fst snd]; [|reflexivity]. unfold sws at 1. cbn [fst snd].
  rewrite IH. 2:{ rewrite (step_env_same _ _ _ _ _ _ E). exact A. } destruct (run cs (o1, fs1)) as [((o2, fs2), rs)|]; reflexivity.
Qed.
End Swap.

(** ** Damage is linear *)
Section Damage.
Context {T : Type} `{OT : Ops T}.
(** material types with one behaviour *)
Definition alike (a b : Z) : Prop := a = b \/ ((a = 0 \/ a = 2) /\ (b = 0 \/ b = 2)).

Lemma seen_map (V : env T) l e : map undam (v_mats V) = map undam l -> seen (get_material V e) = seen (get_material (sw l V) e).
Proof.
  intros H. unfold get_material. cbn [sw v_type v_etype v_mats].
  destruct (if (v_type V =? 0) || (v_type V =? 1) then t <- rd (v_etype V) e ;; Ok (if t =? 0 then 0 else 1) else Err Uninit)%bool as [n|]; cbn [bind]; [|reflexivity].
  pose proof (nth_error_map undam (Z.to_nat n) (v_mats V)) as E1. pose proof (nth_error_map undam (Z.to_nat n) l) as E2. rewrite H, E2 in E1.
  destruct (nth_error (v_mats V) (Z.to_nat n)) as [m|], (nth_error l (Z.to_nat n)) as [m'|]; cbn in E1; try discriminate; cbn [of_option bind]; [|reflexivity].
  assert (E : undam m' = undam m) by congruence. assert (P : m_plast m' = m_plast m) by exact (f_equal m_plast E). rewrite P. destruct (m_plast m); cbn [of_option bind seen]; [now rewrite E|reflexivity].
Qed.
Lemma arg_alike mt mt' i : Forall2 alike mt mt' -> match arg mt i, arg mt' i with Ok a, Ok b => alike a b | Err e, Err e' => e = e' | _, _ => False end.
Proof.
  intros H. unfold arg. destruct (i <? 0); [reflexivity|]. revert H. generalize (Z.to_nat i) as n. clear i. intros n H. revert n.
  induction H as [|a b mt mt' Hab H IH]; intros [|n]; cbn; [reflexivity|reflexivity|exact Hab|exact (IH n)].
Qed.
Lemma material_alike mt mt' (ps : list T) i : Forall2 alike mt mt' -> rmap undam (make_material mt' ps i) = rmap undam (make_material mt ps i).
Proof.
  intros H. pose proof (arg_alike mt mt' i H) as A. unfold make_material. destruct (arg ps (i * 10)); cbn [bind]; [|reflexivity]. destruct (arg ps (i * 10 + 1)); cbn [bind]; [|reflexivity].
  destruct (arg ps (i * 10 + 2)); cbn [bind]; [|reflexivity]. destruct (arg ps (i * 10 + 3)); cbn [bind]; [|reflexivity].
  destruct (arg mt i) as [t1|], (arg mt' i) as [t2|]; cbn [bind]; try contradiction; [|now rewrite A].
  destruct A as [->|(Ha & Hb)]; [reflexivity|]. destruct Ha as [-> | ->], Hb as [-> | ->]; reflexivity.
Qed.
Lemma mapM_rmap {A B C} (f g : A -> res B) (h : B -> C) xs : (forall x, rmap h (f x) = rmap h (g x)) -> rmap (map h) (mapM f xs) = rmap (map h) (mapM g xs).
Proof.
  intros H. induction xs as [|x xs IH]; cbn [mapM]; [reflexivity|]. specialize (H x). destruct (f x), (g x); cbn [rmap] in H; try discriminate; cbn [bind]; [|congruence].
  destruct (mapM f xs), (mapM g xs); cbn [rmap] in IH; try discriminate; cbn [bind rmap map]; congruence.
Qed.

(** the same replies and files, or the same error *)
Definition same_runs (o o' : obj T) : Prop := forall cs fs, rmap (fun r => (snd (fst r), snd r)) (run cs (o, fs)) = rmap (fun r => (snd (fst r), snd r)) (run cs (o', fs)).
Lemma swap_runs l o : agree l (o_env o) -> same_runs o (swo l o).
Proof. intros A cs fs. rewrite (run_sw l cs o fs A). destruct (run cs (o, fs)) as [((o1, fs1), rs)|]; reflexivity. Qed.

Lemma mats_files (l l' : list (material T)) : map undam l' = map undam l -> mats_file l' = mats_file l.
Proof.
  assert (E : forall k : list (material T), mats_file k = mats_file (map undam k)). { unfold mats_file. induction k as [|m k IH]; cbn [flat_map map]; [reflexivity|]. now rewrite IH. }
  intros H. now rewrite E, H, <- E.
Qed.
Definition we (et : arr Z) (V : env T) : env T := mkEnv (v_dim V) (v_nx V) (v_ny V) (v_nz V) (v_lx V) (v_ly V) (v_lz V) (v_dx V) (v_dy V) (v_dz V) (v_width V) (v_inv_tol V) (v_type V) (v_mats V) et.
Lemma construct_swap fuel orc (j : junk T) dim size mtype mp mt mt' ps l l' :
  mapM (make_material mt ps) (zrange 0 2) = Ok l -> mapM (make_material mt' ps) (zrange 0 2) = Ok l' ->
  (forall V et, make_env j dim size mtype mp = Ok V -> (dim = 2 \/ dim = 3) -> (mtype = 0 \/ mtype = 1) -> fill_types (sw l V) = Ok et -> agree l' (we et (sw l V))) ->
  match construct fuel orc j dim size mtype mp mt ps, construct fuel orc j dim size mtype mp mt' ps with
  | Ok o, Ok o' => o' = swo l' o /\ same_runs o o' /\ v_mats (o_env o) = l /\ v_mats (o_env o') = l'
  | Err e, Err e' => e = e'
  | _, _ => False
  end.
Proof.
  intros M M' H. unfold construct. destruct (make_env j dim size mtype mp) as [V|] eqn:EV; cbn [bind]; [|reflexivity].
  destruct (negb _) eqn:Dm; [reflexivity|]. destruct (negb _) eqn:Mt in |- *; [reflexivity|]. destruct (mapM (arg mp) (zrange 0 5)) as [p|]; cbn [bind]; [|reflexivity]. rewrite M, M'. cbn [bind].
  cbn [v_dim v_nx v_ny v_nz v_lx v_ly v_lz v_dx v_dy v_dz v_width v_inv_tol v_type].
  match goal with |- context [fill_types ?W] => change W with (sw l V); change (fill_types (mkEnv (v_dim V) (v_nx V) (v_ny V) (v_nz V) (v_lx V) (v_ly V) (v_lz V) (v_dx V) (v_dy V) (v_dz V) (v_width V) (v_inv_tol V) (v_type V) l' (v_etype V))) with (fill_types (sw l V)) end.
  destruct (fill_types (sw l V)) as [et|] eqn:Ef; cbn [bind]; [|reflexivity].
  specialize (H V et eq_refl ltac:(lia) ltac:(lia) Ef). set (V1 := we et (sw l V)) in *.
  change (mkEnv (v_dim V) (v_nx V) (v_ny V) (v_nz V) (v_lx V) (v_ly V) (v_lz V) (v_dx V) (v_dy V) (v_dz V) (v_width V) (v_inv_tol V) (v_type V) l' et) with (sw l' V1).
  change (mkEnv (v_dim V) (v_nx V) (v_ny V) (v_nz V) (v_lx V) (v_ly V) (v_lz V) (v_dx V) (v_dy V) (v_dz V) (v_width V) (v_inv_tol V) (v_type V) l et) with V1.
  match goal with |- context [if dim =? 2 then ?a else ?b] => destruct (if dim =? 2 then a else b) as [A|] end; cbn [bind]; [|reflexivity].
  change (ndofs (sw l' V1)) with (ndofs V1). change (nvars (sw l' V1)) with (nvars V1). rewrite (ctan_lin_sw l' V1 H).
  destruct calc_ctan_lin as [(w, c)|]; cbn [bind fst snd]; [|reflexivity]. change (nvoi (sw l' V1)) with (nvoi V1). split; [reflexivity|]. split; [|split; reflexivity].
  match goal with |- same_runs ?o _ => exact (swap_runs l' o H) end.
Qed.
Theorem damage_linear fuel orc (j : junk T) dim size mtype mp mt mt' ps : Forall2 alike mt mt' ->
  match construct fuel orc j dim size mtype mp mt ps, construct fuel orc j dim size mtype mp mt' ps with
  | Ok o, Ok o' => same_runs o o' /\ forall fs, construct_files o' fs = construct_files o fs
  | Err e, Err e' => e = e'
  | _, _ => False
  end.
Proof.
  intros H. pose proof (mapM_rmap _ _ undam (zrange 0 2) (fun i => material_alike mt mt' ps i H)) as M.
  destruct (mapM (make_material mt ps) (zrange 0 2)) as [l|] eqn:E, (mapM (make_material mt' ps) (zrange 0 2)) as [l'|] eqn:E'; cbn [rmap] in M; try discriminate.
  - injection M as M. pose proof (construct_swap fuel orc j dim size mtype mp mt mt' ps l l' E E') as C.
    match type of C with ?P -> _ => assert (Hyp : P) by (intros V et _ _ _ _ e _; apply seen_map; symmetry; exact M) end. specialize (C Hyp).
    destruct (construct _ _ _ _ _ _ _ mt _) as [o|], (construct _ _ _ _ _ _ _ mt' _) as [o'|]; try exact C. destruct C as (_ & R & Em & Em'). split; [exact R|].
    intros fs. unfold construct_files. f_equal. apply mats_files. now rewrite Em, Em'.
  - unfold construct. destruct (make_env j dim size mtype mp) as [V|]; cbn [bind]; [|reflexivity]. destruct (negb _); [reflexivity|]. destruct (negb _); [reflexivity|].
    destruct (mapM (arg mp) (zrange 0 5)) as [p|]; cbn [bind]; [|reflexivity]. rewrite E, E'. cbn [bind]. congruence.
Qed.
End Damage.
