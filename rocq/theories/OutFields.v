(** The strain and stress of an output file are the cell means of the Gauss-point fields
    of the state it shows. *)
From Coq Require Import Reals Lra ZifyBool String.
From Verif Require Import Base Scalar EllSpec EllInit Grid EllModel EllAsm EllOp EllFinal EllProps
  CgPure CgTheory CgFinal CgProps AssemblyModel AsmPure AsmBnd AsmRun AsmMat FemGen FemAve FemMat FemMat2 FemDef FemPd FemRhs FemEquil AsmSpec AsmProps MicroModel OutputModel NewtonBase ApiBase FieldsBase ApiRun ApiHist Build
  ApiExact ApiSpec ApiProps ApiCommit ApiCases NewtonReal RespondReal Tangent CellFields VtuProps VtuData OutProps.
Open Scope Z_scope.
Open Scope R_scope.

Lemma output_work (o0 : obj R) cs o fs fuel pk t id g o' fs' r : is_object o0 -> reaches o0 cs o fs -> lookup id (o_gps o) = Some g ->
  step (Output fuel pk t id) (o, fs) = Ok (o', fs', r) ->
  exists vn f, o_env o' = o_env o0 /\ sane (o_env o0) /\ full (w_u (o_work o')) (ndofs (o_env o0)) /\ full (w_vold (o_work o')) (nvars (o_env o0)) /\
    alen vn = nvars (o_env o0) /\ alen (w_vnew (o_work o')) = nvars (o_env o0) /\
    alen (o_estrain o) = (ncells (o_env o0) * nvoi (o_env o0))%Z /\ alen (o_estress o) = (ncells (o_env o0) * nvoi (o_env o0))%Z /\
    calc_fields (o_env o0) (w_u (o_work o')) (w_vold (o_work o')) vn (o_estrain o) (o_estress o) = Ok (o_estrain o', o_estress o', w_vnew (o_work o')) /\
    write_vtu o' = Ok f /\ fs' = mkFiles (f_mats fs) (f_conv fs) (f_esc fs) (f_vars fs) ((id, t, f) :: f_vtu fs).
Proof.
  intros O R L E. destruct (reach_inv o0 cs o fs O R) as (K & (Ev & _) & _). pose proof (ok_sane o K) as S. destruct (ok_work o K) as (W & Fo & Fn).
  pose proof (reach_step _ _ _ _ _ _ _ _ R E) as R'. destruct (reach_inv o0 _ o' fs' O R') as (K' & (Ev' & _) & _). destruct (ok_work o' K') as (W' & Fo' & Fn').
  destruct (output_step o0 cs o fs fuel pk t id g o' fs' r O R L E) as ((vo & u & w & nl & it & er & Co & Eu & En & _ & Hu & _ & Hv & Ef) & f & Ew & Ff).
  rewrite Ev in *. rewrite Ev' in *. exists (w_vnew w), f. split; [reflexivity|]. split; [exact S|]. split; [exact (wk_u _ _ W')|]. split; [exact Fo'|].
  assert (Fu : full u (ndofs (o_env o0))). { destruct (displ_ok (o_env o0) (map (oval (g_strain g)) (zrange 0 (nvoi (o_env o0)))) _ S (wk_u _ _ W)) as (u2 & Eu2 & Fu2). rewrite Eu in Eu2. injection Eu2 as ->. exact Fu2. }
  rewrite Hv in Fo'.
  assert (W1 : wfull (o_env o0) (set_u (set_vold (o_work o) vo) u)).
  { split; [|split; assumption]. destruct W as [A1 A2 A3 A4 A5 A6]. constructor; try assumption. cbn.
    intros e q' i He Hq Hi _. apply (proj2 Fo'). rewrite nvars_eq. unfold intvar_ix. lia. }
  destruct (newton_wfull _ _ _ _ _ S W1 En) as (Ww & _ & _). cbn [fst] in Ww.
  split; [exact (full_alen _ _ (proj2 (proj2 Ww)))|]. split; [exact (full_alen _ _ Fn')|].
  pose proof (ok_es o K) as X. rewrite Ev in X. split; [exact X|]. pose proof (ok_et o K) as Y. rewrite Ev in Y. split; [exact Y|].
  rewrite Hv, Hu. split; [exact Ef|]. split; [exact Ew|exact Ff].
Qed.

Section Out.
Variables (fuel0 : nat) (orc : Z -> peek) (j : junk R) (nx ny nz mtype : Z) (mp : list R) (mt : list Z) (ps : list R) (o0 : obj R).
Hypothesis J : total_junk j.

Theorem fields_out3 : valid_args 3 nx ny nz mtype mp mt ps -> body_args 3 mp ps -> construct fuel0 orc j 3 [nx; ny; nz] mtype mp mt ps = Ok o0 ->
  forall cs o fs fuel pk t id g o' fs' r, reaches o0 cs o fs -> lookup id (o_gps o) = Some g -> step (Output fuel pk t id) (o, fs) = Ok (o', fs', r) ->
  exists f, f_vtu fs' = (id, t, f) :: f_vtu fs /\
  (forall eps, strain_field3 (o_env o0) (w_u (o_work o')) eps -> has f "strain" (6 * ((nx - 1) * (ny - 1) * (nz - 1))) (fun w => forall ex ey ez v, is_cell3 (o_env o0) ex ey ez -> (0 <= v < 6)%Z ->
     w (6 * (ex + (nx - 1) * (ey + (ny - 1) * ez)) + v)%Z = TD (rsum (zrange 0 8) (fun g => eps ex ey ez g v) / 8))) /\
  (forall sig, stress_field3 (o_env o0) (w_u (o_work o')) (w_vold (o_work o')) (w_vnew (o_work o')) sig -> has f "stress" (6 * ((nx - 1) * (ny - 1) * (nz - 1))) (fun w => forall ex ey ez v, is_cell3 (o_env o0) ex ey ez -> (0 <= v < 6)%Z ->
     w (6 * (ex + (nx - 1) * (ey + (ny - 1) * ez)) + v)%Z = TD (rsum (zrange 0 8) (fun g => sig ex ey ez g v) / 8))).
Proof.
  intros VA BA Ec cs o fs fuel pk t id g o' fs' r R L E.
  assert (O : is_object o0) by (exists 3%Z, nx, ny, nz, mtype, mp, mt, ps, fuel0, orc, j; auto).
  pose proof (construct_ok fuel0 orc j 3 nx ny nz mtype mp mt ps VA J) as H. rewrite Ec in H. destruct H as (F & (tol & _ & EV) & _).
  destruct (output_work o0 cs o fs fuel pk t id g o' fs' r O R L E) as (vn & f & Ev & S & Fu & Fv & Lv & Lv' & Les & Let & Ef & Ew & Ff).
  pose proof (built_body3 nx ny nz mtype mp mt ps tol _ S EV VA BA) as B. pose proof B as (_ & _ & D).
  assert (N6 : nvoi (o_env o0) = 6%Z) by (unfold nvoi; now rewrite D). rewrite N6 in *.
  assert (VO : forall q, alen q = nvars (o_env o0) -> vars_ok (o_env o0) (w_vold (o_work o')) q).
  { intros q Lq. split; [|rewrite Lq; apply nvars_eq]. intros e g' i He Hg Hi _. apply (proj2 Fv). rewrite nvars_eq. lia. }
  destruct (cell_fields3 (o_env o0) (w_u (o_work o')) (w_vold (o_work o')) vn (o_estrain o) (o_estress o) B Fu (VO _ Lv) Les Let) as (es & et & vn' & Ef' & _ & _ & He & Hs).
  rewrite Ef in Ef'. injection Ef' as <- <- <-. exists f. split; [now rewrite Ff|].
  pose proof (eo_nx _ _ _ _ _ _ _ _ _ _ EV) as Ex. pose proof (eo_ny _ _ _ _ _ _ _ _ _ _ EV) as Ey. pose proof (eo_nz _ _ _ _ _ _ _ _ _ _ EV) as Ez. cbn [Z.eqb Pos.eqb] in Ez.
  pose proof (va_nx _ _ _ _ _ _ _ _ VA) as Vx. pose proof (va_ny _ _ _ _ _ _ _ _ VA) as Vy. destruct (va_dim _ _ _ _ _ _ _ _ VA) as [?|(_ & Vz)]; [lia|].
  rewrite <- Ev in D, Ex, Ey, Ez.
  destruct (vtu3 o' f Ew D) as (_ & _ & _ & _ & _ & _ & _ & H1 & H2 & _); [lia|lia|lia|]. rewrite Ex, Ey, Ez in H1, H2.
  assert (Q : forall ex ey ez v, is_cell3 (o_env o0) ex ey ez -> (0 <= v < 6)%Z -> (6 * (ex + (nx - 1) * (ey + (ny - 1) * ez)) + v = cell3 (o_env o0) ex ey ez * 6 + v /\ 0 <= 6 * (ex + (nx - 1) * (ey + (ny - 1) * ez)) + v < 6 * ((nx - 1) * (ny - 1) * (nz - 1)))%Z).
  { intros ex ey ez v (Cx & Cy & Cz) Hv. rewrite <- Ev in Cx, Cy, Cz. rewrite Ex in Cx. rewrite Ey in Cy. rewrite Ez in Cz. split; [unfold cell3; rewrite <- Ev, Ex, Ey; ring|].
    assert (0 <= ey + (ny - 1) * ez < (ny - 1) * (nz - 1))%Z by nia. assert (0 <= ex + (nx - 1) * (ey + (ny - 1) * ez) < (nx - 1) * ((ny - 1) * (nz - 1)))%Z by nia. rewrite <- Z.mul_assoc. lia. }
  split.
  - intros eps Hf. destruct H1 as (l & Dl & Ll & Pl). exists l. split; [exact Dl|]. split; [exact Ll|]. intros ex ey ez v Hc Hv. destruct (Q ex ey ez v Hc Hv) as (Q1 & Q2).
    destruct (Pl _ Q2) as (x & Gx & ->). rewrite Q1 in Gx. rewrite (He eps Hf ex ey ez v Hc Hv) in Gx. now injection Gx as <-.
  - intros sig Hf. destruct H2 as (l & Dl & Ll & Pl). exists l. split; [exact Dl|]. split; [exact Ll|]. intros ex ey ez v Hc Hv. destruct (Q ex ey ez v Hc Hv) as (Q1 & Q2).
    destruct (Pl _ Q2) as (x & Gx & ->). rewrite Q1 in Gx. rewrite Ev in D. rewrite (Hs sig) in Gx; [now injection Gx as <-| |exact Hc|exact Hv].
    apply (stress_field3_iff (o_env o0) _ _ vn sig S D Fu (VO _ Lv)). apply (stress_field3_iff (o_env o0) _ _ (w_vnew (o_work o')) sig S D Fu (VO _ Lv')). exact Hf.
Qed.

Theorem fields_out2 : valid_args 2 nx ny nz mtype mp mt ps -> body_args 2 mp ps -> construct fuel0 orc j 2 [nx; ny; nz] mtype mp mt ps = Ok o0 ->
  forall cs o fs fuel pk t id g o' fs' r, reaches o0 cs o fs -> lookup id (o_gps o) = Some g -> step (Output fuel pk t id) (o, fs) = Ok (o', fs', r) ->
  exists f, f_vtu fs' = (id, t, f) :: f_vtu fs /\
  (forall eps, strain_field2 (o_env o0) (w_u (o_work o')) eps -> has f "strain" (3 * ((nx - 1) * (ny - 1))) (fun w => forall ex ey v, is_cell2 (o_env o0) ex ey -> (0 <= v < 3)%Z ->
     w (3 * (ex + (nx - 1) * ey) + v)%Z = TD (rsum (zrange 0 4) (fun g => eps ex ey g v) / 4))) /\
  (forall sig, stress_field2 (o_env o0) (w_u (o_work o')) sig -> has f "stress" (3 * ((nx - 1) * (ny - 1))) (fun w => forall ex ey v, is_cell2 (o_env o0) ex ey -> (0 <= v < 3)%Z ->
     w (3 * (ex + (nx - 1) * ey) + v)%Z = TD (rsum (zrange 0 4) (fun g => sig ex ey g v) / 4))).
Proof.
  intros VA BA Ec cs o fs fuel pk t id g o' fs' r R L E.
  assert (O : is_object o0) by (exists 2%Z, nx, ny, nz, mtype, mp, mt, ps, fuel0, orc, j; auto).
  pose proof (construct_ok fuel0 orc j 2 nx ny nz mtype mp mt ps VA J) as H. rewrite Ec in H. destruct H as (F & (tol & _ & EV) & _).
  destruct (output_work o0 cs o fs fuel pk t id g o' fs' r O R L E) as (vn & f & Ev & S & Fu & Fv & Lv & Lv' & Les & Let & Ef & Ew & Ff).
  pose proof (built_body2 nx ny nz mtype mp mt ps tol _ S EV VA BA) as B. pose proof B as (_ & _ & D).
  assert (N3 : nvoi (o_env o0) = 3%Z) by (unfold nvoi; now rewrite D). rewrite N3 in *.
  destruct (cell_fields2 (o_env o0) (w_u (o_work o')) (w_vold (o_work o')) vn (o_estrain o) (o_estress o) B Fu Les Let) as (es & et & Ef' & _ & _ & He & Hs).
  rewrite Ef in Ef'. injection Ef' as <- <- _. exists f. split; [now rewrite Ff|].
  pose proof (eo_nx _ _ _ _ _ _ _ _ _ _ EV) as Ex. pose proof (eo_ny _ _ _ _ _ _ _ _ _ _ EV) as Ey. pose proof (eo_nz _ _ _ _ _ _ _ _ _ _ EV) as Ez. cbn [Z.eqb Pos.eqb] in Ez.
  pose proof (va_nx _ _ _ _ _ _ _ _ VA) as Vx. pose proof (va_ny _ _ _ _ _ _ _ _ VA) as Vy.
  rewrite <- Ev in D, Ex, Ey, Ez.
  destruct (vtu2 o' f Ew D) as (_ & _ & _ & _ & _ & _ & _ & H1 & H2 & _); [lia|lia|exact Ez|]. rewrite Ex, Ey in H1, H2.
  assert (Q : forall ex ey v, is_cell2 (o_env o0) ex ey -> (0 <= v < 3)%Z -> (3 * (ex + (nx - 1) * ey) + v = (ey * (v_nx (o_env o0) - 1) + ex) * 3 + v /\ 0 <= 3 * (ex + (nx - 1) * ey) + v < 3 * ((nx - 1) * (ny - 1)))%Z).
  { intros ex ey v (Cx & Cy) Hv. rewrite <- Ev in Cx, Cy. rewrite Ex in Cx. rewrite Ey in Cy. split; [rewrite <- Ev, Ex; ring|].
    assert (0 <= ex + (nx - 1) * ey < (nx - 1) * (ny - 1))%Z by nia. lia. }
  split.
  - intros eps Hf. destruct H1 as (l & Dl & Ll & Pl). exists l. split; [exact Dl|]. split; [exact Ll|]. intros ex ey v Hc Hv. destruct (Q ex ey v Hc Hv) as (Q1 & Q2).
    destruct (Pl _ Q2) as (x & Gx & ->). rewrite Q1 in Gx. rewrite (He eps Hf ex ey v Hc Hv) in Gx. now injection Gx as <-.
  - intros sig Hf. destruct H2 as (l & Dl & Ll & Pl). exists l. split; [exact Dl|]. split; [exact Ll|]. intros ex ey v Hc Hv. destruct (Q ex ey v Hc Hv) as (Q1 & Q2).
    destruct (Pl _ Q2) as (x & Gx & ->). rewrite Q1 in Gx. rewrite (Hs sig Hf ex ey v Hc Hv) in Gx. now injection Gx as <-.
Qed.
End Out.

(** ** With the fields named *)
Lemma strain_exists3 V u : full u (ndofs V) -> v_dim V = 3%Z -> exists eps, strain_field3 V u eps.
Proof. intros F D. exists (fun ex ey ez g v => str3 V (val u) (ex, ey, ez) g v). now apply strain_field3_iff. Qed.
Lemma strain_exists2 V u : sane V -> full u (ndofs V) -> v_dim V = 2%Z -> exists eps, strain_field2 V u eps.
Proof. intros S F D. exists (fun ex ey g v => str2 V (val u) (ex, ey) g v). now apply strain_field2_iff. Qed.
Lemma stress_exists3 V u vold vnew : sane V -> v_dim V = 3%Z -> full u (ndofs V) -> vars_ok V vold vnew -> exists sig, stress_field3 V u vold vnew sig.
Proof. intros S D F W. exists (fun ex ey ez g v => gs3 V (val u) (val vold) (ex, ey, ez) g v). now apply stress_field3_iff. Qed.
Lemma stress_exists2 V u : sane V -> v_dim V = 2%Z -> full u (ndofs V) -> exists sig, stress_field2 V u sig.
Proof. intros S D F. exists (fun ex ey g v => gs2 V (val u) (ex, ey) g v). now apply stress_field2_iff. Qed.

Theorem cell_means3 V u vold vnew es et : body3 V -> full u (ndofs V) -> vars_ok V vold vnew -> alen es = (ncells V * 6)%Z -> alen et = (ncells V * 6)%Z ->
  exists es' et' vn eps sig, calc_fields V u vold vnew es et = Ok (es', et', vn) /\ strain_field3 V u eps /\ stress_field3 V u vold vnew sig /\
    alen es' = (ncells V * 6)%Z /\ alen et' = (ncells V * 6)%Z /\
    forall ex ey ez v, is_cell3 V ex ey ez -> (0 <= v < 6)%Z ->
       aget es' (cell3 V ex ey ez * 6 + v) = Some (rsum (zrange 0 8) (fun g => eps ex ey ez g v) / 8) /\
       aget et' (cell3 V ex ey ez * 6 + v) = Some (rsum (zrange 0 8) (fun g => sig ex ey ez g v) / 8).
Proof.
  intros B F W L1 L2. destruct (cell_fields3 V u vold vnew es et B F W L1 L2) as (es' & et' & vn & E & A1 & A2 & H1 & H2). destruct B as (S & G & D).
  destruct (strain_exists3 V u F D) as (eps & He). destruct (stress_exists3 V u vold vnew S D F W) as (sig & Hs).
  exists es', et', vn, eps, sig. do 5 (split; [assumption|]). intros ex ey ez v Hc Hv. split; [now apply H1|now apply H2].
Qed.
Theorem cell_means2 V u vold vnew es et : body2 V -> full u (ndofs V) -> alen es = (ncells V * 3)%Z -> alen et = (ncells V * 3)%Z ->
  exists es' et' eps sig, calc_fields V u vold vnew es et = Ok (es', et', vnew) /\ strain_field2 V u eps /\ stress_field2 V u sig /\
    alen es' = (ncells V * 3)%Z /\ alen et' = (ncells V * 3)%Z /\
    forall ex ey v, is_cell2 V ex ey -> (0 <= v < 3)%Z ->
       aget es' ((ey * (v_nx V - 1) + ex) * 3 + v) = Some (rsum (zrange 0 4) (fun g => eps ex ey g v) / 4) /\
       aget et' ((ey * (v_nx V - 1) + ex) * 3 + v) = Some (rsum (zrange 0 4) (fun g => sig ex ey g v) / 4).
Proof.
  intros B F L1 L2. destruct (cell_fields2 V u vold vnew es et B F L1 L2) as (es' & et' & E & A1 & A2 & H1 & H2). destruct B as (S & G & D).
  destruct (strain_exists2 V u S F D) as (eps & He). destruct (stress_exists2 V u S D F) as (sig & Hs).
  exists es', et', eps, sig. do 5 (split; [assumption|]). intros ex ey v Hc Hv. split; [now apply H1|now apply H2].
Qed.

Theorem out_fields3 fuel0 orc j nx ny nz mtype mp mt ps (o0 : obj R) : total_junk j -> valid_args 3 nx ny nz mtype mp mt ps -> body_args 3 mp ps -> construct fuel0 orc j 3 [nx; ny; nz] mtype mp mt ps = Ok o0 ->
  forall cs o fs fuel pk t id g o' fs' r, reaches o0 cs o fs -> lookup id (o_gps o) = Some g -> step (Output fuel pk t id) (o, fs) = Ok (o', fs', r) ->
  exists f eps sig, f_vtu fs' = (id, t, f) :: f_vtu fs /\ strain_field3 (o_env o0) (w_u (o_work o')) eps /\
  stress_field3 (o_env o0) (w_u (o_work o')) (w_vold (o_work o')) (w_vnew (o_work o')) sig /\
  has f "strain" (6 * ((nx - 1) * (ny - 1) * (nz - 1))) (fun w => forall ex ey ez v, is_cell3 (o_env o0) ex ey ez -> (0 <= v < 6)%Z ->
     w (6 * (ex + (nx - 1) * (ey + (ny - 1) * ez)) + v)%Z = TD (rsum (zrange 0 8) (fun g => eps ex ey ez g v) / 8)) /\
  has f "stress" (6 * ((nx - 1) * (ny - 1) * (nz - 1))) (fun w => forall ex ey ez v, is_cell3 (o_env o0) ex ey ez -> (0 <= v < 6)%Z ->
     w (6 * (ex + (nx - 1) * (ey + (ny - 1) * ez)) + v)%Z = TD (rsum (zrange 0 8) (fun g => sig ex ey ez g v) / 8)).
Proof.
  intros J VA BA Ec cs o fs fuel pk t id g o' fs' r R L E.
  destruct (fields_out3 fuel0 orc j nx ny nz mtype mp mt ps o0 J VA BA Ec cs o fs fuel pk t id g o' fs' r R L E) as (f & Ff & H1 & H2).
  assert (O : is_object o0) by (exists 3%Z, nx, ny, nz, mtype, mp, mt, ps, fuel0, orc, j; auto).
  pose proof (construct_ok fuel0 orc j 3 nx ny nz mtype mp mt ps VA J) as H. rewrite Ec in H. destruct H as (F & (tol & _ & EV) & _).
  destruct (output_work o0 cs o fs fuel pk t id g o' fs' r O R L E) as (vn & f2 & Ev & S & Fu & Fv & Lv & Lv' & _).
  pose proof (eo_dim _ _ _ _ _ _ _ _ _ _ EV) as D.
  destruct (strain_exists3 (o_env o0) _ Fu D) as (eps & He). destruct (stress_exists3 (o_env o0) _ (w_vold (o_work o')) (w_vnew (o_work o')) S D Fu) as (sig & Hs).
  { split; [|rewrite Lv'; apply nvars_eq]. intros e g' i He' Hg Hi _. apply (proj2 Fv). rewrite nvars_eq. lia. }
  exists f, eps, sig. split; [exact Ff|]. split; [exact He|]. split; [exact Hs|]. split; [now apply H1|now apply H2].
Qed.
Theorem out_fields2 fuel0 orc j nx ny nz mtype mp mt ps (o0 : obj R) : total_junk j -> valid_args 2 nx ny nz mtype mp mt ps -> body_args 2 mp ps -> construct fuel0 orc j 2 [nx; ny; nz] mtype mp mt ps = Ok o0 ->
  forall cs o fs fuel pk t id g o' fs' r, reaches o0 cs o fs -> lookup id (o_gps o) = Some g -> step (Output fuel pk t id) (o, fs) = Ok (o', fs', r) ->
  exists f eps sig, f_vtu fs' = (id, t, f) :: f_vtu fs /\ strain_field2 (o_env o0) (w_u (o_work o')) eps /\ stress_field2 (o_env o0) (w_u (o_work o')) sig /\
  has f "strain" (3 * ((nx - 1) * (ny - 1))) (fun w => forall ex ey v, is_cell2 (o_env o0) ex ey -> (0 <= v < 3)%Z ->
     w (3 * (ex + (nx - 1) * ey) + v)%Z = TD (rsum (zrange 0 4) (fun g => eps ex ey g v) / 4)) /\
  has f "stress" (3 * ((nx - 1) * (ny - 1))) (fun w => forall ex ey v, is_cell2 (o_env o0) ex ey -> (0 <= v < 3)%Z ->
     w (3 * (ex + (nx - 1) * ey) + v)%Z = TD (rsum (zrange 0 4) (fun g => sig ex ey g v) / 4)).
Proof.
  intros J VA BA Ec cs o fs fuel pk t id g o' fs' r R L E.
  destruct (fields_out2 fuel0 orc j nx ny nz mtype mp mt ps o0 J VA BA Ec cs o fs fuel pk t id g o' fs' r R L E) as (f & Ff & H1 & H2).
  assert (O : is_object o0) by (exists 2%Z, nx, ny, nz, mtype, mp, mt, ps, fuel0, orc, j; auto).
  pose proof (construct_ok fuel0 orc j 2 nx ny nz mtype mp mt ps VA J) as H. rewrite Ec in H. destruct H as (F & (tol & _ & EV) & _).
  destruct (output_work o0 cs o fs fuel pk t id g o' fs' r O R L E) as (vn & f2 & Ev & S & Fu & _).
  pose proof (eo_dim _ _ _ _ _ _ _ _ _ _ EV) as D.
  destruct (strain_exists2 (o_env o0) _ S Fu D) as (eps & He). destruct (stress_exists2 (o_env o0) _ S D Fu) as (sig & Hs).
  exists f, eps, sig. split; [exact Ff|]. split; [exact He|]. split; [exact Hs|]. split; [now apply H1|now apply H2].
Qed.
