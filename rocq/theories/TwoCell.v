(** A plastic cell under a linear one: what a commit publishes for the linear cell. *)
From Coq Require Import Reals Lra ZifyBool.
From Verif Require Import Base Scalar EllSpec EllInit EllModel EllFinal Grid CgPure CgFinal CgProps AssemblyModel AsmPure AsmBnd AsmRun FemGen FemAve AsmMat FemMat FemMat2 FemDef FemPd FemRhs FemEquil PlastProps
  AsmEx PlastRef AsmSpec AsmProps AsmPoint MicroModel OutputModel NewtonBase ApiBase ApiRun ApiHist Build ApiExact ApiSpec ApiProps ApiCommit ApiCases NewtonReal Thin OneCell Untouched.
Open Scope Z_scope.
Open Scope R_scope.

Definition tmp : list R := [1; 1; 1; 1 / 2; 0].
Lemma targs : valid_args 3 2 3 2 1 tmp [0%Z; 1%Z] (cps 1 0).
Proof. constructor; try lia; [cbn; lia| |cbn; lia]. exists 0%Z, 1%Z, []. unfold mat_type_ok. auto. Qed.
Definition new_junk (x : R) : junk R := mkJunk (fun _ => Some 0) (fun _ => Some 0) (fun _ => Some x) (Some 0).
Lemma new_total x : total_junk (new_junk x).
Proof. constructor; cbn; eauto. Qed.
Record two_env (V : env R) : Prop := {
  te_body : body3 V; te_thin : thin3 V; te_els : In (0, 0, 0)%Z (els3 V); te_cells : ncells V = 2%Z;
  te_mat : mat_at V 0 = mat1 1 0; te_pl : plastic_at V 0 = true; te_lin : plastic_at V 1 = false; te_tol : v_inv_tol V = 0 }.
Lemma two_built V : sane V -> env_of 3 2 3 2 1 tmp [0%Z; 1%Z] (cps 1 0) 0 V -> two_env V.
Proof.
  intros S E. pose proof (built_geom3 2 3 2 1 tmp _ _ 0 V ltac:(lia) ltac:(lia) ltac:(lia) E) as G. cbn in G. specialize (G Rlt_0_1 Rlt_0_1 Rlt_0_1).
  pose proof (eo_nx _ _ _ _ _ _ _ _ _ _ E) as Ex. pose proof (eo_ny _ _ _ _ _ _ _ _ _ _ E) as Ey. pose proof (eo_nz _ _ _ _ _ _ _ _ _ _ E) as Ez. cbn [Z.eqb Pos.eqb] in Ez.
  pose proof (eo_dim _ _ _ _ _ _ _ _ _ _ E) as D. pose proof (eo_type _ _ _ _ _ _ _ _ _ _ E) as Ty. pose proof (eo_width _ _ _ _ _ _ _ _ _ _ E) as Wd.
  pose proof (eo_dy _ _ _ _ _ _ _ _ _ _ E) as Dy. rewrite (eo_ly _ _ _ _ _ _ _ _ _ _ E) in Dy. change (v_dy V = 1 / 2) in Dy. change (v_width V = 1 / 2) in Wd.
  assert (C0 : class3 V 0 0 0 = 1%Z).
  { unfold class3, elem_type3D. rewrite Ty. cbn [Z.eqb]. rewrite Dy, Wd. replace (oltb _ _) with true; [reflexivity|]. symmetry.
    change (Rltb (0 * (1 / 2) + 1 / 2 / 2) (1 / 2) = true). apply Rltb_true. lra. }
  assert (C1 : class3 V 0 1 0 = 0%Z).
  { unfold class3, elem_type3D. rewrite Ty. cbn [Z.eqb]. rewrite Dy, Wd. replace (oltb _ _) with false; [reflexivity|]. symmetry.
    change (Rltb (1 * (1 / 2) + 1 / 2 / 2) (1 / 2) = false). apply Rltb_false. lra. }
  pose proof (eo_etype3 _ _ _ _ _ _ _ _ _ _ E eq_refl 0%Z 0%Z 0%Z ltac:(lia) ltac:(lia) ltac:(lia)) as T0. change (0 * (2 - 1) * (3 - 1) + 0 * (2 - 1) + 0)%Z with 0%Z in T0. rewrite C0 in T0.
  pose proof (eo_etype3 _ _ _ _ _ _ _ _ _ _ E eq_refl 0%Z 1%Z 0%Z ltac:(lia) ltac:(lia) ltac:(lia)) as T1. change (0 * (2 - 1) * (3 - 1) + 1 * (2 - 1) + 0)%Z with 1%Z in T1. rewrite C1 in T1.
  destruct (eo_mats _ _ _ _ _ _ _ _ _ _ E) as (t0 & t1 & r & [= <- <- <-] & Em).
  assert (M0 : mat_at V 0 = mat1 1 0) by (unfold mat_at; rewrite Em, T0; reflexivity).
  constructor.
  - split; [exact S|]. split; [exact G|exact D].
  - left. exact Ex.
  - apply in_els3. rewrite Ex, Ey, Ez. lia.
  - unfold ncells, nelem. rewrite D, Ex, Ey, Ez. reflexivity.
  - exact M0.
  - unfold plastic_at. rewrite M0. reflexivity.
  - unfold plastic_at, mat_at. rewrite Em, T1. reflexivity.
  - exact (eo_tol _ _ _ _ _ _ _ _ _ _ E).
Qed.
Lemma two_object x : exists o, construct fuel40 (fun _ => counting) (new_junk x) 3 [2; 3; 2]%Z 1 tmp [0%Z; 1%Z] (cps 1 0) = Ok o /\ is_object o /\ two_env (o_env o).
Proof.
  pose proof (construct_ok fuel40 (fun _ => counting) (new_junk x) 3 2 3 2 1 tmp [0%Z; 1%Z] (cps 1 0) targs (new_total x)) as H.
  destruct (construct fuel40 (fun _ => counting) (new_junk x) 3 [2; 3; 2]%Z 1 tmp [0%Z; 1%Z] (cps 1 0)) as [o|e] eqn:E.
  - destruct H as (F & (t & [= <-] & Ev) & _). exists o. split; [reflexivity|]. split; [|exact (two_built _ (ok_sane _ (proj1 F)) Ev)].
    exists 3%Z, 2%Z, 3%Z, 2%Z, 1%Z, tmp, [0%Z; 1%Z], (cps 1 0), fuel40, (fun _ => counting), (new_junk x). split; [exact targs|]. split; [exact (new_total x)|exact E].
  - destruct H as (i & H). elim (counting_good _ _ fuel40_ok H).
Qed.
Lemma two_flows V fuel orc w g g' : two_env V -> wfull V w -> solved V fuel orc w g g' -> (1 <= fuel)%nat ->
  (forall i, (0 <= i < 6)%Z -> aget (g_strain g) i = Some (lget (shear 2) i)) -> g_n g = None -> g_n g' <> None.
Proof.
  intros C W (vo & w1 & nl & it & er & s & Vo & Fo & Rs & _ & _ & _ & _ & Nt & _) Hf He Hn. apply Nt. clear Nt.
  assert (D : nvoi V = 6%Z) by (destruct (te_body _ C) as (_ & _ & D); unfold nvoi; now rewrite D). rewrite D in *.
  assert (K : wok V (set_vold w vo)).
  { destruct W as ([A1 A2 A3 A4 A5 A6] & _). constructor; try assumption. cbn. intros e q i He' Hq Hi _. apply (proj2 Fo). rewrite nvars_eq. unfold intvar_ix. lia. }
  destruct fuel as [|fuel]; [lia|].
  destruct (thin_respond V fuel (orc 0%Z) (map (oval (g_strain g)) (zrange 0 6)) (set_vold w vo) (te_body _ C) (te_thin _ C) K) as (w2 & s2 & R2 & _).
  rewrite Rs in R2. injection R2 as _ -> _ _ _. unfold thin_flag. apply existsb_exists. exists (0, 0, 0)%Z. split; [exact (te_els _ C)|].
  unfold nl3. change (ix3 V (0, 0, 0)%Z) with (ix3 V (0, 0, 0)%Z). assert (I0 : ix3 V (0, 0, 0)%Z = 0%Z) by (unfold ix3, glo_elem3D; lia). rewrite I0, (te_pl _ C). cbn [set_vold w_vold].
  destruct (shear_flow 1) as (Fl & _). rewrite <- Fl. f_equal. unfold step3. rewrite I0, (te_mat _ C).
  assert (Z0 : forall i, (0 <= i < 7)%Z -> val vo (intvar_ix 0 7 i) = 0).
  { intros i Hi. unfold val. rewrite Vo; [unfold committed; rewrite Hn; unfold dec; cbn; lra|]. rewrite nvars_eq, (te_cells _ C). unfold intvar_ix. lia. }
  rewrite Z0 by lia. rewrite (plastic_ext _ _ (shear 2)), e6_shear.
  - apply step_ext. intros i Hi. rewrite lget_ltab by exact Hi. rewrite Z0 by lia. symmetry. apply z6_get. exact Hi.
  - intros i Hi. change (lget (map (oval (OT := ROps) (g_strain g)) (zrange 0 6)) i = lget (shear 2) i). rewrite lget_map by exact Hi. unfold oval. now rewrite He.
Qed.

(** the value committed for the linear cell is what malloc returned *)
Theorem garbage_commit : exists dim nx ny nz mtype mp mt ps fuel orc cs id ix, valid_args dim nx ny nz mtype mp mt ps /\ (forall z, orc z = counting) /\
  forall x : R, exists j o0 o fs g n, total_junk j /\ (forall i, j_u j i = Some 0) /\ (forall i, j_vold j i = Some 0) /\ j_tol j = Some 0 /\
    construct fuel orc j dim [nx; ny; nz] mtype mp mt ps = Ok o0 /\ reaches o0 cs o fs /\ lookup id (o_gps o) = Some g /\ g_n g = Some n /\
    (0 <= ix < nvars (o_env o))%Z /\ aget n ix = Some x.
Proof.
  exists 3%Z, 2%Z, 3%Z, 2%Z, 1%Z, tmp, [0%Z; 1%Z], (cps 1 0), fuel40, (fun _ => counting), (load ++ [hom; UpdateVars]), 1%Z, 56%Z. split; [exact targs|]. split; [reflexivity|].
  intros x. destruct (two_object x) as (o0 & E & O & C).
  destruct (harmless_runs o0 no_files (load ++ [hom; UpdateVars]) O) as (o3 & fs3 & R3); [unfold load; repeat constructor; cbn; lia|]. pose proof R3 as RR.
  change (load ++ [hom; UpdateVars]) with ((load ++ [hom]) ++ [UpdateVars]) in R3.
  apply reach_last in R3. destruct R3 as (o2 & fs2 & r3 & R2 & S3). pose proof R2 as R2'. apply reach_last in R2. destruct R2 as (o1 & fs1 & r2 & R1 & S2).
  destruct (lookup_set o0 load o1 fs1 1%Z O R1 ltac:(left; reflexivity)) as (g1 & L1). pose proof (fresh_after_set o0 o1 fs1 g1 O R1 L1) as N1.
  destruct (reach_env o0 load o1 fs1 O R1) as (Ee & _).
  destruct (point_solved o0 load o1 fs1 fuel40 cnt2 o2 fs2 r2 1%Z g1 O R1 S2 L1) as (g2 & w & j & L2 & W & So).
  { right. apply not_below. rewrite Ee. exact (te_tol _ C). }
  destruct (keyed_store o0 load o1 fs1 O R1) as (_ & _ & _ & KS). destruct (KS 1%Z (shear 2) ls_load) as (g1' & L1' & St). rewrite L1 in L1'. injection L1' as <-.
  assert (D : nvoi (o_env o1) = 6%Z) by (destruct (te_body _ C) as (_ & _ & D); unfold nvoi; now rewrite Ee, D).
  assert (N2 : g_n g2 <> None).
  { refine (two_flows (o_env o1) fuel40 (cnt2 j) w g1 g2 _ W So _ _ N1); [now rewrite Ee|pose proof fuel40_ok; lia|].
    intros i Hi. apply strain_is_stored in St. apply St. rewrite D. exact Hi. }
  destruct (commit_pair o0 _ o2 fs2 o3 fs3 r3 1%Z g2 O R2' S3 L2) as (g3 & L3 & _ & H3). destruct (reach_env o0 _ o3 fs3 O RR) as (E3 & _).
  assert (N3 : g_n g3 <> None).
  { destruct (update_frame o0 _ o2 fs2 O R2') as (o3' & U & _ & _ & _ & F). rewrite S3 in U. injection U as <- _ _.
    destruct (F 1%Z g2 L2) as (g3' & _ & _ & _ & _ & _ & _ & _ & F7). unfold get_nl_flag in F7. rewrite L2, L3 in F7. destruct (g_n g3); [discriminate|]. destruct (g_n g2); [discriminate|exact N2]. }
  destruct (g_n g3) as [n|] eqn:En; [|now elim N3]. destruct R2' as (fs0 & rs & R2').
  exists (new_junk x), o0, o3, fs3, g3, n. split; [exact (new_total x)|]. do 3 (split; [reflexivity|]). split; [exact E|]. split; [exact RR|]. split; [exact L3|]. split; [exact En|].
  split; [rewrite E3, nvars_eq, (te_cells _ C); lia|].
  destruct (never_written fuel40 (fun _ => counting) (new_junk x) 3 2 3 2 1 tmp [0%Z; 1%Z] (cps 1 0) o0 targs (new_total x) E _ fs0 o2 fs2 rs R2' 1%Z 0%Z 0%Z) as (_ & _ & H).
  - rewrite (te_cells _ C). lia.
  - exact (te_lin _ C).
  - lia.
  - lia.
  - exact (H o3 fs3 r3 S3 g3 n (proj1 (lookup_in _ _ _ L3)) En).
Qed.
