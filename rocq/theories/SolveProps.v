(** The Newton loop and the responses of thin and linear bodies, in the vocabulary of AsmSpec. *)
From Coq Require Import Reals Lra ZifyBool.
From Verif Require Import Base Scalar EllSpec EllInit EllModel EllFinal EllProps Grid CgPure CgFinal CgProps AssemblyModel AsmPure AsmBnd AsmRun FemGen FemAve AsmMat FemMat FemMat2 FemDef FemPd FemRhs FemEquil
  AsmEx PlastRef AsmSpec AsmProps AsmEquil AsmPoint AsmCases MicroModel OutputModel NewtonBase ApiBase ApiRun ApiHist Build ApiSpec ApiProps ApiCases NewtonReal NewtonIts Thin OneCell RespondReal Tangent.
Open Scope Z_scope.
Open Scope R_scope.

(** *** C51 *)
Theorem newton_converged3 V fuel pk w w' nl its er : body3 V -> wok V w -> newton fuel pk V w = Ok (w', nl, its, er) -> er < 1 / 100000 ->
  (forall i j k c, is_node3 V i j k -> on_face3 V i j k -> (0 <= c < 3)%Z -> aget (w_u w') (dof3 V i j k c) = aget (w_u w) (dof3 V i j k c)) /\
  exists vn b, assembly_rhs V (w_u w') (w_vold w) vn b = Ok (w_b w', nl, w_vnew w', er).
Proof.
  intros (S & G & D) K E He. destruct (newton_real V fuel pk w w' nl its er S G K E) as (B & _ & _ & _ & n & w0 & _ & _ & _ & H & _).
  split; [|destruct (H He) as (_ & X); eauto]. intros i j k c Hn Hf Hc. apply B; [now apply dof3_range|now apply bnd_dof3].
Qed.
Theorem newton_converged2 V fuel pk w w' nl its er : body2 V -> wok V w -> newton fuel pk V w = Ok (w', nl, its, er) -> er < 1 / 100000 ->
  (forall i j c, is_node2 V i j -> on_edge2 V i j -> (0 <= c < 2)%Z -> aget (w_u w') (dof2 V i j c) = aget (w_u w) (dof2 V i j c)) /\
  exists vn b, assembly_rhs V (w_u w') (w_vold w) vn b = Ok (w_b w', nl, w_vnew w', er).
Proof.
  intros (S & G & D) K E He. destruct (newton_real V fuel pk w w' nl its er S G K E) as (B & _ & _ & _ & n & w0 & _ & _ & _ & H & _).
  split; [|destruct (H He) as (_ & X); eauto]. intros i j c Hn Hf Hc. apply B; [now apply dof2_range|now apply bnd_dof2].
Qed.

(** *** C66 *)
Theorem newton_linear3 V fuel pk w i : body3 V -> linear V -> adm V -> wok V w -> (ndofs V < 2000)%Z -> (2 <= fuel)%nat -> pk 1%Z = Ok i -> (i < 40)%Z ->
  exists w' er n w0 vn b b' nl vn' t, newton fuel pk V w = Ok (w', false, 0%Z, er) /\ (n <= 1)%nat /\ passes V n w w0 /\ w_u w' = w_u w0 /\
    assembly_rhs V (w_u w') (w_vold w') vn b = Ok (b', nl, vn', t) /\ t < 1 / 100000.
Proof.
  intros (S & G & D) L A K Hn Hf Ep Hi.
  destruct (linear_newton V fuel pk w i ltac:(split; [exact S|split; [exact G|split; [exact A|auto]]]) K Hn Hf Ep Hi) as (w' & er & n & w0 & En & _ & (vn & b & b' & nl & vn' & t & _ & _ & Er & Ht) & N & P & U).
  exists w', er, n, w0, vn, b, b', nl, vn', t. repeat split; assumption.
Qed.
Theorem newton_linear2 V fuel pk w i : body2 V -> adm V -> wok V w -> (ndofs V < 2000)%Z -> (2 <= fuel)%nat -> pk 1%Z = Ok i -> (i < 40)%Z ->
  exists w' er n w0 vn b b' nl vn' t, newton fuel pk V w = Ok (w', false, 0%Z, er) /\ (n <= 1)%nat /\ passes V n w w0 /\ w_u w' = w_u w0 /\
    assembly_rhs V (w_u w') (w_vold w') vn b = Ok (b', nl, vn', t) /\ t < 1 / 100000.
Proof.
  intros (S & G & D) A K Hn Hf Ep Hi.
  destruct (linear_newton V fuel pk w i ltac:(split; [exact S|split; [exact G|split; [exact A|intros X; rewrite D in X; discriminate]]]) K Hn Hf Ep Hi) as (w' & er & n & w0 & En & _ & (vn & b & b' & nl & vn' & t & _ & _ & Er & Ht) & N & P & U).
  exists w', er, n, w0, vn, b, b', nl, vn', t. repeat split; assumption.
Qed.

(** *** C70 *)
Lemma wg3_R V : wg3 V = v_dx V * v_dy V * v_dz V / 8.
Proof. unfold wg3. cbn [omul odiv ofZ ROps]. field. Qed.
Theorem thin_body V fuel pk eps w : body3 V -> (v_nx V = 2 \/ v_ny V = 2 \/ v_nz V = 2)%Z -> wok V w -> (1 <= fuel)%nat ->
  exists w' nl s, respond fuel pk V eps w = Ok (w', nl, 0%Z, 0, s) /\
    (nl = true <-> exists ex ey ez l vn, is_cell3 V ex ey ez /\ get_stress3D V (w_vold w) (w_vnew w) ex ey ez 7 (ltab 6 (lget eps)) = Ok (true, l, vn)) /\
    exists sig, (forall ex ey ez g, is_cell3 V ex ey ez -> (0 <= g < 8)%Z -> exists nl' vn, get_stress3D V (w_vold w) (w_vnew w) ex ey ez g (ltab 6 (lget eps)) = Ok (nl', sig ex ey ez g, vn)) /\
      forall v, (0 <= v < 6)%Z -> lget s v = quad_body3 V (fun ex ey ez g => lget (sig ex ey ez g) v) / (v_lx V * v_ly V).
Proof.
  intros B H K Hf. pose proof B as (S & G & D). destruct fuel as [|fuel]; [lia|]. destruct (thin_respond V fuel pk eps w B H K) as (w' & s & E & _ & _ & _ & Hs & _).
  pose proof (wok_vars3 V w D K) as Wv. change (ltab 6 (lget eps)) with (e6 eps).
  assert (X : forall ex ey ez g, is_cell3 V ex ey ez -> (0 <= g < 8)%Z -> exists vn, get_stress3D V (w_vold w) (w_vnew w) ex ey ez g (e6 eps) =
    Ok (nl3 V (val (w_vold w)) (ex, ey, ez) g (e6 eps), sig3 V (val (w_vold w)) (ex, ey, ez) g (e6 eps), vn)).
  { intros ex ey ez g Hc Hg. assert (He : In (ex, ey, ez) (els3 V)) by now apply in_els3.
    rewrite (stress3_ok V (val (w_vold w)) (val (w_vold w))) by (assumption || exact (vars_old _ _ _ Wv)).
    destruct (run_stores_ok (st3 V (val (w_vold w)) (ex, ey, ez) g (e6 eps)) (w_vnew w)) as (vn & Ev & _).
    { intros j x Hj. rewrite (proj2 Wv). exact (st3_range V (val (w_vold w)) _ (ex, ey, ez) g _ j x D He Hg Hj). }
    rewrite Ev. cbn [bind]. now exists vn. }
  exists w', (thin_flag V (w_vold w) eps), s. split; [exact E|]. split.
  - unfold thin_flag. rewrite existsb_exists. split.
    + intros (((ex, ey), ez) & He & Hn). apply in_els3 in He. destruct (X ex ey ez 7%Z He ltac:(lia)) as (vn & Ev). rewrite Hn in Ev.
      do 5 eexists. split; [exact He|exact Ev].
    + intros (ex & ey & ez & l & vn & Hc & Ev). destruct (X ex ey ez 7%Z Hc ltac:(lia)) as (vn' & Ev'). rewrite Ev in Ev'. injection Ev' as En _ _.
      exists (ex, ey, ez). split; [now apply in_els3|now rewrite <- En].
  - exists (fun ex ey ez g => sig3 V (val (w_vold w)) (ex, ey, ez) g (e6 eps)). split.
    + intros ex ey ez g Hc Hg. destruct (X ex ey ez g Hc Hg) as (vn & Ev). eauto.
    + intros v Hv. rewrite (Hs v Hv). unfold thin_stress. f_equal. symmetry. apply quad_els3. reflexivity.
Qed.

(** *** Cases *)
Lemma body5 dim : body_args dim mp5 ps20.
Proof.
  constructor; unfold mp5, ps20, lget; change (Z.to_nat 0) with 0%nat; change (Z.to_nat 1) with 1%nat; change (Z.to_nat 2) with 2%nat; change (Z.to_nat 10) with 10%nat; change (Z.to_nat 11) with 11%nat;
    cbn [nth]; intros; try split; lra.
Qed.
(** a composite of linear and damage cells, as the constructor builds it *)
Lemma linear_object3 : exists (j : junk R) o, valid_args 3 4 5 3 0 mp5 [0; 2]%Z ps20 /\ body_args 3 mp5 ps20 /\ no_plastic [0; 2]%Z /\ total_junk j /\
  construct fuel40 (fun _ => counting) j 3 [4; 5; 3]%Z 0 mp5 [0; 2]%Z ps20 = Ok o /\ (4 * 5 * 3 * 3 < 2000)%Z /\ (2 <= fuel40)%nat /\
  (forall i : Z, exists k, (fun _ => counting) i 1%Z = Ok k /\ (k < 40)%Z) /\ wok (o_env o) (o_work o) /\
  forall e, exists u vo b s a, state3 (o_env o) e u vo b 0 s /\ affine_all3 (o_env o) e a.
Proof.
  pose proof (real_args3 4 5 3 0 2 ltac:(lia) ltac:(lia) ltac:(lia) ltac:(apply types_ok) ltac:(apply types_ok)) as A.
  pose proof (body5 3) as B.
  assert (NP : no_plastic [0; 2]%Z) by (exists 0%Z, 2%Z, []; auto).
  pose proof (construct_ok fuel40 (fun _ => counting) (flat_junk 0) 3 4 5 3 0 mp5 [0; 2]%Z ps20 A (flat_total 0)) as H.
  destruct (construct fuel40 (fun _ => counting) (flat_junk 0) 3 [4; 5; 3]%Z 0 mp5 [0; 2]%Z ps20) as [o|e] eqn:E.
  2:{ destruct H as (i & H). elim (counting_good _ _ fuel40_ok H). }
  destruct H as ((K & _) & (t & _ & EV) & _). pose proof (ok_sane o K) as S.
  pose proof (built_body3 _ _ _ _ _ _ _ _ _ S EV A B) as BD. pose proof (built_linear _ _ _ _ _ _ _ _ _ _ EV NP) as L. pose proof (built_adm _ _ _ _ _ _ _ _ _ _ EV B) as Ad.
  pose proof (proj1 (ok_work o K)) as W. pose proof BD as (_ & _ & D).
  exists (flat_junk 0), o. split; [exact A|]. split; [exact B|]. split; [exact NP|]. split; [apply flat_total|]. split; [exact E|]. split; [lia|]. split; [unfold fuel40; lia|].
  split; [intros i; exists 1%Z; split; [reflexivity|lia]|]. split; [exact W|]. intros e.
  destruct (equilibrium_exists3 (o_env o) e _ _ BD L Ad (wok_vars3 _ _ D W)) as (u & b & s & St).
  exists u, (w_vold (o_work o)), b, s, (afield3 (o_env o) e). split; [exact St|exact (affine_field3 _ e BD)].
Qed.
Lemma linear_object2 : exists (j : junk R) o, valid_args 2 4 5 1 1 mp5 [1; 0]%Z ps20 /\ body_args 2 mp5 ps20 /\ total_junk j /\
  construct fuel40 (fun _ => counting) j 2 [4; 5; 1]%Z 1 mp5 [1; 0]%Z ps20 = Ok o /\ (4 * 5 * 2 < 2000)%Z /\ (2 <= fuel40)%nat /\
  (forall i : Z, exists k, (fun _ => counting) i 1%Z = Ok k /\ (k < 40)%Z) /\ wok (o_env o) (o_work o) /\
  forall e, exists u b s a, state2 (o_env o) e u b 0 s /\ affine_all2 (o_env o) e a.
Proof.
  pose proof (real_args2 4 5 1 0 ltac:(lia) ltac:(lia) ltac:(apply types_ok) ltac:(apply types_ok)) as A.
  pose proof (body5 2) as B.
  pose proof (construct_ok fuel40 (fun _ => counting) (flat_junk 0) 2 4 5 1 1 mp5 [1; 0]%Z ps20 A (flat_total 0)) as H.
  destruct (construct fuel40 (fun _ => counting) (flat_junk 0) 2 [4; 5; 1]%Z 1 mp5 [1; 0]%Z ps20) as [o|e] eqn:E.
  2:{ destruct H as (i & H). elim (counting_good _ _ fuel40_ok H). }
  destruct H as ((K & _) & (t & _ & EV) & _). pose proof (ok_sane o K) as S.
  pose proof (built_body2 _ _ _ _ _ _ _ _ _ S EV A B) as BD. pose proof (built_adm _ _ _ _ _ _ _ _ _ _ EV B) as Ad.
  pose proof (proj1 (ok_work o K)) as W.
  exists (flat_junk 0), o. split; [exact A|]. split; [exact B|]. split; [apply flat_total|]. split; [exact E|]. split; [lia|]. split; [unfold fuel40; lia|].
  split; [intros i; exists 1%Z; split; [reflexivity|lia]|]. split; [exact W|]. intros e.
  destruct (equilibrium_exists2 (o_env o) e BD Ad) as (u & b & s & St).
  exists u, b, s, (afield2 (o_env o) e). split; [exact St|exact (affine_field2 _ e BD)].
Qed.
(** a thin plastic body that flows *)
Lemma thin_case : exists V w, body3 V /\ (v_nx V = 2 \/ v_ny V = 2 \/ v_nz V = 2)%Z /\ wok V w /\
  forall fuel pk, (1 <= fuel)%nat -> exists w' s, respond fuel pk V (shear 2) w = Ok (w', true, 0%Z, 0, s).
Proof.
  destruct (flat_object 1 0 0) as (o & O & C & _). pose proof (is_object_fresh o O) as (K & _). pose proof (ce_body _ _ _ _ C) as B.
  set (z := fun_arr 56 (fun _ : Z => 0)). pose proof (fun_arr_rep 56 (fun _ : Z => 0)) as Rz. fold z in Rz.
  assert (F : full z (nvars (o_env o))) by (rewrite (ce_nv _ _ _ _ C); now apply rep_full in Rz).
  assert (K' : wok (o_env o) (set_vold (o_work o) z)).
  { destruct (ok_work o K) as ([K1 K2 K3 K4 K5 K6] & _). constructor; cbn [set_vold w_u w_du w_b w_A w_vold w_vnew]; try assumption.
    intros e g i He Hg Hi _. apply F. rewrite nvars_eq. unfold intvar_ix. lia. }
  exists (o_env o), (set_vold (o_work o) z). split; [exact B|]. split; [exact (ce_thin _ _ _ _ C)|]. split; [exact K'|].
  intros fuel pk Hf. assert (U : uniform z z6 0).
  { split; [now apply rep_full in Rz|]. intros g Hg. split; [intros i Hi; rewrite (proj2 Rz) by lia; now rewrite z6_get|rewrite (proj2 Rz) by lia; reflexivity]. }
  destruct (cell_respond _ _ _ _ fuel pk (shear 2) _ z6 0 C K' U Hf) as (w' & s & E & _). rewrite e6_shear in E. destruct (shear_flow 1) as (Fl & _).
  rewrite Fl in E. eauto.
Qed.
(** Newton runs that stop by the residual test, for a plastic and for a linear body *)
Lemma newton_case3 : exists V w fuel pk w' er, body3 V /\ wok V w /\ newton fuel pk V w = Ok (w', true, 0%Z, er) /\ er < 1 / 100000.
Proof.
  destruct thin_case as (V & w & B & _ & K & H). destruct (H 1%nat counting ltac:(lia)) as (w' & s & E). pose proof B as (S & _).
  destruct (respond_parts _ _ _ _ _ _ _ _ _ _ E) as (u & w1 & vn & Eu & En & _). destruct (displ_ok V (shear 2) (w_u w) S (wk_u _ _ K)) as (u2 & Eu2 & Fu). rewrite Eu in Eu2. injection Eu2 as <-.
  exists V, (set_u w u), 1%nat, counting, w1, 0. split; [exact B|]. split; [destruct K; constructor; assumption|]. split; [exact En|lra].
Qed.
Lemma newton_case2 : exists V w w' er, body2 V /\ wok V w /\ newton fuel40 counting V w = Ok (w', false, 0%Z, er) /\ er < 1 / 100000 /\ exists w1, passes V 1 w w1.
Proof.
  pose proof blend2_body as B. pose proof B as (S & G & D). assert (A : adm blend2) by exact blend2_adm. destruct (stray_read2 blend2 B A blend2_free) as (w & K & _ & _ & _ & w1 & nl & E).
  assert (LB : lin_body blend2) by (split; [exact S|split; [exact G|split; [exact A|intros X; rewrite D in X; discriminate]]]).
  assert (Hn : (ndofs blend2 < 2000)%Z) by reflexivity.
  destruct (lin_next _ _ _ _ _ LB K Hn E) as (-> & b1 & vn1 & n1 & E1 & Hn1).
  destruct (body_ok blend2 w S K) as (w1' & nl' & er' & brk & E' & K1 & _). rewrite E in E'. injection E' as <- <- <- <-.
  destruct (pass_real blend2 w1 S G K1) as (b2 & nl2 & vn2 & er2 & Er2 & _ & _ & H3 & _). rewrite E1 in Er2. injection Er2 as <- <- <- <-.
  assert (X : forall f, newton (Datatypes.S (Datatypes.S f)) counting blend2 w = Ok (mkWork (w_u w1) (w_du w1) b1 (w_A w1) (w_vold w1) vn1, false, 0%Z, n1)).
  { intros f. unfold newton. cbn [newton_loop]. rewrite E. cbn [bind]. change (0 + 1 =? 0)%Z with false. cbv iota. change (counting (0 + 1)%Z) with (@Ok Z 1%Z). cbn [bind].
    replace (oltb (nr_tol (T:=R)) 1) with true. 2:{ symmetry. apply Rltb_true. rewrite nr_tol_R. lra. }
    change (1 <? nr_its)%Z with true. cbn [andb]. rewrite H3 by lra. cbn [bind]. reflexivity. }
  exists blend2, w. eexists _, n1. split; [exact B|]. split; [exact K|]. split.
  2:{ split; [lra|]. exists w1. econstructor; [exact E|constructor]. }
  exact (X 38%nat).
Qed.
