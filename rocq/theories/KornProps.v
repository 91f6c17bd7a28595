(** Explicit bounds: the stiffness of a body from below, and the answers of objects without plastic cells. *)
From Coq Require Import Reals Lra ZifyBool.
From Verif Require Import Base Scalar EllSpec EllInit EllModel EllFinal EllProps Grid CgPure CgFinal CgProps AssemblyModel AsmPure AsmBnd AsmRun FemGen FemAve AsmMat FemMat FemMat2 FemDef FemPd FemRhs FemEquil
  AsmSpec AsmProps AsmEquil AsmPoint AsmCases MicroModel OutputModel NewtonBase ApiBase ApiRun ApiHist Build ApiSpec ApiProps ApiCases Tangent MonoBody Linear SolveProps LinProps NewtonReal Korn Korn3 Korn2.
Open Scope Z_scope.
Open Scope R_scope.

(** ** bounds of the moduli of all cells *)
Definition stiff3 (V : env R) (m M : R) : Prop := forall ex ey ez a, is_cell3 V ex ey ez -> cell_mat V ex ey ez a ->
  (m <= 2 * m_mu a <= M) /\ (m <= 3 * (m_lambda a + 2 * m_mu a / 3) <= M).
Definition stiff2 (V : env R) (m M : R) : Prop := forall ex ey a, is_cell2 V ex ey -> cell_mat V ex ey 0 a ->
  (m <= 2 * m_mu a <= M) /\ (m <= 2 * (m_lambda a + m_mu a) <= M).
Lemma stiff_at3 V m M e : body3 V -> stiff3 V m M -> In e (els3 V) -> let a := mat_at V (ix3 V e) in (m <= 2 * m_mu a <= M) /\ (m <= 3 * (m_lambda a + 2 * m_mu a / 3) <= M).
Proof.
  intros (S & G & D) H He. destruct e as ((ex, ey), ez). assert (Hc : is_cell3 V ex ey ez) by now apply in_els3. exact (H ex ey ez _ Hc (cell_mat_ex V ex ey ez S D Hc)).
Qed.
Lemma cell_mat_ex2 V ex ey : sane V -> v_dim V = 2%Z -> is_cell2 V ex ey -> cell_mat V ex ey 0 (mat_at V (ix2 V (ex, ey))).
Proof.
  intros S D Hc. assert (He : In (ex, ey) (els2 V)) by now apply in_els2. pose proof (ix2_range V _ D He) as Hr.
  destruct (sa_etype V S _ Hr) as (t & Et). exists t. rewrite cell3_ix. change (ix3 V (ex, ey, 0%Z)) with (ix2 V (ex, ey)). split; [exact Et|]. unfold mat_at. rewrite Et.
  destruct (sa_mats V S 0%nat) as (m0 & b0 & E0 & P0); [lia|].
  destruct (sa_mats V S 1%nat) as (m1 & b1 & E1 & P1); [lia|]. destruct (Z.eqb_spec t 0) as [->|Nt].
  - now rewrite E0.
  - replace (match t with 0%Z => 0%nat | _ => 1%nat end) with 1%nat by (destruct t; [lia|reflexivity|reflexivity]). now rewrite E1.
Qed.
Lemma stiff_at2 V m M e : body2 V -> stiff2 V m M -> In e (els2 V) -> let a := mat_at V (ix2 V e) in (m <= 2 * m_mu a <= M) /\ (m <= 2 * (m_lambda a + m_mu a) <= M).
Proof.
  intros (S & G & D) H He. destruct e as (ex, ey). assert (Hc : is_cell2 V ex ey) by now apply in_els2. exact (H ex ey _ Hc (cell_mat_ex2 V ex ey S D Hc)).
Qed.

(** ** the inequality for displacement fields *)
Theorem korn_body3 V w eps : body3 V -> full w (ndofs V) -> zero_bnd_field3 V w -> strain_field3 V w eps ->
  v_dx V * v_dy V * v_dz V * rsum (zrange 0 (ndofs V)) (fun r => val w r * val w r) <=
  5 * (v_lx V * v_lx V) * quad_body3 V (fun ex ey ez g => let e := eps ex ey ez g in 2 * (e 0%Z * e 0%Z + e 1%Z * e 1%Z + e 2%Z * e 2%Z) + e 3%Z * e 3%Z + e 4%Z * e 4%Z + e 5%Z * e 5%Z).
Proof.
  intros (S & G & D) F Z0 H. rewrite (strain_field3_iff V w eps F D) in H.
  rewrite (quad_els3 V _ (fun e g => kn (str3 V (val w) e g))) by (intros ex ey ez g Hc Hg; cbv zeta; unfold kn; rewrite !H by (assumption || lia); reflexivity).
  pose proof (korn_poincare V S D G (val w) (zero_van3 V w S D Z0)) as K.
  rewrite (rsum_ext (els3 V) _ (fun e => rsum (zrange 0 8) (fun g => kn (str3 V (val w) e g)) * wg3 V)) by (intros; rewrite <- rsum_scal_r; reflexivity). rewrite rsum_scal_r, wg3_R.
  pose proof (vcell_pos V D G) as P. unfold vcell in P. apply (Rmult_le_compat_l _ _ _ (Rlt_le _ _ P)) in K. lra.
Qed.
Theorem korn_body2 V w eps : body2 V -> full w (ndofs V) -> zero_bnd_field2 V w -> strain_field2 V w eps ->
  v_dx V * v_dy V * rsum (zrange 0 (ndofs V)) (fun r => val w r * val w r) <=
  8 / 5 * (v_lx V * v_lx V) * quad_body2 V (fun ex ey g => let e := eps ex ey g in 2 * (e 0%Z * e 0%Z + e 1%Z * e 1%Z) + e 2%Z * e 2%Z).
Proof.
  intros (S & G & D) F Z0 H. rewrite (strain_field2_iff V w eps S F D) in H.
  rewrite (quad_els2 V _ (fun e g => kn2 (str2 V (val w) e g))) by (intros ex ey g Hc Hg; cbv zeta; unfold kn2; rewrite !H by (assumption || lia); reflexivity).
  pose proof (korn_poincare2 V S D G (val w) (zero_van2 V w S D Z0)) as K.
  rewrite (rsum_ext (els2 V) _ (fun e => rsum (zrange 0 4) (fun g => kn2 (str2 V (val w) e g)) * wg2 V)) by (intros; rewrite <- rsum_scal_r; reflexivity). rewrite rsum_scal_r, wg2_R.
  pose proof (acell_pos V G) as P. unfold acell in P. apply (Rmult_le_compat_l _ _ _ (Rlt_le _ _ P)) in K. lra.
Qed.

(** ** the assembled matrix *)
Lemma len_sq n f : len n f * len n f = rsum (zrange 0 n) (fun r => f r * f r).
Proof. unfold len. apply sqrt_sqrt. apply rsum_nonneg. intros. apply Rle_0_sqr. Qed.
Lemma len_ext n f h : (forall r, (0 <= r < n)%Z -> f r * f r = h r * h r) -> len n f = len n h.
Proof. intros H. unfold len. f_equal. apply rsum_ext. intros r Hr. apply in_zrange in Hr. now apply H. Qed.
Lemma cancel_len k c l n : 0 <= l -> 0 <= c * n -> k * (l * l) <= c * (n * l) -> k * l <= c * n.
Proof.
  intros Hl Hc H. destruct (Req_dec l 0) as [->|N]; [lra|]. apply Rmult_le_reg_r with l; [lra|]. lra.
Qed.
Lemma lx2_pos V : 0 <= v_lx V * v_lx V. Proof. apply Rle_0_sqr. Qed.
Theorem stiffness_low3 V u vold vnew (A : ell R) m M : body3 V -> linear V -> adm V -> 0 <= m -> stiff3 V m M ->
  full u (ndofs V) -> vars_ok V vold vnew -> matrix3 3 (v_nx V) (v_ny V) (v_nz V) A ->
  exists A', assembly_mat V u vold vnew A = Ok (A', vnew) /\ forall v, zero_on3 V v ->
    m * (v_dx V * v_dy V * v_dz V) * rsum (zrange 0 (ndofs V)) (fun r => v r * v r) <= 10 * (v_lx V * v_lx V) * rsum (zrange 0 (ndofs V)) (fun r => v r * mul A' v r) /\
    m * (v_dx V * v_dy V * v_dz V) * len (ndofs V) v <= 10 * (v_lx V * v_lx V) * len (ndofs V) (mul A' v).
Proof.
  intros BD L Ad Hm Hs F W Mx. pose proof BD as (S & G & D).
  destruct (stiffness3_spd V (val u) (val vold) u vold vnew A S D G L Ad (full_rep _ _ F) (vars_old _ _ _ W) (proj2 W) Mx) as (A' & E & _ & _ & _ & _ & _ & Mu).
  exists A'. split; [exact E|]. intros v Hv. pose proof (zero_on_van3 V v S D Hv) as Va.
  assert (Q : m * (v_dx V * v_dy V * v_dz V) * rsum (zrange 0 (ndofs V)) (fun r => v r * v r) <= 10 * (v_lx V * v_lx V) * rsum (zrange 0 (ndofs V)) (fun r => v r * mul A' v r)).
  { eapply Rle_trans; [apply (work_low V S D G m v Hm); [intros e He; destruct (stiff_at3 V m M e BD Hs He); lra|exact Va]|].
    apply Rmult_le_compat_l; [pose proof (lx2_pos V); lra|]. rewrite <- (tsig_lsig V (val u) (val vold)) by assumption.
    unfold work3. rewrite <- (virtual_work (els3 V) 24 6 (v_nx V * v_ny V * v_nz V * 3) (zrange 0 8) (addr3 V) (B3 V) (wg3 V)) by (intros; now apply (addr3_range V e i)).
    rewrite <- (ndofs3 V D). apply Req_le. apply rsum_ext. intros r Hr. apply in_zrange in Hr. destruct (bdof_dec V r) as [B|B]; [rewrite (Va r Hr B); ring|].
    rewrite (Mu v r Va Hr B). reflexivity. }
  split; [exact Q|]. rewrite <- len_sq in Q. pose proof (cauchy (ndofs V) v (mul A' v)) as C. apply abs_le in C. pose proof (lx2_pos V) as X.
  apply cancel_len; [apply sqrt_pos|apply Rmult_le_pos; [lra|apply sqrt_pos]|]. eapply Rle_trans; [exact Q|]. apply Rmult_le_compat_l; lra.
Qed.
Theorem stiffness_low2 V u vold vnew (A : ell R) m M : body2 V -> adm V -> 0 <= m -> stiff2 V m M -> matrix2 2 (v_nx V) (v_ny V) A ->
  exists A', assembly_mat V u vold vnew A = Ok (A', vnew) /\ forall v, zero_on2 V v ->
    m * (v_dx V * v_dy V) * rsum (zrange 0 (ndofs V)) (fun r => v r * v r) <= 4 * (v_lx V * v_lx V) * rsum (zrange 0 (ndofs V)) (fun r => v r * mul A' v r) /\
    m * (v_dx V * v_dy V) * len (ndofs V) v <= 4 * (v_lx V * v_lx V) * len (ndofs V) (mul A' v).
Proof.
  intros BD Ad Hm Hs Mx. pose proof BD as (S & G & D).
  destruct (stiffness2_spd V u vold vnew A S D G Ad Mx) as (A' & E & _ & _ & _ & _ & Mu).
  exists A'. split; [exact E|]. intros v Hv. pose proof (zero_on_van2 V v S D Hv) as Va.
  assert (Q : m * (v_dx V * v_dy V) * rsum (zrange 0 (ndofs V)) (fun r => v r * v r) <= 4 * (v_lx V * v_lx V) * rsum (zrange 0 (ndofs V)) (fun r => v r * mul A' v r)).
  { eapply Rle_trans; [apply (work_low2 V S D G m v Ad Hm); [intros e He; destruct (stiff_at2 V m M e BD Hs He); lra|exact Va]|].
    apply Rmult_le_compat_l; [pose proof (lx2_pos V); lra|].
    unfold work2. rewrite <- (virtual_work (els2 V) 8 3 (v_nx V * v_ny V * 2) (zrange 0 4) (addr2 V) (B2 V) (wg2 V)) by (intros; now apply (addr2_range V e i)).
    rewrite <- (ndofs2 V S D). apply Req_le. apply rsum_ext. intros r Hr. apply in_zrange in Hr. destruct (bdof_dec V r) as [B|B]; [rewrite (Va r Hr B); ring|].
    rewrite (Mu v r Va Hr B). reflexivity. }
  split; [exact Q|]. rewrite <- len_sq in Q. pose proof (cauchy (ndofs V) v (mul A' v)) as C. apply abs_le in C. pose proof (lx2_pos V) as X.
  apply cancel_len; [apply sqrt_pos|apply Rmult_le_pos; [lra|apply sqrt_pos]|]. eapply Rle_trans; [exact Q|]. apply Rmult_le_compat_l; lra.
Qed.

(** ** two states of one strain *)
Theorem displacement_error3 V e u1 v1 b1 n1 s1 u2 v2 b2 n2 s2 m M : body3 V -> linear V -> 0 <= m -> stiff3 V m M ->
  state3 V e u1 v1 b1 n1 s1 -> state3 V e u2 v2 b2 n2 s2 ->
  m * (v_dx V * v_dy V * v_dz V) * len (ndofs V) (fun r => val u1 r - val u2 r) <= 10 * (v_lx V * v_lx V) * (n1 + n2).
Proof.
  intros BD L Hm Hs S1 S2. pose proof BD as (S & G & D).
  destruct (state3_parts V e u1 v1 b1 n1 s1 BD S1) as (_ & _ & B1 & _ & N1 & _). destruct (state3_parts V e u2 v2 b2 n2 s2 BD S2) as (_ & _ & B2 & _ & N2 & _).
  assert (Lo : low V m) by (intros c He; destruct (stiff_at3 V m M c BD Hs He); lra).
  pose proof (work_low V S D G m _ Hm Lo (van_bnd3 V e _ _ S D B1 B2)) as K1. pose proof (work_low V S D G m _ Hm Lo (van_bnd3 V e _ _ S D B2 B1)) as K2.
  pose proof (energy_diff3 V (val u2) (val u1) L D) as E1. pose proof (energy_diff3 V (val u1) (val u2) L D) as E2.
  rewrite (bnd_diff_work3 V e u2 v2 b2 n2 s2 _ BD L S2 B1) in E1. rewrite (bnd_diff_work3 V e u1 v1 b1 n1 s1 _ BD L S1 B2) in E2.
  pose proof (cauchy (ndofs V) (val b2) (fun r => val u1 r - val u2 r)) as C2. pose proof (cauchy (ndofs V) (val b1) (fun r => val u2 r - val u1 r)) as C1.
  rewrite <- N2 in C2. rewrite <- N1 in C1. apply abs_le in C1, C2.
  rewrite (len_ext _ (fun r => val u2 r - val u1 r) (fun r => val u1 r - val u2 r)) in C1 by (intros; ring).
  rewrite <- (len_sq _ (fun r => val u1 r - val u2 r)) in K1. rewrite <- (len_sq _ (fun r => val u2 r - val u1 r)) in K2.
  rewrite (len_ext _ (fun r => val u2 r - val u1 r) (fun r => val u1 r - val u2 r)) in K2 by (intros; ring).
  set (l := len (ndofs V) (fun r => val u1 r - val u2 r)) in *. set (d1 := work3 V _ (fun i => val u1 i - val u2 i)) in *. set (d2 := work3 V _ (fun i => val u2 i - val u1 i)) in *.
  pose proof (lx2_pos V) as X. assert (0 <= n1) by (rewrite N1; apply sqrt_pos). assert (0 <= n2) by (rewrite N2; apply sqrt_pos).
  unfold vcell in *. apply cancel_len; [apply sqrt_pos|apply Rmult_le_pos; lra|].
  assert (Y : d1 + d2 <= 2 * ((n1 + n2) * l)) by lra. apply (Rmult_le_compat_l (10 * (v_lx V * v_lx V))) in Y; [|lra]. lra.
Qed.
Theorem displacement_error2 V e u1 b1 n1 s1 u2 b2 n2 s2 m M : body2 V -> adm V -> 0 <= m -> stiff2 V m M ->
  state2 V e u1 b1 n1 s1 -> state2 V e u2 b2 n2 s2 ->
  m * (v_dx V * v_dy V) * len (ndofs V) (fun r => val u1 r - val u2 r) <= 4 * (v_lx V * v_lx V) * (n1 + n2).
Proof.
  intros BD Ad Hm Hs S1 S2. pose proof BD as (S & G & D).
  destruct (state2_parts V e u1 b1 n1 s1 BD S1) as (_ & B1 & _ & N1 & _). destruct (state2_parts V e u2 b2 n2 s2 BD S2) as (_ & B2 & _ & N2 & _).
  assert (Lo : low2 V m) by (intros c He; destruct (stiff_at2 V m M c BD Hs He); lra).
  pose proof (work_low2 V S D G m _ Ad Hm Lo (van_bnd2 V e _ _ S D B1 B2)) as K1. pose proof (work_low2 V S D G m _ Ad Hm Lo (van_bnd2 V e _ _ S D B2 B1)) as K2.
  pose proof (energy_diff2 V (val u2) (val u1)) as E1. pose proof (energy_diff2 V (val u1) (val u2)) as E2.
  rewrite (bnd_diff_work2 V e u2 b2 n2 s2 _ BD S2 B1) in E1. rewrite (bnd_diff_work2 V e u1 b1 n1 s1 _ BD S1 B2) in E2.
  pose proof (cauchy (ndofs V) (val b2) (fun r => val u1 r - val u2 r)) as C2. pose proof (cauchy (ndofs V) (val b1) (fun r => val u2 r - val u1 r)) as C1.
  rewrite <- N2 in C2. rewrite <- N1 in C1. apply abs_le in C1, C2.
  rewrite (len_ext _ (fun r => val u2 r - val u1 r) (fun r => val u1 r - val u2 r)) in C1 by (intros; ring).
  rewrite <- (len_sq _ (fun r => val u1 r - val u2 r)) in K1. rewrite <- (len_sq _ (fun r => val u2 r - val u1 r)) in K2.
  rewrite (len_ext _ (fun r => val u2 r - val u1 r) (fun r => val u1 r - val u2 r)) in K2 by (intros; ring).
  set (l := len (ndofs V) (fun r => val u1 r - val u2 r)) in *. set (d1 := work2 V _ (fun i => val u1 i - val u2 i)) in *. set (d2 := work2 V _ (fun i => val u2 i - val u1 i)) in *.
  pose proof (lx2_pos V) as X. assert (0 <= n1) by (rewrite N1; apply sqrt_pos). assert (0 <= n2) by (rewrite N2; apply sqrt_pos).
  unfold acell in *. apply cancel_len; [apply sqrt_pos|apply Rmult_le_pos; lra|].
  assert (Y : d1 + d2 <= 2 * ((n1 + n2) * l)) by lra. apply (Rmult_le_compat_l (4 * (v_lx V * v_lx V))) in Y; [|lra]. lra.
Qed.

(** ** how far an exact state is from the linear displacements *)
Lemma zero_work n b d : 0 = len n b -> rsum (zrange 0 n) (fun r => b r * d r) = 0.
Proof. intros N. pose proof (cauchy n b d) as C. rewrite <- N in C. apply abs_le in C. lra. Qed.
Theorem exact_near3 V e u vo b s a m M : body3 V -> linear V -> 0 <= m -> stiff3 V m M -> state3 V e u vo b 0 s -> affine_all3 V e a ->
  let l := len (ndofs V) (fun r => val u r - a r) in
  m * (l * l) <= 10 * (v_lx V * v_lx V) * (IZR ((v_nx V - 1) * (v_ny V - 1) * (v_nz V - 1)) * M *
    (lget e 0 * lget e 0 + lget e 1 * lget e 1 + lget e 2 * lget e 2 + (lget e 3 * lget e 3 + lget e 4 * lget e 4 + lget e 5 * lget e 5) / 2)).
Proof.
  intros BD L Hm Hs St Aa l. pose proof BD as (S & G & D).
  destruct (state3_parts V e u vo b 0 s BD St) as (_ & _ & Bu & _ & N & _).
  assert (Lo : low V m) by (intros c He; destruct (stiff_at3 V m M c BD Hs He); lra).
  pose proof (work_low V S D G m _ Hm Lo (van_bnd3 V e _ _ S D (bndaff3_afield V e) Bu)) as K.
  pose proof (energy_diff3 V (val u) (afield3 V e) L D) as E.
  rewrite (bnd_diff_work3 V e u vo b 0 s _ BD L St (bndaff3_afield V e)), (zero_work _ _ _ N) in E.
  assert (P : 0 <= work3 V (lsig3 V (val u)) (val u)).
  { rewrite work_quad. apply Rmult_le_pos; [|pose proof (vcell_pos V D G); lra]. apply rsum_nonneg. intros c He. apply rsum_nonneg. intros g _.
    destruct (Lo c He) as (Q1 & Q2). eapply Rle_trans; [|apply (quad_low _ _ 0); lra]. lra. }
  assert (U : work3 V (lsig3 V (afield3 V e)) (afield3 V e) <= IZR ((v_nx V - 1) * (v_ny V - 1) * (v_nz V - 1)) * (M / 2 * kn (lget e)) * vcell V).
  { rewrite work_quad. apply Rle_trans with (rsum (els3 V) (fun _ => rsum (zrange 0 8) (fun _ => M / 2 * kn (lget e))) * (vcell V / 8)).
    - apply Rmult_le_compat_r; [pose proof (vcell_pos V D G); lra|]. apply rsum_le. intros c He. apply rsum_le. intros g _.
      destruct (stiff_at3 V m M c BD Hs He) as (Q1 & Q2). replace (kn (lget e)) with (kn (str3 V (afield3 V e) c g)); [apply quad_up; lra|].
      unfold kn. rewrite !str3_afield by (assumption || lia). reflexivity.
    - apply Req_le. rewrite rsum_els3. pose proof (sa_nx V S). pose proof (sa_ny V S). destruct (sa_dim V S) as [Dd|Dd]; [lia|].
      rewrite !rsum_zrange_const by lia. rewrite !Z.sub_0_r, !mult_IZR. field. }
  cbv beta in K. replace (rsum (zrange 0 (ndofs V)) (fun r => (afield3 V e r - val u r) * (afield3 V e r - val u r))) with (l * l) in K.
  2:{ unfold l. rewrite len_sq. apply rsum_ext. intros r Hr. apply in_zrange in Hr. rewrite (affine_all_field3 V e a r S D Aa Hr). ring. }
  pose proof (vcell_pos V D G) as Pv. pose proof (lx2_pos V) as X. apply Rmult_le_reg_r with (vcell V); [exact Pv|].
  set (dW := work3 V (lsig3 V (fun i => afield3 V e i - val u i)) (fun i => afield3 V e i - val u i)) in *. clearbody dW l.
  assert (Y : dW <= IZR ((v_nx V - 1) * (v_ny V - 1) * (v_nz V - 1)) * (M / 2 * kn (lget e)) * vcell V) by lra.
  apply (Rmult_le_compat_l (10 * (v_lx V * v_lx V))) in Y; [|lra]. unfold kn in Y. lra.
Qed.
Theorem exact_near2 V e u b s a m M : body2 V -> adm V -> 0 <= m -> stiff2 V m M -> state2 V e u b 0 s -> affine_all2 V e a ->
  let l := len (ndofs V) (fun r => val u r - a r) in
  m * (l * l) <= 4 * (v_lx V * v_lx V) * (IZR ((v_nx V - 1) * (v_ny V - 1)) * M *
    (lget e 0 * lget e 0 + lget e 1 * lget e 1 + lget e 2 * lget e 2 / 2)).
Proof.
  intros BD Ad Hm Hs St Aa l. pose proof BD as (S & G & D).
  destruct (state2_parts V e u b 0 s BD St) as (_ & Bu & _ & N & _).
  assert (Lo : low2 V m) by (intros c He; destruct (stiff_at2 V m M c BD Hs He); lra).
  pose proof (work_low2 V S D G m _ Ad Hm Lo (van_bnd2 V e _ _ S D (bndaff2_afield V e) Bu)) as K.
  pose proof (energy_diff2 V (val u) (afield2 V e)) as E.
  rewrite (bnd_diff_work2 V e u b 0 s _ BD St (bndaff2_afield V e)), (zero_work _ _ _ N) in E.
  assert (P : 0 <= work2 V (tsig2 V (val u)) (val u)).
  { rewrite work_quad2. apply Rmult_le_pos; [|pose proof (acell_pos V G); lra]. apply rsum_nonneg. intros c He. apply rsum_nonneg. intros g _.
    destruct (Lo c He) as (Q1 & Q2). eapply Rle_trans; [|apply (quad_low2 _ 0); [apply Ad; now apply ix2_range|lra..]]. lra. }
  assert (U : work2 V (tsig2 V (afield2 V e)) (afield2 V e) <= IZR ((v_nx V - 1) * (v_ny V - 1)) * (M / 2 * kn2 (lget e)) * acell V).
  { rewrite work_quad2. apply Rle_trans with (rsum (els2 V) (fun _ => rsum (zrange 0 4) (fun _ => M / 2 * kn2 (lget e))) * (acell V / 4)).
    - apply Rmult_le_compat_r; [pose proof (acell_pos V G); lra|]. apply rsum_le. intros c He. apply rsum_le. intros g _.
      destruct (stiff_at2 V m M c BD Hs He) as (Q1 & Q2). replace (kn2 (lget e)) with (kn2 (str2 V (afield2 V e) c g)); [apply quad_up2; [apply Ad; now apply ix2_range|lra..]|].
      unfold kn2. rewrite !str2_afield by (assumption || lia). reflexivity.
    - apply Req_le. rewrite rsum_els2. pose proof (sa_nx V S). pose proof (sa_ny V S).
      rewrite !rsum_zrange_const by lia. rewrite !Z.sub_0_r, !mult_IZR. field. }
  cbv beta in K. replace (rsum (zrange 0 (ndofs V)) (fun r => (afield2 V e r - val u r) * (afield2 V e r - val u r))) with (l * l) in K.
  2:{ unfold l. rewrite len_sq. apply rsum_ext. intros r Hr. apply in_zrange in Hr. rewrite (affine_all_field2 V e a r S D Aa Hr). ring. }
  pose proof (acell_pos V G) as Pv. pose proof (lx2_pos V) as X. apply Rmult_le_reg_r with (acell V); [exact Pv|].
  set (dW := work2 V (tsig2 V (fun i => afield2 V e i - val u i)) (fun i => afield2 V e i - val u i)) in *. clearbody dW l.
  assert (Y : dW <= IZR ((v_nx V - 1) * (v_ny V - 1)) * (M / 2 * kn2 (lget e)) * acell V) by lra.
  apply (Rmult_le_compat_l (4 * (v_lx V * v_lx V))) in Y; [|lra]. unfold kn2 in Y. lra.
Qed.

(** ** objects *)
(** Young's modulus and Poisson's ratio of a phase start at 0 and at 10 *)
Definition moduli3 (ps : list R) (m M : R) : Prop := forall i, (i = 0 \/ i = 10)%Z ->
  let E := lget ps i in let nu := lget ps (i + 1) in (m <= E / (1 + nu) <= M) /\ (m <= E / (1 - 2 * nu) <= M).
Definition moduli2 (ps : list R) (m M : R) : Prop := forall i, (i = 0 \/ i = 10)%Z ->
  let E := lget ps i in let nu := lget ps (i + 1) in (m <= E / (1 + nu) <= M) /\ (m <= E / ((1 + nu) * (1 - 2 * nu)) <= M).
Lemma built_stiff3 nx ny nz mtype mp mt ps tol V m M : env_of 3 nx ny nz mtype mp mt ps tol V -> body_args 3 mp ps -> moduli3 ps m M -> stiff3 V m M.
Proof.
  intros EV B H ex ey ez a Hc Hm. rewrite <- (cell_mat_at V ex ey ez a Hm). destruct (mat_at_cases _ _ _ _ _ _ _ _ _ _ (ix3 V (ex, ey, ez)) EV) as (t0 & t1 & r & _ & C).
  pose proof (H 0 (or_introl eq_refl))%Z as H0. pose proof (H 10 (or_intror eq_refl))%Z as H1. cbv zeta in H0, H1. destruct B.
  destruct C as [-> | ->].
  - pose proof (mat_adm t0 ps 0 ba_E0 ba_nu0) as A. rewrite (adm_bulk _ A). rewrite (ad_mu _ A), (ad_k _ A). unfold mat_i, the_mat. cbn [m_E m_nu]. change (0 * 10)%Z with 0%Z.
    replace (2 * (lget ps 0 / (2 * (1 + lget ps (0 + 1))))) with (lget ps 0 / (1 + lget ps (0 + 1))) by (field; change (0 + 1)%Z with 1%Z; lra).
    replace (3 * (lget ps 0 / (3 * (1 - 2 * lget ps (0 + 1))))) with (lget ps 0 / (1 - 2 * lget ps (0 + 1))) by (field; change (0 + 1)%Z with 1%Z; lra). exact H0.
  - pose proof (mat_adm t1 ps 1 ba_E1 ba_nu1) as A. rewrite (adm_bulk _ A). rewrite (ad_mu _ A), (ad_k _ A). unfold mat_i, the_mat. cbn [m_E m_nu]. change (1 * 10)%Z with 10%Z.
    replace (2 * (lget ps 10 / (2 * (1 + lget ps (10 + 1))))) with (lget ps 10 / (1 + lget ps (10 + 1))) by (field; change (10 + 1)%Z with 11%Z; lra).
    replace (3 * (lget ps 10 / (3 * (1 - 2 * lget ps (10 + 1))))) with (lget ps 10 / (1 - 2 * lget ps (10 + 1))) by (field; change (10 + 1)%Z with 11%Z; lra). exact H1.
Qed.
Lemma built_stiff2 nx ny nz mtype mp mt ps tol V m M : env_of 2 nx ny nz mtype mp mt ps tol V -> body_args 2 mp ps -> moduli2 ps m M -> stiff2 V m M.
Proof.
  intros EV B H ex ey a Hc Hm. rewrite <- (cell_mat_at V ex ey 0 a Hm). destruct (mat_at_cases _ _ _ _ _ _ _ _ _ _ (ix3 V (ex, ey, 0%Z)) EV) as (t0 & t1 & r & _ & C).
  pose proof (H 0 (or_introl eq_refl))%Z as H0. pose proof (H 10 (or_intror eq_refl))%Z as H1. cbv zeta in H0, H1. destruct B.
  destruct C as [-> | ->].
  - pose proof (mat_adm t0 ps 0 ba_E0 ba_nu0) as A. rewrite (ad_mu _ A), (ad_la _ A). unfold mat_i, the_mat. cbn [m_E m_nu]. change (0 * 10)%Z with 0%Z.
    set (E := lget ps 0) in *. set (nu := lget ps (0 + 1)) in *. change (lget ps 1) with nu in ba_nu0.
    replace (2 * (E / (2 * (1 + nu)))) with (E / (1 + nu)) by (field; lra).
    replace (2 * (nu * E / ((1 + nu) * (1 - 2 * nu)) + E / (2 * (1 + nu)))) with (E / ((1 + nu) * (1 - 2 * nu))) by (field; lra). exact H0.
  - pose proof (mat_adm t1 ps 1 ba_E1 ba_nu1) as A. rewrite (ad_mu _ A), (ad_la _ A). unfold mat_i, the_mat. cbn [m_E m_nu]. change (1 * 10)%Z with 10%Z.
    set (E := lget ps 10) in *. set (nu := lget ps (10 + 1)) in *. change (lget ps 11) with nu in ba_nu1.
    replace (2 * (E / (2 * (1 + nu)))) with (E / (1 + nu)) by (field; lra).
    replace (2 * (nu * E / ((1 + nu) * (1 - 2 * nu)) + E / (2 * (1 + nu)))) with (E / ((1 + nu) * (1 - 2 * nu))) by (field; lra). exact H1.
Qed.

Lemma pick {A} (d : A) n (P : Z -> A -> Prop) : (forall v, (0 <= v < n)%Z -> exists a, P v a) -> exists f, forall v, (0 <= v < n)%Z -> P v (f v).
Proof.
  destruct (Z_le_gt_dec 0 n) as [Hn|Hn]; [|intros; exists (fun _ => d); intros; lia]. pattern n. apply natlike_ind; [intros _; exists (fun _ => d); intros; lia| |exact Hn].
  intros k Hk IH H. destruct IH as (f & Hf); [intros; apply H; lia|]. destruct (H k ltac:(lia)) as (a & Ha).
  exists (fun v => if (v =? k)%Z then a else f v). intros v Hv. destruct (Z.eqb_spec v k) as [->|N]; [exact Ha|apply Hf; lia].
Qed.
Lemma lget_unit n v i : (0 <= i < n)%Z -> lget (unit n v) i = if (i =? v)%Z then 1 else 0.
Proof. intros Hi. unfold unit. now rewrite lget_ltab. Qed.
Lemma near_root m M c l lx k : 0 < m -> 0 < lx -> 0 <= l -> 0 <= k -> m * (l * l) <= k * (lx * lx) * (c * M * 1) -> l <= lx * sqrt (k * c * M / m).
Proof.
  intros Hm Hx Hl Hk H. replace lx with (sqrt (lx * lx)) by (apply sqrt_square; lra).
  assert (Q : l * l <= lx * lx * (k * c * M / m)).
  { apply Rmult_le_reg_l with m; [exact Hm|]. replace (m * (lx * lx * (k * c * M / m))) with (k * (lx * lx) * (c * M * 1)) by (field; lra). exact H. }
  rewrite <- sqrt_mult_alt by apply Rle_0_sqr. rewrite <- (sqrt_square l) by exact Hl. now apply sqrt_le_1_alt.
Qed.

Section Objects.
Variables (fuel0 : nat) (q0 : Z -> peek) (j : junk R) (nx ny nz mtype : Z) (mp : list R) (mt : list Z) (ps : list R) (o0 : obj R) (m M : R).
Hypotheses (J : total_junk j) (F0 : (2 <= fuel0)%nat) (Q0 : forall i, exists k, q0 i 1%Z = Ok k /\ (k < 40)%Z).
Theorem effective_answers3 : valid_args 3 nx ny nz mtype mp mt ps -> body_args 3 mp ps -> no_plastic mt -> 0 < m -> moduli3 ps m M ->
  construct fuel0 q0 j 3 [nx; ny; nz] mtype mp mt ps = Ok o0 -> (nx * ny * nz * 3 < 2000)%Z ->
  exists K : Z -> Z -> R, (forall v i, (0 <= v < 6)%Z -> (0 <= i < 6)%Z -> K v i = K i v) /\
  (forall e, exists u vo b s, state3 (o_env o0) e u vo b 0 s) /\
  (forall e u vo b s, state3 (o_env o0) e u vo b 0 s -> forall v, (0 <= v < 6)%Z -> lget s v = dot 6 (K v) (lget e)) /\
  forall cs o fs fuel q id e, reaches o0 cs o fs -> last_set id e cs -> (2 <= fuel)%nat -> (forall k i, exists c, q k i 1%Z = Ok c /\ (c < 40)%Z) ->
  exists o', step (Homogenize fuel q) (o, fs) = Ok (o', fs, RUnit) /\
  exists ss cc, step (GetStress id) (o', fs) = Ok (o', fs, RBuf (Some ss)) /\ step (GetCtan id) (o', fs) = Ok (o', fs, RBuf (Some cc)) /\
  let c := sqrt (10 * IZR ((nx - 1) * (ny - 1) * (nz - 1)) * M / m) in forall v, (0 <= v < 6)%Z ->
    lget mp 1 * Rabs (lget ss v - dot 6 (K v) (lget e)) <= (1 / 100000 + 1000 * rsum (zrange 0 6) (fun i => Rabs (lget e i))) * c /\
    forall i, (0 <= i < 6)%Z -> lget mp 1 * Rabs (lget cc (v * 6 + i) - K v i) <= 2000 * c.
Proof.
  intros A B NP Hm HM C Hn. destruct (columns fuel0 q0 j 3 nx ny nz mtype mp mt ps o0 A J C) as (S & (tol & EV) & _).
  destruct (tangent_states3 fuel0 q0 j nx ny nz mtype mp mt ps o0 A B NP J C Hn F0 Q0) as (BD & L & Ad & _). pose proof BD as (_ & G & D).
  pose proof (built_stiff3 _ _ _ _ _ _ _ _ _ m M EV B HM) as Hs. set (V := o_env o0) in *.
  assert (Ex : forall e, exists u vo b s, state3 V e u vo b 0 s).
  { intros e. pose proof (construct_ok fuel0 q0 j 3 nx ny nz mtype mp mt ps A J) as H. rewrite C in H. destruct H as ((Ko & _) & _). pose proof (proj1 (ok_work o0 Ko)) as W.
    destruct (equilibrium_exists3 V e _ _ BD L Ad (wok_vars3 _ _ D W)) as (u & b & s & St). eauto. }
  destruct (pick ([] : list R) 6 (fun v s => exists u vo b, state3 V (unit 6 v) u vo b 0 s)) as (f & Hf).
  { intros v _. destruct (Ex (unit 6 v)) as (u & vo & b & s & St). eauto. }
  destruct (geom_pos V S G) as (Px & Py). assert (PX : 0 < v_lx V * v_ly V) by now apply Rmult_lt_0_compat.
  assert (Row : forall e u vo b s, state3 V e u vo b 0 s -> forall v, (0 <= v < 6)%Z -> lget s v = dot 6 (lget (f v)) (lget e)).
  { intros e u vo b s St v Hv. destruct (Hf v Hv) as (u2 & vo2 & b2 & St2).
    pose proof (reciprocity_body3 _ _ _ _ _ _ _ _ _ _ _ _ _ _ _ BD L St St2 (affine_field3 V e BD) (affine_field3 V (unit 6 v) BD)) as H.
    rewrite !Rmult_0_l, Rplus_0_r, (dot_unit 6 (lget s) v Hv) in H. apply abs_le in H.
    assert (Z1 : v_lx V * v_ly V * (lget s v - dot 6 (lget (f v)) (lget e)) = 0) by lra. apply Rmult_integral in Z1. lra. }
  exists (fun v => lget (f v)). split; [|split; [exact Ex|split; [exact Row|]]].
  - intros v i Hv Hi. destruct (Hf i Hi) as (u & vo & b & St). rewrite (Row _ _ _ _ _ St v Hv). symmetry. apply dot_unit. exact Hi.
  - intros cs o fs fuel q id e R0 Ls Hfu Hq.
    destruct (linear_answers3 fuel0 q0 j nx ny nz mtype mp mt ps o0 J F0 Q0 A B NP C Hn cs o fs fuel q id e R0 Ls Hfu Hq) as (o' & E & ss & cc & E1 & E2 & _ & H).
    exists o'. split; [exact E|]. exists ss, cc. split; [exact E1|]. split; [exact E2|]. intros c v Hv. destruct (Hf v Hv) as (u & vo & b & St).
    destruct (H v u vo b (f v) (afield3 V (unit 6 v)) Hv St (affine_field3 V (unit 6 v) BD)) as (H1 & H2). fold V in H1, H2.
    set (l := len (ndofs V) (fun r => val u r - afield3 V (unit 6 v) r)) in *.
    assert (Hl : l <= v_lx V * c).
    { apply near_root; try lra; [apply sqrt_pos|].
      eapply Rle_trans; [apply (exact_near3 V (unit 6 v) u vo b (f v) (afield3 V (unit 6 v)) m M BD L (Rlt_le _ _ Hm) Hs St (affine_field3 V (unit 6 v) BD))|].
      apply Rmult_le_compat_l; [pose proof (lx2_pos V); lra|].
      rewrite (eo_nx _ _ _ _ _ _ _ _ _ _ EV), (eo_ny _ _ _ _ _ _ _ _ _ _ EV), (eo_nz _ _ _ _ _ _ _ _ _ _ EV). change (if (3 =? 2)%Z then 1%Z else nz) with nz.
      assert (0 < M). { pose proof (HM 0 (or_introl eq_refl))%Z as H0. cbv zeta in H0. lra. }
      apply Rmult_le_compat_l; [apply Rmult_le_pos; [apply (IZR_le 0); destruct A; destruct va_dim as [?|(_ & ?)]; [lia|]; repeat apply Z.mul_nonneg_nonneg; lia|lra]|].
      rewrite !lget_unit by lia. destruct (0 =? v)%Z eqn:X0, (1 =? v)%Z eqn:X1, (2 =? v)%Z eqn:X2, (3 =? v)%Z eqn:X3, (4 =? v)%Z eqn:X4, (5 =? v)%Z eqn:X5; try lia; lra. }
    assert (Lx : lget mp 0 = v_lx V) by (symmetry; exact (eo_lx _ _ _ _ _ _ _ _ _ _ EV)). assert (Ly : lget mp 1 = v_ly V) by (symmetry; exact (eo_ly _ _ _ _ _ _ _ _ _ _ EV)).
    rewrite Lx, Ly in H1. rewrite Ly.
    assert (X0 : 0 <= 1 / 100000 + 1000 * rsum (zrange 0 6) (fun i => Rabs (lget e i))) by (pose proof (rsum_nonneg (zrange 0 6) (fun i => Rabs (lget e i)) ltac:(intros; apply Rabs_pos)); lra).
    split; [|intros i Hi; specialize (H2 i Hi); rewrite Lx, Ly in H2].
    + apply Rmult_le_reg_l with (v_lx V); [exact Px|]. apply (Rmult_le_compat_l _ _ _ X0) in Hl. lra.
    + apply Rmult_le_reg_l with (v_lx V); [exact Px|]. lra.
Qed.
Theorem effective_answers2 : valid_args 2 nx ny nz mtype mp mt ps -> body_args 2 mp ps -> 0 < m -> moduli2 ps m M ->
  construct fuel0 q0 j 2 [nx; ny; nz] mtype mp mt ps = Ok o0 -> (nx * ny * 2 < 2000)%Z ->
  exists K : Z -> Z -> R, (forall v i, (0 <= v < 3)%Z -> (0 <= i < 3)%Z -> K v i = K i v) /\
  (forall e, exists u b s, state2 (o_env o0) e u b 0 s) /\
  (forall e u b s, state2 (o_env o0) e u b 0 s -> forall v, (0 <= v < 3)%Z -> lget s v = dot 3 (K v) (lget e)) /\
  forall cs o fs fuel q id e, reaches o0 cs o fs -> last_set id e cs -> (2 <= fuel)%nat -> (forall k i, exists c, q k i 1%Z = Ok c /\ (c < 40)%Z) ->
  exists o', step (Homogenize fuel q) (o, fs) = Ok (o', fs, RUnit) /\
  exists ss cc, step (GetStress id) (o', fs) = Ok (o', fs, RBuf (Some ss)) /\ step (GetCtan id) (o', fs) = Ok (o', fs, RBuf (Some cc)) /\
  let c := sqrt (4 * IZR ((nx - 1) * (ny - 1)) * M / m) in forall v, (0 <= v < 3)%Z ->
    lget mp 1 * Rabs (lget ss v - dot 3 (K v) (lget e)) <= (1 / 100000 + 1000 * rsum (zrange 0 3) (fun i => Rabs (lget e i))) * c /\
    forall i, (0 <= i < 3)%Z -> lget mp 1 * Rabs (lget cc (v * 3 + i) - K v i) <= 2000 * c.
Proof.
  intros A B Hm HM C Hn. destruct (columns fuel0 q0 j 2 nx ny nz mtype mp mt ps o0 A J C) as (S & (tol & EV) & _).
  pose proof (built_body2 _ _ _ _ _ _ _ _ _ S EV A B) as BD. pose proof (built_adm _ _ _ _ _ _ _ _ _ _ EV B) as Ad. pose proof BD as (_ & G & D).
  pose proof (built_stiff2 _ _ _ _ _ _ _ _ _ m M EV B HM) as Hs. set (V := o_env o0) in *.
  assert (Ex : forall e, exists u b s, state2 V e u b 0 s) by (intros e; exact (equilibrium_exists2 V e BD Ad)).
  destruct (pick ([] : list R) 3 (fun v s => exists u b, state2 V (unit 3 v) u b 0 s)) as (f & Hf).
  { intros v _. destruct (Ex (unit 3 v)) as (u & b & s & St). eauto. }
  destruct (geom_pos V S G) as (Px & Py). assert (PX : 0 < v_lx V * v_ly V) by now apply Rmult_lt_0_compat.
  assert (Row : forall e u b s, state2 V e u b 0 s -> forall v, (0 <= v < 3)%Z -> lget s v = dot 3 (lget (f v)) (lget e)).
  { intros e u b s St v Hv. destruct (Hf v Hv) as (u2 & b2 & St2).
    pose proof (reciprocity_body2 _ _ _ _ _ _ _ _ _ _ _ _ _ BD St St2 (affine_field2 V e BD) (affine_field2 V (unit 3 v) BD)) as H.
    rewrite !Rmult_0_l, Rplus_0_r, (dot_unit 3 (lget s) v Hv) in H. apply abs_le in H.
    assert (Z1 : v_lx V * v_ly V * (lget s v - dot 3 (lget (f v)) (lget e)) = 0) by lra. apply Rmult_integral in Z1. lra. }
  exists (fun v => lget (f v)). split; [|split; [exact Ex|split; [exact Row|]]].
  - intros v i Hv Hi. destruct (Hf i Hi) as (u & b & St). rewrite (Row _ _ _ _ St v Hv). symmetry. apply dot_unit. exact Hi.
  - intros cs o fs fuel q id e R0 Ls Hfu Hq.
    destruct (linear_answers2 fuel0 q0 j nx ny nz mtype mp mt ps o0 J F0 Q0 A B C Hn cs o fs fuel q id e R0 Ls Hfu Hq) as (o' & E & ss & cc & E1 & E2 & _ & H).
    exists o'. split; [exact E|]. exists ss, cc. split; [exact E1|]. split; [exact E2|]. intros c v Hv. destruct (Hf v Hv) as (u & b & St).
    destruct (H v u b (f v) (afield2 V (unit 3 v)) Hv St (affine_field2 V (unit 3 v) BD)) as (H1 & H2). fold V in H1, H2.
    set (l := len (ndofs V) (fun r => val u r - afield2 V (unit 3 v) r)) in *.
    assert (Hl : l <= v_lx V * c).
    { apply near_root; try lra; [apply sqrt_pos|].
      eapply Rle_trans; [apply (exact_near2 V (unit 3 v) u b (f v) (afield2 V (unit 3 v)) m M BD Ad (Rlt_le _ _ Hm) Hs St (affine_field2 V (unit 3 v) BD))|].
      apply Rmult_le_compat_l; [pose proof (lx2_pos V); lra|].
      rewrite (eo_nx _ _ _ _ _ _ _ _ _ _ EV), (eo_ny _ _ _ _ _ _ _ _ _ _ EV).
      assert (0 < M). { pose proof (HM 0 (or_introl eq_refl))%Z as H0. cbv zeta in H0. lra. }
      apply Rmult_le_compat_l; [apply Rmult_le_pos; [apply (IZR_le 0); destruct A; apply Z.mul_nonneg_nonneg; lia|lra]|].
      rewrite !lget_unit by lia. destruct (0 =? v)%Z eqn:X0, (1 =? v)%Z eqn:X1, (2 =? v)%Z eqn:X2; try lia; lra. }
    assert (Lx : lget mp 0 = v_lx V) by (symmetry; exact (eo_lx _ _ _ _ _ _ _ _ _ _ EV)). assert (Ly : lget mp 1 = v_ly V) by (symmetry; exact (eo_ly _ _ _ _ _ _ _ _ _ _ EV)).
    rewrite Lx, Ly in H1. rewrite Ly.
    assert (X0 : 0 <= 1 / 100000 + 1000 * rsum (zrange 0 3) (fun i => Rabs (lget e i))) by (pose proof (rsum_nonneg (zrange 0 3) (fun i => Rabs (lget e i)) ltac:(intros; apply Rabs_pos)); lra).
    split; [|intros i Hi; specialize (H2 i Hi); rewrite Lx, Ly in H2].
    + apply Rmult_le_reg_l with (v_lx V); [exact Px|]. apply (Rmult_le_compat_l _ _ _ X0) in Hl. lra.
    + apply Rmult_le_reg_l with (v_lx V); [exact Px|]. lra.
Qed.
End Objects.

(** ** cases *)
Lemma ps20_moduli3 : moduli3 ps20 80 9000.
Proof.
  intros i [-> | ->]; cbv zeta; [change (lget ps20 0) with 100; change (lget ps20 (0 + 1)) with (/ 4)|change (lget ps20 10) with 3000; change (lget ps20 (10 + 1)) with (/ 3)].
  - replace (100 / (1 + / 4)) with 80 by field. replace (100 / (1 - 2 * / 4)) with 200 by field. lra.
  - replace (3000 / (1 + / 3)) with 2250 by field. replace (3000 / (1 - 2 * / 3)) with 9000 by field. lra.
Qed.
Lemma ps20_moduli2 : moduli2 ps20 80 9000.
Proof.
  intros i [-> | ->]; cbv zeta; [change (lget ps20 0) with 100; change (lget ps20 (0 + 1)) with (/ 4)|change (lget ps20 10) with 3000; change (lget ps20 (10 + 1)) with (/ 3)].
  - replace (100 / (1 + / 4)) with 80 by field. replace (100 / ((1 + / 4) * (1 - 2 * / 4))) with 160 by field. lra.
  - replace (3000 / (1 + / 3)) with 2250 by field. replace (3000 / ((1 + / 3) * (1 - 2 * / 3))) with 6750 by field. lra.
Qed.
(** one at the first dof of the node 1, 1, 1 *)
Definition bump3 (V : env R) : arr R := fun_arr (ndofs V) (fun r => if (r =? dof3 V 1 1 1 0)%Z then 1 else 0).
Definition bump2 (V : env R) : arr R := fun_arr (ndofs V) (fun r => if (r =? dof2 V 1 1 0)%Z then 1 else 0).
Lemma korn_case3 : exists V w eps (A : ell R) u vo vn, body3 V /\ linear V /\ adm V /\ stiff3 V 80 9000 /\
  full w (ndofs V) /\ zero_bnd_field3 V w /\ strain_field3 V w eps /\ zero_on3 V (val w) /\ (exists r, (0 <= r < ndofs V)%Z /\ val w r = 1) /\
  full u (ndofs V) /\ vars_ok V vo vn /\ matrix3 3 (v_nx V) (v_ny V) (v_nz V) A /\
  forall e, exists u1 v1 b1 s1 u2 v2 b2 n2 s2 a, state3 V e u1 v1 b1 0 s1 /\ state3 V e u2 v2 b2 n2 s2 /\ affine_all3 V e a.
Proof.
  pose proof (real_args3 4 5 3 0 2 ltac:(lia) ltac:(lia) ltac:(lia) ltac:(apply types_ok) ltac:(apply types_ok)) as A. pose proof (body5 3) as B.
  assert (NP : no_plastic [0; 2]%Z) by (exists 0%Z, 2%Z, []; auto).
  pose proof (construct_ok fuel40 (fun _ => counting) (flat_junk 0) 3 4 5 3 0 mp5 [0; 2]%Z ps20 A (flat_total 0)) as H.
  destruct (construct fuel40 (fun _ => counting) (flat_junk 0) 3 [4; 5; 3]%Z 0 mp5 [0; 2]%Z ps20) as [o|e] eqn:E.
  2:{ destruct H as (i & H). elim (counting_good _ _ fuel40_ok H). }
  destruct H as ((K & _) & (t & _ & EV) & _). pose proof (ok_sane o K) as S.
  pose proof (built_body3 _ _ _ _ _ _ _ _ _ S EV A B) as BD. pose proof (built_linear _ _ _ _ _ _ _ _ _ _ EV NP) as L. pose proof (built_adm _ _ _ _ _ _ _ _ _ _ EV B) as Ad.
  pose proof (built_stiff3 _ _ _ _ _ _ _ _ _ 80 9000 EV B ps20_moduli3) as Hs. pose proof (proj1 (ok_work o K)) as W.
  pose proof (eo_nx _ _ _ _ _ _ _ _ _ _ EV) as Nx. pose proof (eo_ny _ _ _ _ _ _ _ _ _ _ EV) as Ny. pose proof (eo_nz _ _ _ _ _ _ _ _ _ _ EV) as Nz. change (if (3 =? 2)%Z then 1%Z else 3%Z) with 3%Z in Nz.
  clear E K A B. set (V := o_env o) in *. pose proof BD as (_ & G & D). pose proof (wok_vars3 _ _ D W) as Wv.
  pose proof (fun_arr_rep (ndofs V) (fun r => if (r =? dof3 V 1 1 1 0)%Z then 1 else 0)) as Rw. fold (bump3 V) in Rw. assert (Fw : full (bump3 V) (ndofs V)) by now apply rep_full in Rw.
  assert (Nd : ndofs V = 180%Z) by (rewrite (ndofs3 V D), Nx, Ny, Nz; reflexivity).
  assert (Z0 : zero_bnd_field3 V (bump3 V)).
  { intros i j k c Hn Hf Hc. pose proof (dof3_range V i j k c Hn Hc D) as Hr. rewrite (proj2 Rw _ Hr).
    unfold is_node3, on_face3, dof3 in *. rewrite Nx, Ny, Nz in *. destruct (Z.eqb_spec (((k * 5 + j) * 4 + i) * 3 + c) (((1 * 5 + 1) * 4 + 1) * 3 + 0)); [lia|reflexivity]. }
  destruct (matrix3_inhabited (T := R) 3 (v_nx V) (v_ny V) (v_nz V)) as (M & HM); try lia.
  exists V, (bump3 V), (fun ex ey ez g v => str3 V (val (bump3 V)) (ex, ey, ez) g v), M, (bump3 V), (w_vold (o_work o)), (w_vnew (o_work o)).
  split; [exact BD|]. split; [exact L|]. split; [exact Ad|]. split; [exact Hs|]. split; [exact Fw|]. split; [exact Z0|]. split; [now apply strain_field3_iff|].
  split; [intros i j k c H1 H2 H3; unfold val; now rewrite (Z0 i j k c H1 H2 H3)|].
  split; [exists (dof3 V 1 1 1 0); assert (H : (0 <= dof3 V 1 1 1 0 < ndofs V)%Z) by (apply dof3_range; [unfold is_node3; lia|lia|exact D]); split; [exact H|]; unfold val; rewrite (proj2 Rw _ H), Z.eqb_refl; reflexivity|].
  split; [exact Fw|]. split; [exact Wv|]. split; [exact HM|]. intros e. destruct (equilibrium_exists3 V e _ _ BD L Ad Wv) as (u & b & s & St).
  exists u, (w_vold (o_work o)), b, s, u, (w_vold (o_work o)), b, 0, s, (afield3 V e). split; [exact St|]. split; [exact St|exact (affine_field3 _ e BD)].
Qed.
Lemma korn_case2 : exists V w eps (A : ell R), body2 V /\ adm V /\ stiff2 V 80 9000 /\
  full w (ndofs V) /\ zero_bnd_field2 V w /\ strain_field2 V w eps /\ zero_on2 V (val w) /\ (exists r, (0 <= r < ndofs V)%Z /\ val w r = 1) /\
  matrix2 2 (v_nx V) (v_ny V) A /\
  forall e, exists u1 b1 s1 u2 b2 n2 s2 a, state2 V e u1 b1 0 s1 /\ state2 V e u2 b2 n2 s2 /\ affine_all2 V e a.
Proof.
  pose proof (real_args2 4 5 1 0 ltac:(lia) ltac:(lia) ltac:(apply types_ok) ltac:(apply types_ok)) as A. pose proof (body5 2) as B.
  pose proof (construct_ok fuel40 (fun _ => counting) (flat_junk 0) 2 4 5 1 1 mp5 [1; 0]%Z ps20 A (flat_total 0)) as H.
  destruct (construct fuel40 (fun _ => counting) (flat_junk 0) 2 [4; 5; 1]%Z 1 mp5 [1; 0]%Z ps20) as [o|e] eqn:E.
  2:{ destruct H as (i & H). elim (counting_good _ _ fuel40_ok H). }
  destruct H as ((K & _) & (t & _ & EV) & _). pose proof (ok_sane o K) as S.
  pose proof (built_body2 _ _ _ _ _ _ _ _ _ S EV A B) as BD. pose proof (built_adm _ _ _ _ _ _ _ _ _ _ EV B) as Ad.
  pose proof (built_stiff2 _ _ _ _ _ _ _ _ _ 80 9000 EV B ps20_moduli2) as Hs.
  pose proof (eo_nx _ _ _ _ _ _ _ _ _ _ EV) as Nx. pose proof (eo_ny _ _ _ _ _ _ _ _ _ _ EV) as Ny.
  clear E K A B. set (V := o_env o) in *. pose proof BD as (_ & G & D).
  pose proof (fun_arr_rep (ndofs V) (fun r => if (r =? dof2 V 1 1 0)%Z then 1 else 0)) as Rw. fold (bump2 V) in Rw. assert (Fw : full (bump2 V) (ndofs V)) by now apply rep_full in Rw.
  assert (Nd : ndofs V = 40%Z) by (rewrite (ndofs2 V S D), Nx, Ny; reflexivity).
  assert (Z0 : zero_bnd_field2 V (bump2 V)).
  { intros i j c Hn Hf Hc. pose proof (dof2_range V i j c S Hn Hc D) as Hr. rewrite (proj2 Rw _ Hr).
    unfold is_node2, on_edge2, dof2 in *. rewrite Nx, Ny in *. destruct (Z.eqb_spec ((j * 4 + i) * 2 + c) ((1 * 4 + 1) * 2 + 0)); [lia|reflexivity]. }
  destruct (matrix2_inhabited (T := R) 2 (v_nx V) (v_ny V)) as (M & HM); try lia.
  exists V, (bump2 V), (fun ex ey g v => str2 V (val (bump2 V)) (ex, ey) g v), M.
  split; [exact BD|].  split; [exact Ad|]. split; [exact Hs|]. split; [exact Fw|]. split; [exact Z0|]. split; [now apply strain_field2_iff|].
  split; [intros i j c H1 H2 H3; unfold val; now rewrite (Z0 i j c H1 H2 H3)|].
  split; [exists (dof2 V 1 1 0); assert (H : (0 <= dof2 V 1 1 0 < ndofs V)%Z) by (apply dof2_range; [exact S|unfold is_node2; lia|lia|exact D]); split; [exact H|]; unfold val; rewrite (proj2 Rw _ H), Z.eqb_refl; reflexivity|].
  split; [exact HM|]. intros e. destruct (equilibrium_exists2 V e BD Ad) as (u & b & s & St).
  exists u, b, s, u, b, 0, s, (afield2 V e). split; [exact St|]. split; [exact St|exact (affine_field2 _ e BD)].
Qed.
Lemma bounds_story3 : exists (j : junk R) o0 o fs, valid_args 3 4 5 3 0 mp5 [0; 2]%Z ps20 /\ body_args 3 mp5 ps20 /\ no_plastic [0; 2]%Z /\ moduli3 ps20 80 9000 /\ total_junk j /\
  construct fuel40 (fun _ => counting) j 3 [4; 5; 3]%Z 0 mp5 [0; 2]%Z ps20 = Ok o0 /\ (4 * 5 * 3 * 3 < 2000)%Z /\ (2 <= fuel40)%nat /\
  (forall i : Z, exists k, (fun _ => counting) i 1%Z = Ok k /\ (k < 40)%Z) /\ (forall k i : Z, exists c, (fun _ _ => counting) k i 1%Z = Ok c /\ (c < 40)%Z) /\
  reaches o0 story o fs /\ last_set 7 (eps6 2) story /\ (exists i, lget (eps6 2) i <> 0).
Proof.
  destruct linear_story3 as (j & o0 & o & fs & A & B & NP & J & C & N & F & Q & Q2 & R0 & L & X & _). exists j, o0, o, fs.
  split; [exact A|]. split; [exact B|]. split; [exact NP|]. split; [exact ps20_moduli3|]. split; [exact J|]. split; [exact C|]. split; [exact N|]. split; [exact F|]. split; [exact Q|]. split; [exact Q2|]. split; [exact R0|]. split; [exact L|exact X].
Qed.
Lemma bounds_story2 : exists (j : junk R) o0 o fs, valid_args 2 4 5 1 1 mp5 [1; 0]%Z ps20 /\ body_args 2 mp5 ps20 /\ moduli2 ps20 80 9000 /\ total_junk j /\
  construct fuel40 (fun _ => counting) j 2 [4; 5; 1]%Z 1 mp5 [1; 0]%Z ps20 = Ok o0 /\ (4 * 5 * 2 < 2000)%Z /\ (2 <= fuel40)%nat /\
  (forall i : Z, exists k, (fun _ => counting) i 1%Z = Ok k /\ (k < 40)%Z) /\ (forall k i : Z, exists c, (fun _ _ => counting) k i 1%Z = Ok c /\ (c < 40)%Z) /\
  reaches o0 story o fs /\ last_set 7 (eps6 2) story /\ (exists i, lget (eps6 2) i <> 0).
Proof.
  destruct linear_story2 as (j & o0 & o & fs & A & B & J & C & N & F & Q & Q2 & R0 & L & X & _). exists j, o0, o, fs.
  split; [exact A|]. split; [exact B|]. split; [exact ps20_moduli2|]. split; [exact J|]. split; [exact C|]. split; [exact N|]. split; [exact F|]. split; [exact Q|]. split; [exact Q2|]. split; [exact R0|]. split; [exact L|exact X].
Qed.
