(** The incremental energy of a body: equilibrium states are its minimisers, and they exist. *)
From Coq Require Import Reals Lra ZifyBool.
From Verif Require Import Base Scalar Grid EllModel EllSpec EllFinal EllProps CgPure CgFinal CgProps AssemblyModel AsmPure AsmBnd FemGen FemAve AsmRun AsmMat
  FemMat FemMat2 FemDef FemPd FemRhs FemEquil PlastProps AsmEx AsmSpec AsmProps AsmPoint AsmEquil AsmCases MonoPoint MonoBody MonoUnif ConvexMin EnergyPoint.
Open Scope Z_scope.
Open Scope R_scope.

Lemma flow_ext m ep ep' al e e' : (forall i, (0 <= i < 6)%Z -> ep i = ep' i) -> (forall i, (0 <= i < 6)%Z -> e i = e' i) -> flow_energy m ep al e = flow_energy m ep' al e'.
Proof. intros H K. unfold flow_energy, contract6, tried, trace6. cbn [Z.ltb Z.compare Pos.compare Pos.compare_cont]. rewrite !H, !K by lia. reflexivity. Qed.
Lemma elastic_ext m e e' : (forall i, (0 <= i < 6)%Z -> e i = e' i) -> elastic_energy m e = elastic_energy m e'.
Proof. intros K. unfold elastic_energy. rewrite !dot6. unfold hooke. cbn [Z.ltb Z.compare Pos.compare Pos.compare_cont]. rewrite !K by lia. reflexivity. Qed.

Lemma integral_le V f h : geom V -> v_dim V = 3%Z -> (forall c g, In c (els3 V) -> (0 <= g < 8)%Z -> f c g <= h c g) -> integral3 V f <= integral3 V h.
Proof.
  intros G D H. unfold integral3. apply rsum_le. intros c Hc. apply rsum_le. intros g Hg. apply in_zrange in Hg.
  pose proof (wg3_pos V D G) as W. apply Rmult_le_compat_r; [lra|auto].
Qed.
Lemma integral_plus V f h : integral3 V (fun c g => f c g + h c g) = integral3 V f + integral3 V h.
Proof. unfold integral3. rewrite <- rsum_plus. apply rsum_ext. intros c _. rewrite <- rsum_plus. apply rsum_ext. intros g _. ring. Qed.
Lemma integral_minus V f h : integral3 V (fun c g => f c g - h c g) = integral3 V f - integral3 V h.
Proof. unfold integral3. rewrite <- rsum_minus. apply rsum_ext. intros c _. rewrite <- rsum_minus. apply rsum_ext. intros g _. ring. Qed.
Lemma integral_scal V k f : integral3 V (fun c g => k * f c g) = k * integral3 V f.
Proof. unfold integral3. rewrite <- rsum_scal. apply rsum_ext. intros c _. rewrite <- rsum_scal. apply rsum_ext. intros g _. ring. Qed.
Lemma integral_ext V f h : (forall c g, In c (els3 V) -> (0 <= g < 8)%Z -> f c g = h c g) -> integral3 V f = integral3 V h.
Proof. intros H. unfold integral3. apply rsum_ext. intros c Hc. apply rsum_ext. intros g Hg. apply in_zrange in Hg. now rewrite H. Qed.
Lemma work_integral V s w : work3 V s w = integral3 V (fun c g => dot 6 (s c g) (str3 V w c g)).
Proof.
  unfold work3, mwork, integral3. apply rsum_ext. intros c _. apply rsum_ext. intros g _. unfold dot. rewrite <- rsum_scal_r. reflexivity.
Qed.

Lemma rsum_one_le {A} (l : list A) f a : (forall x, In x l -> 0 <= f x) -> In a l -> f a <= rsum l f.
Proof.
  induction l as [|b l IH]; intros H [].
  - subst b. cbn [rsum]. assert (0 <= rsum l f) by (apply rsum_nonneg; intros; apply H; now right). lra.
  - cbn [rsum]. pose proof (H b (or_introl eq_refl)). assert (f a <= rsum l f) by (apply IH; [intros; apply H; now right|assumption]). lra.
Qed.
Lemma strain3_same V x y c g : (forall v, (0 <= v < 6)%Z -> str3 V x c g v = str3 V y c g v) -> strain3 V x c g = strain3 V y c g.
Proof.
  intros H. assert (Q : forall w, strain3 V w c g = ltab 6 (str3 V w c g)).
  { intros w. transitivity (ltab 6 (lget (strain3 V w c g))).
    - unfold strain3 at 1, strain_of. apply ltab_ext. intros v Hv. unfold strain3, strain_of. now rewrite lget_ltab.
    - apply ltab_ext. intros v Hv. now apply strain3_str. }
  rewrite !Q. now apply ltab_ext.
Qed.

Section Body.
Variables (V : env R) (of : Z -> R).
Hypotheses (BD : body3 V) (AD : adm V).
Definition psi (c : Z * Z * Z) (g : Z) (e : Z -> R) : R := let m := mat_at V (ix3 V c) in
  if plastic_at V (ix3 V c) then flow_energy m (fun i => of (intvar_ix (ix3 V c) g i)) (of (intvar_ix (ix3 V c) g 6)) e else elastic_energy m e.
Definition benergy (uf : Z -> R) : R := integral3 V (fun c g => psi c g (str3 V uf c g)).
Definition ynn : Prop := forall c g, In c (els3 V) -> (0 <= g < 8)%Z -> plastic_at V (ix3 V c) = true ->
  0 <= m_Sy (mat_at V (ix3 V c)) + m_Ka (mat_at V (ix3 V c)) * of (intvar_ix (ix3 V c) g 6).
Definition ypos : Prop := forall c g, In c (els3 V) -> (0 <= g < 8)%Z -> plastic_at V (ix3 V c) = true ->
  0 < m_Sy (mat_at V (ix3 V c)) + m_Ka (mat_at V (ix3 V c)) * of (intvar_ix (ix3 V c) g 6).
Let SV : sane V. Proof. apply BD. Qed.
Let GV : geom V. Proof. apply BD. Qed.
Let DV : v_dim V = 3%Z. Proof. apply BD. Qed.

Lemma psi_ext c g e f : (forall i, (0 <= i < 6)%Z -> e i = f i) -> psi c g e = psi c g f.
Proof. intros H. unfold psi. destruct plastic_at; [now apply flow_ext|now apply elastic_ext]. Qed.
Lemma at_adm c : In c (els3 V) -> admissible (mat_at V (ix3 V c)).
Proof. intros Hc. apply AD. now apply (ix3_range V c DV). Qed.
Lemma psi_sub c g x y : ynn -> In c (els3 V) -> (0 <= g < 8)%Z ->
  psi c g (lget x) + dot 6 (lget (sig3 V of c g x)) (fun i => lget y i - lget x i) <= psi c g (lget y).
Proof.
  intros Y Hc Hg. pose proof (at_adm c Hc) as A. unfold psi, sig3. specialize (Y c g Hc Hg). set (m := mat_at V (ix3 V c)) in *.
  pose proof (adm_mu m A) as Hm. pose proof (adm_k m A) as Hk. pose proof (adm_bulk m A) as Hb.
  destruct (plastic_at V (ix3 V c)).
  - pose proof (flow_sub m (ltab 6 (fun i => of (intvar_ix (ix3 V c) g i))) (of (intvar_ix (ix3 V c) g 6)) Hm Hk (eq_sym Hb) x y (Y eq_refl)) as H.
    unfold step3. fold m. rewrite (flow_ext m (fun i => of (intvar_ix (ix3 V c) g i)) (lget (ltab 6 (fun i => of (intvar_ix (ix3 V c) g i)))) _ (lget x) (lget x)),
      (flow_ext m (fun i => of (intvar_ix (ix3 V c) g i)) (lget (ltab 6 (fun i => of (intvar_ix (ix3 V c) g i)))) _ (lget y) (lget y));
      try reflexivity; try (intros i Hi; now rewrite lget_ltab by assumption). exact H.
  - rewrite <- Hb in Hk. pose proof (elastic_sub m (lget x) (lget y) Hm Hk) as H.
    rewrite (dot6_ext (lget (lin_stress3 (m_lambda m) (m_mu m) x)) (hooke m (lget x)) _ (fun i => lget y i - lget x i)); [exact H| |reflexivity].
    intros i Hi. unfold lin_stress3. rewrite lget_ltab by assumption. cbn [oadd omul ofZ ROps]. unfold hooke. destruct (i <? 3)%Z; ring.
Qed.
Lemma psi_nonneg c g e : ynn -> In c (els3 V) -> (0 <= g < 8)%Z -> 0 <= psi c g e.
Proof.
  intros Y Hc Hg. pose proof (at_adm c Hc) as A. unfold psi. specialize (Y c g Hc Hg). set (m := mat_at V (ix3 V c)) in *.
  pose proof (adm_mu m A) as Hm. pose proof (adm_k m A) as Hk. pose proof (adm_bulk m A) as Hb.
  destruct (plastic_at V (ix3 V c)).
  - pose proof (flow_nonneg m (ltab 6 (fun i => of (intvar_ix (ix3 V c) g i))) (of (intvar_ix (ix3 V c) g 6)) Hm Hk (eq_sym Hb) (ltab 6 e) (Y eq_refl)) as H.
    rewrite (flow_ext m _ (fun i => of (intvar_ix (ix3 V c) g i)) _ _ e) in H; [exact H|..]; intros i Hi; now rewrite lget_ltab by assumption.
  - apply elastic_nonneg; [exact Hm|]. now rewrite Hb.
Qed.
Lemma psi_bound c g M : ypos -> In c (els3 V) -> (0 <= g < 8)%Z -> 0 <= M -> exists C, forall e, psi c g e <= M -> forall i, (0 <= i < 6)%Z -> Rabs (e i) <= C.
Proof.
  intros Y Hc Hg HM. pose proof (at_adm c Hc) as A. unfold psi. specialize (Y c g Hc Hg). set (m := mat_at V (ix3 V c)) in *.
  pose proof (adm_mu m A) as Hm. pose proof (adm_k m A) as Hk. pose proof (adm_bulk m A) as Hb. rewrite <- Hb in Hk.
  destruct (plastic_at V (ix3 V c)); [apply flow_bound; auto|apply elastic_bound; auto].
Qed.
Lemma ypos_nn : ypos -> ynn. Proof. intros H c g Hc Hg Hp. specialize (H c g Hc Hg Hp). lra. Qed.

(** the energy of any field, from that of another one, its stresses and its residual *)
Lemma energy_sub uf e1 wf e2 : ynn -> bndaff3 V e1 uf -> bndaff3 V e2 wf ->
  benergy uf + (rsum (zrange 0 6) (fun v => integral3 V (fun c g => gs3 V uf of c g v) * (lget e2 v - lget e1 v))
    - rsum (zrange 0 (ndofs V)) (fun r => balance3 V uf of r * ((wf r - afield3 V e2 r) - (uf r - afield3 V e1 r)))) <= benergy wf.
Proof.
  intros Y B1 B2.
  pose proof (work_residual3 V uf of uf e1 SV GV DV B1) as W1. pose proof (work_residual3 V uf of wf e2 SV GV DV B2) as W2.
  replace (rsum (zrange 0 6) (fun v => integral3 V (fun c g => gs3 V uf of c g v) * (lget e2 v - lget e1 v))
    - rsum (zrange 0 (ndofs V)) (fun r => balance3 V uf of r * ((wf r - afield3 V e2 r) - (uf r - afield3 V e1 r))))
    with (work3 V (gs3 V uf of) wf - work3 V (gs3 V uf of) uf).
  - rewrite !work_integral, <- integral_minus. unfold benergy. rewrite <- integral_plus. apply integral_le; [exact GV|exact DV|]. intros c g Hc Hg.
    pose proof (psi_sub c g (strain3 V uf c g) (strain3 V wf c g) Y Hc Hg) as H.
    rewrite (psi_ext c g (lget (strain3 V uf c g)) (str3 V uf c g)), (psi_ext c g (lget (strain3 V wf c g)) (str3 V wf c g)) in H by (intros; now rewrite strain3_str).
    eapply Rle_trans; [|exact H]. right. f_equal.
    assert (X : forall i, (0 <= i < 6)%Z -> lget (strain3 V wf c g) i - lget (strain3 V uf c g) i = str3 V wf c g i - str3 V uf c g i) by (intros; now rewrite !strain3_str).
    rewrite (dot6_ext (lget (sig3 V of c g (strain3 V uf c g))) (gs3 V uf of c g) _ (fun i => str3 V wf c g i - str3 V uf c g i)); [rewrite !dot6; ring|reflexivity|exact X].
  - rewrite W1, W2.
    assert (E1 : rsum (zrange 0 6) (fun v => integral3 V (fun c g => gs3 V uf of c g v) * (lget e2 v - lget e1 v)) =
      rsum (zrange 0 6) (fun v => integral3 V (fun c g => gs3 V uf of c g v) * lget e2 v) - rsum (zrange 0 6) (fun v => integral3 V (fun c g => gs3 V uf of c g v) * lget e1 v)).
    { rewrite <- rsum_minus. apply rsum_ext. intros; ring. }
    assert (E2 : rsum (zrange 0 (ndofs V)) (fun r => balance3 V uf of r * ((wf r - afield3 V e2 r) - (uf r - afield3 V e1 r))) =
      rsum (zrange 0 (ndofs V)) (fun r => balance3 V uf of r * (wf r - afield3 V e2 r)) - rsum (zrange 0 (ndofs V)) (fun r => balance3 V uf of r * (uf r - afield3 V e1 r))).
    { rewrite <- rsum_minus. apply rsum_ext. intros; ring. }
    rewrite E1, E2. ring.
Qed.

(** ** existence *)
Variable e : list R.
Definition msk (x : Z -> R) (r : Z) : R := if bndb V (v_nz V) (r / v_dim V) then 0 else x r.
Definition fld (x : Z -> R) (r : Z) : R := afield3 V e r + msk x r.
Definition frees : list Z := filter (fun r => negb (bndb V (v_nz V) (r / v_dim V))) (zrange 0 (ndofs V)).
Lemma in_frees r : In r frees <-> (0 <= r < ndofs V)%Z /\ bndb V (v_nz V) (r / v_dim V) = false.
Proof. unfold frees. rewrite filter_In, in_zrange. destruct bndb; cbn [negb]; intuition congruence. Qed.
Lemma sum_frees (f : Z -> R) : (forall r, bndb V (v_nz V) (r / v_dim V) = true -> f r = 0) -> rsum frees f = rsum (zrange 0 (ndofs V)) f.
Proof.
  intros H. unfold frees. induction (zrange 0 (ndofs V)) as [|a l IH]; [reflexivity|]. cbn [filter rsum].
  destruct (bndb V (v_nz V) (a / v_dim V)) eqn:E; cbn [negb rsum]; rewrite IH; [rewrite (H a E); ring|reflexivity].
Qed.
Lemma msk_van x : van V (msk x). Proof. intros r Hr Hb. unfold msk, bdof in *. now rewrite Hb. Qed.
Lemma fld_bnd x : bndaff3 V e (fld x).
Proof.
  intros i j k c Hi Hj Hk Hc B. unfold cmp3, fld. pose proof (afield3_node V e i j k c Hi Hj Hc) as X. unfold cmp3 in X. rewrite X.
  assert (Q : bdof V (node (v_nx V) (v_ny V) i j k * 3 + c)) by now apply (bdof3_node V DV).
  unfold msk. unfold bdof in Q. rewrite Q. ring.
Qed.
Definition frc (x : Z -> R) (r : Z) : R := - balance3 V (fld x) of r.
Lemma frc_ip x d : rsum frees (fun r => frc x r * d r) = work3 V (gs3 V (fld x) of) (msk d).
Proof.
  assert (VW : rsum (zrange 0 (ndofs V)) (fun r => msk d r * force3 V (gs3 V (fld x) of) r) = work3 V (gs3 V (fld x) of) (msk d)).
  { unfold force3, work3. rewrite (ndofs3 V DV). apply virtual_work. intros c i Hc Hi. now apply (addr3_range V c i). }
  rewrite <- VW, sum_frees.
  - apply rsum_ext. intros r _. unfold frc, balance3, msk. destruct bndb; ring.
  - intros r Hr. unfold frc, balance3. rewrite Hr. ring.
Qed.
Lemma fld_diff x y r : fld y r - fld x r = msk (fun r => y r - x r) r.
Proof. unfold fld, msk. destruct bndb; ring. Qed.
Lemma min_sub : ynn -> forall x y, benergy (fld x) + rsum frees (fun r => frc x r * (y r - x r)) <= benergy (fld y).
Proof.
  intros Y x y. eapply Rle_trans; [|apply (energy_sub (fld x) e (fld y) e Y (fld_bnd x) (fld_bnd y))]. right. f_equal.
  rewrite (rsum_zero (zrange 0 6)) by (intros; ring). rewrite sum_frees by (intros r Hr; unfold frc, balance3; rewrite Hr; ring).
  rewrite Rminus_0_l, <- rsum_opp. apply rsum_ext. intros r _.
  replace (fld y r - afield3 V e r - (fld x r - afield3 V e r)) with (fld y r - fld x r) by ring. rewrite fld_diff. unfold frc, balance3, msk. destruct bndb; ring.
Qed.
Lemma str_msk_diff x y c g v : str3 V (fld y) c g v - str3 V (fld x) c g v = str3 V (msk (fun r => y r - x r)) c g v.
Proof. unfold str3, mstrain. rewrite <- rsum_minus. apply rsum_ext. intros i _. rewrite <- fld_diff. ring. Qed.
Lemma frc_cont : ynn -> forall x d eps, 0 < eps -> exists t, 0 < t /\
  Rabs (rsum frees (fun r => frc (fun i => x i + t * d i) r * d r) - rsum frees (fun r => frc x r * d r)) < eps.
Proof.
  intros Y x d eps He.
  set (Q := integral3 V (fun c g => dot 6 (hooke (mat_at V (ix3 V c)) (str3 V (msk d) c g)) (str3 V (msk d) c g))).
  set (t := eps / (Rabs Q + 1)). pose proof (Rabs_pos Q) as Q0. assert (Ht : 0 < t) by (apply Rdiv_lt_0_compat; lra).
  exists t. split; [exact Ht|]. rewrite !frc_ip, !work_integral, <- integral_minus.
  set (z := fun i => x i + t * d i).
  assert (PW : forall c g, In c (els3 V) -> (0 <= g < 8)%Z ->
    0 <= dot 6 (gs3 V (fld z) of c g) (str3 V (msk d) c g) - dot 6 (gs3 V (fld x) of c g) (str3 V (msk d) c g) <=
    t * dot 6 (hooke (mat_at V (ix3 V c)) (str3 V (msk d) c g)) (str3 V (msk d) c g)).
  { intros c g Hc Hg. pose proof (at_adm c Hc) as A.
    pose proof (mono_sig3 V of c g (strain3 V (fld z) c g) (strain3 V (fld x) c g) A (Y c g Hc Hg)) as H. cbv zeta in H.
    pose proof (compl_pos (mat_at V (ix3 V c)) (fun i => lget (sig3 V of c g (strain3 V (fld z) c g)) i - lget (sig3 V of c g (strain3 V (fld x) c g)) i) (adm_mu _ A)) as CP.
    rewrite adm_bulk in CP by exact A. specialize (CP (adm_k _ A)).
    set (D := fun i => lget (sig3 V of c g (strain3 V (fld z) c g)) i - lget (sig3 V of c g (strain3 V (fld x) c g)) i) in *.
    assert (X : forall i, (0 <= i < 6)%Z -> lget (strain3 V (fld z) c g) i - lget (strain3 V (fld x) c g) i = t * str3 V (msk d) c g i).
    { intros i Hi. rewrite !strain3_str by assumption. rewrite str_msk_diff. unfold str3. rewrite <- mstrain_scal. apply rsum_ext. intros j _. unfold z, msk. destruct bndb; ring. }
    rewrite (dot6_ext D D (fun i => lget (strain3 V (fld z) c g) i - lget (strain3 V (fld x) c g) i) (fun i => t * str3 V (msk d) c g i)) in H by (auto; reflexivity).
    rewrite (dot6_ext (hooke (mat_at V (ix3 V c)) (fun i => lget (strain3 V (fld z) c g) i - lget (strain3 V (fld x) c g) i)) (fun i => t * hooke (mat_at V (ix3 V c)) (str3 V (msk d) c g) i)
      (fun i => lget (strain3 V (fld z) c g) i - lget (strain3 V (fld x) c g) i) (fun i => t * str3 V (msk d) c g i)) in H.
    - assert (E1 : dot 6 D (fun i => t * str3 V (msk d) c g i) = t * (dot 6 (gs3 V (fld z) of c g) (str3 V (msk d) c g) - dot 6 (gs3 V (fld x) of c g) (str3 V (msk d) c g))).
      { rewrite !dot6. unfold D, gs3. ring. }
      assert (E2 : dot 6 (fun i => t * hooke (mat_at V (ix3 V c)) (str3 V (msk d) c g) i) (fun i => t * str3 V (msk d) c g i) = t * (t * dot 6 (hooke (mat_at V (ix3 V c)) (str3 V (msk d) c g)) (str3 V (msk d) c g))).
      { rewrite !dot6. ring. }
      rewrite E1, E2 in H. split; apply (Rmult_le_reg_l t); try exact Ht; lra.
    - intros i Hi. unfold hooke. rewrite !X by lia. destruct (i <? 3)%Z; ring.
    - exact X. }
  set (f := fun c g => dot 6 (gs3 V (fld z) of c g) (str3 V (msk d) c g) - dot 6 (gs3 V (fld x) of c g) (str3 V (msk d) c g)) in *.
  assert (L : 0 <= integral3 V f).
  { apply Rle_trans with (integral3 V (fun _ _ => 0)).
    - right. symmetry. unfold integral3. apply rsum_zero. intros. apply rsum_zero. intros. ring.
    - apply integral_le; [exact GV|exact DV|]. intros c g Hc Hg. now apply PW. }
  assert (U : integral3 V f <= t * Q).
  { unfold Q. rewrite <- integral_scal. apply integral_le; [exact GV|exact DV|]. intros c g Hc Hg. now apply PW. }
  rewrite Rabs_right by lra. eapply Rle_lt_trans; [exact U|].
  apply Rle_lt_trans with (t * Rabs Q); [apply Rmult_le_compat_l; [lra|apply Rle_abs]|].
  unfold t. replace eps with (eps / (Rabs Q + 1) * (Rabs Q + 1)) at 2 by (field; lra). apply Rmult_lt_compat_l; [exact Ht|lra].
Qed.

(** Korn's inequality for the grid: strains bound displacements *)
Definition points : list (Z * Z * Z * Z * Z) := flat_map (fun c => flat_map (fun g => map (fun v => (c, g, v)) (zrange 0 6)) (zrange 0 8)) (els3 V).
Lemma in_points c g v : In (c, g, v) points <-> In c (els3 V) /\ (0 <= g < 8)%Z /\ (0 <= v < 6)%Z.
Proof.
  unfold points. rewrite in_flat_map. split.
  - intros (c' & Hc & H). apply in_flat_map in H. destruct H as (g' & Hg & H). apply in_map_iff in H. destruct H as (v' & E & Hv).
    injection E as -> -> ->. apply in_zrange in Hg, Hv. tauto.
  - intros (Hc & Hg & Hv). exists c. split; [exact Hc|]. apply in_flat_map. exists g. split; [now apply in_zrange|].
    apply in_map_iff. exists v. split; [reflexivity|now apply in_zrange].
Qed.
Definition str_at (j : Z * Z * Z * Z * Z) (x : Z -> R) : R := let '(c, g, v) := j in str3 V (msk x) c g v.
Lemma korn : exists K, 0 <= K /\ forall x M, (forall j, In j points -> Rabs (str_at j x) <= M) -> 0 <= M -> forall r, In r frees -> Rabs (x r) <= K * M.
Proof.
  apply bounded_below.
  - intros [[c g] v] k x. unfold str_at, str3. rewrite <- mstrain_scal. apply rsum_ext. intros i _. unfold msk. destruct bndb; ring.
  - intros [[c g] v] Hj. apply in_points in Hj. destruct Hj as (Hc & Hg & Hv).
    exists (rsum (zrange 0 24) (fun i => Rabs (B3 V g v i))). split; [apply rsum_nonneg; intros; apply Rabs_pos|].
    intros x y d dp H. unfold str_at, str3, mstrain. rewrite <- rsum_minus.
    assert (Q : forall i, In i (zrange 0 24) -> Rabs (msk x (addr3 V c i) - msk y (addr3 V c i)) <= d).
    { intros i Hi. apply in_zrange in Hi. pose proof (addr3_range V c i Hc Hi) as Ha. unfold msk.
      destruct (bndb V (v_nz V) (addr3 V c i / v_dim V)) eqn:Eb; [rewrite Rminus_0_r, Rabs_R0; exact dp|].
      apply H. apply in_frees. rewrite (ndofs3 V DV). split; assumption. }
    pose proof (rsum_abs_le (zrange 0 24) (fun i => B3 V g v i) (fun i => msk x (addr3 V c i) - msk y (addr3 V c i)) d Q) as A.
    eapply Rle_trans; [|exact A]. right. f_equal. apply rsum_ext. intros i _. ring.
  - intros x H r Hr. apply in_frees in Hr. destruct Hr as (Hr & Hb).
    assert (Z1 : forall c g v, In c (els3 V) -> In g (zrange 0 8) -> (0 <= v < 6)%Z -> str3 V (msk x) c g v = 0).
    { intros c g v Hc Hg Hv. apply in_zrange in Hg. apply (H (c, g, v)). now apply in_points. }
    rewrite (ndofs3 V DV) in Hr. destruct (dof3_surj V SV DV r Hr) as (i & j & k & c & Hi & Hj & Hk & Hc & Er & _).
    pose proof (free3_zero V SV DV GV of of (msk x) Z1 (van_face V SV DV of of (msk x) (msk_van x)) i j k c Hi Hj Hk Hc) as Z2.
    unfold cmp3 in Z2. rewrite <- Er in Z2. unfold msk in Z2. now rewrite Hb in Z2.
Qed.
Lemma finite_bound {J A : Type} (L : list J) (P : A -> Prop) (f : J -> A -> R) :
  (forall j, In j L -> exists b, forall x, P x -> f j x <= b) -> exists b, 0 <= b /\ forall j, In j L -> forall x, P x -> f j x <= b.
Proof.
  induction L as [|a l IH]; intros H; [exists 0; split; [lra|intros j []]|].
  destruct IH as (b & B0 & Hb); [intros j Hj; apply H; now right|]. destruct (H a (or_introl eq_refl)) as (b' & Hb').
  exists (b + Rabs b'). pose proof (Rabs_pos b'). pose proof (Rle_abs b'). split; [lra|]. intros j [<-|Hj] x Px.
  - specialize (Hb' x Px). lra.
  - specialize (Hb j Hj x Px). lra.
Qed.
Lemma min_coercive : ypos -> exists B, forall x, benergy (fld x) <= benergy (fld (fun _ => 0)) + 1 -> forall r, In r frees -> Rabs (x r) <= B.
Proof.
  intros Y. pose proof (ypos_nn Y) as Yn. set (M0 := benergy (fld (fun _ => 0)) + 1). destruct korn as (K & K0 & HK). pose proof (wg3_pos V DV GV) as W.
  assert (EB : forall x c g, In c (els3 V) -> (0 <= g < 8)%Z -> psi c g (str3 V (fld x) c g) * wg3 V <= benergy (fld x)).
  { intros x c g Hc Hg. unfold benergy, integral3.
    assert (N : forall c' g', In c' (els3 V) -> In g' (zrange 0 8) -> 0 <= psi c' g' (str3 V (fld x) c' g') * wg3 V).
    { intros c' g' Hc' Hg'. apply in_zrange in Hg'. apply Rmult_le_pos; [now apply psi_nonneg|lra]. }
    apply Rle_trans with (rsum (zrange 0 8) (fun g' => psi c g' (str3 V (fld x) c g') * wg3 V)).
    - apply (rsum_one_le (zrange 0 8) (fun g' => psi c g' (str3 V (fld x) c g') * wg3 V)); [intros; now apply N|now apply in_zrange].
    - apply (rsum_one_le (els3 V) (fun c' => rsum (zrange 0 8) (fun g' => psi c' g' (str3 V (fld x) c' g') * wg3 V))); [|exact Hc]. intros c' Hc'. apply rsum_nonneg. intros; now apply N. }
  assert (M0p : 0 <= M0).
  { unfold M0. assert (0 <= benergy (fld (fun _ => 0))); [|lra]. unfold benergy, integral3. apply rsum_nonneg. intros c Hc. apply rsum_nonneg. intros g Hg. apply in_zrange in Hg.
    apply Rmult_le_pos; [now apply psi_nonneg|lra]. }
  destruct (finite_bound points (fun x => benergy (fld x) <= M0) (fun j x => Rabs (str_at j x))) as (b & B0 & Hb).
  { intros [[c g] v] Hj. apply in_points in Hj. destruct Hj as (Hc & Hg & Hv).
    destruct (psi_bound c g (M0 / wg3 V) Y Hc Hg) as (C & HC); [apply Rmult_le_pos; [exact M0p|left; now apply Rinv_0_lt_compat]|].
    exists (C + Rabs (str3 V (fld (fun _ => 0)) c g v)). intros x Hx. unfold str_at.
    assert (E : str3 V (msk x) c g v = str3 V (fld x) c g v - str3 V (fld (fun _ => 0)) c g v).
    { rewrite str_msk_diff. apply mstrain_ext. intros i _. unfold msk. destruct bndb; ring. }
    rewrite E. assert (Q : Rabs (str3 V (fld x) c g v) <= C).
    { apply HC; [|exact Hv]. apply (Rmult_le_reg_r (wg3 V)); [exact W|]. unfold Rdiv. rewrite Rmult_assoc, Rinv_l, Rmult_1_r by lra.
      eapply Rle_trans; [now apply EB|exact Hx]. }
    pose proof (Rabs_triang (str3 V (fld x) c g v) (- str3 V (fld (fun _ => 0)) c g v)) as T. rewrite Rabs_Ropp in T. unfold Rminus. lra. }
  exists (K * b). intros x Hx r Hr. apply (HK x b); [intros j Hj; now apply Hb|exact B0|exact Hr].
Qed.
Theorem balanced_field : ypos -> exists x, (forall r, (0 <= r < ndofs V)%Z -> balance3 V (fld x) of r = 0).
Proof.
  intros Y. pose proof (ypos_nn Y) as Yn.
  destruct (minimum_exists frees (fun x => benergy (fld x)) frc (min_sub Yn) (min_coercive Y)) as (x & Hx).
  exists x. intros r Hr. destruct (bndb V (v_nz V) (r / v_dim V)) eqn:Eb; [unfold balance3; now rewrite Eb|].
  pose proof (minimum_critical frees (fun x => benergy (fld x)) frc (min_sub Yn) x (frc_cont Yn x) Hx r) as H.
  unfold frc in H. assert (In r frees) by (now apply in_frees). specialize (H H0). lra.
Qed.
Theorem minimal_balanced uf : ynn -> bndaff3 V e uf -> (forall wf, bndaff3 V e wf -> benergy uf <= benergy wf) -> forall r, (0 <= r < ndofs V)%Z -> balance3 V uf of r = 0.
Proof.
  intros Yn Bu Min r Hr. destruct (bndb V (v_nz V) (r / v_dim V)) eqn:Eb; [unfold balance3; now rewrite Eb|].
  set (x := fun r => uf r - afield3 V e r). pose proof (van_diff3 V e uf SV DV Bu) as Vu.
  assert (E : forall r, (0 <= r < ndofs V)%Z -> fld x r = uf r).
  { intros q Hq. unfold fld, msk, x. destruct (bndb V (v_nz V) (q / v_dim V)) eqn:Q; [|ring]. specialize (Vu q Hq Q). cbv beta in Vu. lra. }
  assert (Es : forall c g v, In c (els3 V) -> str3 V (fld x) c g v = str3 V uf c g v).
  { intros c g v Hc. apply mstrain_ext. intros i Hi. apply E. rewrite (ndofs3 V DV). now apply (addr3_range V c i). }
  assert (Ee : benergy (fld x) = benergy uf).
  { apply integral_ext. intros c g Hc Hg. apply psi_ext. intros i _. now apply Es. }
  pose proof (minimum_critical frees (fun x => benergy (fld x)) frc (min_sub Yn) x (frc_cont Yn x)) as H. cbv beta in H.
  assert (M : forall y, benergy (fld x) <= benergy (fld y)) by (intros y; rewrite Ee; apply Min, fld_bnd).
  specialize (H M r ltac:(now apply in_frees)). unfold frc in H.
  assert (X : balance3 V (fld x) of r = balance3 V uf of r); [|lra].
  unfold balance3. rewrite Eb. f_equal. unfold force3, mforce. apply rsum_ext. intros c Hc. apply rsum_ext. intros i _. destruct (_ =? _)%Z; [|reflexivity].
  unfold mbe. apply rsum_ext. intros g _. apply rsum_ext. intros v _. f_equal. f_equal. unfold gs3. rewrite (strain3_same V (fld x) uf); [reflexivity|]. intros; now apply Es.
Qed.
Lemma near_field : ypos -> exists D d, 0 <= D /\ 0 < d /\ forall uf n, 0 <= n <= d -> bndaff3 V e uf ->
  benergy uf <= benergy (afield3 V e) + n * rsum (zrange 0 (ndofs V)) (fun r => Rabs (uf r - afield3 V e r)) ->
  forall r, (0 <= r < ndofs V)%Z -> Rabs (uf r - afield3 V e r) <= D.
Proof.
  intros Y. destruct (near_bounded frees (fun x => benergy (fld x)) frc (min_sub (ypos_nn Y)) (min_coercive Y)) as (D & d & D0 & d0 & H).
  exists D, d. split; [exact D0|]. split; [exact d0|]. intros uf n Hn Bu He r Hr. pose proof (van_diff3 V e uf SV DV Bu) as Vu.
  set (x := fun r => uf r - afield3 V e r).
  assert (E : forall r, (0 <= r < ndofs V)%Z -> fld x r = uf r).
  { intros q Hq. unfold fld, msk, x. destruct (bndb V (v_nz V) (q / v_dim V)) eqn:Q; [|ring]. specialize (Vu q Hq Q). cbv beta in Vu. lra. }
  assert (Ee : forall f h, (forall r, (0 <= r < ndofs V)%Z -> f r = h r) -> benergy f = benergy h).
  { intros f h Q. apply integral_ext. intros c g Hc Hg. apply psi_ext. intros i _. apply mstrain_ext. intros j Hj. apply Q. rewrite (ndofs3 V DV). now apply (addr3_range V c j). }
  change (Rabs (x r) <= D).
  destruct (bndb V (v_nz V) (r / v_dim V)) eqn:Eb; [specialize (Vu r Hr Eb); cbv beta in Vu; unfold x; rewrite Vu, Rabs_R0; exact D0|].
  assert (E0 : benergy (fld (fun _ => 0)) = benergy (afield3 V e)).
  { apply Ee. intros q _. unfold fld, msk. destruct (bndb V (v_nz V) (q / v_dim V)); apply Rplus_0_r. }
  apply (H x n Hn); [|now apply in_frees]. rewrite (Ee (fld x) uf E), E0.
  eapply Rle_trans; [exact He|]. apply Rplus_le_compat_l. apply Rmult_le_compat_l; [lra|]. right. symmetry.
  unfold frees. clear - Vu. assert (A : forall r, In r (zrange 0 (ndofs V)) -> (0 <= r < ndofs V)%Z) by (intros; now apply in_zrange). revert A.
  induction (zrange 0 (ndofs V)) as [|a l IH]; intros A; [reflexivity|]. cbn [filter rsum].
  destruct (bndb V (v_nz V) (a / v_dim V)) eqn:Q; cbn [negb rsum]; rewrite IH by (intros; apply A; now right); [|reflexivity].
  specialize (Vu a (A a (or_introl eq_refl)) Q). cbv beta in Vu. rewrite Vu, Rabs_R0. ring.
Qed.
End Body.
