(** Monotone response of bodies with plastic cells: two states that start from the same history. *)
From Coq Require Import Reals Lra ZifyBool.
From Verif Require Import Base Scalar Grid EllModel EllSpec EllFinal EllProps CgPure CgFinal CgProps AssemblyModel AsmPure AsmBnd FemGen FemAve AsmRun AsmMat
  FemMat FemMat2 FemDef FemPd FemRhs FemEquil PlastProps AsmSpec AsmProps AsmPoint AsmEquil MonoPoint.
Open Scope Z_scope.
Open Scope R_scope.

(** every plastic Gauss point has a non-negative yield stress *)
Definition yield_ok (V : env R) (vold : arr R) : Prop :=
  forall ex ey ez g m, is_cell3 V ex ey ez -> (0 <= g < 8)%Z -> cell_mat V ex ey ez m -> m_plast m = Some true ->
  0 <= m_Sy m + m_Ka m * val vold (var3 V ex ey ez g 6).

Lemma compl_hooke m E : 0 < m_mu m -> 0 < m_lambda m + 2 * m_mu m / 3 -> compliance m (hooke m E) = dot 6 (hooke m E) E.
Proof.
  intros Hm Hk. rewrite dot6. unfold compliance, contract6, dev6, trace6, hooke. cbn [Z.ltb Z.compare Pos.compare Pos.compare_cont]. field. lra.
Qed.
Lemma compl_ext m s t : (forall i, (0 <= i < 6)%Z -> s i = t i) -> compliance m s = compliance m t.
Proof. intros H. unfold compliance, contract6, dev6, trace6. rewrite !H by lia. reflexivity. Qed.
Lemma dot6_ext s t e f : (forall i, (0 <= i < 6)%Z -> s i = t i) -> (forall i, (0 <= i < 6)%Z -> e i = f i) -> dot 6 s e = dot 6 t f.
Proof. intros H K. rewrite !dot6, !H, !K by lia. reflexivity. Qed.
Lemma compl_pos m t : 0 < m_mu m -> 0 < m_lambda m + 2 * m_mu m / 3 -> 0 <= compliance m t.
Proof.
  intros Hm Hk. unfold compliance. apply Rplus_le_le_0_compat; (apply Rmult_le_pos; [|left; apply Rinv_0_lt_compat; lra]).
  - exact (frob2_nonneg (dev6 t)).
  - apply Rle_0_sqr.
Qed.
Lemma compl_zero m t : 0 < m_mu m -> 0 < m_lambda m + 2 * m_mu m / 3 -> compliance m t = 0 -> forall i, (0 <= i < 6)%Z -> t i = 0.
Proof.
  intros Hm Hk H. unfold compliance in H.
  assert (A : 0 <= contract6 (dev6 t) (dev6 t) / (2 * m_mu m)) by (apply Rmult_le_pos; [exact (frob2_nonneg (dev6 t))|left; apply Rinv_0_lt_compat; lra]).
  assert (B : 0 <= trace6 t * trace6 t / (9 * (m_lambda m + 2 * m_mu m / 3))) by (apply Rmult_le_pos; [apply Rle_0_sqr|left; apply Rinv_0_lt_compat; lra]).
  assert (B0 : trace6 t * trace6 t / (9 * (m_lambda m + 2 * m_mu m / 3)) = 0) by lra.
  assert (A0 : contract6 (dev6 t) (dev6 t) / (2 * m_mu m) = 0) by lra.
  assert (Z0 : forall a b, 0 < b -> a / b = 0 -> a = 0).
  { intros a b Hb E. unfold Rdiv in E. apply Rmult_integral in E. destruct E as [E|E]; [exact E|]. pose proof (Rinv_0_lt_compat b Hb). lra. }
  apply Z0 in A0; [|lra]. apply Z0 in B0; [|lra]. apply Rsqr_0_uniq in B0.
  assert (Q : forall a, a * a = 0 -> a = 0) by (intros a Ha; now apply Rsqr_0_uniq).
  assert (W : forall i, (0 <= i < 6)%Z -> dev6 t i = 0).
  { change (frob2 (dev6 t) = 0) in A0. unfold frob2 in A0.
    pose proof (Rle_0_sqr (dev6 t 0)); pose proof (Rle_0_sqr (dev6 t 1)); pose proof (Rle_0_sqr (dev6 t 2));
    pose proof (Rle_0_sqr (dev6 t 3)); pose proof (Rle_0_sqr (dev6 t 4)); pose proof (Rle_0_sqr (dev6 t 5)); unfold Rsqr in *.
    intros i Hi. pattern i. apply case6; [exact Hi|..]; apply Q; lra. }
  intros i Hi. specialize (W i Hi). unfold dev6 in W. rewrite B0 in W. destruct (i <? 3)%Z; lra.
Qed.
(** Young *)
Lemma young m t E : 0 < m_mu m -> 0 < m_lambda m + 2 * m_mu m / 3 -> 2 * dot 6 t E <= compliance m t + dot 6 (hooke m E) E.
Proof.
  intros Hm Hk. set (h := fun i => t i - hooke m E i).
  assert (I : compliance m h = compliance m t - 2 * dot 6 t E + dot 6 (hooke m E) E).
  { rewrite !dot6. unfold compliance, h, contract6, dev6, trace6, hooke. cbn [Z.ltb Z.compare Pos.compare Pos.compare_cont]. field. lra. }
  pose proof (compl_pos m h Hm Hk). lra.
Qed.

(** one Gauss point of any cell *)
Lemma mono_sig3 V of e g e1 e2 : admissible (mat_at V (ix3 V e)) ->
  (plastic_at V (ix3 V e) = true -> 0 <= m_Sy (mat_at V (ix3 V e)) + m_Ka (mat_at V (ix3 V e)) * of (intvar_ix (ix3 V e) g 6)) ->
  let m := mat_at V (ix3 V e) in let D i := lget (sig3 V of e g e1) i - lget (sig3 V of e g e2) i in let E i := lget e1 i - lget e2 i in
  compliance m D <= dot 6 D E <= dot 6 (hooke m E) E.
Proof.
  intros A Hy m D E. fold m in A, Hy. pose proof (adm_mu m A) as Hm. pose proof (adm_k m A) as Hk. pose proof (adm_bulk m A) as Hb.
  destruct (plastic_at V (ix3 V e)) eqn:Ep.
  - pose proof (mono_step m e1 e2 (ltab 6 (fun i => of (intvar_ix (ix3 V e) g i))) (of (intvar_ix (ix3 V e) g 6)) Hm Hk (eq_sym Hb) (Hy eq_refl)) as H.
    cbv zeta in H. unfold D, sig3, step3. rewrite Ep. fold m. exact H.
  - assert (HD : forall i, (0 <= i < 6)%Z -> D i = hooke m E i).
    { intros i Hi. unfold D, sig3. rewrite Ep. fold m. unfold lin_stress3. rewrite !lget_ltab by assumption. cbn [oadd omul ofZ ROps].
      unfold hooke, E. destruct (i <? 3)%Z; ring. }
    rewrite (compl_ext m D (hooke m E) HD), (dot6_ext D (hooke m E) E E HD) by reflexivity. rewrite compl_hooke by lra. lra.
Qed.
Lemma cell_m V ex ey ez m : sane V -> v_dim V = 3%Z -> is_cell3 V ex ey ez -> cell_mat V ex ey ez m ->
  mat_at V (ix3 V (ex, ey, ez)) = m /\ (plastic_at V (ix3 V (ex, ey, ez)) = true <-> m_plast m = Some true).
Proof.
  intros S D Hc Hm. pose proof (cell_mat_at V ex ey ez m Hm) as E. split; [exact E|]. unfold plastic_at. rewrite E.
  destruct (m_plast m) as [[|]|]; split; congruence.
Qed.
Theorem mono_point V vold vnew1 vnew2 ex ey ez g m eps1 eps2 nl1 s1 v1 nl2 s2 v2 :
  body3 V -> vars_ok V vold vnew1 -> vars_ok V vold vnew2 -> is_cell3 V ex ey ez -> (0 <= g < 8)%Z -> cell_mat V ex ey ez m -> admissible m ->
  (m_plast m = Some true -> 0 <= m_Sy m + m_Ka m * val vold (var3 V ex ey ez g 6)) ->
  get_stress3D V vold vnew1 ex ey ez g eps1 = Ok (nl1, s1, v1) -> get_stress3D V vold vnew2 ex ey ez g eps2 = Ok (nl2, s2, v2) ->
  let D i := lget s1 i - lget s2 i in let E i := lget eps1 i - lget eps2 i in
  compliance m D <= dot 6 D E <= dot 6 (hooke m E) E.
Proof.
  intros (S & G & D) W1 W2 Hc Hg Hm A Hy E1 E2. assert (He : In (ex, ey, ez) (els3 V)) by now apply in_els3.
  destruct (cell_m V ex ey ez m S D Hc Hm) as (Em & Ep).
  rewrite (stress3_ok V (val vold) (val vold)) in E1 by (assumption || exact (vars_old _ _ _ W1)).
  rewrite (stress3_ok V (val vold) (val vold)) in E2 by (assumption || exact (vars_old _ _ _ W2)).
  destruct (run_stores _ vnew1) as [x|] in E1; [|discriminate]. injection E1 as _ <- _.
  destruct (run_stores _ vnew2) as [y|] in E2; [|discriminate]. injection E2 as _ <- _.
  pose proof (mono_sig3 V (val vold) (ex, ey, ez) g eps1 eps2) as H. cbv zeta in H. rewrite Em in H. apply H; [exact A|].
  intros P. apply Ep in P. rewrite <- var3_ix. now apply Hy.
Qed.

(** ** bodies *)
Lemma rsum_le {A} (l : list A) f h : (forall x, In x l -> f x <= h x) -> rsum l f <= rsum l h.
Proof. intros H. induction l as [|a l IH]; cbn [rsum]; [lra|]. pose proof (H a (or_introl eq_refl)). assert (rsum l f <= rsum l h) by (apply IH; intros; apply H; now right). lra. Qed.
Lemma quad_le V f h : body3 V -> (forall ex ey ez g, is_cell3 V ex ey ez -> (0 <= g < 8)%Z -> f ex ey ez g <= h ex ey ez g) -> quad_body3 V f <= quad_body3 V h.
Proof.
  intros (S & G & D) H. pose proof (ge_px V G) as Px. pose proof (ge_py V G) as Py. pose proof (ge_pz V G D) as Pz. unfold quad_body3.
  apply rsum_le. intros ex Hx. apply rsum_le. intros ey Hy. apply rsum_le. intros ez Hz. apply rsum_le. intros g Hg.
  apply in_zrange in Hx, Hy, Hz, Hg. apply Rmult_le_compat_r.
  - assert (0 < v_dx V * v_dy V) by (apply Rmult_lt_0_compat; assumption). assert (0 < v_dx V * v_dy V * v_dz V) by (apply Rmult_lt_0_compat; assumption). lra.
  - apply H; unfold is_cell3; lia.
Qed.
Lemma quad_plus V f h : quad_body3 V (fun ex ey ez g => f ex ey ez g + h ex ey ez g) = quad_body3 V f + quad_body3 V h.
Proof.
  unfold quad_body3. rewrite <- rsum_plus. apply rsum_ext. intros ex _. rewrite <- rsum_plus. apply rsum_ext. intros ey _.
  rewrite <- rsum_plus. apply rsum_ext. intros ez _. rewrite <- rsum_plus. apply rsum_ext. intros g _. ring.
Qed.
Lemma quad_minus V f h : quad_body3 V (fun ex ey ez g => f ex ey ez g - h ex ey ez g) = quad_body3 V f - quad_body3 V h.
Proof.
  unfold quad_body3. rewrite <- rsum_minus. apply rsum_ext. intros ex _. rewrite <- rsum_minus. apply rsum_ext. intros ey _.
  rewrite <- rsum_minus. apply rsum_ext. intros ez _. rewrite <- rsum_minus. apply rsum_ext. intros g _. ring.
Qed.
Lemma quad_scal V c f : quad_body3 V (fun ex ey ez g => c * f ex ey ez g) = c * quad_body3 V f.
Proof.
  unfold quad_body3. rewrite <- rsum_scal. apply rsum_ext. intros ex _. rewrite <- rsum_scal. apply rsum_ext. intros ey _.
  rewrite <- rsum_scal. apply rsum_ext. intros ez _. rewrite <- rsum_scal. apply rsum_ext. intros g _. ring.
Qed.
Lemma quad_ext V f h : (forall ex ey ez g, is_cell3 V ex ey ez -> (0 <= g < 8)%Z -> f ex ey ez g = h ex ey ez g) -> quad_body3 V f = quad_body3 V h.
Proof.
  intros H. unfold quad_body3. apply rsum_ext. intros ex Hx. apply rsum_ext. intros ey Hy. apply rsum_ext. intros ez Hz. apply rsum_ext. intros g Hg.
  apply in_zrange in Hx, Hy, Hz, Hg. rewrite H; [reflexivity|unfold is_cell3; lia|lia].
Qed.
Lemma quad_zero V f : body3 V -> (forall ex ey ez g, is_cell3 V ex ey ez -> (0 <= g < 8)%Z -> 0 <= f ex ey ez g) -> quad_body3 V f = 0 ->
  forall ex ey ez g, is_cell3 V ex ey ez -> (0 <= g < 8)%Z -> f ex ey ez g = 0.
Proof.
  intros (S & G & D) H Q ex ey ez g Hc Hg. pose proof (ge_px V G) as Px. pose proof (ge_py V G) as Py. pose proof (ge_pz V G D) as Pz.
  assert (Pw : 0 < v_dx V * v_dy V * v_dz V / 8).
  { assert (0 < v_dx V * v_dy V) by (apply Rmult_lt_0_compat; assumption). assert (0 < v_dx V * v_dy V * v_dz V) by (apply Rmult_lt_0_compat; assumption). lra. }
  set (w := v_dx V * v_dy V * v_dz V / 8) in *. unfold quad_body3 in Q. fold w in Q. destruct Hc as (Hx & Hy & Hz).
  assert (P : forall x y z i, In x (zrange 0 (v_nx V - 1)) -> In y (zrange 0 (v_ny V - 1)) -> In z (zrange 0 (v_nz V - 1)) -> In i (zrange 0 8) -> 0 <= f x y z i * w).
  { intros x y z i A B C I. apply in_zrange in A, B, C, I. apply Rmult_le_pos; [apply H; unfold is_cell3; lia|lra]. }
  assert (Ix : In ex (zrange 0 (v_nx V - 1))) by now apply in_zrange. assert (Iy : In ey (zrange 0 (v_ny V - 1))) by now apply in_zrange.
  assert (Iz : In ez (zrange 0 (v_nz V - 1))) by now apply in_zrange. assert (Ig : In g (zrange 0 8)) by now apply in_zrange.
  apply (rsum_all0 (zrange 0 (v_nx V - 1))) with (a := ex) in Q; [|intros; cbv beta; repeat (apply rsum_nonneg; intros); auto|exact Ix].
  apply (rsum_all0 (zrange 0 (v_ny V - 1))) with (a := ey) in Q; [|intros; cbv beta; repeat (apply rsum_nonneg; intros); auto|exact Iy].
  apply (rsum_all0 (zrange 0 (v_nz V - 1))) with (a := ez) in Q; [|intros; cbv beta; repeat (apply rsum_nonneg; intros); auto|exact Iz].
  apply (rsum_all0 (zrange 0 8)) with (a := g) in Q; [|intros; auto|exact Ig]. rename Q into Q4.
  apply Rmult_integral in Q4. destruct Q4; [assumption|lra].
Qed.

Section Two.
Variables (V : env R) (vold vnew : arr R) (e1 e2 : list R) (u1 u2 b1 b2 : arr R) (n1 n2 : R) (s1 s2 : list R)
  (sig1 sig2 : Z -> Z -> Z -> Z -> Z -> R) (mt : Z -> Z -> Z -> material R) (a1 a2 : Z -> R).
Hypotheses (BD : body3 V) (AD : adm V) (YO : yield_ok V vold) (St1 : state3 V e1 u1 vold b1 n1 s1) (St2 : state3 V e2 u2 vold b2 n2 s2)
  (W : vars_ok V vold vnew) (F1 : stress_field3 V u1 vold vnew sig1) (F2 : stress_field3 V u2 vold vnew sig2)
  (Mt : forall ex ey ez, is_cell3 V ex ey ez -> cell_mat V ex ey ez (mt ex ey ez))
  (A1 : affine_all3 V e1 a1) (A2 : affine_all3 V e2 a2).
Let gap := (n1 + n2) * len (ndofs V) (fun r => (val u1 r - a1 r) - (val u2 r - a2 r)).
Let dS i := lget s1 i - lget s2 i.
Let dE i := lget e1 i - lget e2 i.

Lemma mt_adm ex ey ez : is_cell3 V ex ey ez -> admissible (mt ex ey ez).
Proof.
  intros Hc. destruct BD as (S & G & D). destruct (cell_m V ex ey ez _ S D Hc (Mt _ _ _ Hc)) as (<- & _). apply AD.
  apply (ix3_range V _ D). now apply in_els3.
Qed.
Lemma mono_body3 :
  quad_body3 V (fun ex ey ez g => compliance (mt ex ey ez) (fun i => sig1 ex ey ez g i - sig2 ex ey ez g i)) <= v_lx V * v_ly V * dot 6 dS dE + gap /\
  v_lx V * v_ly V * dot 6 dS dE <= quad_body3 V (fun ex ey ez g => dot 6 (hooke (mt ex ey ez) dE) dE) + gap.
Proof.
  pose proof BD as (S & G & D).
  destruct (state3_parts V e1 u1 vold b1 n1 s1 BD St1) as (U1 & O1 & B1 & Vb1 & N1 & Hs1).
  destruct (state3_parts V e2 u2 vold b2 n2 s2 BD St2) as (U2 & O2 & B2 & Vb2 & N2 & Hs2).
  assert (Fu1 : full u1 (ndofs V)) by now apply rep_full in U1. assert (Fu2 : full u2 (ndofs V)) by now apply rep_full in U2.
  pose proof (proj1 (stress_field3_iff V u1 vold vnew sig1 S D Fu1 W) F1) as G1.
  pose proof (proj1 (stress_field3_iff V u2 vold vnew sig2 S D Fu2 W) F2) as G2.
  set (x1 := fun ex ey ez g v => str3 V (val u1) (ex, ey, ez) g v). set (x2 := fun ex ey ez g v => str3 V (val u2) (ex, ey, ez) g v).
  assert (X1 : strain_field3 V u1 x1) by (apply strain_field3_iff; auto). assert (X2 : strain_field3 V u2 x2) by (apply strain_field3_iff; auto).
  assert (Ab1 : affine_bnd3 V e1 u1) by (destruct St1 as (?&?&?&?&?&?&?&?&?&?); assumption).
  assert (Ab2 : affine_bnd3 V e2 u2) by (destruct St2 as (?&?&?&?&?&?&?&?&?&?); assumption).
  destruct (hill_mandel_body3 V e1 u1 vold vnew b1 n1 s1 sig1 e1 u1 x1 a1 BD St1 W F1 Fu1 Ab1 X1 A1) as (H11 & _).
  destruct (hill_mandel_body3 V e1 u1 vold vnew b1 n1 s1 sig1 e2 u2 x2 a2 BD St1 W F1 Fu2 Ab2 X2 A2) as (H12 & _).
  destruct (hill_mandel_body3 V e2 u2 vold vnew b2 n2 s2 sig2 e1 u1 x1 a1 BD St2 W F2 Fu1 Ab1 X1 A1) as (H21 & _).
  destruct (hill_mandel_body3 V e2 u2 vold vnew b2 n2 s2 sig2 e2 u2 x2 a2 BD St2 W F2 Fu2 Ab2 X2 A2) as (H22 & _).
  set (dd := fun r => (val u1 r - a1 r) - (val u2 r - a2 r)) in *.
  set (ds := fun ex ey ez g i => sig1 ex ey ez g i - sig2 ex ey ez g i).
  set (dx := fun ex ey ez g i => x1 ex ey ez g i - x2 ex ey ez g i).
  set (LW := quad_body3 V (fun ex ey ez g => dot 6 (ds ex ey ez g) (dx ex ey ez g))).
  assert (EW : LW = v_lx V * v_ly V * dot 6 dS dE - rsum (zrange 0 (ndofs V)) (fun r => val b1 r * dd r) + rsum (zrange 0 (ndofs V)) (fun r => val b2 r * dd r)).
  { assert (Q : LW = quad_body3 V (fun ex ey ez g => dot 6 (sig1 ex ey ez g) (x1 ex ey ez g)) - quad_body3 V (fun ex ey ez g => dot 6 (sig1 ex ey ez g) (x2 ex ey ez g))
      - quad_body3 V (fun ex ey ez g => dot 6 (sig2 ex ey ez g) (x1 ex ey ez g)) + quad_body3 V (fun ex ey ez g => dot 6 (sig2 ex ey ez g) (x2 ex ey ez g))).
    { unfold LW. rewrite <- !quad_minus, <- quad_plus. apply quad_ext. intros. rewrite !dot6. unfold ds, dx. ring. }
    rewrite Q. cbv zeta in H11, H12, H21, H22. rewrite H11, H12, H21, H22.
    assert (P : forall b : arr R, rsum (zrange 0 (ndofs V)) (fun r => val b r * dd r) =
      rsum (zrange 0 (ndofs V)) (fun r => val b r * (val u1 r - a1 r)) - rsum (zrange 0 (ndofs V)) (fun r => val b r * (val u2 r - a2 r))).
    { intros b. rewrite <- rsum_minus. apply rsum_ext. intros r _. unfold dd. ring. }
    rewrite !P, !dot6. unfold dS, dE. ring. }
  pose proof (cauchy (ndofs V) (val b1) dd) as C1. pose proof (cauchy (ndofs V) (val b2) dd) as C2. rewrite <- N1 in C1. rewrite <- N2 in C2.
  assert (GAP : Rabs (LW - v_lx V * v_ly V * dot 6 dS dE) <= gap).
  { rewrite EW. unfold gap. fold dd. rewrite Rmult_plus_distr_r.
    replace (_ - _) with (- rsum (zrange 0 (ndofs V)) (fun r => val b1 r * dd r) + rsum (zrange 0 (ndofs V)) (fun r => val b2 r * dd r)) by ring.
    eapply Rle_trans; [apply Rabs_triang|]. rewrite Rabs_Ropp. lra. }
  assert (PT : forall ex ey ez g, is_cell3 V ex ey ez -> (0 <= g < 8)%Z ->
    compliance (mt ex ey ez) (ds ex ey ez g) <= dot 6 (ds ex ey ez g) (dx ex ey ez g)).
  { intros ex ey ez g Hc Hg. destruct (cell_m V ex ey ez _ S D Hc (Mt _ _ _ Hc)) as (Em & Ep).
    pose proof (mono_sig3 V (val vold) (ex, ey, ez) g (strain3 V (val u1) (ex, ey, ez) g) (strain3 V (val u2) (ex, ey, ez) g)) as H.
    cbv zeta in H. rewrite Em in H.
    assert (Y : plastic_at V (ix3 V (ex, ey, ez)) = true -> 0 <= m_Sy (mt ex ey ez) + m_Ka (mt ex ey ez) * val vold (intvar_ix (ix3 V (ex, ey, ez)) g 6)).
    { intros P. apply Ep in P. rewrite <- var3_ix. exact (YO ex ey ez g _ Hc Hg (Mt _ _ _ Hc) P). }
    destruct (H (mt_adm _ _ _ Hc) Y) as (H' & _). clear H.
    erewrite (compl_ext _ (ds ex ey ez g)), (dot6_ext (ds ex ey ez g) _ (dx ex ey ez g)); [exact H'|..].
    - intros i Hi. unfold ds. rewrite G1, G2 by assumption. reflexivity.
    - intros i Hi. unfold dx, x1, x2. rewrite !strain3_str by assumption. reflexivity.
    - intros i Hi. unfold ds. rewrite G1, G2 by assumption. reflexivity. }
  assert (L1 : quad_body3 V (fun ex ey ez g => compliance (mt ex ey ez) (ds ex ey ez g)) <= LW) by (apply quad_le; [exact BD|exact PT]).
  assert (L2 : quad_body3 V (fun ex ey ez g => compliance (mt ex ey ez) (ds ex ey ez g)) <= v_lx V * v_ly V * dot 6 dS dE + gap).
  { pose proof (Rle_abs (LW - v_lx V * v_ly V * dot 6 dS dE)). lra. }
  split; [exact L2|].
  assert (M : v_lx V * v_ly V * dot 6 dS dE = quad_body3 V (fun ex ey ez g => dot 6 (ds ex ey ez g) dE)).
  { assert (I : forall v, (0 <= v < 6)%Z -> v_lx V * v_ly V * dS v = quad_body3 V (fun ex ey ez g => ds ex ey ez g v)).
    { intros v Hv. unfold dS. rewrite Rmult_minus_distr_l, (Hs1 v Hv), (Hs2 v Hv). unfold ds. rewrite quad_minus.
      f_equal; symmetry; apply quad_els3; intros; [now apply G1|now apply G2]. }
    transitivity (dE 0%Z * (v_lx V * v_ly V * dS 0%Z) + dE 1%Z * (v_lx V * v_ly V * dS 1%Z) + dE 2%Z * (v_lx V * v_ly V * dS 2%Z)
      + dE 3%Z * (v_lx V * v_ly V * dS 3%Z) + dE 4%Z * (v_lx V * v_ly V * dS 4%Z) + dE 5%Z * (v_lx V * v_ly V * dS 5%Z)); [rewrite dot6; ring|].
    rewrite !I by lia. rewrite <- !quad_scal, <- !quad_plus. apply quad_ext. intros. rewrite dot6. ring. }
  assert (L3 : 2 * quad_body3 V (fun ex ey ez g => dot 6 (ds ex ey ez g) dE) <=
    quad_body3 V (fun ex ey ez g => compliance (mt ex ey ez) (ds ex ey ez g)) + quad_body3 V (fun ex ey ez g => dot 6 (hooke (mt ex ey ez) dE) dE)).
  { rewrite <- quad_scal, <- quad_plus. apply quad_le; [exact BD|]. intros ex ey ez g Hc Hg. pose proof (mt_adm _ _ _ Hc) as A.
    apply young; [now apply adm_mu|]. rewrite adm_bulk by assumption. now apply adm_k. }
  lra.
Qed.
End Two.
