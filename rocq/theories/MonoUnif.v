(** Consequences of monotone response: one stress field per macro strain, and homogeneous plastic bodies. *)
From Coq Require Import Reals Lra ZifyBool.
From Verif Require Import Base Scalar Grid EllModel EllSpec EllFinal EllProps CgPure CgFinal CgProps AssemblyModel AsmPure AsmBnd FemGen FemAve AsmRun AsmMat
  FemMat FemMat2 FemDef FemPd FemRhs FemEquil PlastProps AsmEx PlastRef AsmSpec AsmProps AsmPoint AsmEquil AsmCases MonoPoint MonoBody.
Open Scope Z_scope.
Open Scope R_scope.

Definition the_mat (V : env R) (ex ey ez : Z) : material R := mat_at V (ix3 V (ex, ey, ez)).
Lemma the_mat_ok V ex ey ez : body3 V -> is_cell3 V ex ey ez -> cell_mat V ex ey ez (the_mat V ex ey ez).
Proof. intros (S & G & D) H. now apply cell_mat_ex. Qed.

(** ** macro monotonicity at equilibrium *)
Theorem macro_monotone3 V vold e1 u1 b1 s1 e2 u2 b2 s2 mt :
  body3 V -> adm V -> yield_ok V vold -> state3 V e1 u1 vold b1 0 s1 -> state3 V e2 u2 vold b2 0 s2 ->
  (forall ex ey ez, is_cell3 V ex ey ez -> cell_mat V ex ey ez (mt ex ey ez)) ->
  let dE i := lget e1 i - lget e2 i in let dS i := lget s1 i - lget s2 i in
  0 <= v_lx V * v_ly V * dot 6 dS dE <= quad_body3 V (fun ex ey ez g => dot 6 (hooke (mt ex ey ez) dE) dE).
Proof.
  intros BD AD YO St1 St2 Mt dE dS. pose proof BD as (S & G & D). pose proof St1 as (vnew & _ & _ & _ & _ & Fu1 & W & _). pose proof St2 as (_ & _ & _ & _ & _ & Fu2 & _).
  pose proof (mono_body3 V vold vnew e1 e2 u1 u2 b1 b2 0 0 s1 s2
    (fun ex ey ez g v => gs3 V (val u1) (val vold) (ex, ey, ez) g v) (fun ex ey ez g v => gs3 V (val u2) (val vold) (ex, ey, ez) g v) mt (afield3 V e1) (afield3 V e2)
    BD AD YO St1 St2 W) as H.
  destruct H as (H1 & H2).
  - apply stress_field3_iff; auto.
  - apply stress_field3_iff; auto.
  - exact Mt.
  - exact (affine_field3 V e1 BD).
  - exact (affine_field3 V e2 BD).
  - rewrite Rplus_0_l, Rmult_0_l, Rplus_0_r in H1, H2. split; [|exact H2]. eapply Rle_trans; [|exact H1].
    apply Rle_trans with (quad_body3 V (fun _ _ _ _ => 0)).
    + right. symmetry. unfold quad_body3. apply rsum_zero. intros. apply rsum_zero. intros. apply rsum_zero. intros. apply rsum_zero. intros. ring.
    + apply quad_le; [exact BD|]. intros ex ey ez g Hc Hg. pose proof (mt_adm V mt BD AD Mt ex ey ez Hc) as A. apply compl_pos; [now apply adm_mu|]. rewrite adm_bulk by assumption. now apply adm_k.
Qed.

(** ** uniqueness of the stresses *)
Theorem unique_stress3 V vold vnew e u1 b1 s1 sig1 u2 b2 s2 sig2 :
  body3 V -> adm V -> yield_ok V vold -> state3 V e u1 vold b1 0 s1 -> state3 V e u2 vold b2 0 s2 -> vars_ok V vold vnew ->
  stress_field3 V u1 vold vnew sig1 -> stress_field3 V u2 vold vnew sig2 ->
  (forall ex ey ez g v, is_cell3 V ex ey ez -> (0 <= g < 8)%Z -> (0 <= v < 6)%Z -> sig1 ex ey ez g v = sig2 ex ey ez g v) /\
  (forall v, (0 <= v < 6)%Z -> lget s1 v = lget s2 v).
Proof.
  intros BD AD YO St1 St2 W F1 F2. pose proof BD as (S & G & D).
  assert (Mt : forall ex ey ez, is_cell3 V ex ey ez -> cell_mat V ex ey ez (the_mat V ex ey ez)) by (intros; now apply the_mat_ok).
  destruct (mono_body3 V vold vnew e e u1 u2 b1 b2 0 0 s1 s2 sig1 sig2 (the_mat V) (afield3 V e) (afield3 V e) BD AD YO St1 St2 W F1 F2 Mt
    (affine_field3 V e BD) (affine_field3 V e BD)) as (H & _).
  rewrite Rplus_0_l, Rmult_0_l, Rplus_0_r in H. rewrite dot6, !Rminus_eq_0, !Rmult_0_r, !Rplus_0_r, Rmult_0_r in H.
  assert (CP : forall ex ey ez g, is_cell3 V ex ey ez -> (0 <= g < 8)%Z -> 0 <= compliance (the_mat V ex ey ez) (fun i => sig1 ex ey ez g i - sig2 ex ey ez g i)).
  { intros ex ey ez g Hc Hg. pose proof (mt_adm V _ BD AD Mt ex ey ez Hc) as A. apply compl_pos; [now apply adm_mu|]. rewrite adm_bulk by assumption. now apply adm_k. }
  assert (Q0 : quad_body3 V (fun ex ey ez g => compliance (the_mat V ex ey ez) (fun i => sig1 ex ey ez g i - sig2 ex ey ez g i)) = 0).
  { apply Rle_antisym; [exact H|]. apply Rle_trans with (quad_body3 V (fun _ _ _ _ => 0)).
    - right. symmetry. unfold quad_body3. apply rsum_zero. intros. apply rsum_zero. intros. apply rsum_zero. intros. apply rsum_zero. intros. ring.
    - apply quad_le; [exact BD|exact CP]. }
  assert (E : forall ex ey ez g v, is_cell3 V ex ey ez -> (0 <= g < 8)%Z -> (0 <= v < 6)%Z -> sig1 ex ey ez g v = sig2 ex ey ez g v).
  { intros ex ey ez g v Hc Hg Hv. pose proof (quad_zero V _ BD CP Q0 ex ey ez g Hc Hg) as Z0. cbv beta in Z0.
    pose proof (mt_adm V _ BD AD Mt ex ey ez Hc) as A. apply compl_zero with (i := v) in Z0; [cbv beta in Z0; lra|now apply adm_mu|rewrite adm_bulk by assumption; now apply adm_k|exact Hv]. }
  split; [exact E|]. intros v Hv.
  destruct (state3_parts V e u1 vold b1 0 s1 BD St1) as (U1 & _ & _ & _ & _ & Hs1).
  destruct (state3_parts V e u2 vold b2 0 s2 BD St2) as (U2 & _ & _ & _ & _ & Hs2).
  assert (Fu1 : full u1 (ndofs V)) by now apply rep_full in U1. assert (Fu2 : full u2 (ndofs V)) by now apply rep_full in U2.
  pose proof (proj1 (stress_field3_iff V u1 vold vnew sig1 S D Fu1 W) F1) as G1.
  pose proof (proj1 (stress_field3_iff V u2 vold vnew sig2 S D Fu2 W) F2) as G2.
  specialize (Hs1 v Hv). specialize (Hs2 v Hv). destruct (geom_pos V S G) as (Px & Py).
  assert (P : 0 < v_lx V * v_ly V) by now apply Rmult_lt_0_compat.
  apply (Rmult_eq_reg_l (v_lx V * v_ly V)); [|lra]. rewrite Hs1, Hs2. unfold integral3. apply rsum_ext. intros [[ex ey] ez] Hc. apply rsum_ext. intros g Hg. apply in_zrange in Hg.
  apply in_els3 in Hc. f_equal. rewrite <- G1, <- G2 by assumption. now apply E.
Qed.

(** ** residuals within tolerance: how far two answers can be apart *)
Lemma quad_one V : body3 V -> quad_body3 V (fun _ _ _ _ => 1) = v_lx V * v_ly V * v_lz V.
Proof.
  intros (S & G & D). unfold quad_body3. pose proof (sa_nx V S). pose proof (sa_ny V S). assert (2 <= v_nz V)%Z by (destruct (sa_dim V S); lia).
  rewrite !rsum_zrange_const by lia. rewrite (ge_x V G), (ge_y V G), (ge_z V G D). rewrite !Z.sub_0_r. field.
Qed.
Lemma quad_cs V f : body3 V -> quad_body3 V f * quad_body3 V f <= v_lx V * v_ly V * v_lz V * quad_body3 V (fun ex ey ez g => f ex ey ez g * f ex ey ez g).
Proof.
  intros BD. pose proof BD as (S & G & D). destruct (geom_pos V S G) as (Px & Py). pose proof (geom_posz V S G D) as Pz.
  set (w := v_lx V * v_ly V * v_lz V). assert (Pw : 0 < w) by (unfold w; repeat apply Rmult_lt_0_compat; assumption).
  set (A := quad_body3 V f). set (Q := quad_body3 V (fun ex ey ez g => f ex ey ez g * f ex ey ez g)).
  assert (N : 0 <= quad_body3 V (fun ex ey ez g => (w * f ex ey ez g - A) * (w * f ex ey ez g - A))).
  { apply Rle_trans with (quad_body3 V (fun _ _ _ _ => 0)).
    - right. symmetry. unfold quad_body3. apply rsum_zero. intros. apply rsum_zero. intros. apply rsum_zero. intros. apply rsum_zero. intros. ring.
    - apply quad_le; [exact BD|]. intros. apply Rle_0_sqr. }
  assert (E : quad_body3 V (fun ex ey ez g => (w * f ex ey ez g - A) * (w * f ex ey ez g - A)) = w * w * Q - 2 * (w * A) * A + A * A * w).
  { pose proof (quad_one V BD) as O. fold w in O. rewrite <- O at 4. unfold Q, A at 4. rewrite <- !quad_scal, <- quad_minus, <- quad_plus.
    apply quad_ext. intros. ring. }
  rewrite E in N. apply (Rmult_le_reg_l w); [exact Pw|]. lra.
Qed.
Lemma sq_compl m t M v : 0 < m_mu m -> 0 < m_lambda m + 2 * m_mu m / 3 -> 2 * m_mu m <= M -> 3 * (m_lambda m + 2 * m_mu m / 3) <= M -> (0 <= v < 6)%Z ->
  t v * t v <= M * compliance m t.
Proof.
  intros Hm Hk M1 M2 Hv. set (k := m_lambda m + 2 * m_mu m / 3) in *. unfold compliance. fold k.
  set (dd := contract6 (dev6 t) (dev6 t)). set (T := trace6 t * trace6 t).
  assert (Pd : 0 <= dd) by exact (frob2_nonneg (dev6 t)). assert (PT : 0 <= T) by apply Rle_0_sqr.
  assert (C : t v * t v <= dd + T / 3).
  { assert (E : dd + T / 3 = frob2 t) by (unfold dd, T, contract6, frob2, dev6, trace6; cbn [Z.ltb Z.compare Pos.compare Pos.compare_cont]; field).
    rewrite E. unfold frob2. pose proof (Rle_0_sqr (t 0%Z)); pose proof (Rle_0_sqr (t 1%Z)); pose proof (Rle_0_sqr (t 2%Z));
      pose proof (Rle_0_sqr (t 3%Z)); pose proof (Rle_0_sqr (t 4%Z)); pose proof (Rle_0_sqr (t 5%Z)); unfold Rsqr in *.
    pattern v. apply case6; [exact Hv|..]; lra. }
  assert (A : dd <= M * (dd / (2 * m_mu m))).
  { replace (M * (dd / (2 * m_mu m))) with (M / (2 * m_mu m) * dd) by (field; lra).
    assert (1 <= M / (2 * m_mu m)) by (apply (Rmult_le_reg_r (2 * m_mu m)); [lra|]; unfold Rdiv; rewrite Rmult_assoc, Rinv_l by lra; lra).
    pose proof (Rmult_le_compat_r dd 1 (M / (2 * m_mu m)) Pd H). lra. }
  assert (B : T / 3 <= M * (T / (9 * k))).
  { replace (M * (T / (9 * k))) with (M / (3 * k) * (T / 3)) by (field; lra).
    assert (1 <= M / (3 * k)) by (apply (Rmult_le_reg_r (3 * k)); [lra|]; unfold Rdiv; rewrite Rmult_assoc, Rinv_l by lra; lra).
    pose proof (Rmult_le_compat_r (T / 3) 1 (M / (3 * k)) ltac:(lra) H). lra. }
  lra.
Qed.
Theorem near_stress3 V vold e u1 b1 n1 s1 u2 b2 n2 s2 M v :
  body3 V -> adm V -> yield_ok V vold -> state3 V e u1 vold b1 n1 s1 -> state3 V e u2 vold b2 n2 s2 ->
  (forall ex ey ez m, is_cell3 V ex ey ez -> cell_mat V ex ey ez m -> 2 * m_mu m <= M /\ 3 * (m_lambda m + 2 * m_mu m / 3) <= M) -> (0 <= v < 6)%Z ->
  v_lx V * v_ly V * ((lget s1 v - lget s2 v) * (lget s1 v - lget s2 v)) <= v_lz V * M * ((n1 + n2) * len (ndofs V) (fun r => val u1 r - val u2 r)).
Proof.
  intros BD AD YO St1 St2 HM Hv. pose proof BD as (S & G & D). pose proof St1 as (vnew & _ & _ & _ & _ & Fu1 & W & _). pose proof St2 as (_ & _ & _ & _ & _ & Fu2 & _).
  assert (Mt : forall ex ey ez, is_cell3 V ex ey ez -> cell_mat V ex ey ez (the_mat V ex ey ez)) by (intros; now apply the_mat_ok).
  set (sig1 := fun ex ey ez g v => gs3 V (val u1) (val vold) (ex, ey, ez) g v). set (sig2 := fun ex ey ez g v => gs3 V (val u2) (val vold) (ex, ey, ez) g v).
  assert (F1 : stress_field3 V u1 vold vnew sig1) by (apply stress_field3_iff; auto).
  assert (F2 : stress_field3 V u2 vold vnew sig2) by (apply stress_field3_iff; auto).
  destruct (mono_body3 V vold vnew e e u1 u2 b1 b2 n1 n2 s1 s2 sig1 sig2 (the_mat V) (afield3 V e) (afield3 V e) BD AD YO St1 St2 W F1 F2 Mt
    (affine_field3 V e BD) (affine_field3 V e BD)) as (H & _).
  rewrite dot6, !Rminus_eq_0, !Rmult_0_r, !Rplus_0_r, Rmult_0_r, Rplus_0_l in H.
  assert (EL : len (ndofs V) (fun r => val u1 r - afield3 V e r - (val u2 r - afield3 V e r)) = len (ndofs V) (fun r => val u1 r - val u2 r)).
  { unfold len. f_equal. apply rsum_ext. intros. ring. }
  rewrite EL in H. set (gap := (n1 + n2) * len (ndofs V) (fun r => val u1 r - val u2 r)) in *.
  destruct (state3_parts V e u1 vold b1 n1 s1 BD St1) as (_ & _ & _ & _ & _ & Hs1).
  destruct (state3_parts V e u2 vold b2 n2 s2 BD St2) as (_ & _ & _ & _ & _ & Hs2).
  set (ds := fun ex ey ez g => sig1 ex ey ez g v - sig2 ex ey ez g v).
  assert (I : v_lx V * v_ly V * (lget s1 v - lget s2 v) = quad_body3 V ds).
  { rewrite Rmult_minus_distr_l, (Hs1 v Hv), (Hs2 v Hv). unfold ds. rewrite quad_minus. f_equal; symmetry; now apply quad_els3. }
  pose proof (quad_cs V ds BD) as CS. rewrite <- I in CS.
  destruct (geom_pos V S G) as (Px & Py). pose proof (geom_posz V S G D) as Pz. assert (P : 0 < v_lx V * v_ly V) by now apply Rmult_lt_0_compat.
  assert (L : quad_body3 V (fun ex ey ez g => ds ex ey ez g * ds ex ey ez g) <= M * gap).
  { apply Rle_trans with (M * quad_body3 V (fun ex ey ez g => compliance (the_mat V ex ey ez) (fun i => sig1 ex ey ez g i - sig2 ex ey ez g i))).
    - rewrite <- quad_scal. apply quad_le; [exact BD|]. intros ex ey ez g Hc Hg. pose proof (mt_adm V _ BD AD Mt ex ey ez Hc) as A.
      destruct (HM ex ey ez _ Hc (Mt ex ey ez Hc)) as (M1 & M2). unfold ds.
      exact (sq_compl (the_mat V ex ey ez) (fun i => sig1 ex ey ez g i - sig2 ex ey ez g i) M v (adm_mu _ A) ltac:(rewrite adm_bulk by assumption; now apply adm_k) M1 M2 Hv).
    - assert (0 <= M). { assert (Hc : is_cell3 V 0 0 0) by (pose proof (sa_nx V S); pose proof (sa_ny V S); assert (2 <= v_nz V)%Z by (destruct (sa_dim V S); lia); unfold is_cell3; lia).
        destruct (HM 0 0 0 _ Hc (Mt _ _ _ Hc))%Z as (M1 & _). pose proof (adm_mu _ (mt_adm V _ BD AD Mt _ _ _ Hc)). lra. }
      now apply Rmult_le_compat_l. }
  assert (Q : v_lx V * v_ly V * (lget s1 v - lget s2 v) * (v_lx V * v_ly V * (lget s1 v - lget s2 v)) <= v_lx V * v_ly V * v_lz V * (M * gap)).
  { eapply Rle_trans; [exact CS|]. apply Rmult_le_compat_l; [|exact L]. left. now apply Rmult_lt_0_compat. }
  apply (Rmult_le_reg_l (v_lx V * v_ly V)); [exact P|]. lra.
Qed.

(** ** homogeneous plastic bodies *)
Lemma const_force3 V (s : Z -> R) r : body3 V -> (0 <= r < ndofs V)%Z -> bndb V (v_nz V) (r / v_dim V) = false ->
  force3 V (fun _ _ v => s v) r = 0.
Proof.
  intros (S & G & D) Hr Hb. set (w := fun a => if (a =? r)%Z then 1 else 0).
  assert (VW : rsum (zrange 0 (ndofs V)) (fun a => w a * force3 V (fun _ _ v => s v) a) = work3 V (fun _ _ v => s v) w).
  { unfold force3, work3. rewrite (ndofs3 V D). apply virtual_work. intros c i Hc Hi. now apply (addr3_range V c i). }
  assert (L : rsum (zrange 0 (ndofs V)) (fun a => w a * force3 V (fun _ _ v => s v) a) = force3 V (fun _ _ v => s v) r).
  { rewrite (rsum_single (zrange 0 (ndofs V)) _ r).
    - unfold w. rewrite Z.eqb_refl. ring.
    - apply NoDup_zrange.
    - now apply in_zrange.
    - intros a _ Na. unfold w. replace (a =? r)%Z with false by lia. ring. }
  rewrite <- L, VW. unfold work3, mwork. change (mstrain 24 (addr3 V) (B3 V)) with (str3 V).
  assert (B : bnd_affine3 V 0 0 0 0 0 0 w).
  { intros i j k c Hi Hj Hk Hc Bd. unfold cmp3, w. destruct (Z.eqb_spec (node (v_nx V) (v_ny V) i j k * 3 + c) r) as [E|E].
    - exfalso. rewrite <- E, D in Hb. replace ((node (v_nx V) (v_ny V) i j k * 3 + c) / 3)%Z with (node (v_nx V) (v_ny V) i j k) in Hb
        by (rewrite Z.div_add_l, (Z.div_small c) by lia; lia).
      apply (proj2 (bndb3_spec V i j k D Hi Hj Hk)) in Bd. congruence.
    - unfold affine3. pattern c. apply case3; [exact Hc|..]; cbn [Z.eqb Pos.eqb]; lra. }
  transitivity (rsum (zrange 0 6) (fun v => s v * rsum (els3 V) (fun e => rsum (zrange 0 8) (fun g => str3 V w e g v * wg3 V)))).
  - transitivity (rsum (els3 V) (fun e => rsum (zrange 0 6) (fun v => rsum (zrange 0 8) (fun g => s v * (str3 V w e g v * wg3 V))))).
    + apply rsum_ext. intros e _. rewrite rsum_swap. apply rsum_ext. intros v _. apply rsum_ext. intros g _. ring.
    + rewrite rsum_swap. apply rsum_ext. intros v _. rewrite <- rsum_scal. apply rsum_ext. intros e _. now rewrite rsum_scal.
  - apply rsum_zero. intros v Hv. apply in_zrange in Hv. rewrite (strain_ave3 V 0 0 0 0 0 0 w v S D G B Hv).
    assert (Z0 : voigt6 0 0 0 0 0 0 v = 0) by (pattern v; apply case6; [exact Hv|..]; reflexivity). rewrite Z0. ring.
Qed.

(** every cell has the plastic material m and the same plastic strain and hardening *)
Definition one_plastic (V : env R) (m : material R) (vold : arr R) (ep : Z -> R) (al : R) : Prop :=
  m_plast m = Some true /\ (forall ex ey ez, is_cell3 V ex ey ez -> cell_mat V ex ey ez m) /\
  forall ex ey ez g, is_cell3 V ex ey ez -> (0 <= g < 8)%Z ->
    (forall i, (0 <= i < 6)%Z -> aget vold (var3 V ex ey ez g i) = Some (ep i)) /\ aget vold (var3 V ex ey ez g 6) = Some al.

Lemma step_ext_eps m e1 e2 ep al : (forall i, (0 <= i < 6)%Z -> lget e1 i = lget e2 i) -> plastic_step m e1 ep al = plastic_step m e2 ep al.
Proof.
  intros H. unfold plastic_step.
  assert (D : dev e1 = dev e2) by (unfold dev, ltab; apply map_ext_in; intros i Hi; apply in_zrange in Hi; now rewrite !H by lia).
  rewrite D. cbv zeta. f_equal. apply map_ext_in. intros i Hi. apply in_zrange in Hi. rewrite !H by lia. reflexivity.
Qed.
Lemma cell_coords V c : sane V -> v_dim V = 3%Z -> (0 <= c < ncells V)%Z -> exists ex ey ez, is_cell3 V ex ey ez /\ c = ix3 V (ex, ey, ez).
Proof.
  intros S D Hc. pose proof (sa_nx V S) as Hx. pose proof (sa_ny V S) as Hy. unfold ncells, nelem in Hc. rewrite D in Hc. cbn [Z.eqb Pos.eqb] in Hc.
  set (a := (v_nx V - 1)%Z) in *. set (b := (v_ny V - 1)%Z) in *. set (z := (v_nz V - 1)%Z) in *.
  exists (c mod a)%Z, ((c / a) mod b)%Z, (c / a / b)%Z. unfold is_cell3, ix3, glo_elem3D. fold a b z.
  assert (0 < a)%Z by lia. assert (0 < b)%Z by lia.
  pose proof (Z.mod_pos_bound c a ltac:(lia)). pose proof (Z.mod_pos_bound (c / a) b ltac:(lia)).
  pose proof (Z.div_mod c a ltac:(lia)) as D1. pose proof (Z.div_mod (c / a) b ltac:(lia)) as D2.
  assert (0 <= c / a)%Z by (apply Z.div_pos; lia). assert (0 <= c / a / b)%Z by (apply Z.div_pos; lia).
  split; [split; [lia|split; [lia|]]|].
  - split; [assumption|]. apply Z.div_lt_upper_bound; [lia|]. apply Z.div_lt_upper_bound; [lia|]. lia.
  - nia.
Qed.
Lemma first_cell V : body3 V -> is_cell3 V 0 0 0.
Proof. intros (S & G & D). pose proof (sa_nx V S). pose proof (sa_ny V S). assert (2 <= v_nz V)%Z by (destruct (sa_dim V S); lia). unfold is_cell3. lia. Qed.

Section Unif.
Variables (V : env R) (m : material R) (vold vnew : arr R) (ep : Z -> R) (al : R) (e : list R).
Hypotheses (BD : body3 V) (AM : admissible m) (U : one_plastic V m vold ep al) (Hy : 0 <= m_Sy m + m_Ka m * al) (W : alen vnew = (ncells V * 56)%Z).
Let p := plastic_step m e (ltab 6 ep) al.

Lemma unif_vars : vars_ok V vold vnew.
Proof.
  split; [|exact W]. destruct BD as (S & G & D). intros c g i Hc Hg Hi _. destruct (cell_coords V c S D Hc) as (ex & ey & ez & Hcell & ->).
  destruct U as (_ & _ & H). destruct (H ex ey ez g Hcell Hg) as (H1 & H2).
  change (ix3 V (ex, ey, ez) * 8 * 7 + g * 7 + i)%Z with (intvar_ix (ix3 V (ex, ey, ez)) g i). rewrite <- var3_ix.
  destruct (Z.eq_dec i 6) as [-> | N]; [eauto|]. exists (ep i). apply H1. lia.
Qed.
Lemma unif_adm : adm V.
Proof.
  intros c Hc. destruct BD as (S & G & D). destruct (cell_coords V c S D Hc) as (ex & ey & ez & Hcell & ->).
  destruct U as (_ & H & _). rewrite (cell_mat_at V ex ey ez m (H _ _ _ Hcell)). exact AM.
Qed.
Lemma unif_yield : yield_ok V vold.
Proof.
  intros ex ey ez g m' Hc Hg Hm _. destruct BD as (S & G & D). destruct U as (_ & H & H2).
  rewrite <- (cell_mat_at V ex ey ez m' Hm), (cell_mat_at V ex ey ez m (H _ _ _ Hc)).
  unfold val. rewrite (proj2 (H2 ex ey ez g Hc Hg)). exact Hy.
Qed.
Lemma unif_gs uf ex ey ez g v : is_cell3 V ex ey ez -> (0 <= g < 8)%Z -> (forall i, (0 <= i < 6)%Z -> str3 V uf (ex, ey, ez) g i = lget e i) ->
  gs3 V uf (val vold) (ex, ey, ez) g v = lget (ps_stress p) v.
Proof.
  intros Hc Hg Hs. destruct BD as (S & G & D). destruct U as (Pl & H & H2). pose proof (cell_mat_at V ex ey ez m (H _ _ _ Hc)) as Em.
  assert (Ep : plastic_at V (ix3 V (ex, ey, ez)) = true) by (unfold plastic_at; now rewrite Em, Pl).
  unfold gs3, sig3, step3. rewrite Ep, Em. unfold p. f_equal. f_equal.
  rewrite (step_ext_eps m (strain3 V uf (ex, ey, ez) g) e) by (intros i Hi; rewrite strain3_str by assumption; auto).
  destruct (H2 ex ey ez g Hc Hg) as (Q1 & Q2).
  assert (E1 : ltab 6 (fun i => val vold (intvar_ix (ix3 V (ex, ey, ez)) g i)) = ltab 6 ep).
  { unfold ltab. apply map_ext_in. intros i Hi. apply in_zrange in Hi. rewrite <- var3_ix. unfold val. now rewrite Q1. }
  assert (E2 : val vold (intvar_ix (ix3 V (ex, ey, ez)) g 6) = al) by (rewrite <- var3_ix; unfold val; now rewrite Q2).
  now rewrite E1, E2.
Qed.
Lemma unif_state : exists u b' s, state3 V e u vold b' 0 s /\ forall v, (0 <= v < 6)%Z -> lget s v = v_lz V * lget (ps_stress p) v.
Proof.
  pose proof BD as (S & G & D). set (u := fun_arr (ndofs V) (afield3 V e)). set (b := fun_arr (ndofs V) (fun _ => 0)).
  assert (Ru : rep u (ndofs V) (afield3 V e)) by apply fun_arr_rep. pose proof (rep_full _ _ _ Ru) as Fu. pose proof unif_vars as Wv. pose proof (vars_old _ _ _ Wv) as O.
  destruct (residual3 V (afield3 V e) (val vold) u vold vnew b S D Ru O W) as (b' & nl & v1 & n & E & Rb & En); [apply fun_arr_rep|].
  destruct (ave_stress3 V u (afield3 V e) (val vold) vold vnew S G D Ru O W) as (s & v2 & Es & Hs).
  assert (Gs : forall c g v, In c (els3 V) -> (0 <= g < 8)%Z -> gs3 V (afield3 V e) (val vold) c g v = lget (ps_stress p) v).
  { intros [[ex ey] ez] g v Hc Hg. apply unif_gs; [now apply in_els3 in Hc|exact Hg|]. intros i Hi. now apply str3_afield. }
  assert (B0 : forall r, (0 <= r < ndofs V)%Z -> balance3 V (afield3 V e) (val vold) r = 0).
  { intros r Hr. unfold balance3. destruct (bndb V (v_nz V) (r / v_dim V)) eqn:Eb; [reflexivity|].
    rewrite <- Ropp_0. f_equal. rewrite <- (const_force3 V (lget (ps_stress p)) r BD Hr Eb). unfold force3, mforce. apply rsum_ext. intros c Hc.
    apply rsum_ext. intros i _. destruct (_ =? _)%Z; [|reflexivity]. unfold mbe. apply rsum_ext. intros g Hg. apply in_zrange in Hg. apply rsum_ext. intros v _.
    now rewrite Gs. }
  assert (N0 : n = 0).
  { rewrite En. rewrite rsum_zero; [apply sqrt_0|]. intros r Hr. apply in_zrange in Hr. rewrite (B0 r Hr). ring. }
  subst n. exists u, b', s. split.
  - exists vnew, b, nl, v1, v2. split; [exact Fu|]. split; [exact Wv|]. split; [apply fun_arr_rep|]. split; [|rewrite N0 in E; split; assumption].
    intros i j k Hn _. destruct (affine_field3 V e BD i j k Hn) as (X0 & X1 & X2). cbv zeta in *. rewrite <- X0, <- X1, <- X2.
    assert (Rg : forall c, (0 <= c < 3)%Z -> (0 <= dof3 V i j k c < ndofs V)%Z).
    { intros c Hc. now apply dof3_range. }
    repeat split; apply Ru; apply Rg; lia.
  - intros v Hv. rewrite (Hs v Hv), (geom_vol3 V D G). f_equal.
    assert (I : integral3 V (fun c g => gs3 V (afield3 V e) (val vold) c g v) = lget (ps_stress p) v * (v_lx V * v_ly V * v_lz V)).
    { rewrite <- (quad_one V BD), <- quad_scal. symmetry. apply quad_els3. intros ex ey ez g Hc Hg. rewrite Gs; [ring|now apply in_els3|exact Hg]. }
    rewrite I. destruct (geom_pos V S G). pose proof (geom_posz V S G D). field. lra.
Qed.
End Unif.

Theorem homogeneous_plastic3 V m vold vnew ep al e nl t vn : body3 V -> admissible m -> one_plastic V m vold ep al -> 0 <= m_Sy m + m_Ka m * al ->
  alen vnew = (ncells V * 56)%Z -> get_stress3D V vold vnew 0 0 0 0 e = Ok (nl, t, vn) ->
  (exists u b' s, state3 V e u vold b' 0 s) /\
  (forall u b' s, state3 V e u vold b' 0 s -> forall v, (0 <= v < 6)%Z -> lget s v = v_lz V * lget t v).
Proof.
  intros BD AM U Hy W E. destruct (unif_state V m vold vnew ep al e BD U W) as (u0 & b0 & s0 & St0 & H0).
  assert (Et : forall v, lget t v = lget (ps_stress (plastic_step m e (ltab 6 ep) al)) v).
  { pose proof (first_cell V BD) as Hc. pose proof U as (Pl & Hm & H2).
    destruct (point_step V vold vnew 0 0 0 0 e m BD (unif_vars V m vold vnew ep al BD U W) Hc ltac:(lia) (Hm _ _ _ Hc) Pl) as (vn' & E' & _).
    rewrite E in E'. injection E' as _ -> _. intros v. destruct (H2 0 0 0 0 Hc ltac:(lia))%Z as (Q1 & Q2).
    assert (E1 : ltab 6 (fun i => val vold (var3 V 0 0 0 0 i)) = ltab 6 ep).
    { unfold ltab. apply map_ext_in. intros i Hi. apply in_zrange in Hi. unfold val. now rewrite Q1. }
    assert (E2 : val vold (var3 V 0 0 0 0 6) = al) by (unfold val; now rewrite Q2). now rewrite E1, E2. }
  split; [eauto|]. intros u b' s St v Hv. rewrite Et, <- H0 by assumption.
  pose proof (unif_vars V m vold vnew ep al BD U W) as Wv. pose proof BD as (S & G & D).
  assert (Fu : full u (ndofs V)) by (destruct St as (?&?&?&?&?&F&_); exact F). assert (Fu0 : full u0 (ndofs V)) by (destruct St0 as (?&?&?&?&?&F&_); exact F).
  refine (proj2 (unique_stress3 V vold vnew e u b' s _ u0 b0 s0 _ BD (unif_adm V m vold ep al BD AM U) (unif_yield V m vold ep al BD U Hy) St St0 Wv _ _) v Hv).
  - apply stress_field3_iff; try assumption. intros; reflexivity.
  - apply stress_field3_iff; try assumption. intros; reflexivity.
Qed.
