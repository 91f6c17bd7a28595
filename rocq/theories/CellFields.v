(** The cell fields of calc_fields are the means of the Gauss-point fields. *)
From Coq Require Import Reals Lra ZifyBool.
From Verif Require Import Base Scalar EllSpec EllInit Grid EllModel EllAsm EllOp EllFinal EllProps
  CgPure CgTheory CgFinal CgProps AssemblyModel AsmPure AsmBnd AsmRun AsmMat FemGen FemAve FemMat FemMat2 FemDef FemPd FemRhs FemEquil AsmSpec AsmProps MicroModel NewtonBase FieldsBase.
Open Scope Z_scope.
Open Scope R_scope.

Lemma mean3 V (s : Z -> list R) v : 0 < v_dx V -> 0 < v_dy V -> 0 < v_dz V -> (0 <= v < 6)%Z ->
  odiv (lget (fold_left (fun a g => add_ave 6 (s g) (wg3 V) a) (zrange 0 8) (AssemblyModel.zeros 6)) v) (omul (omul (v_dx V) (v_dy V)) (v_dz V)) = rsum (zrange 0 8) (fun g => lget (s g) v) / 8.
Proof.
  intros Hx Hy Hz Hv. rewrite add_ave_fold by exact Hv.
  unfold AssemblyModel.zeros. rewrite lget_ltab by exact Hv. rewrite (rsum_ext _ _ (fun g => wg3 V * lget (s g) v)) by (intros; ring). rewrite rsum_scal, wg3_R.
  cbn [odiv omul ROps]. set (q := rsum _ _). change (ofZ 0) with 0 || idtac. field_simplify_eq; [|lra]. cbn [ofZ ROps dec]. try (unfold dec; cbn [ofZ odiv ROps]); field || lra.
Qed.
Lemma mean2 V (s : Z -> list R) v : 0 < v_dx V -> 0 < v_dy V -> (0 <= v < 3)%Z ->
  odiv (lget (fold_left (fun a g => add_ave 3 (s g) (wg2 V) a) (zrange 0 4) (AssemblyModel.zeros 3)) v) (omul (v_dx V) (v_dy V)) = rsum (zrange 0 4) (fun g => lget (s g) v) / 4.
Proof.
  intros Hx Hy Hv. rewrite add_ave_fold by exact Hv.
  unfold AssemblyModel.zeros. rewrite lget_ltab by exact Hv. rewrite (rsum_ext _ _ (fun g => wg2 V * lget (s g) v)) by (intros; ring). rewrite rsum_scal, wg2_R.
  cbn [odiv omul ROps]. set (q := rsum _ _). cbn [ofZ ROps dec]. unfold dec. cbn [ofZ odiv ROps]. field. lra.
Qed.

Theorem cell_fields3 V u vold vnew es et : body3 V -> full u (ndofs V) -> vars_ok V vold vnew -> alen es = (ncells V * 6)%Z -> alen et = (ncells V * 6)%Z ->
  exists es' et' vn, calc_fields V u vold vnew es et = Ok (es', et', vn) /\
    alen es' = (ncells V * 6)%Z /\ alen et' = (ncells V * 6)%Z /\
    (forall eps, strain_field3 V u eps -> forall ex ey ez v, is_cell3 V ex ey ez -> (0 <= v < 6)%Z ->
       aget es' (cell3 V ex ey ez * 6 + v) = Some (rsum (zrange 0 8) (fun g => eps ex ey ez g v) / 8)) /\
    (forall sig, stress_field3 V u vold vnew sig -> forall ex ey ez v, is_cell3 V ex ey ez -> (0 <= v < 6)%Z ->
       aget et' (cell3 V ex ey ez * 6 + v) = Some (rsum (zrange 0 8) (fun g => sig ex ey ez g v) / 8)).
Proof.
  intros (S & G & D) F W L1 L2. pose proof (full_rep _ _ F) as U. rewrite (ndofs3 V D) in U.
  destruct (fields3_ok V (val u) (val vold) u vold vnew es et S D U (vars_old _ _ _ W) (proj2 W) L1 L2) as (es' & et' & vn & E & L1' & L2' & _ & H).
  exists es', et', vn. split; [exact E|]. split; [exact L1'|]. split; [exact L2'|].
  assert (Hix : forall ex ey ez, cell3 V ex ey ez = ix3 V (ex, ey, ez)) by (intros; unfold cell3, ix3, glo_elem3D; ring).
  pose proof (ge_px _ G) as Hx. pose proof (ge_py _ G) as Hy. pose proof (ge_pz _ G D) as Hz. split.
  - intros eps He ex ey ez v Hc Hv. rewrite Hix. rewrite (proj1 (H (ex, ey, ez) v (proj2 (in_els3 V ex ey ez) Hc) Hv)). f_equal. unfold eaux3. rewrite mean3 by assumption. f_equal.
    apply rsum_ext. intros g Hg. apply in_zrange in Hg. rewrite (proj1 (strain_field3_iff V u eps F D) He) by assumption. now apply strain3_str.
  - intros sig Hs ex ey ez v Hc Hv. rewrite Hix. rewrite (proj2 (H (ex, ey, ez) v (proj2 (in_els3 V ex ey ez) Hc) Hv)). f_equal. unfold aux3. rewrite mean3 by assumption. f_equal.
    apply rsum_ext. intros g Hg. apply in_zrange in Hg. rewrite (proj1 (stress_field3_iff V u vold vnew sig S D F W) Hs) by assumption. reflexivity.
Qed.

Theorem cell_fields2 V u vold vnew es et : body2 V -> full u (ndofs V) -> alen es = (ncells V * 3)%Z -> alen et = (ncells V * 3)%Z ->
  exists es' et', calc_fields V u vold vnew es et = Ok (es', et', vnew) /\
    alen es' = (ncells V * 3)%Z /\ alen et' = (ncells V * 3)%Z /\
    (forall eps, strain_field2 V u eps -> forall ex ey v, is_cell2 V ex ey -> (0 <= v < 3)%Z ->
       aget es' ((ey * (v_nx V - 1) + ex) * 3 + v) = Some (rsum (zrange 0 4) (fun g => eps ex ey g v) / 4)) /\
    (forall sig, stress_field2 V u sig -> forall ex ey v, is_cell2 V ex ey -> (0 <= v < 3)%Z ->
       aget et' ((ey * (v_nx V - 1) + ex) * 3 + v) = Some (rsum (zrange 0 4) (fun g => sig ex ey g v) / 4)).
Proof.
  intros (S & G & D) F L1 L2. pose proof (full_rep _ _ F) as U. rewrite (ndofs2 V S D) in U.
  destruct (fields2_ok V (val u) u vold vnew es et S D U L1 L2) as (es' & et' & E & L1' & L2' & H).
  exists es', et'. split; [exact E|]. split; [exact L1'|]. split; [exact L2'|].
  assert (Hix : forall ex ey, (ey * (v_nx V - 1) + ex)%Z = ix2 V (ex, ey)) by (intros; unfold ix2, glo_elem3D; ring).
  pose proof (ge_px _ G) as Hx. pose proof (ge_py _ G) as Hy. split.
  - intros eps He ex ey v Hc Hv. rewrite Hix. rewrite (proj1 (H (ex, ey) v (proj2 (in_els2 V ex ey) Hc) Hv)). f_equal. unfold eaux2. rewrite mean2 by assumption. f_equal.
    apply rsum_ext. intros g Hg. apply in_zrange in Hg. rewrite (proj1 (strain_field2_iff V u eps S F D) He) by assumption. now apply strain2_str.
  - intros sig Hs ex ey v Hc Hv. rewrite Hix. rewrite (proj2 (H (ex, ey) v (proj2 (in_els2 V ex ey) Hc) Hv)). f_equal. unfold aux2. rewrite mean2 by assumption. f_equal.
    apply rsum_ext. intros g Hg. apply in_zrange in Hg. rewrite (proj1 (stress_field2_iff V u sig S D F) Hs) by assumption. reflexivity.
Qed.
