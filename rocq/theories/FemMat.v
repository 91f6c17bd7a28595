(** The assembled stiffness in exact arithmetic. *)
From Coq Require Import Reals Lra ZifyBool.
From Verif Require Import Base Scalar EllSpec EllInit Grid EllModel EllAsm EllOp EllBc EllBc2 EllFinal EllProps
  CgPure CgTheory CgFinal CgProps AssemblyModel AsmPure AsmBnd AsmRun AsmMat FemGen FemAve.
Open Scope Z_scope.
Open Scope R_scope.

(** ** Constitutive matrices *)
Lemma zr3 : zrange 0 3 = [0; 1; 2]%Z. Proof. reflexivity. Qed.
Lemma zr6 : zrange 0 6 = [0; 1; 2; 3; 4; 5]%Z. Proof. reflexivity. Qed.

Lemma case3 (P : Z -> Prop) v : (0 <= v < 3)%Z -> P 0%Z -> P 1%Z -> P 2%Z -> P v.
Proof. intros H; assert (C : v = 0%Z \/ v = 1%Z \/ v = 2%Z) by lia. now destruct C as [->|[->| ->]]. Qed.
Lemma case6 (P : Z -> Prop) v : (0 <= v < 6)%Z -> P 0%Z -> P 1%Z -> P 2%Z -> P 3%Z -> P 4%Z -> P 5%Z -> P v.
Proof.
  intros H; assert (C : v = 0%Z \/ v = 1%Z \/ v = 2%Z \/ v = 3%Z \/ v = 4%Z \/ v = 5%Z) by lia.
  now destruct C as [->|[->|[->|[->|[->| ->]]]]].
Qed.

Lemma lin_stress_ctan la mu (eps : list R) i : (0 <= i < 6)%Z ->
  lget (lin_stress3 la mu eps) i = rsum (zrange 0 6) (fun j => ctan3 la mu i j * lget eps j).
Proof.
  intros H. unfold lin_stress3. rewrite lget_ltab by assumption. rewrite zr6. cbn [rsum].
  pattern i. apply case6; [exact H|..]; unfold ctan3; cbn [Z.ltb Z.eqb Z.compare Pos.compare Pos.compare_cont Pos.eqb andb oadd omul ofZ ROps]; ring.
Qed.

Lemma stress2_ctan E nu (eps : list R) i : (0 <= i < 3)%Z ->
  lget (stress2 E nu eps) i = rsum (zrange 0 3) (fun j => ctan2 E nu i j * lget eps j).
Proof. intros H. unfold stress2. rewrite lget_ltab by assumption. apply sumf_R. Qed.

Lemma ctan3_sym la mu i j : (ctan3 la mu i j : R) = ctan3 la mu j i.
Proof. unfold ctan3. rewrite (Z.eqb_sym i j). destruct (Z.eqb_spec j i) as [->|]; [reflexivity|]. now rewrite andb_comm. Qed.
Lemma ctan2_sym E nu i j : (ctan2 E nu i j : R) = ctan2 E nu j i.
Proof.
  unfold ctan2. f_equal. destruct i as [|[p|[p|p|]|]|p], j as [|[q|[q|q|]|]|q]; try reflexivity.
Qed.

(** quadratic forms *)
Definition quad (nv : Z) (C : Z -> Z -> R) (e : Z -> R) : R :=
  rsum (zrange 0 nv) (fun m => rsum (zrange 0 nv) (fun k => C m k * e k) * e m).

Lemma quad3 la mu e : quad 6 (ctan3 la mu) e =
  (la + 2 * mu / 3) * ((e 0%Z + e 1%Z + e 2%Z) * (e 0%Z + e 1%Z + e 2%Z))
  + 2 * mu / 3 * ((e 0%Z - e 1%Z) * (e 0%Z - e 1%Z) + (e 1%Z - e 2%Z) * (e 1%Z - e 2%Z) + (e 0%Z - e 2%Z) * (e 0%Z - e 2%Z))
  + mu * (e 3%Z * e 3%Z + e 4%Z * e 4%Z + e 5%Z * e 5%Z).
Proof.
  unfold quad. rewrite zr6. cbn [rsum].
  unfold ctan3; cbn [Z.ltb Z.eqb Z.compare Pos.compare Pos.compare_cont Pos.eqb andb oadd omul ofZ ROps]. field.
Qed.

Lemma quad2 E nu e : 1 + nu <> 0 -> 1 - 2 * nu <> 0 -> quad 3 (ctan2 E nu) e =
  E / ((1 + nu) * (1 - 2 * nu)) / 2 * ((e 0%Z + e 1%Z) * (e 0%Z + e 1%Z))
  + E / (1 + nu) / 2 * ((e 0%Z - e 1%Z) * (e 0%Z - e 1%Z))
  + E / (1 + nu) / 2 * (e 2%Z * e 2%Z).
Proof.
  intros H1 H2. unfold quad. rewrite zr3. cbn [rsum]. unfold ctan2. cbn [oadd omul osub odiv ofZ ROps]. field. auto.
Qed.

Lemma sq_nonneg x : 0 <= x * x. Proof. nra. Qed.

Lemma quad3_pos la mu e : 0 < mu -> 0 < la + 2 * mu / 3 ->
  0 <= quad 6 (ctan3 la mu) e /\
  (quad 6 (ctan3 la mu) e = 0 -> forall v, (0 <= v < 6)%Z -> e v = 0).
Proof.
  intros Hm Hk. rewrite quad3.
  set (t := e 0%Z + e 1%Z + e 2%Z). set (a := e 0%Z - e 1%Z). set (b := e 1%Z - e 2%Z). set (c := e 0%Z - e 2%Z).
  pose proof (Rmult_le_pos _ _ (Rlt_le _ _ Hk) (sq_nonneg t)) as P1.
  assert (Hm3 : 0 < 2 * mu / 3) by lra.
  pose proof (Rmult_le_pos _ _ (Rlt_le _ _ Hm3) (sq_nonneg a)) as P2.
  pose proof (Rmult_le_pos _ _ (Rlt_le _ _ Hm3) (sq_nonneg b)) as P3.
  pose proof (Rmult_le_pos _ _ (Rlt_le _ _ Hm3) (sq_nonneg c)) as P4.
  pose proof (Rmult_le_pos _ _ (Rlt_le _ _ Hm) (sq_nonneg (e 3%Z))) as P5.
  pose proof (Rmult_le_pos _ _ (Rlt_le _ _ Hm) (sq_nonneg (e 4%Z))) as P6.
  pose proof (Rmult_le_pos _ _ (Rlt_le _ _ Hm) (sq_nonneg (e 5%Z))) as P7.
  rewrite !Rmult_plus_distr_l. split; [lra|]. intros Z0.
  assert (Sq : forall k x, 0 < k -> k * (x * x) = 0 -> x = 0).
  { intros k x K Q. apply Rmult_integral in Q. destruct Q as [Q|Q]; [lra|]. apply Rsqr_0_uniq in Q. exact Q. }
  assert (t = 0) by (apply (Sq _ _ Hk); lra).
  assert (a = 0) by (apply (Sq _ _ Hm3); lra).
  assert (b = 0) by (apply (Sq _ _ Hm3); lra).
  assert (e 3%Z = 0) by (apply (Sq _ _ Hm); lra).
  assert (e 4%Z = 0) by (apply (Sq _ _ Hm); lra).
  assert (e 5%Z = 0) by (apply (Sq _ _ Hm); lra).
  unfold t, a, b in *. intros v Hv. pattern v. apply case6; [exact Hv|..]; lra.
Qed.

Lemma quad2_pos E nu e : 0 < E -> -1 < nu -> nu < 1 / 2 ->
  0 <= quad 3 (ctan2 E nu) e /\
  (quad 3 (ctan2 E nu) e = 0 -> forall v, (0 <= v < 3)%Z -> e v = 0).
Proof.
  intros HE H1 H2. rewrite quad2 by lra.
  assert (K1 : 0 < E / ((1 + nu) * (1 - 2 * nu)) / 2)
    by (apply Rdiv_lt_0_compat; [apply Rdiv_lt_0_compat; [lra|apply Rmult_lt_0_compat; lra]|lra]).
  assert (K2 : 0 < E / (1 + nu) / 2) by (apply Rdiv_lt_0_compat; [apply Rdiv_lt_0_compat; lra|lra]).
  set (t := e 0%Z + e 1%Z). set (a := e 0%Z - e 1%Z).
  pose proof (Rmult_le_pos _ _ (Rlt_le _ _ K1) (sq_nonneg t)) as P1.
  pose proof (Rmult_le_pos _ _ (Rlt_le _ _ K2) (sq_nonneg a)) as P2.
  pose proof (Rmult_le_pos _ _ (Rlt_le _ _ K2) (sq_nonneg (e 2%Z))) as P3.
  split; [lra|]. intros Z0.
  assert (Sq : forall k x, 0 < k -> k * (x * x) = 0 -> x = 0).
  { intros k x K Q. apply Rmult_integral in Q. destruct Q as [Q|Q]; [lra|]. apply Rsqr_0_uniq in Q. exact Q. }
  assert (t = 0) by (apply (Sq _ _ K1); lra).
  assert (a = 0) by (apply (Sq _ _ K2); lra).
  assert (e 2%Z = 0) by (apply (Sq _ _ K2); lra).
  unfold t, a in *. intros v Hv. pattern v. apply case3; [exact Hv|..]; lra.
Qed.

(** ** Element matrices as sums *)
Lemma emat3_entry V uf of e i j : (0 <= i < 24)%Z -> (0 <= j < 24)%Z ->
  lget (emat3 V uf of e) (i * 24 + j) = rsum (zrange 0 8) (fun g => rsum (zrange 0 6) (fun m =>
    B3 V g m i * rsum (zrange 0 6) (fun k => tan3 V uf of e g m k * B3 V g k j) * wg3 V)).
Proof.
  intros Hi Hj. unfold emat3. rewrite (add_mat_fold 6 24 (fun g => B3 V g) (fun g => tan3 V uf of e g)) by assumption.
  rewrite lget_zeros by lia. ring.
Qed.
Definition tan2 (V : env R) (e : Z * Z) : Z -> Z -> R :=
  ctan2 (m_E (mat_at V (ix2 V e))) (m_nu (mat_at V (ix2 V e))).
Lemma emat2_entry V e i j : (0 <= i < 8)%Z -> (0 <= j < 8)%Z ->
  lget (emat2 V e) (i * 8 + j) = rsum (zrange 0 4) (fun g => rsum (zrange 0 3) (fun m =>
    B2 V g m i * rsum (zrange 0 3) (fun k => tan2 V e m k * B2 V g k j) * wg2 V)).
Proof.
  intros Hi Hj. unfold emat2. rewrite (add_mat_fold 3 8 (fun g => B2 V g) (fun g => tan2 V e)) by assumption.
  rewrite lget_zeros by lia. ring.
Qed.

Lemma sym_entry nv gs (B : Z -> Z -> Z -> R) (C : Z -> Z -> Z -> R) wg i j :
  (forall g m k, C g m k = C g k m) ->
  rsum gs (fun g => rsum (zrange 0 nv) (fun m => B g m i * rsum (zrange 0 nv) (fun k => C g m k * B g k j) * wg))
  = rsum gs (fun g => rsum (zrange 0 nv) (fun m => B g m j * rsum (zrange 0 nv) (fun k => C g m k * B g k i) * wg)).
Proof.
  intros H. apply rsum_ext. intros g _.
  assert (X : forall i j, rsum (zrange 0 nv) (fun m => B g m i * rsum (zrange 0 nv) (fun k => C g m k * B g k j) * wg)
    = rsum (zrange 0 nv) (fun m => rsum (zrange 0 nv) (fun k => B g m i * C g m k * B g k j * wg))).
  { intros i' j'. apply rsum_ext. intros m _. rewrite <- rsum_scal, <- rsum_scal_r. apply rsum_ext. intros k _. ring. }
  rewrite !X. rewrite rsum_swap. apply rsum_ext. intros k _. apply rsum_ext. intros m _. rewrite (H g m k). ring.
Qed.

(** ** Forces of a field *)
Definition force3 (V : env R) := mforce (els3 V) 24 6 (zrange 0 8) (addr3 V) (B3 V) (wg3 V).
Definition force2 (V : env R) := mforce (els2 V) 8 3 (zrange 0 4) (addr2 V) (B2 V) (wg2 V).
Definition work3 (V : env R) := mwork (els3 V) 24 6 (zrange 0 8) (addr3 V) (B3 V) (wg3 V).
Definition work2 (V : env R) := mwork (els2 V) 8 3 (zrange 0 4) (addr2 V) (B2 V) (wg2 V).
(** tangent stress of a displacement update *)
Definition tsig3 (V : env R) uf of w (e : Z * Z * Z) (g m : Z) : R :=
  rsum (zrange 0 6) (fun k => tan3 V uf of e g m k * str3 V w e g k).
Definition tsig2 (V : env R) w (e : Z * Z) (g m : Z) : R :=
  rsum (zrange 0 3) (fun k => tan2 V e m k * str2 V w e g k).

Lemma addr3_range V e i : In e (els3 V) -> (0 <= i < 24)%Z -> (0 <= addr3 V e i < v_nx V * v_ny V * v_nz V * 3)%Z.
Proof.
  destruct e as [[ex ey] ez]. intros He Hi. apply in_els3 in He. destruct He as (H1 & H2 & H3). unfold addr3.
  assert (0 <= i / 3 < 8)%Z by (Z.div_mod_to_equations; lia).
  pose proof (corner3_range (v_nx V) (v_ny V) (v_nz V) ex ey ez (i / 3) H1 H2 H3). pose proof (Z.mod_pos_bound i 3). nia.
Qed.
Lemma addr2_range V e i : In e (els2 V) -> (0 <= i < 8)%Z -> (0 <= addr2 V e i < v_nx V * v_ny V * 2)%Z.
Proof.
  destruct e as [ex ey]. intros He Hi. apply in_els2 in He. destruct He as (H1 & H2). unfold addr2.
  assert (0 <= i / 2 < 4)%Z by (Z.div_mod_to_equations; lia).
  pose proof (corner2_range (v_nx V) (v_ny V) ex ey (i / 2) H1 H2). pose proof (Z.mod_pos_bound i 2). nia.
Qed.

Lemma addr3_kd V ex ey ez k d : (0 <= d < 3)%Z ->
  addr3 V (ex, ey, ez) (k * 3 + d) = (corner3 (v_nx V) (v_ny V) ex ey ez k * 3 + d)%Z.
Proof.
  intros Hd. unfold addr3. rewrite Z.div_add_l by lia. rewrite (Z.div_small d) by lia. rewrite Z.add_0_r.
  rewrite (Z.add_comm (k * 3)), Z.mod_add, Z.mod_small by lia. reflexivity.
Qed.
Lemma addr2_kd V ex ey k d : (0 <= d < 2)%Z ->
  addr2 V (ex, ey) (k * 2 + d) = (corner2 (v_nx V) (v_ny V) ex ey k * 2 + d)%Z.
Proof.
  intros Hd. unfold addr2. rewrite Z.div_add_l by lia. rewrite (Z.div_small d) by lia. rewrite Z.add_0_r.
  rewrite (Z.add_comm (k * 2)), Z.mod_add, Z.mod_small by lia. reflexivity.
Qed.

Lemma elem_sum_force3 V uf of x n d1 : (0 <= d1 < 3)%Z ->
  elem_sum 8 3 (corner3e (v_nx V) (v_ny V)) (fun e => lget (emat3 V uf of e)) (els3 V) x n d1
  = force3 V (tsig3 V uf of x) (n * 3 + d1).
Proof.
  intros Hd. unfold elem_sum, force3, mforce. apply rsum_ext. intros [[ex ey] ez] He. cbn [corner3e].
  rewrite (rsum_zrange_prod 8 3) by lia. apply rsum_ext. intros k Hk. apply in_zrange in Hk.
  rewrite (rsum_single (zrange 0 3) _ d1); [|apply NoDup_zrange|now apply in_zrange|].
  - rewrite addr3_kd by assumption.
    replace (corner3 (v_nx V) (v_ny V) ex ey ez k * 3 + d1 =? n * 3 + d1)%Z
      with (corner3 (v_nx V) (v_ny V) ex ey ez k =? n)%Z by lia.
    destruct (_ =? n)%Z; [|reflexivity].
    unfold tsig3, str3. rewrite <- (stiff_force 24 6 (zrange 0 8) (addr3 V) (B3 V) (wg3 V) (tan3 V uf of) x (ex, ey, ez) (k * 3 + d1)).
    rewrite (rsum_zrange_prod 8 3) by lia. apply rsum_ext. intros m Hm. apply in_zrange in Hm.
    apply rsum_ext. intros j Hj. apply in_zrange in Hj. rewrite addr3_kd by assumption. f_equal.
    unfold Aentry. change (8 * 3)%Z with 24%Z. rewrite emat3_entry by lia. reflexivity.
  - intros d Hd' Ne. apply in_zrange in Hd'. rewrite addr3_kd by assumption.
    replace (_ =? _)%Z with false by lia. reflexivity.
Qed.

Lemma elem_sum_force2 V x n d1 : (0 <= d1 < 2)%Z ->
  elem_sum 4 2 (corner2e (v_nx V) (v_ny V)) (fun e => lget (emat2 V e)) (els2 V) x n d1
  = force2 V (tsig2 V x) (n * 2 + d1).
Proof.
  intros Hd. unfold elem_sum, force2, mforce. apply rsum_ext. intros [ex ey] He. cbn [corner2e].
  rewrite (rsum_zrange_prod 4 2) by lia. apply rsum_ext. intros k Hk. apply in_zrange in Hk.
  rewrite (rsum_single (zrange 0 2) _ d1); [|apply NoDup_zrange|now apply in_zrange|].
  - rewrite addr2_kd by assumption.
    replace (corner2 (v_nx V) (v_ny V) ex ey k * 2 + d1 =? n * 2 + d1)%Z
      with (corner2 (v_nx V) (v_ny V) ex ey k =? n)%Z by lia.
    destruct (_ =? n)%Z; [|reflexivity].
    unfold tsig2, str2. rewrite <- (stiff_force 8 3 (zrange 0 4) (addr2 V) (B2 V) (wg2 V) (fun e g => tan2 V e) x (ex, ey) (k * 2 + d1)).
    rewrite (rsum_zrange_prod 4 2) by lia. apply rsum_ext. intros m Hm. apply in_zrange in Hm.
    apply rsum_ext. intros j Hj. apply in_zrange in Hj. rewrite addr2_kd by assumption. f_equal.
    unfold Aentry. change (4 * 2)%Z with 8%Z. rewrite emat2_entry by lia. reflexivity.
  - intros d Hd' Ne. apply in_zrange in Hd'. rewrite addr2_kd by assumption.
    replace (_ =? _)%Z with false by lia. reflexivity.
Qed.
