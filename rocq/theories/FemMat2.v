(** Rows of the assembled and constrained stiffness; energy and definiteness. *)
From Coq Require Import Reals Lra ZifyBool.
From Verif Require Import Base Scalar EllSpec EllInit Grid EllModel EllAsm EllOp EllBc EllBc2 EllFinal EllProps
  CgPure CgTheory CgFinal CgProps AssemblyModel AsmPure AsmBnd AsmRun AsmMat FemGen FemAve FemMat.
Open Scope Z_scope.

(** ** Diagonal entries of interior rows *)
Lemma diag3_dense nF nx ny nz (m : ell R) i j k d : 1 <= nF -> struct3 m nF nx ny nz ->
  0 <= i < nx -> 0 <= j < ny -> 0 <= k < nz -> ~ bnd3 nx ny nz i j k -> 0 <= d < nF ->
  let r := node nx ny i j k * nF + d in
  dense m r r = getR (e_vals m) (diag_ix 27 13 nF r).
Proof.
  intros HF M Hi Hj Hk NB Hd r. unfold bnd3, on_bnd in NB.
  assert (Er : diag_ix 27 13 nF r = cell 27 nF (node nx ny i j k) d 13 d).
  { unfold diag_ix, cell, r. rewrite (Z.add_comm (node nx ny i j k * nF) d), Z.mod_add, Z.mod_small by lia. ring. }
  rewrite Er. unfold r at 1. rewrite (dense_slots m 27) by (lia || now destruct M).
  assert (C : forall s d2, 0 <= s < 27 -> 0 <= d2 < nF -> colsf m (cell 27 nF (node nx ny i j k) d s d2) = r ->
     s = 13 /\ d2 = d).
  { intros s d2 Hs H2 C. rewrite (struct3_colsf m nF nx ny nz) in C by assumption.
    assert (O : -1 <= off_x s <= 1 /\ -1 <= off_y s <= 1 /\ -1 <= off_z s <= 1)
      by (unfold off_x, off_y, off_z; Z.div_mod_to_equations; lia).
    unfold nbr3, insideb in C.
    replace ((0 <=? i + off_x s) && (i + off_x s <? nx) && ((0 <=? j + off_y s) && (j + off_y s <? ny))
      && ((0 <=? k + off_z s) && (k + off_z s <? nz))) with true in C by lia.
    unfold col_of, r in C.
    destruct (radix_inj nF (node nx ny (i + off_x s) (j + off_y s) (k + off_z s)) d2 (node nx ny i j k) d) as (C1 & C2); try lia.
    apply node_inj in C1; try lia. split; [|exact C2].
    unfold off_x, off_y, off_z in C1. Z.div_mod_to_equations. lia. }
  rewrite (rsum_single _ _ 13); [|apply NoDup_zrange|apply in_zrange; lia|].
  - rewrite (rsum_single _ _ d); [|apply NoDup_zrange|now apply in_zrange|].
    + rewrite (struct3_colsf m nF nx ny nz) by (assumption || lia). rewrite nbr3_self by assumption.
      unfold col_of, r. now rewrite Z.eqb_refl.
    + intros d2 H2 Ne. apply in_zrange in H2. destruct (Z.eqb_spec (colsf m (cell 27 nF (node nx ny i j k) d 13 d2)) r) as [Q|]; [|reflexivity].
      apply C in Q; lia.
  - intros s Hs Ne. apply in_zrange in Hs. apply rsum_zero. intros d2 H2. apply in_zrange in H2.
    destruct (Z.eqb_spec (colsf m (cell 27 nF (node nx ny i j k) d s d2)) r) as [Q|]; [|reflexivity].
    apply C in Q; lia.
Qed.

Lemma diag2_dense nF nx ny (m : ell R) i j d : 1 <= nF -> struct2 m nF nx ny ->
  0 <= i < nx -> 0 <= j < ny -> ~ bnd2 nx ny i j -> 0 <= d < nF ->
  let r := node nx ny i j 0 * nF + d in
  dense m r r = getR (e_vals m) (diag_ix 9 4 nF r).
Proof.
  intros HF M Hi Hj NB Hd r. unfold bnd2, on_bnd in NB.
  assert (Er : diag_ix 9 4 nF r = cell 9 nF (node nx ny i j 0) d 4 d).
  { unfold diag_ix, cell, r. rewrite (Z.add_comm (node nx ny i j 0 * nF) d), Z.mod_add, Z.mod_small by lia. ring. }
  rewrite Er. unfold r at 1. rewrite (dense_slots m 9) by (lia || now destruct M).
  assert (C : forall s d2, 0 <= s < 9 -> 0 <= d2 < nF -> colsf m (cell 9 nF (node nx ny i j 0) d s d2) = r ->
     s = 4 /\ d2 = d).
  { intros s d2 Hs H2 C. rewrite (struct2_colsf_in m nF nx ny) in C by assumption.
    unfold col2_code in C. replace (i =? nx - 1) with false in C by lia. cbn [andb] in C.
    destruct (offs2_bound s Hs) as (O1 & O2). unfold nbr2, insideb in C.
    replace ((0 <=? i + off_x s) && (i + off_x s <? nx) && ((0 <=? j + off_y s) && (j + off_y s <? ny))) with true in C by lia.
    unfold col_of, r in C.
    destruct (radix_inj nF (node nx ny (i + off_x s) (j + off_y s) 0) d2 (node nx ny i j 0) d) as (C1 & C2); try lia.
    apply node_inj in C1; try lia. split; [|exact C2].
    unfold off_x, off_y in C1. Z.div_mod_to_equations. lia. }
  rewrite (rsum_single _ _ 4); [|apply NoDup_zrange|apply in_zrange; lia|].
  - rewrite (rsum_single _ _ d); [|apply NoDup_zrange|now apply in_zrange|].
    + rewrite (struct2_colsf_in m nF nx ny) by (assumption || lia).
      unfold col2_code. replace (4 =? 7) with false by reflexivity. rewrite andb_false_r, nbr2_self by assumption.
      unfold col_of, r. now rewrite Z.eqb_refl.
    + intros d2 H2 Ne. apply in_zrange in H2. destruct (Z.eqb_spec (colsf m (cell 9 nF (node nx ny i j 0) d 4 d2)) r) as [Q|]; [|reflexivity].
      apply C in Q; lia.
  - intros s Hs Ne. apply in_zrange in Hs. apply rsum_zero. intros d2 H2. apply in_zrange in H2.
    destruct (Z.eqb_spec (colsf m (cell 9 nF (node nx ny i j 0) d s d2)) r) as [Q|]; [|reflexivity].
    apply C in Q; lia.
Qed.

(** ** Products in terms of [mul] *)
Lemma mul_mvp (m : ell R) S nF nn x xf y : 0 <= S -> wf_ell m S nF nn -> rep x (nn * nF) xf -> alen y = nn * nF ->
  exists y', ell_mvp_2D m x y = Ok y' /\ rep y' (nn * nF) (mul m xf).
Proof.
  intros HS W X L.
  assert (E : ell_rep m (nn * nF) (S * nF) (colsf m) (getR (e_vals m))).
  { constructor; [apply W|apply W|eapply wf_reps; exact W|eapply wf_repv; exact W|].
    intros a Ha. destruct (wf_cols _ _ _ _ W) as (cf & (_ & C1) & C2). unfold colsf. rewrite C1 by assumption. auto. }
  destruct (mvp_ok m _ _ _ _ x xf y E X L) as (y' & E' & R'). exists y'. split; [exact E'|].
  eapply rep_ext; [exact R'|]. intros i Hi. exact (mul_mvf m S nF nn xf i W HS Hi).
Qed.

(** ** Boundary dofs *)
(** dof r belongs to a node of the boundary *)
Definition bdof (V : env R) (r : Z) : Prop := bndb V (v_nz V) (r / v_dim V) = true.
(** fields that vanish on the boundary *)
Definition van (V : env R) (w : Z -> R) : Prop :=
  forall r, 0 <= r < ndofs V -> bdof V r -> w r = 0%R.

Section R3.
Variable V : env R.
Hypothesis S : sane V.
Hypothesis D : v_dim V = 3.
Let nx := v_nx V. Let ny := v_ny V. Let nz := v_nz V.
Let Hx : 2 <= nx. Proof. apply (sa_nx V S). Qed.
Let Hy : 2 <= ny. Proof. apply (sa_ny V S). Qed.
Let Hz : 2 <= nz. Proof. unfold nz. destruct (sa_dim V S); lia. Qed.

Lemma ndofs3 : ndofs V = nx * ny * nz * 3.
Proof. unfold ndofs, nn. rewrite D. reflexivity. Qed.
Lemma dof3_surj r : 0 <= r < nx * ny * nz * 3 -> exists i j k c, 0 <= i < nx /\ 0 <= j < ny /\ 0 <= k < nz /\
  0 <= c < 3 /\ r = node nx ny i j k * 3 + c /\ (bdof V r <-> bnd3 nx ny nz i j k).
Proof.
  intros Hr. destruct (dof3_cases r _ Hr) as (Hn & Hc & Er).
  destruct (node_surj nx ny nz (r / 3)) as (i & j & k & Hi & Hj & Hk & En); try lia.
  exists i, j, k, (r mod 3). split; [exact Hi|]. split; [exact Hj|]. split; [exact Hk|]. split; [exact Hc|].
  split; [now rewrite En|]. unfold bdof. rewrite D, <- En. now apply bndb3_spec.
Qed.
Lemma bdof3_node i j k c : 0 <= i < nx -> 0 <= j < ny -> 0 <= k < nz -> 0 <= c < 3 ->
  bdof V (node nx ny i j k * 3 + c) <-> bnd3 nx ny nz i j k.
Proof.
  intros Hi Hj Hk Hc. unfold bdof. rewrite D, Z.div_add_l, (Z.div_small c), Z.add_0_r by lia. now apply bndb3_spec.
Qed.

Theorem mat3_mul uf of u vold vnew (A : ell R) :
  rep u (nx * ny * nz * 3) uf -> old_ok V of vold -> alen vnew = ncells V * 56 -> matrix3 3 nx ny nz A ->
  exists A' vnew', assembly_mat V u vold vnew A = Ok (A', vnew') /\
    matrix3 3 nx ny nz A' /\ wf_ell A' 27 3 (nx * ny * nz) /\
    run_stores (flat_map (mst V uf of) (els3 V)) vnew = Ok vnew' /\ alen vnew' = ncells V * 56 /\
    (forall r c, 0 <= r < ndofs V -> 0 <= c < ndofs V -> bdof V r -> dense A' r c = if r =? c then 1%R else 0%R) /\
    (forall r c, 0 <= r < ndofs V -> 0 <= c < ndofs V -> ~ bdof V r -> bdof V c -> dense A' r c = 0%R) /\
    (forall r, 0 <= r < ndofs V -> bdof V r -> getR (e_vals A') (diag_ix 27 13 3 r) = 1%R) /\
    (forall x r, van V x -> 0 <= r < ndofs V -> ~ bdof V r -> mul A' x r = force3 V (tsig3 V uf of x) r).
Proof.
  intros U O L M. pose proof (matrix3_struct 3 nx ny nz A Hx Hy Hz ltac:(lia) M) as Sm.
  destruct (mat3_ok V uf of S u vold vnew A D U O L Sm) as (A1 & A2 & vn & E & E1 & E2 & Ev & Lv).
  destruct (assemble3_ok 3 nx ny nz (fun e => lget (emat3 V uf of e)) (els3 V) A) as (v & E1' & M1 & R1);
    [lia|exact Sm| |].
  { intros [[ex ey] ez] He. now apply in_els3 in He. }
  assert (A1 = set_vals A v) by (unfold nx, ny, nz in *; congruence). subst A1.
  assert (MA1 : matrix3 3 nx ny nz (set_vals A v)).
  { apply matrix3_set; [exact M|]. destruct R1 as (R1 & _). rewrite R1. symmetry. apply (s3_vlen _ _ _ _ _ Sm). }
  assert (W1 : wf_ell (set_vals A v) 27 3 (nx * ny * nz)).
  { eapply (matrix3_wf 3 nx ny nz); try assumption; [lia|exact R1]. }
  destruct (bc_3D 3 nx ny nz (set_vals A v)) as (A2' & B & MA2 & Dn & _); try assumption; [lia|].
  assert (A2' = A2) by (unfold nx, ny, nz in *; congruence). subst A2'.
  assert (W2 : wf_ell A2 27 3 (nx * ny * nz)).
  { destruct (set_bc_3D_ok (set_vals A v) 3 nx ny nz) as (w & B' & Lw & _); try assumption; [lia|].
    assert (A2 = set_vals (set_vals A v) w) by congruence. subst A2.
    unfold ell_set_bc_3D in B'. apply bind_ok in B'. destruct B' as (w' & B' & Q). injection Q as Q; subst w'.
    apply run_stores_inv in B'. destruct B' as (_ & _ & G). cbn [set_vals e_vals] in G.
    assert (F : full w (27 * 3 * (nx * ny * nz * 3))).
    { split; [exact Lw|]. intros i Hi. rewrite G. destruct (last_write _ _); [eauto|].
      destruct R1 as (_ & R1). rewrite R1 by exact Hi. eauto. }
    destruct (full_rep _ _ F) as (wf & Rw).
    eapply (matrix3_wf 3 nx ny nz); try assumption; [lia|exact Rw]. }
  exists A2, vn. split; [exact E|]. split; [exact MA2|]. split; [exact W2|]. split; [exact Ev|]. split; [exact Lv|].
  rewrite ndofs3. split; [|split; [|split]].
  - intros r c Hr Hc Br. destruct (dof3_surj r Hr) as (i & j & k & d & Hi & Hj & Hk & Hd & Er & Hb).
    destruct (dof3_surj c Hc) as (i' & j' & k' & d' & Hi' & Hj' & Hk' & Hd' & Ec & _).
    rewrite Er, Ec. apply Dn; try assumption. now apply Hb.
  - intros r c Hr Hc Br Bc. destruct (dof3_surj r Hr) as (i & j & k & d & Hi & Hj & Hk & Hd & Er & Hb).
    destruct (dof3_surj c Hc) as (i' & j' & k' & d' & Hi' & Hj' & Hk' & Hd' & Ec & Hb').
    rewrite Er, Ec. apply Dn; try assumption; tauto.
  - intros r Hr Br. destruct (dof3_surj r Hr) as (i & j & k & d & Hi & Hj & Hk & Hd & Er & Hb).
    destruct (set_bc_3D_ok (set_vals A v) 3 nx ny nz) as (w & B' & _ & Gw); try assumption; [lia|].
    assert (Q : A2 = set_vals (set_vals A v) w) by congruence.
    destruct (Gw i j k d 13 d) as (Gb & _); try assumption; try lia. unfold getR. rewrite Q. cbn [set_vals e_vals].
    replace (diag_ix 27 13 3 r) with (cell 27 3 (node nx ny i j k) d 13 d).
    + rewrite Gb by now apply Hb. unfold idv. now rewrite !Z.eqb_refl.
    + unfold diag_ix, cell. rewrite Er, (Z.add_comm (node nx ny i j k * 3) d), Z.mod_add, Z.mod_small by lia. ring.
  - intros x r X Hr Br. destruct (dof3_surj r Hr) as (i & j & k & d & Hi & Hj & Hk & Hd & Er & Hb).
    transitivity (mul (set_vals A v) x r).
    { unfold mul. rewrite (wf_nrow _ _ _ _ W2), (wf_nrow _ _ _ _ W1). apply rsum_ext. intros c Hc. apply in_zrange in Hc.
      destruct (dof3_surj c Hc) as (i' & j' & k' & d' & Hi' & Hj' & Hk' & Hd' & Ec & Hb').
      destruct (bnd3_dec nx ny nz i' j' k') as [Bc|Bc].
      - rewrite (X c); [ring|rewrite ndofs3; exact Hc|now apply Hb'].
      - f_equal. rewrite Er, Ec. apply Dn; try assumption. tauto. }
    destruct (assemble3_mvp 3 nx ny nz (fun e => lget (emat3 V uf of e)) (els3 V) A
      (fun_arr (nx * ny * nz * 3) x) x (malloc (nx * ny * nz * 3))) as (m' & y' & Em & Ey & _ & Gy); try assumption; try lia.
    { intros [[ex ey] ez] He. now apply in_els3 in He. }
    { apply fun_arr_rep. }
    { reflexivity. }
    assert (m' = set_vals A v) by congruence. subst m'.
    destruct (mul_mvp (set_vals A v) 27 3 (nx * ny * nz) (fun_arr (nx * ny * nz * 3) x) x (malloc (nx * ny * nz * 3)))
      as (y2 & Ey2 & Ry2); [lia|exact W1|apply fun_arr_rep|reflexivity|].
    assert (y2 = y') by congruence. subst y2.
    pose proof (node_range nx ny nz i j k Hi Hj Hk) as Hn.
    specialize (Gy (node nx ny i j k) d Hn Hd). rewrite <- Er in Gy. destruct Ry2 as (_ & Gm).
    rewrite Gm in Gy by exact Hr. injection Gy as Gy. rewrite Gy, Er.
    now apply (elem_sum_force3 V uf of x).
Qed.

Lemma rsum_free_ext (f g : Z -> R) (v : Z -> R) : van V v -> (forall r, 0 <= r < ndofs V -> ~ bdof V r -> f r = g r) ->
  rsum (zrange 0 (ndofs V)) (fun r => v r * f r)%R = rsum (zrange 0 (ndofs V)) (fun r => v r * g r)%R.
Proof.
  intros Vv H. apply rsum_ext. intros r Hr. apply in_zrange in Hr.
  destruct (bool_dec (bndb V (v_nz V) (r / v_dim V)) true) as [B|B].
  - rewrite (Vv r Hr B). ring.
  - now rewrite (H r Hr B).
Qed.

Lemma energy3 uf of (A' : ell R) v w :
  (forall x r, van V x -> 0 <= r < ndofs V -> ~ bdof V r -> mul A' x r = force3 V (tsig3 V uf of x) r) ->
  van V v -> van V w ->
  rsum (zrange 0 (ndofs V)) (fun r => v r * mul A' w r)%R = work3 V (tsig3 V uf of w) v.
Proof.
  intros H Vv Vw. rewrite (rsum_free_ext (mul A' w) (force3 V (tsig3 V uf of w)) v Vv) by (intros; now apply H).
  rewrite ndofs3. apply virtual_work. intros e i. apply (addr3_range V e i).
Qed.
End R3.

Section R2.
Variable V : env R.
Hypothesis S : sane V.
Hypothesis D : v_dim V = 2.
Let nx := v_nx V. Let ny := v_ny V.
Let Hx : 2 <= nx. Proof. apply (sa_nx V S). Qed.
Let Hy : 2 <= ny. Proof. apply (sa_ny V S). Qed.
Lemma nz2 : v_nz V = 1.
Proof. destruct (sa_dim V S); lia. Qed.
Lemma ndofs2 : ndofs V = nx * ny * 2.
Proof. unfold ndofs, nn. rewrite D, nz2. unfold nx, ny. ring. Qed.
Lemma dof2_surj r : 0 <= r < nx * ny * 2 -> exists i j c, 0 <= i < nx /\ 0 <= j < ny /\
  0 <= c < 2 /\ r = node nx ny i j 0 * 2 + c /\ (bdof V r <-> bnd2 nx ny i j).
Proof.
  intros Hr. destruct (dof2_cases r _ Hr) as (Hn & Hc & Er).
  destruct (node2_surj nx ny (r / 2)) as (i & j & Hi & Hj & En); try lia.
  exists i, j, (r mod 2). split; [exact Hi|]. split; [exact Hj|]. split; [exact Hc|].
  split; [now rewrite En|]. unfold bdof. rewrite D, <- En. now apply bndb2_spec.
Qed.
Lemma bdof2_node i j c : 0 <= i < nx -> 0 <= j < ny -> 0 <= c < 2 ->
  bdof V (node nx ny i j 0 * 2 + c) <-> bnd2 nx ny i j.
Proof.
  intros Hi Hj Hc. unfold bdof. rewrite D, Z.div_add_l, (Z.div_small c), Z.add_0_r by lia. now apply bndb2_spec.
Qed.
Lemma bnd2_dec i j : {bnd2 nx ny i j} + {~ bnd2 nx ny i j}.
Proof.
  unfold bnd2, on_bnd. destruct (Z.eq_dec i 0), (Z.eq_dec i (nx - 1)), (Z.eq_dec j 0), (Z.eq_dec j (ny - 1)); try (left; tauto); right; tauto.
Qed.

Theorem mat2_mul u vold vnew (A : ell R) : matrix2 2 nx ny A ->
  exists A', assembly_mat V u vold vnew A = Ok (A', vnew) /\
    matrix2 2 nx ny A' /\ wf_ell A' 9 2 (nx * ny) /\
    (forall r c, 0 <= r < ndofs V -> 0 <= c < ndofs V -> bdof V r -> dense A' r c = if r =? c then 1%R else 0%R) /\
    (forall r, 0 <= r < ndofs V -> bdof V r -> getR (e_vals A') (diag_ix 9 4 2 r) = 1%R) /\
    (forall x r, van V x -> 0 <= r < ndofs V -> ~ bdof V r -> mul A' x r = force2 V (tsig2 V x) r).
Proof.
  intros M. pose proof (matrix2_struct 2 nx ny A Hx Hy ltac:(lia) M) as Sm.
  destruct (mat2_ok V S u vold vnew A D Sm) as (A1 & A2 & E & E1 & E2).
  destruct (assemble2_ok 2 nx ny (fun e => lget (emat2 V e)) (els2 V) A) as (v & E1' & M1 & R1);
    [lia|exact Sm| |].
  { intros [ex ey] He. now apply in_els2 in He. }
  assert (A1 = set_vals A v) by (unfold nx, ny in *; congruence). subst A1.
  assert (MA1 : matrix2 2 nx ny (set_vals A v)).
  { apply matrix2_set; [exact M|]. destruct R1 as (R1 & _). rewrite R1. symmetry. apply (s2_vlen _ _ _ _ Sm). }
  assert (W1 : wf_ell (set_vals A v) 9 2 (nx * ny)).
  { eapply (matrix2_wf 2 nx ny); try assumption; [lia|exact R1]. }
  destruct (bc_2D 2 nx ny (set_vals A v)) as (A2' & B & MA2 & Dn); try assumption; [lia|].
  assert (A2' = A2) by (unfold nx, ny in *; congruence). subst A2'.
  assert (W2 : wf_ell A2 9 2 (nx * ny)).
  { destruct (set_bc_2D_ok (set_vals A v) 2 nx ny) as (w & B' & Lw & _); try assumption; [lia|].
    assert (A2 = set_vals (set_vals A v) w) by congruence. subst A2.
    unfold ell_set_bc_2D in B'. apply bind_ok in B'. destruct B' as (w' & B' & Q). injection Q as Q; subst w'.
    apply run_stores_inv in B'. destruct B' as (_ & _ & G). cbn [set_vals e_vals] in G.
    assert (F : full w (9 * 2 * (nx * ny * 2))).
    { split; [exact Lw|]. intros i Hi. rewrite G. destruct (last_write _ _); [eauto|].
      destruct R1 as (_ & R1). rewrite R1 by exact Hi. eauto. }
    destruct (full_rep _ _ F) as (wf & Rw).
    eapply (matrix2_wf 2 nx ny); try assumption; [lia|exact Rw]. }
  exists A2. split; [exact E|]. split; [exact MA2|]. split; [exact W2|].
  rewrite ndofs2. split; [|split].
  - intros r c Hr Hc Br. destruct (dof2_surj r Hr) as (i & j & d & Hi & Hj & Hd & Er & Hb).
    destruct (dof2_surj c Hc) as (i' & j' & d' & Hi' & Hj' & Hd' & Ec & _).
    rewrite Er, Ec. apply Dn; try assumption. now apply Hb.
  - intros r Hr Br. destruct (dof2_surj r Hr) as (i & j & d & Hi & Hj & Hd & Er & Hb).
    destruct (set_bc_2D_ok (set_vals A v) 2 nx ny) as (w & B' & _ & Gw); try assumption; [lia|].
    assert (Q : A2 = set_vals (set_vals A v) w) by congruence.
    destruct (Gw i j d 4 d) as (Gb & _); try assumption; try lia. unfold getR. rewrite Q. cbn [set_vals e_vals].
    replace (diag_ix 9 4 2 r) with (cell 9 2 (node nx ny i j 0) d 4 d).
    + rewrite Gb by now apply Hb. unfold idv. now rewrite !Z.eqb_refl.
    + unfold diag_ix, cell. rewrite Er, (Z.add_comm (node nx ny i j 0 * 2) d), Z.mod_add, Z.mod_small by lia. ring.
  - intros x r X Hr Br. destruct (dof2_surj r Hr) as (i & j & d & Hi & Hj & Hd & Er & Hb).
    transitivity (mul (set_vals A v) x r).
    { unfold mul. rewrite (wf_nrow _ _ _ _ W2), (wf_nrow _ _ _ _ W1). apply rsum_ext. intros c Hc. apply in_zrange in Hc.
      destruct (dof2_surj c Hc) as (i' & j' & d' & Hi' & Hj' & Hd' & Ec & Hb').
      destruct (bnd2_dec i' j') as [Bc|Bc].
      - rewrite (X c); [ring|rewrite ndofs2; exact Hc|now apply Hb'].
      - f_equal. rewrite Er, Ec. apply Dn; try assumption. tauto. }
    destruct (assemble2_mvp 2 nx ny (fun e => lget (emat2 V e)) (els2 V) A
      (fun_arr (nx * ny * 2) x) x (malloc (nx * ny * 2))) as (m' & y' & Em & Ey & _ & Gy); try assumption; try lia.
    { intros [ex ey] He. now apply in_els2 in He. }
    { apply fun_arr_rep. }
    { reflexivity. }
    assert (m' = set_vals A v) by congruence. subst m'.
    destruct (mul_mvp (set_vals A v) 9 2 (nx * ny) (fun_arr (nx * ny * 2) x) x (malloc (nx * ny * 2)))
      as (y2 & Ey2 & Ry2); [lia|exact W1|apply fun_arr_rep|reflexivity|].
    assert (y2 = y') by congruence. subst y2.
    pose proof (node2_range nx ny i j Hi Hj) as Hn.
    assert (Nr : ~ (node nx ny i j 0 mod nx = nx - 1 /\ 0 < node nx ny i j 0 / nx < ny - 1)).
    { destruct (node_coords nx ny i j 0 Hi Hj) as (Q & _ & _). intros (Q1 & _). apply Br, Hb. unfold bnd2, on_bnd. lia. }
    specialize (Gy (node nx ny i j 0) d Hn Hd Nr). rewrite <- Er in Gy. destruct Ry2 as (_ & Gm).
    rewrite Gm in Gy by exact Hr. injection Gy as Gy. rewrite Gy, Er.
    now apply (elem_sum_force2 V x).
Qed.

Lemma energy2 (A' : ell R) v w :
  (forall x r, van V x -> 0 <= r < ndofs V -> ~ bdof V r -> mul A' x r = force2 V (tsig2 V x) r) ->
  van V v -> van V w ->
  rsum (zrange 0 (ndofs V)) (fun r => v r * mul A' w r)%R = work2 V (tsig2 V w) v.
Proof.
  intros H Vv Vw. rewrite (rsum_free_ext V (mul A' w) (force2 V (tsig2 V w)) v Vv) by (intros; now apply H).
  rewrite ndofs2. apply virtual_work. intros e i. apply (addr2_range V e i).
Qed.
End R2.
