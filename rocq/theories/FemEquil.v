(** Imposed strains, averages and equilibrium, in exact arithmetic. *)
From Coq Require Import Reals Lra ZifyBool.
From Verif Require Import Base Scalar EllSpec EllInit Grid EllModel EllAsm EllOp EllFinal EllProps
  CgPure CgTheory CgFinal CgProps AssemblyModel AsmPure AsmBnd AsmRun AsmMat FemGen FemAve FemMat FemMat2 FemDef FemPd FemRhs.
Open Scope Z_scope.
Open Scope R_scope.

Definition bndaff3 V (e : list R) := bnd_affine3 V (lget e 0) (lget e 1) (lget e 2) (lget e 3) (lget e 4) (lget e 5).
Definition bndaff2 V (e : list R) := bnd_affine2 V (lget e 0) (lget e 1) (lget e 2).
Lemma voigt6_lget (e : list R) v : (0 <= v < 6)%Z ->
  voigt6 (lget e 0) (lget e 1) (lget e 2) (lget e 3) (lget e 4) (lget e 5) v = lget e v.
Proof. intros H. pattern v. apply case6; [exact H|..]; reflexivity. Qed.
Lemma voigt3_lget (e : list R) v : (0 <= v < 3)%Z -> voigt3 (lget e 0) (lget e 1) (lget e 2) v = lget e v.
Proof. intros H. pattern v. apply case3; [exact H|..]; reflexivity. Qed.

(** the affine nodal field of a macro strain *)
Definition afield3 (V : env R) (e : list R) (r : Z) : R :=
  let n := (r / 3)%Z in
  affine3 (lget e 0) (lget e 1) (lget e 2) (lget e 3) (lget e 4) (lget e 5)
    (IZR (n mod v_nx V) * v_dx V) (IZR ((n / v_nx V) mod v_ny V) * v_dy V) (IZR (n / v_nx V / v_ny V) * v_dz V) (r mod 3).
Definition afield2 (V : env R) (e : list R) (r : Z) : R :=
  let n := (r / 2)%Z in
  affine2 (lget e 0) (lget e 1) (lget e 2)
    (IZR (n mod v_nx V) * v_dx V) (IZR ((n / v_nx V) mod v_ny V) * v_dy V) (r mod 2).
Lemma afield3_node V e i j k c : (0 <= i < v_nx V)%Z -> (0 <= j < v_ny V)%Z -> (0 <= c < 3)%Z ->
  cmp3 V (afield3 V e) c i j k = affine3 (lget e 0) (lget e 1) (lget e 2) (lget e 3) (lget e 4) (lget e 5)
    (IZR i * v_dx V) (IZR j * v_dy V) (IZR k * v_dz V) c.
Proof.
  intros Hi Hj Hc. unfold cmp3, afield3. cbv zeta.
  rewrite Z.div_add_l, (Z.div_small c), Z.add_0_r by lia.
  destruct (node_coords (v_nx V) (v_ny V) i j k Hi Hj) as (-> & -> & ->).
  now rewrite Z.add_comm, Z.mod_add, Z.mod_small by lia.
Qed.
Lemma afield2_node V e i j c : (0 <= i < v_nx V)%Z -> (0 <= j < v_ny V)%Z -> (0 <= c < 2)%Z ->
  cmp2 V (afield2 V e) c i j = affine2 (lget e 0) (lget e 1) (lget e 2) (IZR i * v_dx V) (IZR j * v_dy V) c.
Proof.
  intros Hi Hj Hc. unfold cmp2, afield2. cbv zeta.
  rewrite Z.div_add_l, (Z.div_small c), Z.add_0_r by lia.
  destruct (node_coords (v_nx V) (v_ny V) i j 0 Hi Hj) as (-> & -> & _).
  now rewrite Z.add_comm, Z.mod_add, Z.mod_small by lia.
Qed.

(** displacement after imposing a macro strain *)
Definition imposed3 V e uf (r : Z) : R := if bndb V (v_nz V) (r / v_dim V) then afield3 V e r else uf r.
Definition imposed2 V e uf (r : Z) : R := if bndb V (v_nz V) (r / v_dim V) then afield2 V e r else uf r.

Lemma displ3_rep V e u uf : sane V -> geom V -> v_dim V = 3%Z -> rep u (ndofs V) uf ->
  exists u', set_displ V e u = Ok u' /\ rep u' (ndofs V) (imposed3 V e uf) /\ bndaff3 V e (imposed3 V e uf).
Proof.
  intros S G D U. pose proof (sa_nx V S). pose proof (sa_ny V S).
  assert (NB : (2 <= v_nz V)%Z) by (destruct (sa_dim V S); lia).
  rewrite (ndofs3 V D) in *. destruct (set_displ3_ok V e u S G D (proj1 U)) as (u' & E & L & P).
  exists u'. split; [exact E|].
  assert (Q : forall i j k c, (0 <= i < v_nx V)%Z -> (0 <= j < v_ny V)%Z -> (0 <= k < v_nz V)%Z -> (0 <= c < 3)%Z ->
     bndb V (v_nz V) ((node (v_nx V) (v_ny V) i j k * 3 + c) / v_dim V) = true <-> bnd3 (v_nx V) (v_ny V) (v_nz V) i j k)
    by (intros; now apply bdof3_node).
  split.
  - split; [exact L|]. intros r Hr.
    destruct (dof3_surj V S D r Hr) as (i & j & k & c & Hi & Hj & Hk & Hc & -> & Hb).
    destruct (P i j k c Hi Hj Hk Hc) as (P1 & P2). specialize (Q i j k c Hi Hj Hk Hc). unfold imposed3.
    destruct bndb.
    + rewrite P1 by now apply Q. f_equal. symmetry. now apply afield3_node.
    + rewrite P2; [apply U; assumption|]. intros B. apply Q in B. discriminate.
  - intros i j k c Hi Hj Hk Hc B. unfold cmp3, imposed3. apply (Q i j k c Hi Hj Hk Hc) in B. rewrite B. now apply afield3_node.
Qed.
Lemma displ2_rep V e u uf : sane V -> geom V -> v_dim V = 2%Z -> rep u (ndofs V) uf ->
  exists u', set_displ V e u = Ok u' /\ rep u' (ndofs V) (imposed2 V e uf) /\ bndaff2 V e (imposed2 V e uf).
Proof.
  intros S G D U. pose proof (sa_nx V S). pose proof (sa_ny V S).
  rewrite (ndofs2 V S D) in *. destruct (set_displ2_ok V e u S G D (proj1 U)) as (u' & E & L & P).
  exists u'. split; [exact E|].
  assert (Q : forall i j c, (0 <= i < v_nx V)%Z -> (0 <= j < v_ny V)%Z -> (0 <= c < 2)%Z ->
     bndb V (v_nz V) ((node (v_nx V) (v_ny V) i j 0 * 2 + c) / v_dim V) = true <-> bnd2 (v_nx V) (v_ny V) i j)
    by (intros; now apply bdof2_node).
  split.
  - split; [exact L|]. intros r Hr.
    destruct (dof2_surj V S D r Hr) as (i & j & c & Hi & Hj & Hc & -> & Hb).
    destruct (P i j c Hi Hj Hc) as (P1 & P2). specialize (Q i j c Hi Hj Hc). unfold imposed2.
    destruct bndb.
    + rewrite P1 by now apply Q. f_equal. symmetry. now apply afield2_node.
    + rewrite P2; [apply U; assumption|]. intros B. apply Q in B. discriminate.
  - intros i j c Hi Hj Hc B. unfold cmp2, imposed2. apply (Q i j c Hi Hj Hc) in B. rewrite B. now apply afield2_node.
Qed.

(** ** Averages *)
(** volume integral of a Gauss point quantity *)
Definition integral3 (V : env R) (s : Z * Z * Z -> Z -> R) : R :=
  rsum (els3 V) (fun e => rsum (zrange 0 8) (fun g => s e g * wg3 V)).
Definition integral2 (V : env R) (s : Z * Z -> Z -> R) : R :=
  rsum (els2 V) (fun e => rsum (zrange 0 4) (fun g => s e g * wg2 V)).

Lemma ave3_R V (s : Z * Z * Z -> Z -> list R) v : (0 <= v < 6)%Z ->
  lget (ave3 V (fun e => fold_left (fun a g => add_ave 6 (s e g) (wg3 V) a) (zrange 0 8) (zeros 6))) v =
  integral3 V (fun e g => lget (s e g) v) / (v_lx V * v_ly V).
Proof.
  intros Hv. unfold ave3, area. rewrite lget_ltab by assumption. cbn [odiv omul ROps]. f_equal.
  rewrite add_vec_fold, lget_zeros, Rplus_0_l by assumption. apply rsum_ext. intros e _.
  rewrite add_ave_fold, lget_zeros, Rplus_0_l by assumption. reflexivity.
Qed.
Lemma ave2_R V (s : Z * Z -> Z -> list R) v : (0 <= v < 3)%Z ->
  lget (ave2 V (fun e => fold_left (fun a g => add_ave 3 (s e g) (wg2 V) a) (zrange 0 4) (zeros 3))) v =
  integral2 V (fun e g => lget (s e g) v) / (v_lx V * v_ly V).
Proof.
  intros Hv. unfold ave2, area. rewrite lget_ltab by assumption. cbn [odiv omul ROps]. f_equal.
  rewrite add_vec_fold, lget_zeros, Rplus_0_l by assumption. apply rsum_ext. intros e _.
  rewrite add_ave_fold, lget_zeros, Rplus_0_l by assumption. reflexivity.
Qed.

Lemma geom_vol3 V : v_dim V = 3%Z -> geom V -> vol3 V = v_lx V * v_ly V * v_lz V.
Proof. intros D G. unfold vol3. now rewrite (ge_x V G), (ge_y V G), (ge_z V G D). Qed.
Lemma geom_vol2 V : geom V -> vol2 V = v_lx V * v_ly V.
Proof. intros G. unfold vol2. now rewrite (ge_x V G), (ge_y V G). Qed.
Lemma geom_pos V : sane V -> geom V -> 0 < v_lx V /\ 0 < v_ly V.
Proof.
  intros S G. rewrite (ge_x V G), (ge_y V G). pose proof (ge_px V G). pose proof (ge_py V G).
  split; apply Rmult_lt_0_compat; try assumption; apply (IZR_lt 0); pose proof (sa_nx V S); pose proof (sa_ny V S); lia.
Qed.
Lemma geom_posz V : sane V -> geom V -> v_dim V = 3%Z -> 0 < v_lz V.
Proof.
  intros S G D. rewrite (ge_z V G D). apply Rmult_lt_0_compat; [apply (IZR_lt 0)|now apply (ge_pz V G)].
  destruct (sa_dim V S); lia.
Qed.

(** C21, C22 *)
Theorem ave_strain2 V e u u' uf : sane V -> geom V -> v_dim V = 2%Z -> rep u (ndofs V) uf ->
  set_displ V e u = Ok u' ->
  exists eps, calc_ave_strain V u' = Ok eps /\ forall v, (0 <= v < 3)%Z -> lget eps v = lget e v.
Proof.
  intros S G D U E. destruct (displ2_rep V e u uf S G D U) as (u1 & E1 & U1 & B).
  rewrite E in E1. injection E1 as <-. rewrite (ndofs2 V S D) in U1.
  exists (ave2 V (eaux2 V (imposed2 V e uf))). split; [now apply ave_strain2_ok|].
  intros v Hv. unfold eaux2. rewrite (ave2_R V (fun c g => strain2 V (imposed2 V e uf) c g)) by assumption.
  rewrite <- (voigt3_lget e v Hv). pose proof (strain_ave2 V _ _ _ _ v S G B Hv) as X.
  destruct (geom_pos V S G). unfold integral2.
  rewrite (rsum_ext _ _ (fun c => rsum (zrange 0 4) (fun g => str2 V (imposed2 V e uf) c g v * wg2 V))).
  - rewrite X, (geom_vol2 V G). field. lra.
  - intros c _. apply rsum_ext. intros g _. now rewrite strain2_str.
Qed.
Theorem ave_strain3 V e u u' uf : sane V -> geom V -> v_dim V = 3%Z -> rep u (ndofs V) uf ->
  set_displ V e u = Ok u' ->
  exists eps, calc_ave_strain V u' = Ok eps /\ forall v, (0 <= v < 6)%Z -> lget eps v = v_lz V * lget e v.
Proof.
  intros S G D U E. destruct (displ3_rep V e u uf S G D U) as (u1 & E1 & U1 & B).
  rewrite E in E1. injection E1 as <-. rewrite (ndofs3 V D) in U1.
  exists (ave3 V (eaux3 V (imposed3 V e uf))). split; [now apply ave_strain3_ok|].
  intros v Hv. unfold eaux3. rewrite (ave3_R V (fun c g => strain3 V (imposed3 V e uf) c g)) by assumption.
  rewrite <- (voigt6_lget e v Hv). pose proof (strain_ave3 V _ _ _ _ _ _ _ v S D G B Hv) as X.
  destruct (geom_pos V S G). unfold integral3.
  rewrite (rsum_ext _ _ (fun c => rsum (zrange 0 8) (fun g => str3 V (imposed3 V e uf) c g v * wg3 V))).
  - rewrite X, (geom_vol3 V D G). field. lra.
  - intros c _. apply rsum_ext. intros g _. now rewrite strain3_str.
Qed.

(** C23 *)
Theorem ave_stress2 V u uf vold vnew : sane V -> geom V -> v_dim V = 2%Z -> rep u (ndofs V) uf ->
  exists sig, calc_ave_stress V u vold vnew = Ok (sig, vnew) /\
    forall v, (0 <= v < 3)%Z -> lget sig v = integral2 V (fun e g => gs2 V uf e g v) / vol2 V.
Proof.
  intros S G D U. rewrite (ndofs2 V S D) in U. eexists. split; [now apply (ave_stress2_ok V uf S)|].
  intros v Hv. unfold aux2. rewrite (ave2_R V (fun c g => sig2 V c (strain2 V uf c g))) by assumption.
  rewrite (geom_vol2 V G). reflexivity.
Qed.
Theorem ave_stress3 V u uf of vold vnew : sane V -> geom V -> v_dim V = 3%Z -> rep u (ndofs V) uf ->
  old_ok V of vold -> alen vnew = (ncells V * 56)%Z ->
  exists sig vnew', calc_ave_stress V u vold vnew = Ok (sig, vnew') /\
    forall v, (0 <= v < 6)%Z -> lget sig v = v_lz V * (integral3 V (fun e g => gs3 V uf of e g v) / vol3 V).
Proof.
  intros S G D U O L. rewrite (ndofs3 V D) in U. destruct (ave_stress3_ok V uf of S u vold vnew D U O L) as (vn & E & _).
  eexists. exists vn. split; [exact E|].
  intros v Hv. unfold aux3. rewrite (ave3_R V (fun c g => sig3 V of c g (strain3 V uf c g))) by assumption.
  rewrite (geom_vol3 V D G). unfold gs3. destruct (geom_pos V S G). pose proof (geom_posz V S G D). field. lra.
Qed.

(** C24 *)
Lemma integral2_lin V (C : Z -> Z -> R) w (s : Z * Z -> Z -> R) i :
  (forall e g, In e (els2 V) -> s e g = rsum (zrange 0 3) (fun k => C i k * str2 V w e g k)) ->
  integral2 V s = rsum (zrange 0 3) (fun k => C i k * integral2 V (fun e g => str2 V w e g k)).
Proof.
  intros H. unfold integral2. rewrite zr3. cbn [rsum]. rewrite <- !rsum_scal, Rplus_0_r, <- !rsum_plus.
  apply rsum_ext. intros e He. rewrite <- !rsum_scal, <- !rsum_plus. apply rsum_ext. intros g _. rewrite (H e g He), zr3. cbn [rsum]. ring.
Qed.
Lemma integral3_lin V (C : Z -> Z -> R) w (s : Z * Z * Z -> Z -> R) i :
  (forall e g, In e (els3 V) -> s e g = rsum (zrange 0 6) (fun k => C i k * str3 V w e g k)) ->
  integral3 V s = rsum (zrange 0 6) (fun k => C i k * integral3 V (fun e g => str3 V w e g k)).
Proof.
  intros H. unfold integral3. rewrite zr6. cbn [rsum]. rewrite <- !rsum_scal, Rplus_0_r, <- !rsum_plus.
  apply rsum_ext. intros e He. rewrite <- !rsum_scal, <- !rsum_plus. apply rsum_ext. intros g _. rewrite (H e g He), zr6. cbn [rsum]. ring.
Qed.

Theorem homogeneous2 V m e u u' uf vold vnew : sane V -> geom V -> v_dim V = 2%Z -> rep u (ndofs V) uf ->
  (forall c, (0 <= c < ncells V)%Z -> mat_at V c = m) ->
  set_displ V e u = Ok u' ->
  exists sig, calc_ave_stress V u' vold vnew = Ok (sig, vnew) /\
    forall v, (0 <= v < 3)%Z -> lget sig v = lget (stress2 (m_E m) (m_nu m) e) v.
Proof.
  intros S G D U H E. destruct (displ2_rep V e u uf S G D U) as (u1 & E1 & U1 & B).
  rewrite E in E1. injection E1 as <-.
  destruct (ave_stress2 V u' _ vold vnew S G D U1) as (sig & Es & Hs). exists sig. split; [exact Es|].
  intros v Hv. rewrite (Hs v Hv), stress2_ctan by assumption.
  rewrite (integral2_lin V (ctan2 (m_E m) (m_nu m)) (imposed2 V e uf) _ v).
  - unfold Rdiv. rewrite <- rsum_scal_r. apply rsum_ext. intros k Hk. apply in_zrange in Hk. unfold integral2.
    rewrite (strain_ave2 V _ _ _ _ k S G B Hk), (voigt3_lget e k Hk), (geom_vol2 V G).
    destruct (geom_pos V S G). field. lra.
  - intros c g Hc. rewrite gs2_tsig by assumption. unfold tsig2, tan2. now rewrite (H _ (ix2_range V c D Hc)).
Qed.
Theorem homogeneous3 V m e u u' uf of vold vnew : sane V -> geom V -> v_dim V = 3%Z -> rep u (ndofs V) uf ->
  old_ok V of vold -> alen vnew = (ncells V * 56)%Z -> linear V ->
  (forall c, (0 <= c < ncells V)%Z -> mat_at V c = m) ->
  set_displ V e u = Ok u' ->
  exists sig vnew', calc_ave_stress V u' vold vnew = Ok (sig, vnew') /\
    forall v, (0 <= v < 6)%Z -> lget sig v = v_lz V * lget (lin_stress3 (m_lambda m) (m_mu m) e) v.
Proof.
  intros S G D U O L Li H E. destruct (displ3_rep V e u uf S G D U) as (u1 & E1 & U1 & B).
  rewrite E in E1. injection E1 as <-.
  destruct (ave_stress3 V u' _ of vold vnew S G D U1 O L) as (sig & vn & Es & Hs). exists sig, vn. split; [exact Es|].
  intros v Hv. rewrite (Hs v Hv), lin_stress_ctan by assumption. f_equal.
  rewrite (integral3_lin V (ctan3 (m_lambda m) (m_mu m)) (imposed3 V e uf) _ v).
  - unfold Rdiv. rewrite <- rsum_scal_r. apply rsum_ext. intros k Hk. apply in_zrange in Hk. unfold integral3.
    rewrite (strain_ave3 V _ _ _ _ _ _ _ k S D G B Hk), (voigt6_lget e k Hk), (geom_vol3 V D G).
    destruct (geom_pos V S G). pose proof (geom_posz V S G D). field. lra.
  - intros c g Hc. rewrite (gs3_tsig V uf) by assumption. unfold tsig3. rewrite tan3_lin by assumption.
    now rewrite (H _ (ix3_range V c D Hc)).
Qed.

(** ** Equilibrium *)
Definition equil3 V uf of : Prop := forall r, (0 <= r < ndofs V)%Z -> balance3 V uf of r = 0.
Definition equil2 V uf : Prop := forall r, (0 <= r < ndofs V)%Z -> balance2 V uf r = 0.

Lemma sqrt0_sumsq n (f : Z -> R) : sqrt (rsum (zrange 0 n) (fun r => f r * f r)) = 0 -> forall r, (0 <= r < n)%Z -> f r = 0.
Proof.
  intros H r Hr. apply sqrt_eq_0 in H; [|apply rsum_nonneg; intros; nra].
  assert (X : f r * f r = 0).
  { apply (rsum_nonneg_zero (zrange 0 n) (fun r => f r * f r)); [|exact H|now apply in_zrange]. intros; nra. }
  nra.
Qed.

(** strain of the affine field *)
Lemma str3_afield V e c g v : sane V -> geom V -> v_dim V = 3%Z -> In c (els3 V) -> (0 <= v < 6)%Z -> str3 V (afield3 V e) c g v = lget e v.
Proof.
  intros S G D Hc Hv. pose proof (ge_px V G). pose proof (ge_py V G). pose proof (ge_pz V G D).
  destruct c as [[ex ey] ez]. apply in_els3 in Hc. destruct Hc as (Hx & Hy & Hz).
  rewrite (str3_homog V (fun _ => 0) (fun c d => dgrad3 (lget e 0) (lget e 1) (lget e 2) (lget e 3) (lget e 4) (lget e 5) d c));
    try lra; try assumption.
  - rewrite <- (voigt6_lget e v Hv). unfold sym6, dgrad3. pattern v. apply case6; [exact Hv|..]; unfold voigt6; cbn [Z.eqb Pos.eqb]; field.
  - intros n k Hn Hk. destruct (cor_bound n Hn) as (B1 & B2 & B3).
    rewrite afield3_node by lia. unfold affine3, dgrad3. pattern k. apply case3; [exact Hk|..]; cbn [Z.eqb Pos.eqb]; ring.
Qed.
Lemma str2_afield V e c g v : sane V -> geom V -> v_dim V = 2%Z -> In c (els2 V) -> (0 <= v < 3)%Z -> str2 V (afield2 V e) c g v = lget e v.
Proof.
  intros S G D Hc Hv. pose proof (ge_px V G). pose proof (ge_py V G).
  destruct c as [ex ey]. apply in_els2 in Hc. destruct Hc as (Hx & Hy).
  rewrite (str2_homog V (fun _ => 0) (fun c d => dgrad2 (lget e 0) (lget e 1) (lget e 2) d c));
    try lra; try assumption.
  - rewrite <- (voigt3_lget e v Hv). unfold sym3, dgrad2. pattern v. apply case3; [exact Hv|..]; unfold voigt3; cbn [Z.eqb Pos.eqb]; field.
  - intros n k Hn Hk. destruct (cor_bound n ltac:(lia)) as (B1 & B2 & B3).
    rewrite afield2_node by lia. unfold affine2, dgrad2. assert (C : (k = 0 \/ k = 1)%Z) by lia. destruct C as [-> | ->]; cbn [Z.eqb Pos.eqb]; ring.
Qed.

Lemma van_diff3 V e w : sane V -> v_dim V = 3%Z -> bndaff3 V e w -> van V (fun r => w r - afield3 V e r).
Proof.
  intros S D B r Hr Hb. rewrite (ndofs3 V D) in Hr.
  destruct (dof3_surj V S D r Hr) as (i & j & k & c & Hi & Hj & Hk & Hc & -> & Q).
  pose proof (B i j k c Hi Hj Hk Hc (proj1 Q Hb)) as X. rewrite <- (afield3_node V e i j k c Hi Hj Hc) in X. unfold cmp3 in X. lra.
Qed.
Lemma van_diff2 V e w : sane V -> v_dim V = 2%Z -> bndaff2 V e w -> van V (fun r => w r - afield2 V e r).
Proof.
  intros S D B r Hr Hb. rewrite (ndofs2 V S D) in Hr.
  destruct (dof2_surj V S D r Hr) as (i & j & c & Hi & Hj & Hc & -> & Q).
  pose proof (B i j c Hi Hj Hc (proj1 Q Hb)) as X. rewrite <- (afield2_node V e i j c Hi Hj Hc) in X. unfold cmp2 in X. lra.
Qed.
Lemma bndaff3_afield V e : bndaff3 V e (afield3 V e).
Proof. intros i j k c Hi Hj Hk Hc _. now apply afield3_node. Qed.
Lemma bndaff2_afield V e : bndaff2 V e (afield2 V e).
Proof. intros i j c Hi Hj Hc _. now apply afield2_node. Qed.

(** equilibrated stresses do no work on fields vanishing on the boundary *)
Lemma work3_van V uf of w : sane V -> v_dim V = 3%Z -> equil3 V uf of -> van V w -> work3 V (gs3 V uf of) w = 0.
Proof.
  intros S D Q W. unfold work3.
  rewrite <- (virtual_work (els3 V) 24 6 (v_nx V * v_ny V * v_nz V * 3) (zrange 0 8) (addr3 V) (B3 V) (wg3 V)) by (intros; now apply (addr3_range V e i)).
  rewrite <- (ndofs3 V D). apply rsum_zero. intros r Hr. apply in_zrange in Hr. fold (force3 V).
  destruct (bdof_dec V r) as [B|B]; [rewrite (W r Hr B); ring|].
  pose proof (Q r Hr) as X. unfold balance3 in X. unfold bdof in B. destruct bndb; [now contradiction B|].
  replace (force3 V (gs3 V uf of) r) with 0 by lra. ring.
Qed.
Lemma work2_van V uf w : sane V -> v_dim V = 2%Z -> equil2 V uf -> van V w -> work2 V (gs2 V uf) w = 0.
Proof.
  intros S D Q W. unfold work2.
  rewrite <- (virtual_work (els2 V) 8 3 (v_nx V * v_ny V * 2) (zrange 0 4) (addr2 V) (B2 V) (wg2 V)) by (intros; now apply (addr2_range V e i)).
  rewrite <- (ndofs2 V S D). apply rsum_zero. intros r Hr. apply in_zrange in Hr. fold (force2 V).
  destruct (bdof_dec V r) as [B|B]; [rewrite (W r Hr B); ring|].
  pose proof (Q r Hr) as X. unfold balance2 in X. unfold bdof in B. destruct bndb; [now contradiction B|].
  replace (force2 V (gs2 V uf) r) with 0 by lra. ring.
Qed.

(** work of any stress on the affine field *)
Lemma work3_afield V s e : sane V -> geom V -> v_dim V = 3%Z ->
  work3 V s (afield3 V e) = rsum (zrange 0 6) (fun v => integral3 V (fun c g => s c g v) * lget e v).
Proof.
  intros S G D. unfold work3, mwork, integral3.
  transitivity (rsum (els3 V) (fun c => rsum (zrange 0 8) (fun g => rsum (zrange 0 6) (fun v => s c g v * wg3 V * lget e v)))).
  { apply rsum_ext. intros c Hc. apply rsum_ext. intros g _. apply rsum_ext. intros v Hv. apply in_zrange in Hv.
    change (mstrain 24 (addr3 V) (B3 V)) with (str3 V). rewrite str3_afield by assumption. ring. }
  transitivity (rsum (els3 V) (fun c => rsum (zrange 0 6) (fun v => rsum (zrange 0 8) (fun g => s c g v * wg3 V) * lget e v))).
  { apply rsum_ext. intros c _. rewrite rsum_swap. apply rsum_ext. intros v _. now rewrite rsum_scal_r. }
  rewrite rsum_swap. apply rsum_ext. intros v _. now rewrite rsum_scal_r.
Qed.
Lemma work2_afield V s e : sane V -> geom V -> v_dim V = 2%Z ->
  work2 V s (afield2 V e) = rsum (zrange 0 3) (fun v => integral2 V (fun c g => s c g v) * lget e v).
Proof.
  intros S G D. unfold work2, mwork, integral2.
  transitivity (rsum (els2 V) (fun c => rsum (zrange 0 4) (fun g => rsum (zrange 0 3) (fun v => s c g v * wg2 V * lget e v)))).
  { apply rsum_ext. intros c Hc. apply rsum_ext. intros g _. apply rsum_ext. intros v Hv. apply in_zrange in Hv.
    change (mstrain 8 (addr2 V) (B2 V)) with (str2 V). rewrite str2_afield by assumption. ring. }
  transitivity (rsum (els2 V) (fun c => rsum (zrange 0 3) (fun v => rsum (zrange 0 4) (fun g => s c g v * wg2 V) * lget e v))).
  { apply rsum_ext. intros c _. rewrite rsum_swap. apply rsum_ext. intros v _. now rewrite rsum_scal_r. }
  rewrite rsum_swap. apply rsum_ext. intros v _. now rewrite rsum_scal_r.
Qed.
Lemma work_ext_w {E} (els : list E) nd nv gs addr B wg s x y : (forall i, x i = y i) ->
  mwork els nd nv gs addr B wg s x = mwork els nd nv gs addr B wg s y.
Proof.
  intros H. apply rsum_ext. intros e _. apply rsum_ext. intros g _. apply rsum_ext. intros v _. f_equal. f_equal.
  apply rsum_ext. intros i _. now rewrite H.
Qed.
Lemma work_split3 V s w e : sane V -> geom V -> v_dim V = 3%Z ->
  work3 V s w = work3 V s (fun r => w r - afield3 V e r) + rsum (zrange 0 6) (fun v => integral3 V (fun c g => s c g v) * lget e v).
Proof.
  intros S G D. rewrite <- work3_afield by assumption. unfold work3. rewrite <- mwork_plus_r. apply work_ext_w. intros i. ring.
Qed.
Lemma work_split2 V s w e : sane V -> geom V -> v_dim V = 2%Z ->
  work2 V s w = work2 V s (fun r => w r - afield2 V e r) + rsum (zrange 0 3) (fun v => integral2 V (fun c g => s c g v) * lget e v).
Proof.
  intros S G D. rewrite <- work2_afield by assumption. unfold work2. rewrite <- mwork_plus_r. apply work_ext_w. intros i. ring.
Qed.

(** C30 *)
Theorem hill_mandel3 V uf of u vold vnew vnew' b b' nl sig vnew'' e w : sane V -> geom V -> v_dim V = 3%Z ->
  rep u (ndofs V) uf -> old_ok V of vold -> alen vnew = (ncells V * 56)%Z -> alen b = ndofs V ->
  assembly_rhs V u vold vnew b = Ok (b', nl, vnew', 0) ->
  calc_ave_stress V u vold vnew = Ok (sig, vnew'') ->
  bndaff3 V e w ->
  work3 V (gs3 V uf of) w = v_lx V * v_ly V * rsum (zrange 0 6) (fun v => lget sig v * lget e v).
Proof.
  intros S G D U O L Lb Eb Es B.
  destruct (residual3 V uf of u vold vnew b S D U O L Lb) as (b1 & nl1 & v1 & n1 & E1 & R1 & N1).
  rewrite Eb in E1. injection E1 as <- <- <- <-. symmetry in N1.
  assert (Q : equil3 V uf of) by (intros r Hr; now apply (sqrt0_sumsq (ndofs V))).
  destruct (ave_stress3 V u uf of vold vnew S G D U O L) as (s1 & v2 & E2 & H2). rewrite Es in E2. injection E2 as <- <-.
  rewrite (work_split3 V _ w e S G D), (work3_van V uf of _ S D Q (van_diff3 V e w S D B)), Rplus_0_l.
  rewrite <- rsum_scal. apply rsum_ext. intros v Hv. apply in_zrange in Hv. rewrite (H2 v Hv), (geom_vol3 V D G).
  destruct (geom_pos V S G). pose proof (geom_posz V S G D). field. lra.
Qed.
Theorem hill_mandel2 V uf u vold vnew vnew' b b' nl sig vnew'' e w : sane V -> geom V -> v_dim V = 2%Z ->
  rep u (ndofs V) uf -> alen b = ndofs V ->
  assembly_rhs V u vold vnew b = Ok (b', nl, vnew', 0) ->
  calc_ave_stress V u vold vnew = Ok (sig, vnew'') ->
  bndaff2 V e w ->
  work2 V (gs2 V uf) w = v_lx V * v_ly V * rsum (zrange 0 3) (fun v => lget sig v * lget e v).
Proof.
  intros S G D U Lb Eb Es B.
  destruct (residual2 V uf u vold vnew b S D U Lb) as (b1 & n1 & E1 & R1 & N1).
  rewrite Eb in E1. injection E1 as <- _ _ <-. symmetry in N1.
  assert (Q : equil2 V uf) by (intros r Hr; now apply (sqrt0_sumsq (ndofs V))).
  destruct (ave_stress2 V u uf vold vnew S G D U) as (s1 & E2 & H2). rewrite Es in E2. injection E2 as <- _.
  rewrite (work_split2 V _ w e S G D), (work2_van V uf _ S D Q (van_diff2 V e w S D B)), Rplus_0_l.
  rewrite <- rsum_scal. apply rsum_ext. intros v Hv. apply in_zrange in Hv. rewrite (H2 v Hv), (geom_vol2 V G).
  destruct (geom_pos V S G). field. lra.
Qed.

(** C31 *)
Lemma work3_gs_tsig V u0 uf of w : linear V -> v_dim V = 3%Z -> work3 V (gs3 V uf of) w = work3 V (tsig3 V u0 of uf) w.
Proof.
  intros L D. apply rsum_ext. intros e He. apply rsum_ext. intros g _. apply rsum_ext. intros v Hv. apply in_zrange in Hv.
  now rewrite (gs3_tsig V u0).
Qed.
Lemma work2_gs_tsig V uf w : work2 V (gs2 V uf) w = work2 V (tsig2 V uf) w.
Proof.
  apply rsum_ext. intros e He. apply rsum_ext. intros g _. apply rsum_ext. intros v Hv. apply in_zrange in Hv.
  now rewrite gs2_tsig.
Qed.
(** linear elastic stress of a displacement field *)
Definition lsig3 (V : env R) w (e : Z * Z * Z) (g m : Z) : R :=
  rsum (zrange 0 6) (fun k => ctan3 (m_lambda (mat_at V (ix3 V e))) (m_mu (mat_at V (ix3 V e))) m k * str3 V w e g k).
Lemma work3_lsig V uf of w : linear V -> v_dim V = 3%Z -> work3 V (gs3 V uf of) w = work3 V (lsig3 V uf) w.
Proof.
  intros L D. rewrite (work3_gs_tsig V uf) by assumption.
  apply rsum_ext. intros e He. apply rsum_ext. intros g _. apply rsum_ext. intros v Hv. apply in_zrange in Hv.
  unfold tsig3. now rewrite tan3_lin.
Qed.
Lemma tsig_lsig V uf of w v : linear V -> v_dim V = 3%Z -> work3 V (tsig3 V uf of w) v = work3 V (lsig3 V w) v.
Proof.
  intros L D. apply rsum_ext. intros e He. apply rsum_ext. intros g _. apply rsum_ext. intros k Hv.
  unfold tsig3. now rewrite tan3_lin.
Qed.
Lemma lsym3 V v w : linear V -> v_dim V = 3%Z -> work3 V (lsig3 V w) v = work3 V (lsig3 V v) w.
Proof.
  intros L D. rewrite <- !(tsig_lsig V (fun _ => 0) (fun _ => 0)) by assumption. now apply symmetric3.
Qed.
Lemma lwork3_minus V s x y : work3 V s (fun i => x i - y i) = work3 V s x - work3 V s y.
Proof.
  assert (X : work3 V s x = work3 V s (fun i => x i - y i) + work3 V s y).
  { unfold work3. rewrite <- mwork_plus_r. apply work_ext_w. intros; ring. }
  lra.
Qed.
Lemma lwork2_minus V s x y : work2 V s (fun i => x i - y i) = work2 V s x - work2 V s y.
Proof.
  assert (X : work2 V s x = work2 V s (fun i => x i - y i) + work2 V s y).
  { unfold work2. rewrite <- mwork_plus_r. apply work_ext_w. intros; ring. }
  lra.
Qed.
(** energy of a difference *)
Lemma energy_diff3 V u w : linear V -> v_dim V = 3%Z ->
  work3 V (lsig3 V w) w = work3 V (lsig3 V u) u + 2 * work3 V (lsig3 V u) (fun i => w i - u i)
     + work3 V (lsig3 V (fun i => w i - u i)) (fun i => w i - u i).
Proof.
  intros L D. set (d := fun i => w i - u i).
  rewrite (lwork3_minus V (lsig3 V d) w u : work3 V (lsig3 V d) d = _).
  rewrite (lsym3 V w d L D), (lsym3 V u d L D). unfold d. rewrite !lwork3_minus. rewrite (lsym3 V u w L D). ring.
Qed.
Lemma energy_diff2 V u w :
  work2 V (tsig2 V w) w = work2 V (tsig2 V u) u + 2 * work2 V (tsig2 V u) (fun i => w i - u i)
     + work2 V (tsig2 V (fun i => w i - u i)) (fun i => w i - u i).
Proof.
  set (d := fun i => w i - u i).
  rewrite (lwork2_minus V (tsig2 V d) w u : work2 V (tsig2 V d) d = _).
  rewrite (symmetric2 V w d), (symmetric2 V u d). unfold d. rewrite !lwork2_minus. rewrite (symmetric2 V u w). ring.
Qed.

(** an exactly equilibrated solution for the macro strain e, with the stress reported for it *)
Definition response3 (V : env R) (e : list R) (u : arr R) (sig : list R) : Prop :=
  exists uf of vold vnew b b' nl vnew' vnew'', rep u (ndofs V) uf /\ old_ok V of vold /\
    alen vnew = (ncells V * 56)%Z /\ alen b = ndofs V /\ bndaff3 V e uf /\
    assembly_rhs V u vold vnew b = Ok (b', nl, vnew', 0) /\ calc_ave_stress V u vold vnew = Ok (sig, vnew'').
Definition response2 (V : env R) (e : list R) (u : arr R) (sig : list R) : Prop :=
  exists uf vold vnew b b' nl vnew' vnew'', rep u (ndofs V) uf /\ alen b = ndofs V /\ bndaff2 V e uf /\
    assembly_rhs V u vold vnew b = Ok (b', nl, vnew', 0) /\ calc_ave_stress V u vold vnew = Ok (sig, vnew'').
Definition dot6 (s e : list R) : R := rsum (zrange 0 6) (fun v => lget s v * lget e v).
Definition dot3 (s e : list R) : R := rsum (zrange 0 3) (fun v => lget s v * lget e v).

Lemma resp3_work V e u sig : sane V -> geom V -> v_dim V = 3%Z -> linear V -> response3 V e u sig ->
  exists uf, rep u (ndofs V) uf /\ bndaff3 V e uf /\
   (forall w, van V w -> work3 V (lsig3 V uf) w = 0) /\
   (forall e' w, bndaff3 V e' w -> work3 V (lsig3 V uf) w = v_lx V * v_ly V * dot6 sig e') /\
   (forall v, (0 <= v < 6)%Z -> lget sig v = v_lz V * (integral3 V (fun e g => lsig3 V uf e g v) / vol3 V)).
Proof.
  intros S G D L (uf & of & vold & vnew & b & b' & nl & vn' & vn'' & U & O & Lv & Lb & B & E & Es).
  exists uf. split; [exact U|]. split; [exact B|]. split; [|split].
  - intros w W. rewrite <- (work3_lsig V uf of) by assumption. apply work3_van; try assumption.
    destruct (residual3 V uf of u vold vnew b S D U O Lv Lb) as (b1 & nl1 & v1 & n1 & E1 & R1 & N1).
    rewrite E in E1. injection E1 as <- <- <- <-. symmetry in N1. intros r Hr. now apply (sqrt0_sumsq (ndofs V)).
  - intros e' w W. rewrite <- (work3_lsig V uf of) by assumption. eapply hill_mandel3; eassumption.
  - intros v Hv. destruct (ave_stress3 V u uf of vold vnew S G D U O Lv) as (s1 & v2 & E2 & H2). rewrite Es in E2. injection E2 as <- <-.
    rewrite (H2 v Hv). f_equal. f_equal. apply rsum_ext. intros c Hc. apply rsum_ext. intros g _.
    rewrite (gs3_tsig V uf) by assumption. unfold tsig3. now rewrite tan3_lin.
Qed.
Lemma resp2_work V e u sig : sane V -> geom V -> v_dim V = 2%Z -> response2 V e u sig ->
  exists uf, rep u (ndofs V) uf /\ bndaff2 V e uf /\
   (forall w, van V w -> work2 V (tsig2 V uf) w = 0) /\
   (forall e' w, bndaff2 V e' w -> work2 V (tsig2 V uf) w = v_lx V * v_ly V * dot3 sig e') /\
   (forall v, (0 <= v < 3)%Z -> lget sig v = integral2 V (fun e g => tsig2 V uf e g v) / vol2 V).
Proof.
  intros S G D (uf & vold & vnew & b & b' & nl & vn' & vn'' & U & Lb & B & E & Es).
  exists uf. split; [exact U|]. split; [exact B|]. split; [|split].
  - intros w W. rewrite <- work2_gs_tsig. apply work2_van; try assumption.
    destruct (residual2 V uf u vold vnew b S D U Lb) as (b1 & n1 & E1 & R1 & N1).
    rewrite E in E1. injection E1 as <- _ _ <-. symmetry in N1. intros r Hr. now apply (sqrt0_sumsq (ndofs V)).
  - intros e' w W. rewrite <- work2_gs_tsig. eapply hill_mandel2; eassumption.
  - intros v Hv. destruct (ave_stress2 V u uf vold vnew S G D U) as (s1 & E2 & H2). rewrite Es in E2. injection E2 as <- _.
    rewrite (H2 v Hv). f_equal. apply rsum_ext. intros c Hc. apply rsum_ext. intros g _. now rewrite gs2_tsig.
Qed.

Theorem reciprocity3 V e1 e2 u1 u2 s1 s2 : sane V -> geom V -> v_dim V = 3%Z -> linear V ->
  response3 V e1 u1 s1 -> response3 V e2 u2 s2 -> dot6 s1 e2 = dot6 s2 e1.
Proof.
  intros S G D L R1 R2. destruct (resp3_work V e1 u1 s1 S G D L R1) as (f1 & _ & B1 & _ & W1 & _).
  destruct (resp3_work V e2 u2 s2 S G D L R2) as (f2 & _ & B2 & _ & W2 & _).
  pose proof (W1 e2 f2 B2) as X1. pose proof (W2 e1 f1 B1) as X2. rewrite (lsym3 V f2 f1 L D) in X1. rewrite X1 in X2.
  destruct (geom_pos V S G). apply Rmult_eq_reg_l with (v_lx V * v_ly V); nra.
Qed.
Theorem reciprocity2 V e1 e2 u1 u2 s1 s2 : sane V -> geom V -> v_dim V = 2%Z ->
  response2 V e1 u1 s1 -> response2 V e2 u2 s2 -> dot3 s1 e2 = dot3 s2 e1.
Proof.
  intros S G D R1 R2. destruct (resp2_work V e1 u1 s1 S G D R1) as (f1 & _ & B1 & _ & W1 & _).
  destruct (resp2_work V e2 u2 s2 S G D R2) as (f2 & _ & B2 & _ & W2 & _).
  pose proof (W1 e2 f2 B2) as X1. pose proof (W2 e1 f1 B1) as X2. rewrite (symmetric2 V f2 f1) in X1. rewrite X1 in X2.
  destruct (geom_pos V S G). apply Rmult_eq_reg_l with (v_lx V * v_ly V); nra.
Qed.

Lemma van_bnd3 V e w u : sane V -> v_dim V = 3%Z -> bndaff3 V e w -> bndaff3 V e u -> van V (fun i => w i - u i).
Proof.
  intros S D W U r Hr B. pose proof (van_diff3 V e w S D W r Hr B). pose proof (van_diff3 V e u S D U r Hr B). lra.
Qed.
Lemma van_bnd2 V e w u : sane V -> v_dim V = 2%Z -> bndaff2 V e w -> bndaff2 V e u -> van V (fun i => w i - u i).
Proof.
  intros S D W U r Hr B. pose proof (van_diff2 V e w S D W r Hr B). pose proof (van_diff2 V e u S D U r Hr B). lra.
Qed.

(** minimum potential energy: the equilibrated field minimises the energy over the fields with its boundary values *)
Theorem min_energy3 V e u s w : sane V -> geom V -> v_dim V = 3%Z -> linear V -> adm V ->
  response3 V e u s -> bndaff3 V e w -> v_lx V * v_ly V * dot6 s e <= work3 V (lsig3 V w) w.
Proof.
  intros S G D L A R1 B. destruct (resp3_work V e u s S G D L R1) as (f & _ & Bf & Z0 & W1 & _).
  rewrite (energy_diff3 V f w L D). rewrite (Z0 _ (van_bnd3 V e w f S D B Bf)), <- (W1 e f Bf).
  destruct (definite3 V S D G L A (fun _ => 0) (fun _ => 0) _ (van_bnd3 V e w f S D B Bf)) as (P & _).
  rewrite tsig_lsig in P by assumption. lra.
Qed.
Theorem min_energy2 V e u s w : sane V -> geom V -> v_dim V = 2%Z -> adm V ->
  response2 V e u s -> bndaff2 V e w -> v_lx V * v_ly V * dot3 s e <= work2 V (tsig2 V w) w.
Proof.
  intros S G D A R1 B. destruct (resp2_work V e u s S G D R1) as (f & _ & Bf & Z0 & W1 & _).
  rewrite (energy_diff2 V f w). rewrite (Z0 _ (van_bnd2 V e w f S D B Bf)), <- (W1 e f Bf).
  destruct (definite2 V S D G A _ (van_bnd2 V e w f S D B Bf)) as (P & _). lra.
Qed.

(** Voigt bound: the effective energy is at most that of the uniform strain field *)
Theorem voigt_bound3 V e u s ua of vold vnew sa vn : sane V -> geom V -> v_dim V = 3%Z -> linear V -> adm V ->
  response3 V e u s -> rep ua (ndofs V) (afield3 V e) -> old_ok V of vold -> alen vnew = (ncells V * 56)%Z ->
  calc_ave_stress V ua vold vnew = Ok (sa, vn) -> dot6 s e <= dot6 sa e.
Proof.
  intros S G D L A R1 Ua O Lv Es. pose proof (min_energy3 V e u s _ S G D L A R1 (bndaff3_afield V e)) as M.
  rewrite <- (work3_lsig V _ of) in M by assumption. rewrite work3_afield in M by assumption.
  destruct (ave_stress3 V ua _ of vold vnew S G D Ua O Lv) as (s1 & v2 & E2 & H2). rewrite Es in E2. injection E2 as <- <-.
  destruct (geom_pos V S G). pose proof (geom_posz V S G D).
  apply Rmult_le_reg_l with (v_lx V * v_ly V); [nra|]. eapply Rle_trans; [exact M|]. right. unfold dot6. rewrite <- rsum_scal. apply rsum_ext.
  intros v Hv. apply in_zrange in Hv. rewrite (H2 v Hv), (geom_vol3 V D G). field. lra.
Qed.
Theorem voigt_bound2 V e u s ua vold vnew sa vn : sane V -> geom V -> v_dim V = 2%Z -> adm V ->
  response2 V e u s -> rep ua (ndofs V) (afield2 V e) ->
  calc_ave_stress V ua vold vnew = Ok (sa, vn) -> dot3 s e <= dot3 sa e.
Proof.
  intros S G D A R1 Ua Es. pose proof (min_energy2 V e u s _ S G D A R1 (bndaff2_afield V e)) as M.
  rewrite <- work2_gs_tsig in M. rewrite work2_afield in M by assumption.
  destruct (ave_stress2 V ua _ vold vnew S G D Ua) as (s1 & E2 & H2). rewrite Es in E2. injection E2 as <- _.
  destruct (geom_pos V S G).
  apply Rmult_le_reg_l with (v_lx V * v_ly V); [nra|]. eapply Rle_trans; [exact M|]. right. unfold dot3. rewrite <- rsum_scal. apply rsum_ext.
  intros v Hv. apply in_zrange in Hv. rewrite (H2 v Hv), (geom_vol2 V G). field. lra.
Qed.

(** the effective stiffness is positive definite *)
Lemma str_zero3 V w : sane V -> geom V -> v_dim V = 3%Z -> linear V -> adm V ->
  0 <= work3 V (lsig3 V w) w /\ (work3 V (lsig3 V w) w = 0 -> forall e g v, In e (els3 V) -> In g (zrange 0 8) -> (0 <= v < 6)%Z -> str3 V w e g v = 0).
Proof.
  intros S G D L A. set (o := fun _ : Z => 0). pose proof (wg3_pos V D G) as W.
  assert (Hq : forall e g x, In e (els3 V) -> In g (zrange 0 8) -> 0 <= quad 6 (tan3 V o o e g) x /\
    (quad 6 (tan3 V o o e g) x = 0 -> forall v, (0 <= v < 6)%Z -> x v = 0)) by (intros; now apply tan3_quad).
  rewrite <- (tsig_lsig V o o) by assumption. split.
  - exact (work_nonneg (els3 V) 24 6 (zrange 0 8) (addr3 V) (B3 V) (wg3 V) (tan3 V o o) W Hq w).
  - exact (work_zero (els3 V) 24 6 (zrange 0 8) (addr3 V) (B3 V) (wg3 V) (tan3 V o o) W Hq w).
Qed.
Lemma str_zero2 V w : sane V -> geom V -> v_dim V = 2%Z -> adm V ->
  0 <= work2 V (tsig2 V w) w /\ (work2 V (tsig2 V w) w = 0 -> forall e g v, In e (els2 V) -> In g (zrange 0 4) -> (0 <= v < 3)%Z -> str2 V w e g v = 0).
Proof.
  intros S G D A. pose proof (wg2_pos V G) as W.
  assert (Hq : forall e g x, In e (els2 V) -> In g (zrange 0 4) -> 0 <= quad 3 (tan2 V e) x /\
    (quad 3 (tan2 V e) x = 0 -> forall v, (0 <= v < 3)%Z -> x v = 0)) by (intros; now apply tan2_quad).
  split.
  - exact (work_nonneg (els2 V) 8 3 (zrange 0 4) (addr2 V) (B2 V) (wg2 V) (fun e g => tan2 V e) W Hq w).
  - exact (work_zero (els2 V) 8 3 (zrange 0 4) (addr2 V) (B2 V) (wg2 V) (fun e g => tan2 V e) W Hq w).
Qed.
Theorem effective_pd3 V e u s : sane V -> geom V -> v_dim V = 3%Z -> linear V -> adm V -> response3 V e u s ->
  0 <= dot6 s e /\ (dot6 s e = 0 -> forall v, (0 <= v < 6)%Z -> lget e v = 0).
Proof.
  intros S G D L A R1. destruct (resp3_work V e u s S G D L R1) as (f & _ & Bf & _ & W1 & _).
  destruct (geom_pos V S G). pose proof (geom_posz V S G D). destruct (str_zero3 V f S G D L A) as (P & Q).
  rewrite (W1 e f Bf) in P, Q. split; [assert (0 < v_lx V * v_ly V) by nra; nra|].
  intros Z0. rewrite Z0, Rmult_0_r in Q. specialize (Q eq_refl). intros v Hv.
  pose proof (strain_ave3 V _ _ _ _ _ _ _ v S D G Bf Hv) as X. rewrite voigt6_lget, (geom_vol3 V D G) in X by assumption.
  rewrite rsum_zero in X.
  - assert (0 < v_lx V * v_ly V) by nra. assert (0 < v_lx V * v_ly V * v_lz V) by nra. nra.
  - intros c Hc. apply rsum_zero. intros g Hg. rewrite Q by assumption. ring.
Qed.
Theorem effective_pd2 V e u s : sane V -> geom V -> v_dim V = 2%Z -> adm V -> response2 V e u s ->
  0 <= dot3 s e /\ (dot3 s e = 0 -> forall v, (0 <= v < 3)%Z -> lget e v = 0).
Proof.
  intros S G D A R1. destruct (resp2_work V e u s S G D R1) as (f & _ & Bf & _ & W1 & _).
  destruct (geom_pos V S G). destruct (str_zero2 V f S G D A) as (P & Q).
  rewrite (W1 e f Bf) in P, Q. split; [assert (0 < v_lx V * v_ly V) by nra; nra|].
  intros Z0. rewrite Z0, Rmult_0_r in Q. specialize (Q eq_refl). intros v Hv.
  pose proof (strain_ave2 V _ _ _ _ v S G Bf Hv) as X. rewrite voigt3_lget, (geom_vol2 V G) in X by assumption.
  rewrite rsum_zero in X.
  - assert (0 < v_lx V * v_ly V) by nra. nra.
  - intros c Hc. apply rsum_zero. intros g Hg. rewrite Q by assumption. ring.
Qed.

(** uniqueness *)
Lemma mstrain_eqon V f1 f2 e g v : v_dim V = 3%Z -> (forall r, (0 <= r < ndofs V)%Z -> f1 r = f2 r) ->
  In e (els3 V) -> str3 V f1 e g v = str3 V f2 e g v.
Proof.
  intros D H He. apply mstrain_ext. intros i Hi. apply H. rewrite (ndofs3 V D). now apply addr3_range.
Qed.
Lemma mstrain_eqon2 V f1 f2 e g v : sane V -> v_dim V = 2%Z -> (forall r, (0 <= r < ndofs V)%Z -> f1 r = f2 r) ->
  In e (els2 V) -> str2 V f1 e g v = str2 V f2 e g v.
Proof.
  intros S D H He. apply mstrain_ext. intros i Hi. apply H. rewrite (ndofs2 V S D). now apply addr2_range.
Qed.
Theorem response_unique3 V e u1 u2 s1 s2 : sane V -> geom V -> v_dim V = 3%Z -> linear V -> adm V ->
  response3 V e u1 s1 -> response3 V e u2 s2 ->
  (forall r, (0 <= r < ndofs V)%Z -> aget u1 r = aget u2 r) /\ (forall v, (0 <= v < 6)%Z -> lget s1 v = lget s2 v).
Proof.
  intros S G D L A R1 R2. destruct (resp3_work V e u1 s1 S G D L R1) as (f1 & U1 & B1 & Z1 & _ & I1).
  destruct (resp3_work V e u2 s2 S G D L R2) as (f2 & U2 & B2 & Z2 & _ & I2).
  pose proof (van_bnd3 V e f1 f2 S D B1 B2) as W.
  destruct (definite3 V S D G L A (fun _ => 0) (fun _ => 0) _ W) as (_ & Q). rewrite tsig_lsig in Q by assumption.
  assert (X : work3 V (lsig3 V (fun i => f1 i - f2 i)) (fun i => f1 i - f2 i) = 0).
  { set (d := fun i => f1 i - f2 i) in *. rewrite (lwork3_minus V (lsig3 V d) f1 f2 : work3 V (lsig3 V d) d = _).
    rewrite (lsym3 V f1 d L D), (lsym3 V f2 d L D), (Z1 d W), (Z2 d W). ring. }
  assert (Y : forall r, (0 <= r < ndofs V)%Z -> f1 r = f2 r) by (intros r Hr; pose proof (Q X r Hr); cbv beta in *; lra).
  split; [intros r Hr; now rewrite (proj2 U1 r Hr), (proj2 U2 r Hr), (Y r Hr)|].
  intros v Hv. rewrite (I1 v Hv), (I2 v Hv). f_equal. f_equal. apply rsum_ext. intros c Hc. apply rsum_ext. intros g _. f_equal.
  apply rsum_ext. intros k _. f_equal. now apply mstrain_eqon.
Qed.
Theorem response_unique2 V e u1 u2 s1 s2 : sane V -> geom V -> v_dim V = 2%Z -> adm V ->
  response2 V e u1 s1 -> response2 V e u2 s2 ->
  (forall r, (0 <= r < ndofs V)%Z -> aget u1 r = aget u2 r) /\ (forall v, (0 <= v < 3)%Z -> lget s1 v = lget s2 v).
Proof.
  intros S G D A R1 R2. destruct (resp2_work V e u1 s1 S G D R1) as (f1 & U1 & B1 & Z1 & _ & I1).
  destruct (resp2_work V e u2 s2 S G D R2) as (f2 & U2 & B2 & Z2 & _ & I2).
  pose proof (van_bnd2 V e f1 f2 S D B1 B2) as W.
  destruct (definite2 V S D G A _ W) as (_ & Q).
  assert (X : work2 V (tsig2 V (fun i => f1 i - f2 i)) (fun i => f1 i - f2 i) = 0).
  { set (d := fun i => f1 i - f2 i) in *. rewrite (lwork2_minus V (tsig2 V d) f1 f2 : work2 V (tsig2 V d) d = _).
    rewrite (symmetric2 V f1 d), (symmetric2 V f2 d), (Z1 d W), (Z2 d W). ring. }
  assert (Y : forall r, (0 <= r < ndofs V)%Z -> f1 r = f2 r) by (intros r Hr; pose proof (Q X r Hr); cbv beta in *; lra).
  split; [intros r Hr; now rewrite (proj2 U1 r Hr), (proj2 U2 r Hr), (Y r Hr)|].
  intros v Hv. rewrite (I1 v Hv), (I2 v Hv). f_equal. apply rsum_ext. intros c Hc. apply rsum_ext. intros g _. f_equal.
  apply rsum_ext. intros k _. f_equal. now apply mstrain_eqon2.
Qed.
