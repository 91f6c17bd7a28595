(** Residual, averages, equilibrium: consequences in exact arithmetic. *)
From Coq Require Import Reals Lra ZifyBool.
From Verif Require Import Base Scalar EllSpec EllInit Grid EllModel EllAsm EllOp EllFinal EllProps
  CgPure CgTheory CgFinal CgProps AssemblyModel AsmPure AsmBnd AsmRun AsmMat FemGen FemAve FemMat FemMat2 FemDef FemPd.
Open Scope Z_scope.
Open Scope R_scope.

(** Gauss point stresses of a displacement field *)
Definition gs3 (V : env R) uf of (e : Z * Z * Z) (g v : Z) : R := lget (sig3 V of e g (strain3 V uf e g)) v.
Definition gs2 (V : env R) uf (e : Z * Z) (g v : Z) : R := lget (sig2 V e (strain2 V uf e g)) v.

Lemma fold_oadd (l : list R) x : fold_left oadd l x = x + rsum l (fun y => y).
Proof. pose proof (accf_R x l (fun y => y)) as H. exact H. Qed.
Lemma dec01_R : (dec 0 1 : R) = 0.
Proof. unfold dec. cbn [odiv ofZ ROps]. unfold Rdiv. now rewrite Rmult_0_l. Qed.

Lemma be3_entry V uf of e i : (0 <= i < 24)%Z ->
  lget (be3 V uf of e) i = mbe 6 (zrange 0 8) (B3 V) (wg3 V) (gs3 V uf of) e i.
Proof.
  intros Hi. unfold be3. rewrite (add_rhs_fold 6 24 (fun g => B3 V g) (fun g => sig3 V of e g (strain3 V uf e g))) by assumption.
  rewrite lget_zeros by lia. rewrite Rplus_0_l. reflexivity.
Qed.
Lemma be2_entry V uf e i : (0 <= i < 8)%Z ->
  lget (be2 V uf e) i = mbe 3 (zrange 0 4) (B2 V) (wg2 V) (gs2 V uf) e i.
Proof.
  intros Hi. unfold be2. rewrite (add_rhs_fold 3 8 (fun g => B2 V g) (fun g => sig2 V e (strain2 V uf e g))) by assumption.
  rewrite lget_zeros by lia. rewrite Rplus_0_l. reflexivity.
Qed.

Lemma resid3_R V uf of a : resid V 3 (rhs_all3 V uf of) a =
  if bndb V (v_nz V) (a / 3) then 0 else - force3 V (gs3 V uf of) a.
Proof.
  unfold resid. cbn [oopp ROps]. destruct bndb; [rewrite dec01_R; ring|]. f_equal.
  rewrite fold_oadd, dec01_R, Rplus_0_l, rsum_deltas. unfold rhs_all3. rewrite rsum_flat_map.
  unfold force3, mforce. apply rsum_ext. intros [[ex ey] ez] He. unfold rhs_adds. rewrite rsum_map.
  change (Z.of_nat (length (sn3 (v_nx V) (v_ny V) ex ey ez)) * 3)%Z with 24%Z. apply rsum_ext. intros i Hi. apply in_zrange in Hi.
  cbn [fst snd]. rewrite sn3_corner by (Z.div_mod_to_equations; lia). rewrite be3_entry by assumption. reflexivity.
Qed.
Lemma resid2_R V uf a : resid V 2 (rhs_all2 V uf) a =
  if bndb V (v_nz V) (a / 2) then 0 else - force2 V (gs2 V uf) a.
Proof.
  unfold resid. cbn [oopp ROps]. destruct bndb; [rewrite dec01_R; ring|]. f_equal.
  rewrite fold_oadd, dec01_R, Rplus_0_l, rsum_deltas. unfold rhs_all2. rewrite rsum_flat_map.
  unfold force2, mforce. apply rsum_ext. intros [ex ey] He. unfold rhs_adds. rewrite rsum_map.
  change (Z.of_nat (length (sn2 (v_nx V) ex ey)) * 2)%Z with 8%Z. apply rsum_ext. intros i Hi. apply in_zrange in Hi.
  cbn [fst snd]. rewrite (sn2_corner _ (v_ny V)) by (Z.div_mod_to_equations; lia). rewrite be2_entry by assumption. reflexivity.
Qed.
Lemma norm2_R n (r : Z -> R) : norm2 n r = sqrt (rsum (zrange 0 n) (fun i => r i * r i)).
Proof. unfold norm2. rewrite sumf_R. reflexivity. Qed.

(** the out-of-balance force, by dof *)
Definition balance3 (V : env R) uf of (r : Z) : R := if bndb V (v_nz V) (r / v_dim V) then 0 else - force3 V (gs3 V uf of) r.
Definition balance2 (V : env R) uf (r : Z) : R := if bndb V (v_nz V) (r / v_dim V) then 0 else - force2 V (gs2 V uf) r.

(** C27 *)
Theorem residual3 V uf of u vold vnew b : sane V -> v_dim V = 3%Z -> rep u (ndofs V) uf -> old_ok V of vold ->
  alen vnew = (ncells V * 56)%Z -> alen b = ndofs V ->
  exists b' nl vnew' nrm, assembly_rhs V u vold vnew b = Ok (b', nl, vnew', nrm) /\
    rep b' (ndofs V) (balance3 V uf of) /\
    nrm = sqrt (rsum (zrange 0 (ndofs V)) (fun r => balance3 V uf of r * balance3 V uf of r)).
Proof.
  intros S D U O L Lb. rewrite (ndofs3 V D) in *.
  destruct (rhs3_ok V uf of S u vold vnew b D U O L Lb) as (b' & vn & E & Rb & _).
  exists b'. do 3 eexists. split; [exact E|].
  assert (X : forall r, resid V 3 (rhs_all3 V uf of) r = balance3 V uf of r).
  { intros r. rewrite resid3_R. unfold balance3. now rewrite D. }
  split.
  - eapply rep_ext; [exact Rb|]. intros i _. apply X.
  - rewrite norm2_R. f_equal. apply rsum_ext. intros r _. now rewrite !X.
Qed.
Theorem residual2 V uf u vold vnew b : sane V -> v_dim V = 2%Z -> rep u (ndofs V) uf -> alen b = ndofs V ->
  exists b' nrm, assembly_rhs V u vold vnew b = Ok (b', false, vnew, nrm) /\
    rep b' (ndofs V) (balance2 V uf) /\
    nrm = sqrt (rsum (zrange 0 (ndofs V)) (fun r => balance2 V uf r * balance2 V uf r)).
Proof.
  intros S D U Lb. rewrite (ndofs2 V S D) in *.
  destruct (rhs2_ok V uf uf S u vold vnew b D U Lb) as (b' & E & Rb).
  exists b'. eexists. split; [exact E|].
  assert (X : forall r, resid V 2 (rhs_all2 V uf) r = balance2 V uf r).
  { intros r. rewrite resid2_R. unfold balance2. now rewrite D. }
  split.
  - eapply rep_ext; [exact Rb|]. intros i _. apply X.
  - rewrite norm2_R. f_equal. apply rsum_ext. intros r _. now rewrite !X.
Qed.

(** ** Linearity *)
Section MeshLin.
Context {E : Type}.
Variables (els : list E) (nd nv : Z) (gs : list Z) (addr : E -> Z -> Z) (B : Z -> Z -> Z -> R) (wg : R).
Lemma mstrain_plus x y e g v : mstrain nd addr B (fun i => x i + y i) e g v =
  mstrain nd addr B x e g v + mstrain nd addr B y e g v.
Proof. unfold mstrain. rewrite <- rsum_plus. apply rsum_ext. intros i _. ring. Qed.
Lemma mstrain_scal c x e g v : mstrain nd addr B (fun i => c * x i) e g v = c * mstrain nd addr B x e g v.
Proof. unfold mstrain. rewrite <- rsum_scal. apply rsum_ext. intros i _. ring. Qed.
Lemma mstrain_ext x y e g v : (forall i, (0 <= i < nd)%Z -> x (addr e i) = y (addr e i)) ->
  mstrain nd addr B x e g v = mstrain nd addr B y e g v.
Proof. intros H. apply rsum_ext. intros i Hi. apply in_zrange in Hi. now rewrite H. Qed.
Lemma mforce_ext s t a : (forall e g v, In e els -> In g gs -> (0 <= v < nv)%Z -> s e g v = t e g v) ->
  mforce els nd nv gs addr B wg s a = mforce els nd nv gs addr B wg t a.
Proof.
  intros H. apply rsum_ext. intros e He. apply rsum_ext. intros i _. destruct (_ =? _)%Z; [|reflexivity].
  apply rsum_ext. intros g Hg. apply rsum_ext. intros v Hv. apply in_zrange in Hv. now rewrite H.
Qed.
Lemma mforce_plus s t a : mforce els nd nv gs addr B wg (fun e g v => s e g v + t e g v) a =
  mforce els nd nv gs addr B wg s a + mforce els nd nv gs addr B wg t a.
Proof.
  unfold mforce. rewrite <- rsum_plus. apply rsum_ext. intros e _. rewrite <- rsum_plus. apply rsum_ext. intros i _.
  destruct (_ =? _)%Z; [|ring]. unfold mbe. rewrite <- rsum_plus. apply rsum_ext. intros g _.
  rewrite <- rsum_plus. apply rsum_ext. intros v _. ring.
Qed.
Lemma mwork_plus_r s x y : mwork els nd nv gs addr B wg s (fun i => x i + y i) =
  mwork els nd nv gs addr B wg s x + mwork els nd nv gs addr B wg s y.
Proof.
  unfold mwork. rewrite <- rsum_plus. apply rsum_ext. intros e _. rewrite <- rsum_plus. apply rsum_ext. intros g _.
  rewrite <- rsum_plus. apply rsum_ext. intros v _. rewrite mstrain_plus. ring.
Qed.
End MeshLin.

Lemma gs2_tsig V uf e g v : (0 <= v < 3)%Z -> gs2 V uf e g v = tsig2 V uf e g v.
Proof.
  intros Hv. unfold gs2, sig2. rewrite stress2_ctan by assumption. unfold tsig2, tan2. apply rsum_ext. intros k Hk.
  apply in_zrange in Hk. now rewrite strain2_str.
Qed.
Lemma gs3_tsig V u0 uf of e g v : linear V -> v_dim V = 3%Z -> In e (els3 V) -> (0 <= v < 6)%Z ->
  gs3 V uf of e g v = tsig3 V u0 of uf e g v.
Proof.
  intros L D He Hv. unfold gs3, sig3, tsig3. rewrite tan3_lin by assumption. rewrite (L _ (ix3_range V e D He)).
  rewrite lin_stress_ctan by assumption. apply rsum_ext. intros k Hk. apply in_zrange in Hk. now rewrite strain3_str.
Qed.
Lemma tsig2_plus V x y e g v : tsig2 V (fun i => x i + y i) e g v = tsig2 V x e g v + tsig2 V y e g v.
Proof.
  unfold tsig2. rewrite <- rsum_plus. apply rsum_ext. intros k _. unfold str2. rewrite mstrain_plus. ring.
Qed.
Lemma tsig3_plus V uf of x y e g v : tsig3 V uf of (fun i => x i + y i) e g v = tsig3 V uf of x e g v + tsig3 V uf of y e g v.
Proof.
  unfold tsig3. rewrite <- rsum_plus. apply rsum_ext. intros k _. unfold str3. rewrite mstrain_plus. ring.
Qed.

Lemma force2_plus V uf du r : force2 V (gs2 V (fun i => uf i + du i)) r = force2 V (gs2 V uf) r + force2 V (tsig2 V du) r.
Proof.
  unfold force2. rewrite <- mforce_plus. apply mforce_ext. intros e g v _ _ Hv.
  now rewrite !gs2_tsig, tsig2_plus by assumption.
Qed.
Lemma force3_plus V u0 uf of du r : linear V -> v_dim V = 3%Z ->
  force3 V (gs3 V (fun i => uf i + du i) of) r = force3 V (gs3 V uf of) r + force3 V (tsig3 V u0 of du) r.
Proof.
  intros L D. unfold force3. rewrite <- mforce_plus. apply mforce_ext. intros e g v He _ Hv.
  now rewrite !(gs3_tsig V u0), tsig3_plus by assumption.
Qed.

(** C28: the matrix is the derivative of the residual *)
Theorem newton2_exact V uf du u u' vold vnew b0 b1 (A : ell R) : sane V -> v_dim V = 2%Z -> geom V -> adm V ->
  matrix2 2 (v_nx V) (v_ny V) A -> rep u (ndofs V) uf -> rep u' (ndofs V) (fun i => uf i + du i) ->
  alen b0 = ndofs V -> alen b1 = ndofs V -> van V du ->
  exists A' b bf b' bf' n0 n1, assembly_mat V u vold vnew A = Ok (A', vnew) /\
    assembly_rhs V u vold vnew b0 = Ok (b, false, vnew, n0) /\ rep b (ndofs V) bf /\
    assembly_rhs V u' vold vnew b1 = Ok (b', false, vnew, n1) /\ rep b' (ndofs V) bf' /\
    (forall r, (0 <= r < ndofs V)%Z -> bf' r = bf r - mul A' du r) /\
    n1 = residual_norm A' bf du.
Proof.
  intros S D G Ad M U U' L0 L1 Vd.
  destruct (stiffness2_spd V u vold vnew A S D G Ad M) as (A' & E & M' & W & (Ir & _) & _ & F).
  destruct (residual2 V uf u vold vnew b0 S D U L0) as (b & n0 & E0 & R0 & N0).
  destruct (residual2 V _ u' vold vnew b1 S D U' L1) as (b' & n1 & E1 & R1 & N1).
  exists A', b, (balance2 V uf), b', (balance2 V (fun i => uf i + du i)), n0, n1.
  split; [exact E|]. split; [exact E0|]. split; [exact R0|]. split; [exact E1|]. split; [exact R1|].
  assert (HN : e_nrow A' = ndofs V) by (rewrite (ndofs2 V S D); apply W).
  assert (X : forall r, (0 <= r < ndofs V)%Z -> balance2 V (fun i => uf i + du i) r = balance2 V uf r - mul A' du r).
  { intros r Hr. destruct (bdof_dec V r) as [B|B].
    - rewrite (mul_identrow (ndofs V) A' HN du r Hr) by (intros; apply Ir; unfold fdof; tauto).
      rewrite (Vd r Hr B). unfold balance2. unfold bdof in B. rewrite B. ring.
    - rewrite F by assumption. unfold balance2. unfold bdof in B. destruct bndb; [now contradiction B|].
      rewrite force2_plus. ring. }
  split; [exact X|]. rewrite N1. unfold residual_norm. rewrite HN. f_equal. apply rsum_ext. intros r Hr. apply in_zrange in Hr.
  rewrite X by assumption. ring.
Qed.
Theorem newton3_exact V uf of du u u' vold vnew b0 b1 (A : ell R) : sane V -> v_dim V = 3%Z -> geom V -> linear V -> adm V ->
  matrix3 3 (v_nx V) (v_ny V) (v_nz V) A -> rep u (ndofs V) uf -> rep u' (ndofs V) (fun i => uf i + du i) ->
  old_ok V of vold -> alen vnew = (ncells V * 56)%Z -> 
  alen b0 = ndofs V -> alen b1 = ndofs V -> van V du ->
  exists A' b bf b' bf' v0 v1 nl0 nl1 n0 n1, assembly_mat V u vold vnew A = Ok (A', vnew) /\
    assembly_rhs V u vold vnew b0 = Ok (b, nl0, v0, n0) /\ rep b (ndofs V) bf /\
    assembly_rhs V u' vold vnew b1 = Ok (b', nl1, v1, n1) /\ rep b' (ndofs V) bf' /\
    (forall r, (0 <= r < ndofs V)%Z -> bf' r = bf r - mul A' du r) /\
    n1 = residual_norm A' bf du.
Proof.
  intros S D G L Ad M U U' O Lv L0 L1 Vd.
  destruct (stiffness3_spd V uf of u vold vnew A S D G L Ad U O Lv M) as (A' & E & M' & W & (Ir & _) & _ & _ & F).
  destruct (residual3 V uf of u vold vnew b0 S D U O Lv L0) as (b & nl0 & v0 & n0 & E0 & R0 & N0).
  destruct (residual3 V _ of u' vold vnew b1 S D U' O Lv L1) as (b' & nl1 & v1 & n1 & E1 & R1 & N1).
  exists A', b, (balance3 V uf of), b', (balance3 V (fun i => uf i + du i) of), v0, v1, nl0, nl1, n0, n1.
  split; [exact E|]. split; [exact E0|]. split; [exact R0|]. split; [exact E1|]. split; [exact R1|].
  assert (HN : e_nrow A' = ndofs V) by (rewrite (ndofs3 V D); apply W).
  assert (X : forall r, (0 <= r < ndofs V)%Z -> balance3 V (fun i => uf i + du i) of r = balance3 V uf of r - mul A' du r).
  { intros r Hr. destruct (bdof_dec V r) as [B|B].
    - rewrite (mul_identrow (ndofs V) A' HN du r Hr) by (intros; apply Ir; unfold fdof; tauto).
      rewrite (Vd r Hr B). unfold balance3. unfold bdof in B. rewrite B. ring.
    - rewrite F by assumption. unfold balance3. unfold bdof in B. destruct bndb; [now contradiction B|].
      rewrite (force3_plus V uf) by assumption. ring. }
  split; [exact X|]. rewrite N1. unfold residual_norm. rewrite HN. f_equal. apply rsum_ext. intros r Hr. apply in_zrange in Hr.
  rewrite X by assumption. ring.
Qed.

(** ** Affine fields (C20) *)
(** nodal values of a cell given by u = t + H x, x the node position *)
Definition homog3 (V : env R) (t : Z -> R) (H : Z -> Z -> R) (w : Z -> R) (e : Z * Z * Z) : Prop :=
  let '(ex, ey, ez) := e in forall n c, (0 <= n < 8)%Z -> (0 <= c < 3)%Z ->
  cmp3 V w c (ex + cor_x n) (ey + cor_y n) (ez + cor_z n) =
  t c + H c 0%Z * (IZR (ex + cor_x n) * v_dx V) + H c 1%Z * (IZR (ey + cor_y n) * v_dy V)
      + H c 2%Z * (IZR (ez + cor_z n) * v_dz V).
Definition homog2 (V : env R) (t : Z -> R) (H : Z -> Z -> R) (w : Z -> R) (e : Z * Z) : Prop :=
  let '(ex, ey) := e in forall n c, (0 <= n < 4)%Z -> (0 <= c < 2)%Z ->
  cmp2 V w c (ex + cor_x n) (ey + cor_y n) =
  t c + H c 0%Z * (IZR (ex + cor_x n) * v_dx V) + H c 1%Z * (IZR (ey + cor_y n) * v_dy V).
Definition sym6 (H : Z -> Z -> R) : Z -> R :=
  voigt6 (H 0%Z 0%Z) (H 1%Z 1%Z) (H 2%Z 2%Z) (H 0%Z 1%Z + H 1%Z 0%Z) (H 0%Z 2%Z + H 2%Z 0%Z) (H 1%Z 2%Z + H 2%Z 1%Z).
Definition sym3 (H : Z -> Z -> R) : Z -> R := voigt3 (H 0%Z 0%Z) (H 1%Z 1%Z) (H 0%Z 1%Z + H 1%Z 0%Z).

Lemma str3_homog V t H w e g v : v_dx V <> 0 -> v_dy V <> 0 -> v_dz V <> 0 -> homog3 V t H w e -> (0 <= v < 6)%Z ->
  str3 V w e g v = sym6 H v.
Proof.
  intros Hx Hy Hz Hm Hv. rewrite str3_grad by assumption. cbv beta zeta. destruct e as [[ex ey] ez].
  assert (X : forall a c, (0 <= a < 3)%Z -> (0 <= c < 3)%Z -> gr3 V g a (at3 (cmp3 V w c) (ex, ey, ez)) = H c a).
  { intros a c Ha Hc. unfold gr3.
    rewrite (grad3_ext _ _ _ _ _ _ a _ (fun n => (t c + H c 0%Z * (IZR ex * v_dx V) + H c 1%Z * (IZR ey * v_dy V) + H c 2%Z * (IZR ez * v_dz V))
       + H c 0%Z * (IZR (cor_x n) * v_dx V) + H c 1%Z * (IZR (cor_y n) * v_dy V) + H c 2%Z * (IZR (cor_z n) * v_dz V))).
    - rewrite grad3_affine by assumption. pattern a. apply case3; [exact Ha|..]; reflexivity.
    - intros n Hn. unfold at3. rewrite (Hm n c Hn Hc), !plus_IZR. ring. }
  rewrite !X by lia. unfold sym6, voigt6. pattern v. apply case6; [exact Hv|..]; cbn [Z.eqb Pos.eqb]; ring.
Qed.
Lemma str2_homog V t H w e g v : v_dx V <> 0 -> v_dy V <> 0 -> homog2 V t H w e -> (0 <= v < 3)%Z ->
  str2 V w e g v = sym3 H v.
Proof.
  intros Hx Hy Hm Hv. rewrite str2_grad by assumption. cbv beta zeta. destruct e as [ex ey].
  assert (X : forall a c, (0 <= a < 2)%Z -> (0 <= c < 2)%Z -> gr2 V g a (at2 (cmp2 V w c) (ex, ey)) = H c a).
  { intros a c Ha Hc. unfold gr2.
    rewrite (grad2_ext _ _ _ _ a _ (fun n => (t c + H c 0%Z * (IZR ex * v_dx V) + H c 1%Z * (IZR ey * v_dy V))
       + H c 0%Z * (IZR (cor_x n) * v_dx V) + H c 1%Z * (IZR (cor_y n) * v_dy V))).
    - rewrite grad2_affine by assumption. assert (C : (a = 0 \/ a = 1)%Z) by lia. now destruct C as [-> | ->].
    - intros n Hn. unfold at2. rewrite (Hm n c Hn Hc), !plus_IZR. ring. }
  rewrite !X by lia. unfold sym3, voigt3. pattern v. apply case3; [exact Hv|..]; cbn [Z.eqb Pos.eqb]; ring.
Qed.

Theorem strain3_affine V t H uf u ex ey ez g : sane V -> v_dim V = 3%Z -> geom V -> rep u (ndofs V) uf ->
  (0 <= ex < v_nx V - 1)%Z -> (0 <= ey < v_ny V - 1)%Z -> (0 <= ez < v_nz V - 1)%Z ->
  homog3 V t H uf (ex, ey, ez) ->
  exists eps, get_strain3D V u ex ey ez g = Ok eps /\ forall v, (0 <= v < 6)%Z -> lget eps v = sym6 H v.
Proof.
  intros S D G U Hx Hy Hz Hm. rewrite (ndofs3 V D) in U. exists (strain3 V uf (ex, ey, ez) g).
  split; [apply strain3_ok; [assumption|now apply in_els3]|]. intros v Hv. rewrite strain3_str by assumption.
  pose proof (ge_px V G). pose proof (ge_py V G). pose proof (ge_pz V G D).
  apply (str3_homog V t H); try assumption; lra.
Qed.
Theorem strain2_affine V t H uf u ex ey g : sane V -> v_dim V = 2%Z -> geom V -> rep u (ndofs V) uf ->
  (0 <= ex < v_nx V - 1)%Z -> (0 <= ey < v_ny V - 1)%Z ->
  homog2 V t H uf (ex, ey) ->
  exists eps, get_strain2D V u ex ey g = Ok eps /\ forall v, (0 <= v < 3)%Z -> lget eps v = sym3 H v.
Proof.
  intros S D G U Hx Hy Hm. rewrite (ndofs2 V S D) in U. exists (strain2 V uf (ex, ey) g).
  split; [apply strain2_ok; [assumption|now apply in_els2]|]. intros v Hv. rewrite strain2_str by assumption.
  pose proof (ge_px V G). pose proof (ge_py V G).
  apply (str2_homog V t H); try assumption; lra.
Qed.

(** ** The strain is the symmetric gradient of the interpolated displacement *)
Definition hat (c : Z) (s : R) : R := if (c =? 0)%Z then 1 - s else s.
(** multilinear interpolation on the box [0,dx] x [0,dy] x [0,dz] of one cell *)
Definition interp3 (V : env R) (f : Z -> R) (X Y Zc : R) : R := rsum (zrange 0 8) (fun n =>
  f n * hat (cor_x n) (X / v_dx V) * hat (cor_y n) (Y / v_dy V) * hat (cor_z n) (Zc / v_dz V)).
Definition interp2 (V : env R) (f : Z -> R) (X Y : R) : R := rsum (zrange 0 4) (fun n =>
  f n * hat (cor_x n) (X / v_dx V) * hat (cor_y n) (Y / v_dy V)).
(** Gauss abscissa c of gp in [0,d] *)
Definition gpos (d : R) (gp c : Z) : R := (1 + xg gp c) / 2 * d.

Lemma derivable_aff (f : R -> R) a b x : (forall y, f y = a + b * y) -> derivable_pt_lim f x b.
Proof.
  intros H. intros eps He. exists (mkposreal 1 Rlt_0_1). intros h Hh _. rewrite !H.
  replace ((a + b * (x + h) - (a + b * x)) / h - b) with 0 by (field; assumption). now rewrite Rabs_R0.
Qed.

Lemma gr3_interp V f g c : v_dx V <> 0 -> v_dy V <> 0 -> v_dz V <> 0 -> (0 <= c < 3)%Z ->
  let X := gpos (v_dx V) g 0 in let Y := gpos (v_dy V) g 1 in let Zc := gpos (v_dz V) g 2 in
  if (c =? 0)%Z then derivable_pt_lim (fun s => interp3 V f s Y Zc) X (gr3 V g c f)
  else if (c =? 1)%Z then derivable_pt_lim (fun s => interp3 V f X s Zc) Y (gr3 V g c f)
  else derivable_pt_lim (fun s => interp3 V f X Y s) Zc (gr3 V g c f).
Proof.
  intros Hx Hy Hz Hc X Y Zc.
  assert (IY : Y / v_dy V = (1 + xg g 1) / 2) by (unfold Y, gpos; field; assumption).
  assert (IX : X / v_dx V = (1 + xg g 0) / 2) by (unfold X, gpos; field; assumption).
  assert (IZ : Zc / v_dz V = (1 + xg g 2) / 2) by (unfold Zc, gpos; field; assumption).
  clearbody X Y Zc. unfold gr3. revert IX IY IZ. generalize (xg g 0 : R) (xg g 1 : R) (xg g 2 : R). intros x0 x1 x2 IX IY IZ.
  pattern c. apply case3; [exact Hc|..]; cbn [Z.eqb Pos.eqb].
  - apply (derivable_aff _ (interp3 V f 0 Y Zc)). intros s. unfold interp3. rewrite IY, IZ, zr8. cbn [rsum].
    unfold grad3. rewrite zr8. cbn [rsum]. unfold hat, dsh3. cors. cbn. field. auto.
  - apply (derivable_aff _ (interp3 V f X 0 Zc)). intros s. unfold interp3. rewrite IX, IZ, zr8. cbn [rsum].
    unfold grad3. rewrite zr8. cbn [rsum]. unfold hat, dsh3. cors. cbn. field. auto.
  - apply (derivable_aff _ (interp3 V f X Y 0)). intros s. unfold interp3. rewrite IX, IY, zr8. cbn [rsum].
    unfold grad3. rewrite zr8. cbn [rsum]. unfold hat, dsh3. cors. cbn. field. auto.
Qed.
Lemma gr2_interp V f g c : v_dx V <> 0 -> v_dy V <> 0 -> (0 <= c < 2)%Z ->
  let X := gpos (v_dx V) g 0 in let Y := gpos (v_dy V) g 1 in
  if (c =? 0)%Z then derivable_pt_lim (fun s => interp2 V f s Y) X (gr2 V g c f)
  else derivable_pt_lim (fun s => interp2 V f X s) Y (gr2 V g c f).
Proof.
  intros Hx Hy Hc X Y.
  assert (IY : Y / v_dy V = (1 + xg g 1) / 2) by (unfold Y, gpos; field; assumption).
  assert (IX : X / v_dx V = (1 + xg g 0) / 2) by (unfold X, gpos; field; assumption).
  clearbody X Y. unfold gr2. revert IX IY. generalize (xg g 0 : R) (xg g 1 : R). intros x0 x1 IX IY.
  assert (C : (c = 0 \/ c = 1)%Z) by lia. destruct C as [-> | ->]; cbn [Z.eqb Pos.eqb].
  - apply (derivable_aff _ (interp2 V f 0 Y)). intros s. unfold interp2. rewrite IY, zr4. cbn [rsum].
    unfold grad2. rewrite zr4. cbn [rsum]. unfold hat, dsh2. cors. cbn. field. auto.
  - apply (derivable_aff _ (interp2 V f X 0)). intros s. unfold interp2. rewrite IX, zr4. cbn [rsum].
    unfold grad2. rewrite zr4. cbn [rsum]. unfold hat, dsh2. cors. cbn. field. auto.
Qed.
