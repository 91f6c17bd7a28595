(** Work identities, reciprocity and energy bounds in terms of AsmSpec. *)
From Coq Require Import Reals Lra ZifyBool.
From Verif Require Import Base Scalar EllModel EllSpec EllFinal EllProps CgPure CgFinal CgProps AssemblyModel AsmPure AsmBnd FemGen FemAve AsmRun AsmMat
  FemMat FemMat2 FemDef FemPd FemRhs FemEquil AsmSpec AsmProps.
Open Scope Z_scope.
Open Scope R_scope.

(** ** Cauchy-Schwarz *)
Lemma cauchy2 n (f g : Z -> R) :
  let F := rsum (zrange 0 n) (fun r => f r * f r) in let G := rsum (zrange 0 n) (fun r => g r * g r) in
  let H := rsum (zrange 0 n) (fun r => f r * g r) in H * H <= F * G.
Proof.
  intros F G H.
  assert (P : forall t, 0 <= F - 2 * t * H + t * t * G).
  { intros t. replace (F - 2 * t * H + t * t * G) with (rsum (zrange 0 n) (fun r => (f r - t * g r) * (f r - t * g r))).
    - apply rsum_nonneg. intros r _. exact (Rle_0_sqr _).
    - unfold F, G, H. rewrite <- !rsum_scal, <- rsum_minus, <- rsum_plus. apply rsum_ext. intros r _. ring. }
  assert (G0 : 0 <= G) by (apply rsum_nonneg; intros r _; exact (Rle_0_sqr _)).
  destruct (Req_dec G 0) as [E|E].
  - assert (H = 0).
    { destruct (Req_dec H 0) as [|Hn]; [assumption|exfalso]. specialize (P ((F + 1) / (2 * H))). rewrite E in P. revert P.
      replace (F - 2 * ((F + 1) / (2 * H)) * H + (F + 1) / (2 * H) * ((F + 1) / (2 * H)) * 0) with (-1) by (field; exact Hn). lra. }
    rewrite E. nra.
  - specialize (P (H / G)). replace (F - 2 * (H / G) * H + H / G * (H / G) * G) with ((F * G - H * H) / G) in P by (field; exact E).
    assert (0 < G) by lra. apply (Rmult_le_compat_r G) in P; [|lra]. replace ((F * G - H * H) / G * G) with (F * G - H * H) in P by (field; lra). lra.
Qed.
Lemma cauchy n (f g : Z -> R) : Rabs (rsum (zrange 0 n) (fun r => f r * g r)) <= len n f * len n g.
Proof.
  unfold len. rewrite <- sqrt_mult; try (apply rsum_nonneg; intros r _; exact (Rle_0_sqr _)).
  rewrite <- sqrt_Rsqr_abs. apply sqrt_le_1_alt. unfold Rsqr. apply cauchy2.
Qed.

(** ** Links *)
Lemma affine_all_field3 V e a r : sane V -> v_dim V = 3%Z -> affine_all3 V e a -> (0 <= r < ndofs V)%Z -> a r = afield3 V e r.
Proof.
  intros S D A Hr. rewrite (ndofs3 V D) in Hr. destruct (dof3_surj V S D r Hr) as (i & j & k & c & Hi & Hj & Hk & Hc & -> & _).
  pose proof (afield3_node V e i j k c Hi Hj Hc) as X. unfold cmp3 in X. rewrite X. rewrite <- dof3_node.
  destruct (A i j k) as (A0 & A1 & A2); [unfold is_node3; tauto|]. unfold affine3.
  pattern c. apply case3; [exact Hc|..]; [rewrite A0|rewrite A1|rewrite A2]; reflexivity.
Qed.
Lemma affine_all_field2 V e a r : sane V -> v_dim V = 2%Z -> affine_all2 V e a -> (0 <= r < ndofs V)%Z -> a r = afield2 V e r.
Proof.
  intros S D A Hr. rewrite (ndofs2 V S D) in Hr. destruct (dof2_surj V S D r Hr) as (i & j & c & Hi & Hj & Hc & -> & _).
  pose proof (afield2_node V e i j c Hi Hj Hc) as X. unfold cmp2 in X. rewrite X. rewrite <- dof2_node.
  destruct (A i j) as (A0 & A1); [unfold is_node2; tauto|]. unfold affine2.
  assert (C : (c = 0 \/ c = 1)%Z) by lia. destruct C as [-> | ->]; [rewrite A0|rewrite A1]; reflexivity.
Qed.

(** work of the internal stresses against a field with affine boundary values *)
Lemma work_residual3 V uf of w e : sane V -> geom V -> v_dim V = 3%Z -> bndaff3 V e w ->
  work3 V (gs3 V uf of) w = rsum (zrange 0 6) (fun v => integral3 V (fun c g => gs3 V uf of c g v) * lget e v)
    - rsum (zrange 0 (ndofs V)) (fun r => balance3 V uf of r * (w r - afield3 V e r)).
Proof.
  intros S G D B. rewrite (work_split3 V _ w e S G D).
  assert (VW : rsum (zrange 0 (ndofs V)) (fun r => (w r - afield3 V e r) * force3 V (gs3 V uf of) r) = work3 V (gs3 V uf of) (fun r => w r - afield3 V e r)).
  { unfold force3, work3. rewrite (ndofs3 V D). apply virtual_work. intros c i Hc Hi. now apply (addr3_range V c i). }
  rewrite <- VW. pose proof (van_diff3 V e w S D B) as Vd.
  replace (rsum (zrange 0 (ndofs V)) (fun r => (w r - afield3 V e r) * force3 V (gs3 V uf of) r))
    with (- rsum (zrange 0 (ndofs V)) (fun r => balance3 V uf of r * (w r - afield3 V e r))); [ring|].
  rewrite <- rsum_opp. apply rsum_ext. intros r Hr. apply in_zrange in Hr. unfold balance3.
  destruct (bndb V (v_nz V) (r / v_dim V)) eqn:Eb; [|ring]. rewrite (Vd r Hr Eb). ring.
Qed.
Lemma work_residual2 V uf w e : sane V -> geom V -> v_dim V = 2%Z -> bndaff2 V e w ->
  work2 V (gs2 V uf) w = rsum (zrange 0 3) (fun v => integral2 V (fun c g => gs2 V uf c g v) * lget e v)
    - rsum (zrange 0 (ndofs V)) (fun r => balance2 V uf r * (w r - afield2 V e r)).
Proof.
  intros S G D B. rewrite (work_split2 V _ w e S G D).
  assert (VW : rsum (zrange 0 (ndofs V)) (fun r => (w r - afield2 V e r) * force2 V (gs2 V uf) r) = work2 V (gs2 V uf) (fun r => w r - afield2 V e r)).
  { unfold force2, work2. rewrite (ndofs2 V S D). apply virtual_work. intros c i Hc Hi. now apply (addr2_range V c i). }
  rewrite <- VW. pose proof (van_diff2 V e w S D B) as Vd.
  replace (rsum (zrange 0 (ndofs V)) (fun r => (w r - afield2 V e r) * force2 V (gs2 V uf) r))
    with (- rsum (zrange 0 (ndofs V)) (fun r => balance2 V uf r * (w r - afield2 V e r))); [ring|].
  rewrite <- rsum_opp. apply rsum_ext. intros r Hr. apply in_zrange in Hr. unfold balance2.
  destruct (bndb V (v_nz V) (r / v_dim V)) eqn:Eb; [|ring]. rewrite (Vd r Hr Eb). ring.
Qed.

(** what a state gives: the residual entries and the reported stress *)
Lemma state3_parts V e u vold b' n s : body3 V -> state3 V e u vold b' n s ->
  rep u (ndofs V) (val u) /\ old_ok V (val vold) vold /\ bndaff3 V e (val u) /\
  (forall r, (0 <= r < ndofs V)%Z -> val b' r = balance3 V (val u) (val vold) r) /\ n = len (ndofs V) (val b') /\
  (forall v, (0 <= v < 6)%Z -> v_lx V * v_ly V * lget s v = integral3 V (fun c g => gs3 V (val u) (val vold) c g v)).
Proof.
  intros (S & G & D) (vnew & b & nl & vn & vn' & F & W & Lb & B & E & Es).
  pose proof (full_rep _ _ F) as U. pose proof (vars_old _ _ _ W) as O.
  destruct (residual3 V (val u) (val vold) u vold vnew b S D U O (proj2 W) Lb) as (b1 & nl1 & v1 & n1 & E1 & R1 & N1).
  rewrite E in E1. injection E1 as <- <- <- <-.
  destruct (ave_stress3 V u (val u) (val vold) vold vnew S G D U O (proj2 W)) as (s1 & v2 & E2 & H2). rewrite Es in E2. injection E2 as <- <-.
  assert (Vb : forall r, (0 <= r < ndofs V)%Z -> val b' r = balance3 V (val u) (val vold) r) by (intros r Hr; now apply (rep_val b' (ndofs V))).
  split; [exact U|]. split; [exact O|]. split; [now apply affine_bndaff3|]. split; [exact Vb|]. split.
  - rewrite N1. unfold len. f_equal. apply rsum_ext. intros r Hr. apply in_zrange in Hr. now rewrite (Vb r Hr).
  - intros v Hv. rewrite (H2 v Hv), (geom_vol3 V D G). destruct (geom_pos V S G). pose proof (geom_posz V S G D). field. lra.
Qed.
Lemma state2_parts V e u b' n s : body2 V -> state2 V e u b' n s ->
  rep u (ndofs V) (val u) /\ bndaff2 V e (val u) /\
  (forall r, (0 <= r < ndofs V)%Z -> val b' r = balance2 V (val u) r) /\ n = len (ndofs V) (val b') /\
  (forall v, (0 <= v < 3)%Z -> v_lx V * v_ly V * lget s v = integral2 V (fun c g => gs2 V (val u) c g v)).
Proof.
  intros (S & G & D) (vold & vnew & b & nl & vn & vn' & F & Lb & B & E & Es).
  pose proof (full_rep _ _ F) as U.
  destruct (residual2 V (val u) u vold vnew b S D U Lb) as (b1 & n1 & E1 & R1 & N1).
  rewrite E in E1. injection E1 as <- _ _ <-.
  destruct (ave_stress2 V u (val u) vold vnew S G D U) as (s1 & E2 & H2). rewrite Es in E2. injection E2 as <- _.
  assert (Vb : forall r, (0 <= r < ndofs V)%Z -> val b' r = balance2 V (val u) r) by (intros r Hr; now apply (rep_val b' (ndofs V))).
  split; [exact U|]. split; [now apply affine_bndaff2|]. split; [exact Vb|]. split.
  - rewrite N1. unfold len. f_equal. apply rsum_ext. intros r Hr. apply in_zrange in Hr. now rewrite (Vb r Hr).
  - intros v Hv. rewrite (H2 v Hv), (geom_vol2 V G). destruct (geom_pos V S G). field. lra.
Qed.

(** ** C30 *)
Theorem hill_mandel_body3 V e0 u vold vnew b' n s sig e w eps a : body3 V -> state3 V e0 u vold b' n s -> vars_ok V vold vnew ->
  stress_field3 V u vold vnew sig -> full w (ndofs V) -> affine_bnd3 V e w -> strain_field3 V w eps -> affine_all3 V e a ->
  let W := quad_body3 V (fun ex ey ez g => dot 6 (sig ex ey ez g) (eps ex ey ez g)) in
  W = v_lx V * v_ly V * dot 6 (lget s) (lget e) - rsum (zrange 0 (ndofs V)) (fun r => val b' r * (val w r - a r)) /\
  Rabs (W - v_lx V * v_ly V * dot 6 (lget s) (lget e)) <= n * len (ndofs V) (fun r => val w r - a r).
Proof.
  intros BD St Wv Hs Fw Aw He Aa W. destruct (state3_parts V e0 u vold b' n s BD St) as (U & O & _ & Vb & N & Hsig).
  assert (Fu : full u (ndofs V)) by now apply rep_full in U.
  pose proof BD as (S & G & D).
  assert (I : W = v_lx V * v_ly V * dot 6 (lget s) (lget e) - rsum (zrange 0 (ndofs V)) (fun r => val b' r * (val w r - a r))).
  { unfold W. rewrite (work_body3 V _ eps (gs3 V (val u) (val vold)) (val w));
      [|now apply stress_field3_iff with (vnew := vnew)|now apply strain_field3_iff].
    rewrite (work_residual3 V (val u) (val vold) (val w) e S G D (affine_bndaff3 V e w D Aw)). f_equal.
    - unfold dot. rewrite <- rsum_scal. apply rsum_ext. intros v Hv. apply in_zrange in Hv. rewrite <- (Hsig v Hv). ring.
    - apply rsum_ext. intros r Hr. apply in_zrange in Hr. rewrite (Vb r Hr), (affine_all_field3 V e a r S D Aa Hr). ring. }
  split; [exact I|]. rewrite I. replace (_ - _ - _) with (- rsum (zrange 0 (ndofs V)) (fun r => val b' r * (val w r - a r))) by ring.
  rewrite Rabs_Ropp, N. exact (cauchy (ndofs V) (val b') (fun r => val w r - a r)).
Qed.
Theorem hill_mandel_body2 V e0 u b' n s sig e w eps a : body2 V -> state2 V e0 u b' n s ->
  stress_field2 V u sig -> full w (ndofs V) -> affine_bnd2 V e w -> strain_field2 V w eps -> affine_all2 V e a ->
  let W := quad_body2 V (fun ex ey g => dot 3 (sig ex ey g) (eps ex ey g)) in
  W = v_lx V * v_ly V * dot 3 (lget s) (lget e) - rsum (zrange 0 (ndofs V)) (fun r => val b' r * (val w r - a r)) /\
  Rabs (W - v_lx V * v_ly V * dot 3 (lget s) (lget e)) <= n * len (ndofs V) (fun r => val w r - a r).
Proof.
  intros BD St Hs Fw Aw He Aa W. destruct (state2_parts V e0 u b' n s BD St) as (U & _ & Vb & N & Hsig).
  assert (Fu : full u (ndofs V)) by now apply rep_full in U.
  pose proof BD as (S & G & D).
  assert (I : W = v_lx V * v_ly V * dot 3 (lget s) (lget e) - rsum (zrange 0 (ndofs V)) (fun r => val b' r * (val w r - a r))).
  { unfold W. rewrite (work_body2 V _ eps (gs2 V (val u)) (val w));
      [|now apply stress_field2_iff|now apply strain_field2_iff].
    rewrite (work_residual2 V (val u) (val w) e S G D (affine_bndaff2 V e w D Aw)). f_equal.
    - unfold dot. rewrite <- rsum_scal. apply rsum_ext. intros v Hv. apply in_zrange in Hv. rewrite <- (Hsig v Hv). ring.
    - apply rsum_ext. intros r Hr. apply in_zrange in Hr. rewrite (Vb r Hr), (affine_all_field2 V e a r S D Aa Hr). ring. }
  split; [exact I|]. rewrite I. replace (_ - _ - _) with (- rsum (zrange 0 (ndofs V)) (fun r => val b' r * (val w r - a r))) by ring.
  rewrite Rabs_Ropp, N. exact (cauchy (ndofs V) (val b') (fun r => val w r - a r)).
Qed.

(** work of the stresses of one state on another field, through the residual *)
Lemma state_work3 V e0 u vold b' n s e w : body3 V -> linear V -> state3 V e0 u vold b' n s -> bndaff3 V e w ->
  work3 V (lsig3 V (val u)) w = v_lx V * v_ly V * dot 6 (lget s) (lget e) - rsum (zrange 0 (ndofs V)) (fun r => val b' r * (w r - afield3 V e r)).
Proof.
  intros BD L St B. destruct (state3_parts V e0 u vold b' n s BD St) as (U & O & _ & Vb & N & Hsig). destruct BD as (S & G & D).
  rewrite <- (work3_lsig V (val u) (val vold)) by assumption. rewrite (work_residual3 V _ _ w e S G D B). f_equal.
  - unfold dot. rewrite <- rsum_scal. apply rsum_ext. intros v Hv. apply in_zrange in Hv. rewrite <- (Hsig v Hv). ring.
  - apply rsum_ext. intros r Hr. apply in_zrange in Hr. now rewrite (Vb r Hr).
Qed.
Lemma state_work2 V e0 u b' n s e w : body2 V -> state2 V e0 u b' n s -> bndaff2 V e w ->
  work2 V (tsig2 V (val u)) w = v_lx V * v_ly V * dot 3 (lget s) (lget e) - rsum (zrange 0 (ndofs V)) (fun r => val b' r * (w r - afield2 V e r)).
Proof.
  intros BD St B. destruct (state2_parts V e0 u b' n s BD St) as (U & _ & Vb & N & Hsig). destruct BD as (S & G & D).
  rewrite <- work2_gs_tsig. rewrite (work_residual2 V _ w e S G D B). f_equal.
  - unfold dot. rewrite <- rsum_scal. apply rsum_ext. intros v Hv. apply in_zrange in Hv. rewrite <- (Hsig v Hv). ring.
  - apply rsum_ext. intros r Hr. apply in_zrange in Hr. now rewrite (Vb r Hr).
Qed.
Lemma rsum_afield3 V e a (b w : Z -> R) : sane V -> v_dim V = 3%Z -> affine_all3 V e a ->
  rsum (zrange 0 (ndofs V)) (fun r => b r * (w r - afield3 V e r)) = rsum (zrange 0 (ndofs V)) (fun r => b r * (w r - a r)).
Proof. intros S D A. apply rsum_ext. intros r Hr. apply in_zrange in Hr. now rewrite (affine_all_field3 V e a r). Qed.
Lemma rsum_afield2 V e a (b w : Z -> R) : sane V -> v_dim V = 2%Z -> affine_all2 V e a ->
  rsum (zrange 0 (ndofs V)) (fun r => b r * (w r - afield2 V e r)) = rsum (zrange 0 (ndofs V)) (fun r => b r * (w r - a r)).
Proof. intros S D A. apply rsum_ext. intros r Hr. apply in_zrange in Hr. now rewrite (affine_all_field2 V e a r). Qed.

(** ** C31 *)
Lemma abs_le x p : Rabs x <= p -> - p <= x <= p.
Proof. unfold Rabs. destruct (Rcase_abs x); lra. Qed.
Lemma abs_diff x y p q : Rabs x <= p -> Rabs y <= q -> Rabs (x - y) <= p + q.
Proof. intros H1 H2. pose proof (Rabs_triang x (- y)) as H. rewrite Rabs_Ropp in H. unfold Rminus. lra. Qed.
Theorem reciprocity_body3 V e1 u1 v1 b1 n1 s1 a1 e2 u2 v2 b2 n2 s2 a2 : body3 V -> linear V ->
  state3 V e1 u1 v1 b1 n1 s1 -> state3 V e2 u2 v2 b2 n2 s2 -> affine_all3 V e1 a1 -> affine_all3 V e2 a2 ->
  Rabs (v_lx V * v_ly V * (dot 6 (lget s1) (lget e2) - dot 6 (lget s2) (lget e1))) <=
    n1 * len (ndofs V) (fun r => val u2 r - a2 r) + n2 * len (ndofs V) (fun r => val u1 r - a1 r).
Proof.
  intros BD L S1 S2 A1 A2. pose proof BD as (S & G & D).
  destruct (state3_parts V e1 u1 v1 b1 n1 s1 BD S1) as (_ & _ & B1 & _ & N1 & _).
  destruct (state3_parts V e2 u2 v2 b2 n2 s2 BD S2) as (_ & _ & B2 & _ & N2 & _).
  pose proof (state_work3 V e1 u1 v1 b1 n1 s1 e2 (val u2) BD L S1 B2) as W1.
  pose proof (state_work3 V e2 u2 v2 b2 n2 s2 e1 (val u1) BD L S2 B1) as W2.
  rewrite (rsum_afield3 V e2 a2) in W1 by assumption. rewrite (rsum_afield3 V e1 a1) in W2 by assumption.
  rewrite (lsym3 V (val u2) (val u1) L D) in W1. rewrite N1, N2.
  replace (v_lx V * v_ly V * (dot 6 (lget s1) (lget e2) - dot 6 (lget s2) (lget e1))) with
    (rsum (zrange 0 (ndofs V)) (fun r => val b1 r * (val u2 r - a2 r)) - rsum (zrange 0 (ndofs V)) (fun r => val b2 r * (val u1 r - a1 r))) by lra.
  apply abs_diff; [exact (cauchy _ (val b1) (fun r => val u2 r - a2 r))|exact (cauchy _ (val b2) (fun r => val u1 r - a1 r))].
Qed.
Theorem reciprocity_body2 V e1 u1 b1 n1 s1 a1 e2 u2 b2 n2 s2 a2 : body2 V ->
  state2 V e1 u1 b1 n1 s1 -> state2 V e2 u2 b2 n2 s2 -> affine_all2 V e1 a1 -> affine_all2 V e2 a2 ->
  Rabs (v_lx V * v_ly V * (dot 3 (lget s1) (lget e2) - dot 3 (lget s2) (lget e1))) <=
    n1 * len (ndofs V) (fun r => val u2 r - a2 r) + n2 * len (ndofs V) (fun r => val u1 r - a1 r).
Proof.
  intros BD S1 S2 A1 A2. pose proof BD as (S & G & D).
  destruct (state2_parts V e1 u1 b1 n1 s1 BD S1) as (_ & B1 & _ & N1 & _).
  destruct (state2_parts V e2 u2 b2 n2 s2 BD S2) as (_ & B2 & _ & N2 & _).
  pose proof (state_work2 V e1 u1 b1 n1 s1 e2 (val u2) BD S1 B2) as W1.
  pose proof (state_work2 V e2 u2 b2 n2 s2 e1 (val u1) BD S2 B1) as W2.
  rewrite (rsum_afield2 V e2 a2) in W1 by assumption. rewrite (rsum_afield2 V e1 a1) in W2 by assumption.
  rewrite (symmetric2 V (val u2) (val u1)) in W1. rewrite N1, N2.
  replace (v_lx V * v_ly V * (dot 3 (lget s1) (lget e2) - dot 3 (lget s2) (lget e1))) with
    (rsum (zrange 0 (ndofs V)) (fun r => val b1 r * (val u2 r - a2 r)) - rsum (zrange 0 (ndofs V)) (fun r => val b2 r * (val u1 r - a1 r))) by lra.
  apply abs_diff; [exact (cauchy _ (val b1) (fun r => val u2 r - a2 r))|exact (cauchy _ (val b2) (fun r => val u1 r - a1 r))].
Qed.

(** ** C63: energy *)
Lemma bnd_diff_work3 V e u vold b' n s w : body3 V -> linear V -> state3 V e u vold b' n s -> bndaff3 V e w ->
  work3 V (lsig3 V (val u)) (fun i => w i - val u i) = - rsum (zrange 0 (ndofs V)) (fun r => val b' r * (w r - val u r)).
Proof.
  intros BD L St B. pose proof BD as (S & G & D). destruct (state3_parts V e u vold b' n s BD St) as (_ & _ & Bu & _ & _ & _).
  rewrite lwork3_minus, (state_work3 V e u vold b' n s e w BD L St B), (state_work3 V e u vold b' n s e (val u) BD L St Bu).
  transitivity (rsum (zrange 0 (ndofs V)) (fun r => val b' r * (val u r - afield3 V e r)) - rsum (zrange 0 (ndofs V)) (fun r => val b' r * (w r - afield3 V e r))); [ring|].
  rewrite <- rsum_minus, <- rsum_opp. apply rsum_ext. intros r _. ring.
Qed.
Lemma bnd_diff_work2 V e u b' n s w : body2 V -> state2 V e u b' n s -> bndaff2 V e w ->
  work2 V (tsig2 V (val u)) (fun i => w i - val u i) = - rsum (zrange 0 (ndofs V)) (fun r => val b' r * (w r - val u r)).
Proof.
  intros BD St B. pose proof BD as (S & G & D). destruct (state2_parts V e u b' n s BD St) as (_ & Bu & _ & _ & _).
  rewrite lwork2_minus, (state_work2 V e u b' n s e w BD St B), (state_work2 V e u b' n s e (val u) BD St Bu).
  transitivity (rsum (zrange 0 (ndofs V)) (fun r => val b' r * (val u r - afield2 V e r)) - rsum (zrange 0 (ndofs V)) (fun r => val b' r * (w r - afield2 V e r))); [ring|].
  rewrite <- rsum_minus, <- rsum_opp. apply rsum_ext. intros r _. ring.
Qed.
Lemma body_work3 V u vold vnew sig eps : body3 V -> linear V -> full u (ndofs V) -> vars_ok V vold vnew -> stress_field3 V u vold vnew sig ->
  strain_field3 V u eps -> quad_body3 V (fun ex ey ez g => dot 6 (sig ex ey ez g) (eps ex ey ez g)) = work3 V (lsig3 V (val u)) (val u).
Proof.
  intros (S & G & D) L F W Hs He. rewrite (work_body3 V _ eps (gs3 V (val u) (val vold)) (val u));
    [|now apply stress_field3_iff with (vnew := vnew)|now apply strain_field3_iff]. now apply work3_lsig.
Qed.
Lemma body_work2 V u sig eps : body2 V -> full u (ndofs V) -> stress_field2 V u sig ->
  strain_field2 V u eps -> quad_body2 V (fun ex ey g => dot 3 (sig ex ey g) (eps ex ey g)) = work2 V (tsig2 V (val u)) (val u).
Proof.
  intros (S & G & D) F Hs He. rewrite (work_body2 V _ eps (gs2 V (val u)) (val u));
    [|now apply stress_field2_iff|now apply strain_field2_iff]. apply work2_gs_tsig.
Qed.

Theorem energy_min3 V e u vold b' n s w vw vnew sigw epsw a : body3 V -> linear V -> adm V -> state3 V e u vold b' n s ->
  full w (ndofs V) -> affine_bnd3 V e w -> vars_ok V vw vnew -> stress_field3 V w vw vnew sigw -> strain_field3 V w epsw ->
  affine_all3 V e a ->
  v_lx V * v_ly V * dot 6 (lget s) (lget e) <=
  quad_body3 V (fun ex ey ez g => dot 6 (sigw ex ey ez g) (epsw ex ey ez g)) +
  n * (2 * len (ndofs V) (fun r => val w r - val u r) + len (ndofs V) (fun r => val u r - a r)).
Proof.
  intros BD L A St Fw Bw Wv Hs He Aa. pose proof BD as (S & G & D).
  destruct (state3_parts V e u vold b' n s BD St) as (_ & _ & Bu & _ & N & _).
  rewrite (body_work3 V w vw vnew sigw epsw BD L Fw Wv Hs He).
  pose proof (affine_bndaff3 V e w D Bw) as Bw'.
  rewrite (energy_diff3 V (val u) (val w) L D), (bnd_diff_work3 V e u vold b' n s (val w) BD L St Bw').
  rewrite (state_work3 V e u vold b' n s e (val u) BD L St Bu), (rsum_afield3 V e a) by assumption.
  destruct (definite3 V S D G L A (fun _ => 0) (fun _ => 0) _ (van_bnd3 V e _ _ S D Bw' Bu)) as (P & _). rewrite tsig_lsig in P by assumption.
  pose proof (cauchy (ndofs V) (val b') (fun r => val w r - val u r)) as C1. pose proof (cauchy (ndofs V) (val b') (fun r => val u r - a r)) as C2.
  rewrite <- N in C1, C2. apply abs_le in C1. apply abs_le in C2. lra.
Qed.
Theorem energy_min2 V e u b' n s w sigw epsw a : body2 V -> adm V -> state2 V e u b' n s ->
  full w (ndofs V) -> affine_bnd2 V e w -> stress_field2 V w sigw -> strain_field2 V w epsw ->
  affine_all2 V e a ->
  v_lx V * v_ly V * dot 3 (lget s) (lget e) <=
  quad_body2 V (fun ex ey g => dot 3 (sigw ex ey g) (epsw ex ey g)) +
  n * (2 * len (ndofs V) (fun r => val w r - val u r) + len (ndofs V) (fun r => val u r - a r)).
Proof.
  intros BD A St Fw Bw Hs He Aa. pose proof BD as (S & G & D).
  destruct (state2_parts V e u b' n s BD St) as (_ & Bu & _ & N & _).
  rewrite (body_work2 V w sigw epsw BD Fw Hs He).
  pose proof (affine_bndaff2 V e w D Bw) as Bw'.
  rewrite (energy_diff2 V (val u) (val w)), (bnd_diff_work2 V e u b' n s (val w) BD St Bw').
  rewrite (state_work2 V e u b' n s e (val u) BD St Bu), (rsum_afield2 V e a) by assumption.
  destruct (definite2 V S D G A _ (van_bnd2 V e _ _ S D Bw' Bu)) as (P & _).
  pose proof (cauchy (ndofs V) (val b') (fun r => val w r - val u r)) as C1. pose proof (cauchy (ndofs V) (val b') (fun r => val u r - a r)) as C2.
  rewrite <- N in C1, C2. apply abs_le in C1. apply abs_le in C2. lra.
Qed.

(** Voigt bound: at most the stress reported for the affine field *)
Theorem voigt_body3 V e u vold b' n s ua vo vnew sa vn : body3 V -> linear V -> adm V -> state3 V e u vold b' n s ->
  rep ua (ndofs V) (val ua) -> affine_all3 V e (val ua) -> vars_ok V vo vnew -> calc_ave_stress V ua vo vnew = Ok (sa, vn) ->
  v_lx V * v_ly V * dot 6 (lget s) (lget e) <= v_lx V * v_ly V * dot 6 (lget sa) (lget e) + n * len (ndofs V) (fun r => val u r - val ua r).
Proof.
  intros BD L A St Ua Aa Wv Es. pose proof BD as (S & G & D).
  destruct (state3_parts V e u vold b' n s BD St) as (_ & _ & Bu & _ & N & _).
  destruct (ave_stress3 V ua (val ua) (val vo) vo vnew S G D Ua (vars_old _ _ _ Wv) (proj2 Wv)) as (s1 & v2 & E2 & H2). rewrite Es in E2. injection E2 as <- <-.
  assert (Ba : bndaff3 V e (val ua)).
  { intros i j k c Hi Hj Hk Hc B. unfold cmp3. rewrite <- dof3_node. destruct (Aa i j k) as (A0 & A1 & A2); [unfold is_node3; tauto|].
    unfold affine3. pattern c. apply case3; [exact Hc|..]; [rewrite A0|rewrite A1|rewrite A2]; reflexivity. }
  assert (Ea : work3 V (lsig3 V (val ua)) (val ua) = v_lx V * v_ly V * dot 6 (lget sa) (lget e)).
  { rewrite <- (work3_lsig V (val ua) (val vo)) by assumption. rewrite (work_residual3 V _ _ (val ua) e S G D Ba).
    rewrite (rsum_afield3 V e (val ua)) by assumption. rewrite (rsum_zero (zrange 0 (ndofs V))) by (intros; ring). rewrite Rminus_0_r.
    unfold dot. rewrite <- rsum_scal. apply rsum_ext. intros v Hv. apply in_zrange in Hv. rewrite (H2 v Hv), (geom_vol3 V D G).
    destruct (geom_pos V S G). pose proof (geom_posz V S G D). field. lra. }
  rewrite <- Ea. rewrite (energy_diff3 V (val u) (val ua) L D), (bnd_diff_work3 V e u vold b' n s (val ua) BD L St Ba).
  rewrite (state_work3 V e u vold b' n s e (val u) BD L St Bu), (rsum_afield3 V e (val ua)) by assumption.
  destruct (definite3 V S D G L A (fun _ => 0) (fun _ => 0) _ (van_bnd3 V e _ _ S D Ba Bu)) as (P & _). rewrite tsig_lsig in P by assumption.
  pose proof (cauchy (ndofs V) (val b') (fun r => val u r - val ua r)) as C2. rewrite <- N in C2. apply abs_le in C2.
  assert (X : rsum (zrange 0 (ndofs V)) (fun r => val b' r * (val ua r - val u r)) = - rsum (zrange 0 (ndofs V)) (fun r => val b' r * (val u r - val ua r)))
    by (rewrite <- rsum_opp; apply rsum_ext; intros; ring).
  rewrite X. lra.
Qed.
Theorem voigt_body2 V e u b' n s ua vo vnew sa vn : body2 V -> adm V -> state2 V e u b' n s ->
  rep ua (ndofs V) (val ua) -> affine_all2 V e (val ua) -> calc_ave_stress V ua vo vnew = Ok (sa, vn) ->
  v_lx V * v_ly V * dot 3 (lget s) (lget e) <= v_lx V * v_ly V * dot 3 (lget sa) (lget e) + n * len (ndofs V) (fun r => val u r - val ua r).
Proof.
  intros BD A St Ua Aa Es. pose proof BD as (S & G & D).
  destruct (state2_parts V e u b' n s BD St) as (_ & Bu & _ & N & _).
  destruct (ave_stress2 V ua (val ua) vo vnew S G D Ua) as (s1 & E2 & H2). rewrite Es in E2. injection E2 as <- _.
  assert (Ba : bndaff2 V e (val ua)).
  { intros i j c Hi Hj Hc B. unfold cmp2. rewrite <- dof2_node. destruct (Aa i j) as (A0 & A1); [unfold is_node2; tauto|].
    unfold affine2. assert (C : (c = 0 \/ c = 1)%Z) by lia. destruct C as [-> | ->]; [rewrite A0|rewrite A1]; reflexivity. }
  assert (Ea : work2 V (tsig2 V (val ua)) (val ua) = v_lx V * v_ly V * dot 3 (lget sa) (lget e)).
  { rewrite <- work2_gs_tsig. rewrite (work_residual2 V _ (val ua) e S G D Ba).
    rewrite (rsum_afield2 V e (val ua)) by assumption. rewrite (rsum_zero (zrange 0 (ndofs V))) by (intros; ring). rewrite Rminus_0_r.
    unfold dot. rewrite <- rsum_scal. apply rsum_ext. intros v Hv. apply in_zrange in Hv. rewrite (H2 v Hv), (geom_vol2 V G).
    destruct (geom_pos V S G). field. lra. }
  rewrite <- Ea. rewrite (energy_diff2 V (val u) (val ua)), (bnd_diff_work2 V e u b' n s (val ua) BD St Ba).
  rewrite (state_work2 V e u b' n s e (val u) BD St Bu), (rsum_afield2 V e (val ua)) by assumption.
  destruct (definite2 V S D G A _ (van_bnd2 V e _ _ S D Ba Bu)) as (P & _).
  pose proof (cauchy (ndofs V) (val b') (fun r => val u r - val ua r)) as C2. rewrite <- N in C2. apply abs_le in C2.
  assert (X : rsum (zrange 0 (ndofs V)) (fun r => val b' r * (val ua r - val u r)) = - rsum (zrange 0 (ndofs V)) (fun r => val b' r * (val u r - val ua r)))
    by (rewrite <- rsum_opp; apply rsum_ext; intros; ring).
  rewrite X. lra.
Qed.

(** ** C64: one equilibrium per macro strain; the effective stiffness is positive definite *)
Lemma spd_solve f (m : ell R) nF nx ny nz (bf : Z -> R) free : wf_ell m (slots f) nF (nodes f nx ny nz) ->
  (forall r, (0 <= r < nodes f nx ny nz * nF)%Z -> ~ free r -> ident_row_at f m nF nx ny nz r /\ bf r = 0) ->
  (forall r c, (0 <= r < nodes f nx ny nz * nF)%Z -> (0 <= c < nodes f nx ny nz * nF)%Z -> free r -> free c -> dense m r c = dense m c r) ->
  (forall v, (forall r, (0 <= r < nodes f nx ny nz * nF)%Z -> ~ free r -> v r = 0) ->
     (exists r, (0 <= r < nodes f nx ny nz * nF)%Z /\ v r <> 0) -> 0 < rsum (zrange 0 (nodes f nx ny nz * nF)) (fun r => v r * mul m v r)) ->
  (forall r, (0 <= r < nodes f nx ny nz * nF)%Z -> free r -> 0 < getR (e_vals m) (diag_ix (slots f) (dslot f) nF r)) ->
  exists x, (forall r, (0 <= r < nodes f nx ny nz * nF)%Z -> ~ free r -> x r = 0) /\
    forall r, (0 <= r < nodes f nx ny nz * nF)%Z -> mul m x r = bf r.
Proof.
  intros W I Sy Pd Dg. set (xf := fun _ : Z => 0).
  assert (I' : forall r, (0 <= r < nodes f nx ny nz * nF)%Z -> ~ free r -> ident_row_at f m nF nx ny nz r /\ bf r = 0 /\ xf r = 0).
  { intros r Hr F. destruct (I r Hr F). auto. }
  destruct (run_finite f m nF nx ny nz bf xf W free I' Sy Pd Dg g0) as (k & _ & Nz).
  exists (sx (runSq g0 f m nF nx ny nz bf xf k)). split.
  - intros r Hr F. exact (run_xV f m nF nx ny nz bf xf W free I' g0 k r Hr F).
  - intros r Hr. pose proof (run_residual g0 f m nF nx ny nz bf xf W k r Hr) as X.
    destruct (Req_dec (sr (runSq g0 f m nF nx ny nz bf xf k) r) 0) as [E|E]; [lra|]. exfalso. apply Nz. exists r. auto.
Qed.

Theorem equilibrium_exists3 V e vold vnew : body3 V -> linear V -> adm V -> vars_ok V vold vnew ->
  exists u b' s, state3 V e u vold b' 0 s.
Proof.
  intros BD L A W. pose proof BD as (S & G & D).
  set (u0 := fun_arr (ndofs V) (afield3 V e)). pose proof (fun_arr_rep (ndofs V) (afield3 V e)) as U0. fold u0 in U0.
  assert (F0 : full u0 (ndofs V)) by now apply rep_full in U0.
  set (b0 := fun_arr (ndofs V) (fun _ : Z => 0)). pose proof (fun_arr_rep (ndofs V) (fun _ : Z => 0)) as Rb0. fold b0 in Rb0.
  destruct (matrix3_inhabited (T := R) 3 (v_nx V) (v_ny V) (v_nz V)) as (m & M); try (destruct S; lia).
  destruct (residual_spec3 V u0 vold vnew b0 BD F0 W (proj1 Rb0)) as (b & nl & v0 & n0 & be & sg & Eb & Fb & _ & Hb & _).
  destruct (stiffness3_spd V (val u0) (val vold) u0 vold vnew m S D G L A (full_rep _ _ F0) (vars_old _ _ _ W) (proj2 W) M) as (A' & EA & _ & Wf & Sp & Sy & Dg & _).
  destruct Sp as (Id & Ss & Pd & _).
  destruct (spd_solve CGstruct3 A' 3 (v_nx V) (v_ny V) (v_nz V) (val b) (fdof V) Wf) as (x & Xz & Xs).
  - cbn [nodes]. intros r Hr Nf. rewrite <- (ndofs3 V D) in Hr. split.
    + intros c Hc. apply Id; [exact Hr| |exact Nf]. rewrite (ndofs3 V D). exact Hc.
    + pose proof (not_fdof V r Nf) as B. rewrite (ndofs3 V D) in Hr.
      destruct (dof3_surj V S D r Hr) as (i & j & k & c & Hi' & Hj & Hk & Hc & -> & Hbb).
      rewrite <- dof3_node. apply Hb; [unfold is_node3; tauto|exact Hc|]. apply on_face. now apply Hbb.
  - cbn [nodes]. intros r c Hr Hc. rewrite <- (ndofs3 V D) in Hr, Hc. apply Ss; [exact Hr|exact Hc].
  - cbn [nodes]. rewrite <- (ndofs3 V D). exact Pd.
  - cbn [nodes]. intros r Hr _. rewrite <- (ndofs3 V D) in Hr. now apply Dg.
  - cbn [nodes] in *. rewrite <- (ndofs3 V D) in *.
    set (du := fun_arr (ndofs V) x). pose proof (fun_arr_rep (ndofs V) x) as Rd. fold du in Rd.
    set (u' := fun_arr (ndofs V) (fun i => val u0 i + val du i)). pose proof (fun_arr_rep (ndofs V) (fun i => val u0 i + val du i)) as Ru. fold u' in Ru.
    assert (Zd : zero_bnd_field3 V du).
    { intros i j k c Hn Hf Hc. pose proof (dof3_range V i j k c Hn Hc D) as Hr. rewrite (proj2 Rd _ Hr). f_equal.
      apply Xz; [exact Hr|]. intros Nf. apply Nf. now apply bnd_dof3. }
    destruct (newton_exact3 V u0 du u' vold vnew b0 b0 m BD L A M F0 (rep_full _ _ _ Rd) Zd Ru W (proj1 Rb0) (proj1 Rb0))
      as (A2 & b2 & b' & v2 & v3 & nl2 & nl3 & n2 & n3 & E1 & E2 & E3 & _ & N3).
    rewrite EA in E1. injection E1 as <-. rewrite Eb in E2. injection E2 as <- <- <- <-.
    assert (N0 : n3 = 0).
    { rewrite N3. unfold residual_norm. rewrite rsum_zero; [apply sqrt_0|]. intros r Hr. apply in_zrange in Hr.
      rewrite (wf_nrow _ _ _ _ Wf), <- (ndofs3 V D) in Hr.
      assert (Em : mul A' (val du) r = val b r).
      { rewrite <- (Xs r Hr). unfold mul. apply rsum_ext. intros c Hc. apply in_zrange in Hc.
        rewrite (wf_nrow _ _ _ _ Wf), <- (ndofs3 V D) in Hc. now rewrite (rep_val du (ndofs V) x). }
      rewrite Em. ring. }
    destruct (ave_stress3 V u' _ (val vold) vold vnew S G D Ru (vars_old _ _ _ W) (proj2 W)) as (s & vn & Es & _).
    exists u', b', s, vnew, b0, nl3, v3, vn. rewrite N0 in E3. split; [now apply rep_full in Ru|]. split; [exact W|]. split; [apply Rb0|].
    split; [|split; [exact E3|exact Es]].
    intros i j k Hn Hf x0 y0 z0. pose proof (fun c Hc => Zd i j k c Hn Hf Hc) as Z0.
    assert (H : forall c, (0 <= c < 3)%Z -> aget u' (dof3 V i j k c) = Some (affine3 (lget e 0) (lget e 1) (lget e 2) (lget e 3) (lget e 4) (lget e 5) x0 y0 z0 c)).
    { intros c Hc. pose proof (dof3_range V i j k c Hn Hc D) as Hr. rewrite (proj2 Ru _ Hr). f_equal.
      rewrite (rep_val u0 (ndofs V) (afield3 V e) _ U0 Hr). unfold val at 1. rewrite (Z0 c Hc), Rplus_0_r.
      destruct Hn as (Hi & Hj & Hk). pose proof (afield3_node V e i j k c Hi Hj Hc) as X. unfold cmp3 in X. rewrite dof3_node. exact X. }
    split; [|split]; rewrite H by lia; reflexivity.
Qed.
Theorem equilibrium_exists2 V e : body2 V -> adm V -> exists u b' s, state2 V e u b' 0 s.
Proof.
  intros BD A. pose proof BD as (S & G & D).
  set (u0 := fun_arr (ndofs V) (afield2 V e)). pose proof (fun_arr_rep (ndofs V) (afield2 V e)) as U0. fold u0 in U0.
  assert (F0 : full u0 (ndofs V)) by now apply rep_full in U0.
  set (b0 := fun_arr (ndofs V) (fun _ : Z => 0)). pose proof (fun_arr_rep (ndofs V) (fun _ : Z => 0)) as Rb0. fold b0 in Rb0.
  destruct (matrix2_inhabited (T := R) 2 (v_nx V) (v_ny V)) as (m & M); try (destruct S; lia).
  destruct (residual_spec2 V u0 b0 b0 b0 BD F0 (proj1 Rb0)) as (b & n0 & be & sg & Eb & Fb & _ & Hb & _).
  destruct (stiffness2_spd V u0 b0 b0 m S D G A M) as (A' & EA & _ & Wf & Sp & Dg & _).
  destruct Sp as (Id & Ss & Pd & _).
  destruct (spd_solve CG2D A' 2 (v_nx V) (v_ny V) 1 (val b) (fdof V) Wf) as (x & Xz & Xs).
  - cbn [nodes]. intros r Hr Nf. rewrite <- (ndofs2 V S D) in Hr. split.
    + intros c Hc. apply Id; [exact Hr| |exact Nf]. rewrite (ndofs2 V S D). exact Hc.
    + pose proof (not_fdof V r Nf) as B. rewrite (ndofs2 V S D) in Hr.
      destruct (dof2_surj V S D r Hr) as (i & j & c & Hi' & Hj & Hc & -> & Hbb).
      rewrite <- dof2_node. apply Hb; [unfold is_node2; tauto|exact Hc|]. apply on_edge. now apply Hbb.
  - cbn [nodes]. intros r c Hr Hc. rewrite <- (ndofs2 V S D) in Hr, Hc. apply Ss; [exact Hr|exact Hc].
  - cbn [nodes]. rewrite <- (ndofs2 V S D). exact Pd.
  - cbn [nodes]. intros r Hr _. rewrite <- (ndofs2 V S D) in Hr. now apply Dg.
  - cbn [nodes] in *. rewrite <- (ndofs2 V S D) in *.
    set (du := fun_arr (ndofs V) x). pose proof (fun_arr_rep (ndofs V) x) as Rd. fold du in Rd.
    set (u' := fun_arr (ndofs V) (fun i => val u0 i + val du i)). pose proof (fun_arr_rep (ndofs V) (fun i => val u0 i + val du i)) as Ru. fold u' in Ru.
    assert (Zd : zero_bnd_field2 V du).
    { intros i j c Hn Hf Hc. pose proof (dof2_range V i j c S Hn Hc D) as Hr. rewrite (proj2 Rd _ Hr). f_equal.
      apply Xz; [exact Hr|]. intros Nf. apply Nf. now apply bnd_dof2. }
    destruct (newton_exact2 V u0 du u' b0 b0 b0 b0 m BD A M F0 (rep_full _ _ _ Rd) Zd Ru (proj1 Rb0) (proj1 Rb0))
      as (A2 & b2 & b' & n2 & n3 & E1 & E2 & E3 & _ & N3).
    rewrite EA in E1. injection E1 as <-. rewrite Eb in E2. injection E2 as <- <-.
    assert (N0 : n3 = 0).
    { rewrite N3. unfold residual_norm. rewrite rsum_zero; [apply sqrt_0|]. intros r Hr. apply in_zrange in Hr.
      rewrite (wf_nrow _ _ _ _ Wf), <- (ndofs2 V S D) in Hr.
      assert (Em : mul A' (val du) r = val b r).
      { rewrite <- (Xs r Hr). unfold mul. apply rsum_ext. intros c Hc. apply in_zrange in Hc.
        rewrite (wf_nrow _ _ _ _ Wf), <- (ndofs2 V S D) in Hc. now rewrite (rep_val du (ndofs V) x). }
      rewrite Em. ring. }
    destruct (ave_stress2 V u' _ b0 b0 S G D Ru) as (s & Es & _).
    exists u', b', s, b0, b0, b0, false, b0, b0. rewrite N0 in E3. split; [now apply rep_full in Ru|]. split; [apply Rb0|].
    split; [|split; [exact E3|exact Es]].
    intros i j Hn Hf x0 y0. pose proof (fun c Hc => Zd i j c Hn Hf Hc) as Z0.
    assert (H : forall c, (0 <= c < 2)%Z -> aget u' (dof2 V i j c) = Some (affine2 (lget e 0) (lget e 1) (lget e 2) x0 y0 c)).
    { intros c Hc. pose proof (dof2_range V i j c S Hn Hc D) as Hr. rewrite (proj2 Ru _ Hr). f_equal.
      rewrite (rep_val u0 (ndofs V) (afield2 V e) _ U0 Hr). unfold val at 1. rewrite (Z0 c Hc), Rplus_0_r.
      destruct Hn as (Hi & Hj). pose proof (afield2_node V e i j c Hi Hj Hc) as X. unfold cmp2 in X. rewrite dof2_node. exact X. }
    split; rewrite H by lia; reflexivity.
Qed.

Lemma state_response3 V e u vold b' s : body3 V -> state3 V e u vold b' 0 s -> response3 V e u s.
Proof.
  intros (S & G & D) (vnew & b & nl & vn & vn' & F & W & Lb & B & E & Es).
  exists (val u), (val vold), vold, vnew, b, b', nl, vn, vn'. split; [now apply full_rep|]. split; [exact (vars_old _ _ _ W)|].
  split; [apply W|]. split; [exact Lb|]. split; [now apply affine_bndaff3|]. split; assumption.
Qed.
Lemma state_response2 V e u b' s : body2 V -> state2 V e u b' 0 s -> response2 V e u s.
Proof.
  intros (S & G & D) (vold & vnew & b & nl & vn & vn' & F & Lb & B & E & Es).
  exists (val u), vold, vnew, b, b', nl, vn, vn'. split; [now apply full_rep|].
  split; [exact Lb|]. split; [now apply affine_bndaff2|]. split; assumption.
Qed.
Theorem equilibrium3 V e : body3 V -> linear V -> adm V ->
  (forall vold vnew, vars_ok V vold vnew -> exists u b' s, state3 V e u vold b' 0 s) /\
  (forall u1 v1 b1 s1 u2 v2 b2 s2, state3 V e u1 v1 b1 0 s1 -> state3 V e u2 v2 b2 0 s2 ->
     (forall r, (0 <= r < ndofs V)%Z -> aget u1 r = aget u2 r) /\ (forall v, (0 <= v < 6)%Z -> lget s1 v = lget s2 v)) /\
  (forall u vold b' s, state3 V e u vold b' 0 s -> (exists v, (0 <= v < 6)%Z /\ lget e v <> 0) -> 0 < dot 6 (lget s) (lget e)).
Proof.
  intros BD L A. pose proof BD as (S & G & D). split; [|split].
  - intros. now apply (equilibrium_exists3 V e vold vnew).
  - intros u1 v1 b1 s1 u2 v2 b2 s2 S1 S2. apply (response_unique3 V e); try assumption; eapply state_response3; eassumption.
  - intros u vold b' s St (v & Hv & Ne). destruct (effective_pd3 V e u s S G D L A (state_response3 V e u vold b' s BD St)) as (P & Q).
    change (dot6 s e) with (dot 6 (lget s) (lget e)) in *. destruct P as [P|P]; [exact P|]. exfalso. apply Ne. now apply Q.
Qed.
Theorem equilibrium2 V e : body2 V -> adm V ->
  (exists u b' s, state2 V e u b' 0 s) /\
  (forall u1 b1 s1 u2 b2 s2, state2 V e u1 b1 0 s1 -> state2 V e u2 b2 0 s2 ->
     (forall r, (0 <= r < ndofs V)%Z -> aget u1 r = aget u2 r) /\ (forall v, (0 <= v < 3)%Z -> lget s1 v = lget s2 v)) /\
  (forall u b' s, state2 V e u b' 0 s -> (exists v, (0 <= v < 3)%Z /\ lget e v <> 0) -> 0 < dot 3 (lget s) (lget e)).
Proof.
  intros BD A. pose proof BD as (S & G & D). split; [|split].
  - now apply equilibrium_exists2.
  - intros u1 b1 s1 u2 b2 s2 S1 S2. apply (response_unique2 V e); try assumption; eapply state_response2; eassumption.
  - intros u b' s St (v & Hv & Ne). destruct (effective_pd2 V e u s S G D A (state_response2 V e u b' s BD St)) as (P & Q).
    change (dot3 s e) with (dot 3 (lget s) (lget e)) in *. destruct P as [P|P]; [exact P|]. exfalso. apply Ne. now apply Q.
Qed.
