(** The effective stiffness of a body, and how far a state with a residual is from it. *)
From Coq Require Import Reals Lra ZifyBool.
From Verif Require Import Base Scalar ConvexMin MonoBody EllSpec EllInit EllFinal Grid CgProps AssemblyModel AsmPure AsmBnd AsmRun FemGen FemAve FemMat FemMat2 FemPd FemRhs FemEquil
  AsmSpec AsmProps AsmEquil AsmPoint AsmCases NewtonBase Tangent EnergyBody KornProps.
Open Scope Z_scope.
Open Scope R_scope.

Lemma len_at n f r : (0 <= r < n)%Z -> Rabs (f r) <= len n f.
Proof.
  intros Hr. rewrite <- sqrt_Rsqr_abs. apply sqrt_le_1_alt. unfold Rsqr. apply (rsum_one_le (zrange 0 n) (fun r => f r * f r) r); [intros; apply Rle_0_sqr|now apply in_zrange].
Qed.
Lemma near_any m X l lx em k : 0 < m -> 0 < lx -> 0 <= l -> 0 <= em -> 0 <= k -> m * (l * l) <= k * (lx * lx) * (em * em) * X -> l <= lx * em * sqrt (k * X / m).
Proof.
  intros Hm Hx Hl He Hk H.
  assert (Q : l * l <= (lx * em) * (lx * em) * (k * X / m)).
  { apply Rmult_le_reg_l with m; [exact Hm|]. replace (m * ((lx * em) * (lx * em) * (k * X / m))) with (k * (lx * lx) * (em * em) * X) by (field; lra). exact H. }
  replace (lx * em) with (sqrt ((lx * em) * (lx * em))) by (apply sqrt_square, Rmult_le_pos; lra).
  rewrite <- sqrt_mult_alt by apply Rle_0_sqr. rewrite <- (sqrt_square l) by exact Hl. now apply sqrt_le_1_alt.
Qed.
Lemma sq_le x c : Rabs x <= c -> x * x <= c * c.
Proof. intros H. replace (x * x) with (Rabs x * Rabs x) by (rewrite <- Rabs_mult; apply Rabs_pos_eq, Rle_0_sqr). apply Rmult_le_compat; try apply Rabs_pos; exact H. Qed.
Lemma lin3 a b c x y z em L : 0 <= x <= L -> 0 <= y <= L -> 0 <= z <= L -> Rabs a <= em -> Rabs b <= em -> Rabs c <= em -> Rabs (a * x + b / 2 * y + c / 2 * z) <= 2 * (em * L).
Proof.
  intros X Y Z A B C. assert (T : forall p q, 0 <= q <= L -> Rabs p <= em -> Rabs (p * q) <= em * L).
  { intros p q Q P. rewrite Rabs_mult. apply Rmult_le_compat; try apply Rabs_pos; [exact P|]. rewrite Rabs_pos_eq; lra. }
  pose proof (T a x X A) as T1. pose proof (T b y Y B) as T2. pose proof (T c z Z C) as T3.
  pose proof (Rabs_triang (a * x + b / 2 * y) (c / 2 * z)) as P. pose proof (Rabs_triang (a * x) (b / 2 * y)) as Q.
  replace (b / 2 * y) with (/ 2 * (b * y)) in * by field. replace (c / 2 * z) with (/ 2 * (c * z)) in * by field.
  rewrite (Rabs_mult (/ 2) (b * y)), (Rabs_mult (/ 2) (c * z)), (Rabs_pos_eq (/ 2)) in * by lra. lra.
Qed.
Lemma coord_le i n d l L : (0 <= i < n)%Z -> 0 < d -> l = IZR (n - 1) * d -> l <= L -> 0 <= IZR i * d <= L.
Proof.
  intros Hi Hd El Hl. split; [apply Rmult_le_pos; [apply (IZR_le 0); lia|lra]|]. apply Rle_trans with l; [|exact Hl]. rewrite El. apply Rmult_le_compat_r; [lra|]. apply IZR_le. lia.
Qed.

Section Three.
Variables (V : env R) (m M : R).
Hypothesis BD : body3 V.
Hypothesis Ln : linear V.
Hypothesis Ad : adm V.
Hypothesis Hm : 0 < m.
Hypothesis HM : 0 <= M.
Hypothesis Hs : stiff3 V m M.
Local Notation cells := (IZR ((v_nx V - 1) * (v_ny V - 1) * (v_nz V - 1))).
Lemma cells_pos3 : 0 <= cells.
Proof. destruct BD as (S & _ & D). apply (IZR_le 0). pose proof (sa_nx V S). pose proof (sa_ny V S). pose proof (sane_nz V S D). repeat apply Z.mul_nonneg_nonneg; lia. Qed.
Lemma exact_all3 e : exists u vo b s, state3 V e u vo b 0 s.
Proof.
  destruct (equilibrium_exists3 V e (fun_arr 0 (fun _ => 0)) (fun_arr (ncells V * 56) (fun _ => 0)) BD Ln Ad) as (u & b & s & St); [|eauto].
  split; [|reflexivity]. intros c g i Hc _ _ P. rewrite (Ln c Hc) in P. discriminate.
Qed.
Lemma affine_le3 e em L a : 0 <= em -> (forall v, (0 <= v < 6)%Z -> Rabs (lget e v) <= em) -> v_lx V <= L -> v_ly V <= L -> v_lz V <= L ->
  (0 <= a < ndofs V)%Z -> Rabs (afield3 V e a) <= 2 * (em * L).
Proof.
  intros He B Lx Ly Lz Ha. pose proof BD as (S & G & D). rewrite (ndofs_eq3 V D) in Ha.
  destruct (dof3_surj V S D a Ha) as (i & j & k & c & Hi & Hj & Hk & Hc & -> & _). pose proof (afield3_node V e i j k c Hi Hj Hc) as AN. unfold cmp3 in AN. rewrite AN. clear AN.
  pose proof (coord_le i (v_nx V) (v_dx V) _ L Hi (ge_px V G) (ge_x V G) Lx) as X. pose proof (coord_le j (v_ny V) (v_dy V) _ L Hj (ge_py V G) (ge_y V G) Ly) as Y.
  pose proof (coord_le k (v_nz V) (v_dz V) _ L Hk (ge_pz V G D) (ge_z V G D) Lz) as Z.
  unfold affine3. assert (C3 : (c = 0 \/ c = 1 \/ c = 2)%Z) by lia. destruct C3 as [-> |[-> | ->]].
  - cbn. apply lin3; try assumption; apply B; lia.
  - cbn. replace (lget e 3 / 2 * (IZR i * v_dx V) + lget e 1 * (IZR j * v_dy V) + lget e 5 / 2 * (IZR k * v_dz V)) with (lget e 1 * (IZR j * v_dy V) + lget e 3 / 2 * (IZR i * v_dx V) + lget e 5 / 2 * (IZR k * v_dz V)) by ring. apply lin3; try assumption; apply B; lia.
  - cbn. replace (lget e 4 / 2 * (IZR i * v_dx V) + lget e 5 / 2 * (IZR j * v_dy V) + lget e 2 * (IZR k * v_dz V)) with (lget e 2 * (IZR k * v_dz V) + lget e 4 / 2 * (IZR i * v_dx V) + lget e 5 / 2 * (IZR j * v_dy V)) by ring. apply lin3; try assumption; apply B; lia.
Qed.
Theorem exact_size3 e u vo b s em L a : state3 V e u vo b 0 s -> 0 <= em -> (forall v, (0 <= v < 6)%Z -> Rabs (lget e v) <= em) -> v_lx V <= L -> v_ly V <= L -> v_lz V <= L ->
  (0 <= a < ndofs V)%Z -> Rabs (val u a) <= 2 * (em * L) + v_lx V * em * sqrt (45 * (cells * M) / m).
Proof.
  intros St He B Lx Ly Lz Ha. pose proof BD as (S & G & D). destruct (geom_pos V S G) as (Px & _). pose proof cells_pos3 as Pc.
  pose proof (exact_near3 V e u vo b s (afield3 V e) m M BD Ln (Rlt_le _ _ Hm) Hs St (affine_field3 V e BD)) as Q. cbv zeta in Q.
  set (l := len (ndofs V) (fun r => val u r - afield3 V e r)) in *. pose proof (fun v Hv => sq_le _ _ (B v Hv)) as Sq.
  assert (Hl : l <= v_lx V * em * sqrt (45 * (cells * M) / m)).
  { apply near_any; try lra; [apply sqrt_pos|]. eapply Rle_trans; [exact Q|].
    assert (P : 0 <= v_lx V * v_lx V * (cells * M)) by (apply Rmult_le_pos; [apply lx2_pos|now apply Rmult_le_pos]).
    assert (X : lget e 0 * lget e 0 + lget e 1 * lget e 1 + lget e 2 * lget e 2 + (lget e 3 * lget e 3 + lget e 4 * lget e 4 + lget e 5 * lget e 5) / 2 <= 9 / 2 * (em * em))
      by (pose proof (Sq 0 ltac:(lia))%Z; pose proof (Sq 1 ltac:(lia))%Z; pose proof (Sq 2 ltac:(lia))%Z; pose proof (Sq 3 ltac:(lia))%Z; pose proof (Sq 4 ltac:(lia))%Z; pose proof (Sq 5 ltac:(lia))%Z; lra).
    apply (Rmult_le_compat_l _ _ _ P) in X. lra. }
  pose proof (len_at (ndofs V) (fun r => val u r - afield3 V e r) a Ha) as A. fold l in A. cbv beta in A. pose proof (affine_le3 e em L a He B Lx Ly Lz Ha) as A2.
  replace (val u a) with ((val u a - afield3 V e a) + afield3 V e a) by ring. eapply Rle_trans; [apply Rabs_triang|]. lra.
Qed.
Theorem effective3 : exists K : Z -> Z -> R, (forall v i, (0 <= v < 6)%Z -> (0 <= i < 6)%Z -> K v i = K i v) /\
  (forall e u vo b s, state3 V e u vo b 0 s -> forall v, (0 <= v < 6)%Z -> lget s v = dot 6 (K v) (lget e)) /\
  forall e u vo b n s, state3 V e u vo b n s -> forall v, (0 <= v < 6)%Z -> v_ly V * Rabs (lget s v - dot 6 (K v) (lget e)) <= n * sqrt (10 * (cells * M) / m).
Proof.
  pose proof BD as (S & G & D). destruct (geom_pos V S G) as (Px & Py). assert (PX : 0 < v_lx V * v_ly V) by now apply Rmult_lt_0_compat. pose proof cells_pos3 as Pc.
  destruct (pick ([] : list R) 6 (fun v s => exists u vo b, state3 V (unit 6 v) u vo b 0 s)) as (f & Hf).
  { intros v _. destruct (exact_all3 (unit 6 v)) as (u & vo & b & s & St). eauto. }
  assert (Row : forall e u vo b n s, state3 V e u vo b n s -> forall v, (0 <= v < 6)%Z -> v_ly V * Rabs (lget s v - dot 6 (lget (f v)) (lget e)) <= n * sqrt (10 * (cells * M) / m)).
  { intros e u vo b n s St v Hv. destruct (Hf v Hv) as (u2 & vo2 & b2 & St2).
    pose proof (reciprocity_body3 _ _ _ _ _ _ _ _ _ _ _ _ _ _ _ BD Ln St St2 (affine_field3 V e BD) (affine_field3 V (unit 6 v) BD)) as H.
    rewrite Rmult_0_l, Rplus_0_r, (dot_unit 6 (lget s) v Hv), Rabs_mult, (Rabs_pos_eq _ (Rlt_le _ _ PX)) in H.
    destruct (state3_parts V e u vo b n s BD St) as (_ & _ & _ & _ & Nn & _). assert (Pn : 0 <= n) by (rewrite Nn; apply sqrt_pos).
    pose proof (exact_near3 V (unit 6 v) u2 vo2 b2 (f v) (afield3 V (unit 6 v)) m M BD Ln (Rlt_le _ _ Hm) Hs St2 (affine_field3 V (unit 6 v) BD)) as Q. cbv zeta in Q.
    set (l := len (ndofs V) (fun r => val u2 r - afield3 V (unit 6 v) r)) in *.
    assert (Hl : l <= v_lx V * 1 * sqrt (10 * (cells * M) / m)).
    { apply near_any; try lra; [apply sqrt_pos|]. eapply Rle_trans; [exact Q|].
      assert (P : 0 <= v_lx V * v_lx V * (cells * M)) by (apply Rmult_le_pos; [apply lx2_pos|now apply Rmult_le_pos]).
      assert (X : lget (unit 6 v) 0 * lget (unit 6 v) 0 + lget (unit 6 v) 1 * lget (unit 6 v) 1 + lget (unit 6 v) 2 * lget (unit 6 v) 2 + (lget (unit 6 v) 3 * lget (unit 6 v) 3 + lget (unit 6 v) 4 * lget (unit 6 v) 4 + lget (unit 6 v) 5 * lget (unit 6 v) 5) / 2 <= 1)
        by (rewrite !lget_unit by lia; destruct (0 =? v)%Z eqn:X0, (1 =? v)%Z eqn:X1, (2 =? v)%Z eqn:X2, (3 =? v)%Z eqn:X3, (4 =? v)%Z eqn:X4, (5 =? v)%Z eqn:X5; try lia; lra).
      apply (Rmult_le_compat_l _ _ _ P) in X. lra. }
    apply Rmult_le_reg_l with (v_lx V); [exact Px|]. apply (Rmult_le_compat_l _ _ _ Pn) in Hl. lra. }
  assert (Exact : forall e u vo b s, state3 V e u vo b 0 s -> forall v, (0 <= v < 6)%Z -> lget s v = dot 6 (lget (f v)) (lget e)).
  { intros e u vo b s St v Hv. pose proof (Row e u vo b 0 s St v Hv) as H. rewrite Rmult_0_l in H. pose proof (Rabs_pos (lget s v - dot 6 (lget (f v)) (lget e))) as P.
    assert (Z0 : v_ly V * Rabs (lget s v - dot 6 (lget (f v)) (lget e)) = 0) by (apply Rle_antisym; [exact H|apply Rmult_le_pos; lra]).
    apply Rmult_integral in Z0. destruct Z0 as [Z0|Z0]; [lra|]. destruct (Req_dec (lget s v - dot 6 (lget (f v)) (lget e)) 0) as [E0|N0]; [lra|]. now apply Rabs_no_R0 in N0. }
  exists (fun v => lget (f v)). split; [|split; [exact Exact|exact Row]].
  intros v i Hv Hi. destruct (Hf i Hi) as (u & vo & b & St). rewrite (Exact _ _ _ _ _ St v Hv). symmetry. apply dot_unit. exact Hi.
Qed.
End Three.

Section Two.
Variables (V : env R) (m M : R).
Hypothesis BD : body2 V.
Hypothesis Ad : adm V.
Hypothesis Hm : 0 < m.
Hypothesis HM : 0 <= M.
Hypothesis Hs : stiff2 V m M.
Local Notation cells := (IZR ((v_nx V - 1) * (v_ny V - 1))).
Lemma cells_pos2 : 0 <= cells.
Proof. destruct BD as (S & _ & D). apply (IZR_le 0). pose proof (sa_nx V S). pose proof (sa_ny V S). repeat apply Z.mul_nonneg_nonneg; lia. Qed.
Lemma exact_all2 e : exists u b s, state2 V e u b 0 s.
Proof. exact (equilibrium_exists2 V e BD Ad). Qed.
Lemma affine_le2 e em L a : 0 <= em -> (forall v, (0 <= v < 3)%Z -> Rabs (lget e v) <= em) -> v_lx V <= L -> v_ly V <= L ->
  (0 <= a < ndofs V)%Z -> Rabs (afield2 V e a) <= 2 * (em * L).
Proof.
  intros He B Lx Ly Ha. pose proof BD as (S & G & D). rewrite (ndofs_eq2 V S D) in Ha.
  destruct (dof2_surj V S D a Ha) as (i & j & c & Hi & Hj & Hc & -> & _). pose proof (afield2_node V e i j c Hi Hj Hc) as AN. unfold cmp2 in AN. rewrite AN. clear AN.
  pose proof (coord_le i (v_nx V) (v_dx V) _ L Hi (ge_px V G) (ge_x V G) Lx) as X. pose proof (coord_le j (v_ny V) (v_dy V) _ L Hj (ge_py V G) (ge_y V G) Ly) as Y.
  assert (Z : 0 <= 0 <= L) by lra. assert (E0 : Rabs 0 <= em) by (rewrite Rabs_R0; exact He).
  unfold affine2. assert (C2 : (c = 0 \/ c = 1)%Z) by lia. destruct C2 as [-> | ->].
  - cbn. replace (lget e 0 * (IZR i * v_dx V) + lget e 2 / 2 * (IZR j * v_dy V)) with (lget e 0 * (IZR i * v_dx V) + lget e 2 / 2 * (IZR j * v_dy V) + 0 / 2 * 0) by lra. apply lin3; try assumption; apply B; lia.
  - cbn. replace (lget e 2 / 2 * (IZR i * v_dx V) + lget e 1 * (IZR j * v_dy V)) with (lget e 1 * (IZR j * v_dy V) + lget e 2 / 2 * (IZR i * v_dx V) + 0 / 2 * 0) by lra. apply lin3; try assumption; apply B; lia.
Qed.
Theorem exact_size2 e u b s em L a : state2 V e u b 0 s -> 0 <= em -> (forall v, (0 <= v < 3)%Z -> Rabs (lget e v) <= em) -> v_lx V <= L -> v_ly V <= L ->
  (0 <= a < ndofs V)%Z -> Rabs (val u a) <= 2 * (em * L) + v_lx V * em * sqrt (10 * (cells * M) / m).
Proof.
  intros St He B Lx Ly Ha. pose proof BD as (S & G & D). destruct (geom_pos V S G) as (Px & _). pose proof cells_pos2 as Pc.
  pose proof (exact_near2 V e u b s (afield2 V e) m M BD Ad (Rlt_le _ _ Hm) Hs St (affine_field2 V e BD)) as Q. cbv zeta in Q.
  set (l := len (ndofs V) (fun r => val u r - afield2 V e r)) in *. pose proof (fun v Hv => sq_le _ _ (B v Hv)) as Sq.
  assert (Hl : l <= v_lx V * em * sqrt (10 * (cells * M) / m)).
  { apply near_any; try lra; [apply sqrt_pos|]. eapply Rle_trans; [exact Q|].
    assert (P : 0 <= v_lx V * v_lx V * (cells * M)) by (apply Rmult_le_pos; [apply lx2_pos|now apply Rmult_le_pos]).
    assert (X : lget e 0 * lget e 0 + lget e 1 * lget e 1 + lget e 2 * lget e 2 / 2 <= 5 / 2 * (em * em))
      by (pose proof (Sq 0 ltac:(lia))%Z; pose proof (Sq 1 ltac:(lia))%Z; pose proof (Sq 2 ltac:(lia))%Z; lra).
    apply (Rmult_le_compat_l _ _ _ P) in X. lra. }
  pose proof (len_at (ndofs V) (fun r => val u r - afield2 V e r) a Ha) as A. fold l in A. cbv beta in A. pose proof (affine_le2 e em L a He B Lx Ly Ha) as A2.
  replace (val u a) with ((val u a - afield2 V e a) + afield2 V e a) by ring. eapply Rle_trans; [apply Rabs_triang|]. lra.
Qed.
Theorem effective2 : exists K : Z -> Z -> R, (forall v i, (0 <= v < 3)%Z -> (0 <= i < 3)%Z -> K v i = K i v) /\
  (forall e u b s, state2 V e u b 0 s -> forall v, (0 <= v < 3)%Z -> lget s v = dot 3 (K v) (lget e)) /\
  forall e u b n s, state2 V e u b n s -> forall v, (0 <= v < 3)%Z -> v_ly V * Rabs (lget s v - dot 3 (K v) (lget e)) <= n * sqrt (4 * (cells * M) / m).
Proof.
  pose proof BD as (S & G & D). destruct (geom_pos V S G) as (Px & Py). assert (PX : 0 < v_lx V * v_ly V) by now apply Rmult_lt_0_compat. pose proof cells_pos2 as Pc.
  destruct (pick ([] : list R) 3 (fun v s => exists u b, state2 V (unit 3 v) u b 0 s)) as (f & Hf).
  { intros v _. destruct (exact_all2 (unit 3 v)) as (u & b & s & St). eauto. }
  assert (Row : forall e u b n s, state2 V e u b n s -> forall v, (0 <= v < 3)%Z -> v_ly V * Rabs (lget s v - dot 3 (lget (f v)) (lget e)) <= n * sqrt (4 * (cells * M) / m)).
  { intros e u b n s St v Hv. destruct (Hf v Hv) as (u2 & b2 & St2).
    pose proof (reciprocity_body2 _ _ _ _ _ _ _ _ _ _ _ _ _ BD St St2 (affine_field2 V e BD) (affine_field2 V (unit 3 v) BD)) as H.
    rewrite Rmult_0_l, Rplus_0_r, (dot_unit 3 (lget s) v Hv), Rabs_mult, (Rabs_pos_eq _ (Rlt_le _ _ PX)) in H.
    destruct (state2_parts V e u b n s BD St) as (_ & _ & _ & Nn & _). assert (Pn : 0 <= n) by (rewrite Nn; apply sqrt_pos).
    pose proof (exact_near2 V (unit 3 v) u2 b2 (f v) (afield2 V (unit 3 v)) m M BD Ad (Rlt_le _ _ Hm) Hs St2 (affine_field2 V (unit 3 v) BD)) as Q. cbv zeta in Q.
    set (l := len (ndofs V) (fun r => val u2 r - afield2 V (unit 3 v) r)) in *.
    assert (Hl : l <= v_lx V * 1 * sqrt (4 * (cells * M) / m)).
    { apply near_any; try lra; [apply sqrt_pos|]. eapply Rle_trans; [exact Q|].
      assert (P : 0 <= v_lx V * v_lx V * (cells * M)) by (apply Rmult_le_pos; [apply lx2_pos|now apply Rmult_le_pos]).
      assert (X : lget (unit 3 v) 0 * lget (unit 3 v) 0 + lget (unit 3 v) 1 * lget (unit 3 v) 1 + lget (unit 3 v) 2 * lget (unit 3 v) 2 / 2 <= 1)
        by (rewrite !lget_unit by lia; destruct (0 =? v)%Z eqn:X0, (1 =? v)%Z eqn:X1, (2 =? v)%Z eqn:X2; try lia; lra).
      apply (Rmult_le_compat_l _ _ _ P) in X. lra. }
    apply Rmult_le_reg_l with (v_lx V); [exact Px|]. apply (Rmult_le_compat_l _ _ _ Pn) in Hl. lra. }
  assert (Exact : forall e u b s, state2 V e u b 0 s -> forall v, (0 <= v < 3)%Z -> lget s v = dot 3 (lget (f v)) (lget e)).
  { intros e u b s St v Hv. pose proof (Row e u b 0 s St v Hv) as H. rewrite Rmult_0_l in H. pose proof (Rabs_pos (lget s v - dot 3 (lget (f v)) (lget e))) as P.
    assert (Z0 : v_ly V * Rabs (lget s v - dot 3 (lget (f v)) (lget e)) = 0) by (apply Rle_antisym; [exact H|apply Rmult_le_pos; lra]).
    apply Rmult_integral in Z0. destruct Z0 as [Z0|Z0]; [lra|]. destruct (Req_dec (lget s v - dot 3 (lget (f v)) (lget e)) 0) as [E0|N0]; [lra|]. now apply Rabs_no_R0 in N0. }
  exists (fun v => lget (f v)). split; [|split; [exact Exact|exact Row]].
  intros v i Hv Hi. destruct (Hf i Hi) as (u & b & St). rewrite (Exact _ _ _ _ St v Hv). symmetry. apply dot_unit. exact Hi.
Qed.
End Two.
