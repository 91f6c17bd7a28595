(** The discrete Korn and Poincare inequality of a body, 3D. *)
From Coq Require Import Reals Lra ZifyBool.
From Verif Require Import Base Scalar EllSpec EllInit Grid EllModel EllAsm AssemblyModel AsmPure AsmBnd AsmRun AsmMat FemGen FemAve FemMat FemMat2 FemDef FemPd FemEquil MonoBody Korn.
Open Scope Z_scope.
Open Scope R_scope.

Section Three.
Variable V : env R.
Hypotheses (S : sane V) (D : v_dim V = 3%Z) (G : geom V).
Let Px : 0 < v_dx V. Proof. apply (ge_px V G). Qed.
Let Py : 0 < v_dy V. Proof. apply (ge_py V G). Qed.
Let Pz : 0 < v_dz V. Proof. apply (ge_pz V G D). Qed.
Notation nx := (v_nx V). Notation ny := (v_ny V). Notation nz := (v_nz V).
Let Nx : (2 <= nx)%Z. Proof. apply (sa_nx V S). Qed.
Let Ny : (2 <= ny)%Z. Proof. apply (sa_ny V S). Qed.
Let Nz : (2 <= nz)%Z. Proof. destruct (sa_dim V S); lia. Qed.

Lemma tel0 (t : Z -> Z -> Z -> R) : (forall j k, (0 <= j < ny - 1)%Z -> (0 <= k < nz - 1)%Z -> t 0%Z j k = 0 /\ t (nx - 1)%Z j k = 0) ->
  rsum (els3 V) (fun e => let '(ex, ey, ez) := e in t (ex + 1)%Z ey ez - t ex ey ez) = 0.
Proof.
  intros H. rewrite rsum_els3, rsum_swap. apply rsum_zero. intros ey Hy. rewrite rsum_swap. apply rsum_zero. intros ez Hz. apply in_zrange in Hy, Hz.
  rewrite (rsum_telescope (nx - 1) (fun ex => t ex ey ez)) by lia. destruct (H ey ez Hy Hz) as (-> & ->). ring.
Qed.
Lemma tel1 (t : Z -> Z -> Z -> R) : (forall i k, (0 <= i < nx - 1)%Z -> (0 <= k < nz - 1)%Z -> t i 0%Z k = 0 /\ t i (ny - 1)%Z k = 0) ->
  rsum (els3 V) (fun e => let '(ex, ey, ez) := e in t ex (ey + 1)%Z ez - t ex ey ez) = 0.
Proof.
  intros H. rewrite rsum_els3. apply rsum_zero. intros ex Hy. rewrite rsum_swap. apply rsum_zero. intros ez Hz. apply in_zrange in Hy, Hz.
  rewrite (rsum_telescope (ny - 1) (fun ey => t ex ey ez)) by lia. destruct (H ex ez Hy Hz) as (-> & ->). ring.
Qed.
Lemma tel2 (t : Z -> Z -> Z -> R) : (forall i j, (0 <= i < nx - 1)%Z -> (0 <= j < ny - 1)%Z -> t i j 0%Z = 0 /\ t i j (nz - 1)%Z = 0) ->
  rsum (els3 V) (fun e => let '(ex, ey, ez) := e in t ex ey (ez + 1)%Z - t ex ey ez) = 0.
Proof.
  intros H. rewrite rsum_els3. apply rsum_zero. intros ex Hy. apply rsum_zero. intros ey Hz. apply in_zrange in Hy, Hz.
  rewrite (rsum_telescope (nz - 1) (fun ez => t ex ey ez)) by lia. destruct (H ex ey Hy Hz) as (-> & ->). ring.
Qed.

(** node functions that vanish on the boundary of the box *)
Definition zb (F : Z -> Z -> Z -> R) : Prop := forall i j k, (0 <= i < nx)%Z -> (0 <= j < ny)%Z -> (0 <= k < nz)%Z ->
  (i = 0 \/ i = nx - 1 \/ j = 0 \/ j = ny - 1 \/ k = 0 \/ k = nz - 1)%Z -> F i j k = 0.
Notation gsum f := (rsum (els3 V) (fun e => rsum (zrange 0 8) (fun g => f e g))).
Notation dr c F := (fun e g => gr3 V g c (at3 F e)).
Lemma edge0 f h m n m' n' : f m = 0 -> f n = 0 -> h m = 0 -> h n = 0 -> edge f h m n m' n' = 0.
Proof. intros A1 A2 A3 A4. unfold edge, lcr, lev. rewrite A1, A2, A3, A4. ring. Qed.
Ltac bring E := cbv beta iota; rewrite E by lra; unfold at3, edge, lcr, lev; cors; rewrite ?Z.add_0_r; rewrite <- ?Z.add_assoc; reflexivity.
Section Cross.
Variables F H : Z -> Z -> Z -> R.
Hypotheses (ZF : zb F) (ZH : zb H).
Definition ed (m n m' n' : Z) (i j k : Z) : R := edge (at3 F (i, j, k)) (at3 H (i, j, k)) m n m' n'.
Lemma ed_zero m n m' n' i j k : (0 <= m < 8)%Z -> (0 <= n < 8)%Z ->
  (forall l, l = m \/ l = n -> let a := (i + cor_x l)%Z in let b := (j + cor_y l)%Z in let c := (k + cor_z l)%Z in (0 <= a < nx /\ 0 <= b < ny /\ 0 <= c < nz)%Z /\
    (a = 0 \/ a = nx - 1 \/ b = 0 \/ b = ny - 1 \/ c = 0 \/ c = nz - 1)%Z) -> ed m n m' n' i j k = 0.
Proof.
  intros Hm Hn L. destruct (L m (or_introl eq_refl)) as (A1 & A2). destruct (L n (or_intror eq_refl)) as (B1 & B2). unfold ed. apply edge0; unfold at3; (apply ZF || apply ZH); tauto.
Qed.
Lemma null01 : gsum (fun e g => dr 0%Z F e g * dr 1%Z H e g - dr 1%Z F e g * dr 0%Z H e g) = 0.
Proof.
  rewrite (rsum_ext _ _ (fun e => 1 / (2 * v_dx V * v_dy V) * ((let '(ex, ey, ez) := e in ed 0 4 3 7 (ex + 1) ey ez - ed 0 4 3 7 ex ey ez) -
    (let '(ex, ey, ez) := e in ed 0 4 1 5 ex (ey + 1) ez - ed 0 4 1 5 ex ey ez)))).
  - rewrite rsum_scal, rsum_minus, tel0, tel1; [ring|..].
    + intros i k Hi Hk. split; apply ed_zero; try lia; intros l [-> | ->]; cors; lia.
    + intros j k Hj Hk. split; apply ed_zero; try lia; intros l [-> | ->]; cors; lia.
  - intros ((ex, ey), ez) _. unfold gr3. rewrite cross01 by lra. unfold ed, edge, lcr, lev, at3. cors. rewrite ?Z.add_0_r. field. lra.
Qed.
Lemma null02 : gsum (fun e g => dr 0%Z F e g * dr 2%Z H e g - dr 2%Z F e g * dr 0%Z H e g) = 0.
Proof.
  rewrite (rsum_ext _ _ (fun e => 1 / (2 * v_dx V * v_dz V) * ((let '(ex, ey, ez) := e in ed 0 3 4 7 (ex + 1) ey ez - ed 0 3 4 7 ex ey ez) -
    (let '(ex, ey, ez) := e in ed 0 3 1 2 ex ey (ez + 1) - ed 0 3 1 2 ex ey ez)))).
  - rewrite rsum_scal, rsum_minus, tel0, tel2; [ring|..].
    + intros i k Hi Hk. split; apply ed_zero; try lia; intros l [-> | ->]; cors; lia.
    + intros j k Hj Hk. split; apply ed_zero; try lia; intros l [-> | ->]; cors; lia.
  - intros ((ex, ey), ez) _. unfold gr3. rewrite cross02 by lra. unfold ed, edge, lcr, lev, at3. cors. rewrite ?Z.add_0_r. field. lra.
Qed.
Lemma null12 : gsum (fun e g => dr 1%Z F e g * dr 2%Z H e g - dr 2%Z F e g * dr 1%Z H e g) = 0.
Proof.
  rewrite (rsum_ext _ _ (fun e => 1 / (2 * v_dy V * v_dz V) * ((let '(ex, ey, ez) := e in ed 0 1 4 5 ex (ey + 1) ez - ed 0 1 4 5 ex ey ez) -
    (let '(ex, ey, ez) := e in ed 0 1 3 2 ex ey (ez + 1) - ed 0 1 3 2 ex ey ez)))).
  - rewrite rsum_scal, rsum_minus, tel1, tel2; [ring|..].
    + intros i k Hi Hk. split; apply ed_zero; try lia; intros l [-> | ->]; cors; lia.
    + intros j k Hj Hk. split; apply ed_zero; try lia; intros l [-> | ->]; cors; lia.
  - intros ((ex, ey), ez) _. unfold gr3. rewrite cross12 by lra. unfold ed, edge, lcr, lev, at3. cors. rewrite ?Z.add_0_r. field. lra.
Qed.
End Cross.

(** ** Poincare, one component *)
Notation nodes f := (rsum (zrange 0 nz) (fun k => rsum (zrange 0 ny) (fun j => rsum (zrange 0 nx) (fun i => f i j k)))).
Lemma poincare F : zb F -> nodes (fun i j k => F i j k * F i j k) <= 5 / 8 * (v_lx V * v_lx V) * gsum (fun e g => dr 0%Z F e g * dr 0%Z F e g).
Proof.
  intros ZF. set (q j k := rsum (zrange 0 (nx - 1)) (fun i => (F (i + 1)%Z j k - F i j k) * (F (i + 1)%Z j k - F i j k))).
  set (n := IZR (nx - 1)).
  assert (A : nodes (fun i j k => F i j k * F i j k) <= n * n / 2 * rsum (zrange 0 nz) (fun k => rsum (zrange 0 ny) (fun j => q j k))).
  { rewrite <- rsum_scal. apply rsum_le. intros k Hk. rewrite <- rsum_scal. apply rsum_le. intros j Hj. apply in_zrange in Hj, Hk.
    pose proof (line_sum (fun i => F i j k) (nx - 1)) as L. cbv beta in L. rewrite Z.sub_add in L. apply L; [apply ZF; lia|apply ZF; lia|lia]. }
  assert (Q0 : forall j k, (0 <= j < ny)%Z -> (0 <= k < nz)%Z -> (j = 0 \/ j = ny - 1 \/ k = 0 \/ k = nz - 1)%Z -> q j k = 0).
  { intros j k Hj Hk B. unfold q. apply rsum_zero. intros i Hi. apply in_zrange in Hi. rewrite (ZF (i + 1)%Z j k), (ZF i j k) by lia. ring. }
  set (T := rsum (zrange 0 nz) (fun k => rsum (zrange 0 ny) (fun j => q j k))) in *.
  assert (Sh : forall b c, (b = 0 \/ b = 1)%Z -> (c = 0 \/ c = 1)%Z -> rsum (zrange 0 (nz - 1)) (fun k => rsum (zrange 0 (ny - 1)) (fun j => q (j + b)%Z (k + c)%Z)) = T).
  { intros b c Hb Hc.
    assert (I : forall k, (0 <= k < nz)%Z -> rsum (zrange 0 (ny - 1)) (fun j => q (j + b)%Z k) = rsum (zrange 0 ny) (fun j => q j k)).
    { intros k Hk. destruct (shift_sum (fun j => q j k) ny ltac:(lia) ltac:(apply Q0; lia) ltac:(apply Q0; lia)) as (B1 & B2).
      destruct Hb as [-> | ->]; [rewrite <- B1|rewrite <- B2]; apply rsum_ext; intros j _; f_equal; lia. }
    rewrite (rsum_ext _ _ (fun k => rsum (zrange 0 ny) (fun j => q j (k + c)%Z))).
    2:{ intros k Hk. apply in_zrange in Hk. apply (I (k + c)%Z). lia. }
    set (r k := rsum (zrange 0 ny) (fun j => q j k)).
    assert (R0 : r 0%Z = 0) by (apply rsum_zero; intros j Hj; apply in_zrange in Hj; apply Q0; lia).
    assert (R1 : r (nz - 1)%Z = 0) by (apply rsum_zero; intros j Hj; apply in_zrange in Hj; apply Q0; lia).
    destruct (shift_sum r nz ltac:(lia) R0 R1) as (B1 & B2). change T with (rsum (zrange 0 nz) r).
    destruct Hc as [-> | ->]; [rewrite <- B1|rewrite <- B2]; apply rsum_ext; intros k _; unfold r; apply rsum_ext; intros; f_equal; lia. }
  assert (B : 8 / 10 * (4 * T) <= 4 * (v_dx V * v_dx V) * gsum (fun e g => dr 0%Z F e g * dr 0%Z F e g)).
  { replace (4 * T) with (rsum (els3 V) (fun e => let f := at3 F e in (f 1%Z - f 0%Z) * (f 1%Z - f 0%Z) + (f 2%Z - f 3%Z) * (f 2%Z - f 3%Z) + (f 5%Z - f 4%Z) * (f 5%Z - f 4%Z) + (f 6%Z - f 7%Z) * (f 6%Z - f 7%Z))).
    - rewrite <- !rsum_scal. apply rsum_le. intros e He. apply along0; lra.
    - pose proof (Sh 0 0 ltac:(lia) ltac:(lia))%Z as S1. pose proof (Sh 1 0 ltac:(lia) ltac:(lia))%Z as S2. pose proof (Sh 0 1 ltac:(lia) ltac:(lia))%Z as S3. pose proof (Sh 1 1 ltac:(lia) ltac:(lia))%Z as S4.
      rewrite rsum_els3. replace (4 * T) with (T + T + T + T) by ring. rewrite <- S1 at 1. rewrite <- S2 at 1. rewrite <- S3 at 1. rewrite <- S4. clear S1 S2 S3 S4 Sh.
      rewrite <- !rsum_plus.
      rewrite (rsum_ext (zrange 0 (nz - 1)) _ (fun k => rsum (zrange 0 (ny - 1)) (fun j => q (j + 0)%Z (k + 0)%Z + q (j + 1)%Z (k + 0)%Z + q (j + 0)%Z (k + 1)%Z + q (j + 1)%Z (k + 1)%Z)))
        by (intros; rewrite !rsum_plus; reflexivity).
      rewrite (rsum_ext (zrange 0 (nx - 1)) _ (fun ex => rsum (zrange 0 (nz - 1)) (fun ez => rsum (zrange 0 (ny - 1)) (fun ey => let f := at3 F (ex, ey, ez) in (f 1%Z - f 0%Z) * (f 1%Z - f 0%Z) + (f 2%Z - f 3%Z) * (f 2%Z - f 3%Z) + (f 5%Z - f 4%Z) * (f 5%Z - f 4%Z) + (f 6%Z - f 7%Z) * (f 6%Z - f 7%Z)))))
        by (intros; apply rsum_swap).
      rewrite rsum_swap. apply rsum_ext. intros k _. rewrite rsum_swap. apply rsum_ext. intros j _. unfold q. rewrite <- !rsum_plus. apply rsum_ext. intros i _.
      unfold at3. cors. rewrite ?Z.add_0_r. ring. }
  assert (E : v_lx V = n * v_dx V) by (unfold n; apply (ge_x V G)).
  rewrite E. assert (0 <= n * n) by (apply Rle_0_sqr).
  assert (n * n * T <= n * n * (5 / 4 * (v_dx V * v_dx V) * gsum (fun e g => dr 0%Z F e g * dr 0%Z F e g))) by (apply Rmult_le_compat_l; lra). lra.
Qed.

(** ** Korn *)
Lemma van_zb w c : van V w -> (0 <= c < 3)%Z -> zb (cmp3 V w c).
Proof.
  intros W Hc i j k Hi Hj Hk B. unfold cmp3. assert (Q : bdof V (node nx ny i j k * 3 + c)) by (apply (bdof3_node V D); [assumption..|unfold bnd3, on_bnd; lia]).
  apply W; [|exact Q]. rewrite (ndofs3 V D). pose proof (node_range nx ny nz i j k Hi Hj Hk). lia.
Qed.
Definition kn (e : Z -> R) : R := 2 * (e 0%Z * e 0%Z + e 1%Z * e 1%Z + e 2%Z * e 2%Z) + e 3%Z * e 3%Z + e 4%Z * e 4%Z + e 5%Z * e 5%Z.
Lemma korn w : van V w ->
  gsum (fun e g => rsum (zrange 0 3) (fun c => dr 0%Z (cmp3 V w c) e g * dr 0%Z (cmp3 V w c) e g)) <= gsum (fun e g => kn (str3 V w e g)).
Proof.
  intros W. set (Gr := fun (e : Z * Z * Z) (g c d : Z) => gr3 V g c (at3 (cmp3 V w d) e)).
  pose proof (null01 (cmp3 V w 0) (cmp3 V w 1) (van_zb w 0 W ltac:(lia)) (van_zb w 1 W ltac:(lia))) as N1.
  pose proof (null02 (cmp3 V w 0) (cmp3 V w 2) (van_zb w 0 W ltac:(lia)) (van_zb w 2 W ltac:(lia))) as N2.
  pose proof (null12 (cmp3 V w 1) (cmp3 V w 2) (van_zb w 1 W ltac:(lia)) (van_zb w 2 W ltac:(lia))) as N3.
  assert (L : gsum (fun e g => rsum (zrange 0 3) (fun c => dr 0%Z (cmp3 V w c) e g * dr 0%Z (cmp3 V w c) e g)) <=
    gsum (fun e g => kn (str3 V w e g) + 2 * ((Gr e g 0%Z 0%Z * Gr e g 1%Z 1%Z - Gr e g 1%Z 0%Z * Gr e g 0%Z 1%Z)
      + (Gr e g 0%Z 0%Z * Gr e g 2%Z 2%Z - Gr e g 2%Z 0%Z * Gr e g 0%Z 2%Z) + (Gr e g 1%Z 1%Z * Gr e g 2%Z 2%Z - Gr e g 2%Z 1%Z * Gr e g 1%Z 2%Z)))).
  { apply rsum_le. intros e _. apply rsum_le. intros g _. rewrite zr3. cbn [rsum]. unfold kn. rewrite !str3_grad by lia. cbn [Z.eqb Pos.eqb]. cbv zeta.
    fold (Gr e g 0%Z 0%Z) (Gr e g 0%Z 1%Z) (Gr e g 0%Z 2%Z) (Gr e g 1%Z 0%Z) (Gr e g 1%Z 1%Z) (Gr e g 1%Z 2%Z) (Gr e g 2%Z 0%Z) (Gr e g 2%Z 1%Z) (Gr e g 2%Z 2%Z).
    generalize (Gr e g 0%Z 0%Z) (Gr e g 0%Z 1%Z) (Gr e g 0%Z 2%Z) (Gr e g 1%Z 0%Z) (Gr e g 1%Z 1%Z) (Gr e g 1%Z 2%Z) (Gr e g 2%Z 0%Z) (Gr e g 2%Z 1%Z) (Gr e g 2%Z 2%Z).
    intros a b c d f h k l m. pose proof (Rle_0_sqr (a + f + m)) as T. unfold Rsqr in T.
    pose proof (Rle_0_sqr a). pose proof (Rle_0_sqr f). pose proof (Rle_0_sqr m). pose proof (Rle_0_sqr d). pose proof (Rle_0_sqr k). pose proof (Rle_0_sqr h). pose proof (Rle_0_sqr l). unfold Rsqr in *. lra. }
  eapply Rle_trans; [exact L|]. clear L.
  rewrite (rsum_ext _ _ (fun e => rsum (zrange 0 8) (fun g => kn (str3 V w e g)) + 2 * (rsum (zrange 0 8) (fun g => Gr e g 0%Z 0%Z * Gr e g 1%Z 1%Z - Gr e g 1%Z 0%Z * Gr e g 0%Z 1%Z)
      + rsum (zrange 0 8) (fun g => Gr e g 0%Z 0%Z * Gr e g 2%Z 2%Z - Gr e g 2%Z 0%Z * Gr e g 0%Z 2%Z) + rsum (zrange 0 8) (fun g => Gr e g 1%Z 1%Z * Gr e g 2%Z 2%Z - Gr e g 2%Z 1%Z * Gr e g 1%Z 2%Z))))
    by (intros e _; rewrite rsum_plus, rsum_scal, !rsum_plus; reflexivity).
  rewrite rsum_plus, rsum_scal, !rsum_plus. unfold Gr. rewrite N1, N2, N3. lra.
Qed.

Lemma dof_nodes w : rsum (zrange 0 (ndofs V)) (fun r => w r * w r) = rsum (zrange 0 3) (fun c => nodes (fun i j k => cmp3 V w c i j k * cmp3 V w c i j k)).
Proof.
  rewrite (ndofs3 V D), rsum_zrange_prod by nia. rewrite rsum_swap. apply rsum_ext. intros c _.
  replace (nx * ny * nz)%Z with (nz * ny * nx)%Z by ring. rewrite rsum_zrange_prod by nia. rewrite (rsum_zrange_prod nz ny) by lia.
  apply rsum_ext. intros k _. apply rsum_ext. intros j _. apply rsum_ext. intros i _. unfold cmp3, node.
  replace (i + nx * (j + ny * k))%Z with ((k * ny + j) * nx + i)%Z by ring. reflexivity.
Qed.
Lemma korn_poincare w : van V w -> rsum (zrange 0 (ndofs V)) (fun r => w r * w r) <= 5 / 8 * (v_lx V * v_lx V) * gsum (fun e g => kn (str3 V w e g)).
Proof.
  intros W. rewrite dof_nodes. assert (P : 0 <= 5 / 8 * (v_lx V * v_lx V)) by (pose proof (Rle_0_sqr (v_lx V)) as Q; unfold Rsqr in Q; lra).
  eapply Rle_trans; [|apply Rmult_le_compat_l; [exact P|apply (korn w W)]].
  rewrite (rsum_ext (els3 V) _ (fun e => rsum (zrange 0 3) (fun c => rsum (zrange 0 8) (fun g => dr 0%Z (cmp3 V w c) e g * dr 0%Z (cmp3 V w c) e g)))) by (intros; apply rsum_swap).
  rewrite (rsum_swap (els3 V) (zrange 0 3)), <- rsum_scal. apply rsum_le. intros c Hc. apply in_zrange in Hc. apply poincare. now apply van_zb.
Qed.

(** ** the energy of a linear body *)
Definition vcell : R := v_dx V * v_dy V * v_dz V.
Definition low (m : R) : Prop := forall e, In e (els3 V) -> let a := mat_at V (ix3 V e) in m <= 2 * m_mu a /\ m <= 3 * (m_lambda a + 2 * m_mu a / 3).
Lemma quad_low la mu m e : 0 <= m -> m <= 2 * mu -> m <= 3 * (la + 2 * mu / 3) -> m / 2 * kn e <= quad 6 (ctan3 la mu) e.
Proof.
  intros Hm H1 H2. rewrite quad3. unfold kn.
  set (t := e 0%Z + e 1%Z + e 2%Z). set (a := e 0%Z - e 1%Z). set (b := e 1%Z - e 2%Z). set (c := e 0%Z - e 2%Z).
  replace (2 * (e 0%Z * e 0%Z + e 1%Z * e 1%Z + e 2%Z * e 2%Z)) with (2 / 3 * (t * t) + 2 / 3 * (a * a + b * b + c * c)) by (unfold t, a, b, c; field).
  assert (A1 : m / 3 * (t * t) <= (la + 2 * mu / 3) * (t * t)) by (apply Rmult_le_compat_r; [apply Rle_0_sqr|lra]).
  assert (A2 : m / 3 * (a * a + b * b + c * c) <= 2 * mu / 3 * (a * a + b * b + c * c)).
  { apply Rmult_le_compat_r; [|lra]. pose proof (Rle_0_sqr a). pose proof (Rle_0_sqr b). pose proof (Rle_0_sqr c). unfold Rsqr in *. lra. }
  assert (A3 : m / 2 * (e 3%Z * e 3%Z + e 4%Z * e 4%Z + e 5%Z * e 5%Z) <= mu * (e 3%Z * e 3%Z + e 4%Z * e 4%Z + e 5%Z * e 5%Z)).
  { apply Rmult_le_compat_r; [|lra]. pose proof (Rle_0_sqr (e 3%Z)). pose proof (Rle_0_sqr (e 4%Z)). pose proof (Rle_0_sqr (e 5%Z)). unfold Rsqr in *. lra. }
  lra.
Qed.
Lemma quad_up la mu m e : 2 * mu <= m -> 3 * (la + 2 * mu / 3) <= m -> quad 6 (ctan3 la mu) e <= m / 2 * kn e.
Proof.
  intros H1 H2. rewrite quad3. unfold kn.
  set (t := e 0%Z + e 1%Z + e 2%Z). set (a := e 0%Z - e 1%Z). set (b := e 1%Z - e 2%Z). set (c := e 0%Z - e 2%Z).
  replace (2 * (e 0%Z * e 0%Z + e 1%Z * e 1%Z + e 2%Z * e 2%Z)) with (2 / 3 * (t * t) + 2 / 3 * (a * a + b * b + c * c)) by (unfold t, a, b, c; field).
  assert (A1 : (la + 2 * mu / 3) * (t * t) <= m / 3 * (t * t)) by (apply Rmult_le_compat_r; [apply Rle_0_sqr|lra]).
  assert (A2 : 2 * mu / 3 * (a * a + b * b + c * c) <= m / 3 * (a * a + b * b + c * c)).
  { apply Rmult_le_compat_r; [|lra]. pose proof (Rle_0_sqr a). pose proof (Rle_0_sqr b). pose proof (Rle_0_sqr c). unfold Rsqr in *. lra. }
  assert (A3 : mu * (e 3%Z * e 3%Z + e 4%Z * e 4%Z + e 5%Z * e 5%Z) <= m / 2 * (e 3%Z * e 3%Z + e 4%Z * e 4%Z + e 5%Z * e 5%Z)).
  { apply Rmult_le_compat_r; [|lra]. pose proof (Rle_0_sqr (e 3%Z)). pose proof (Rle_0_sqr (e 4%Z)). pose proof (Rle_0_sqr (e 5%Z)). unfold Rsqr in *. lra. }
  lra.
Qed.
Lemma work_quad w : work3 V (lsig3 V w) w = rsum (els3 V) (fun e => rsum (zrange 0 8) (fun g =>
  quad 6 (ctan3 (m_lambda (mat_at V (ix3 V e))) (m_mu (mat_at V (ix3 V e)))) (str3 V w e g))) * (vcell / 8).
Proof.
  unfold work3, mwork. rewrite <- rsum_scal_r. apply rsum_ext. intros e _. rewrite <- rsum_scal_r. apply rsum_ext. intros g _.
  unfold quad. rewrite <- rsum_scal_r. apply rsum_ext. intros v _. unfold lsig3, str3. rewrite wg3_R. unfold vcell. field.
Qed.
Lemma vcell_pos : 0 < vcell. Proof. unfold vcell. apply Rmult_lt_0_compat; [apply Rmult_lt_0_compat|]; assumption. Qed.
Theorem work_low m w : 0 <= m -> low m -> van V w ->
  m * vcell * rsum (zrange 0 (ndofs V)) (fun r => w r * w r) <= 10 * (v_lx V * v_lx V) * work3 V (lsig3 V w) w.
Proof.
  intros Hm Lo W. rewrite work_quad. pose proof vcell_pos as Pv.
  set (K := rsum (els3 V) (fun e => rsum (zrange 0 8) (fun g => kn (str3 V w e g)))).
  assert (A : m / 2 * K <= rsum (els3 V) (fun e => rsum (zrange 0 8) (fun g => quad 6 (ctan3 (m_lambda (mat_at V (ix3 V e))) (m_mu (mat_at V (ix3 V e)))) (str3 V w e g)))).
  { unfold K. rewrite <- rsum_scal. apply rsum_le. intros e He. rewrite <- rsum_scal. apply rsum_le. intros g _.
    destruct (Lo e He). now apply quad_low. }
  pose proof (korn_poincare w W) as P. fold K in P. pose proof (Rle_0_sqr (v_lx V)) as Q. unfold Rsqr in Q.
  apply Rle_trans with (m * vcell * (5 / 8 * (v_lx V * v_lx V) * K)).
  - apply Rmult_le_compat_l; [apply Rmult_le_pos; lra|exact P].
  - replace (m * vcell * (5 / 8 * (v_lx V * v_lx V) * K)) with (10 * (v_lx V * v_lx V) * (m / 2 * K * (vcell / 8))) by field.
    apply Rmult_le_compat_l; [lra|]. apply Rmult_le_compat_r; [lra|exact A].
Qed.
End Three.
