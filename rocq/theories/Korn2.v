(** The discrete Korn and Poincare inequality of a body, 2D. *)
From Coq Require Import Reals Lra ZifyBool.
From Verif Require Import Base Scalar EllSpec EllInit Grid EllModel EllAsm AssemblyModel AsmPure AsmBnd AsmRun AsmMat FemGen FemAve FemMat FemMat2 FemDef FemPd FemEquil MonoBody Korn.
Open Scope Z_scope.
Open Scope R_scope.

Section Cell.
Variables dx dy : R.
Hypotheses (Hx : dx <> 0) (Hy : dy <> 0).
Notation G c g f := (grad2 (xg g 0) (xg g 1) dx dy c f).
Definition crs (f h : Z -> R) (m n : Z) : R := f m * h n - f n * h m.
Lemma cross f h : rsum (zrange 0 4) (fun g => G 0%Z g f * G 1%Z g h - G 1%Z g f * G 0%Z g h) =
  2 * (crs f h 1 2 - crs f h 0 3 - (crs f h 3 2 - crs f h 0 1)) / (dx * dy).
Proof.
  rewrite zr4. cbn [rsum]. unfold grad2. rewrite zr4. cbn [rsum]. rewrite !xg_val. unfold crs. generalize (gpt : R). intros p. unfold dsh2. cbn.
  generalize (f 0%Z) (f 1%Z) (f 2%Z) (f 3%Z) (h 0%Z) (h 1%Z) (h 2%Z) (h 3%Z). intros. field. auto.
Qed.
Lemma along f : 66 / 100 * ((f 1%Z - f 0%Z) * (f 1%Z - f 0%Z) + (f 2%Z - f 3%Z) * (f 2%Z - f 3%Z)) <= dx * dx * rsum (zrange 0 4) (fun g => G 0%Z g f * G 0%Z g f).
Proof.
  rewrite zr4. cbn [rsum].
  assert (F : forall x0 x1, grad2 x0 x1 dx dy 0 f = ((1 - x1) * (f 1%Z - f 0%Z) + (1 + x1) * (f 2%Z - f 3%Z)) / (2 * dx)).
  { intros. unfold grad2. rewrite zr4. cbn [rsum]. unfold dsh2. cbn. field. auto. }
  rewrite !F, !xg_val. clear F. cbn [Z.eqb Pos.eqb Z.ltb Z.compare Pos.compare Pos.compare_cont orb].
  set (p := (gpt : R)). pose proof gpt_bounds as Hp. fold p in Hp.
  set (a := f 1%Z - f 0%Z) in *. set (b := f 2%Z - f 3%Z) in *. clearbody a b p.
  match goal with |- _ <= ?r => replace r with ((a * a + b * b) * (1 + p * p) + 2 * (a * b) * (1 - p * p)) by (field; exact Hx) end.
  pose proof (Rmult_le_compat_r (1 - p * p) _ _ ltac:(lra) (sq_pos (a + b))) as Q.
  pose proof (Rmult_le_compat_r (a * a + b * b) _ _ ltac:(pose proof (sq_pos a); pose proof (sq_pos b); lra) (proj1 Hp)). lra.
Qed.
End Cell.

Section Two.
Variable V : env R.
Hypotheses (S : sane V) (D : v_dim V = 2%Z) (G : geom V).
Let Px : 0 < v_dx V. Proof. apply (ge_px V G). Qed.
Let Py : 0 < v_dy V. Proof. apply (ge_py V G). Qed.
Notation nx := (v_nx V). Notation ny := (v_ny V).
Let Nx : (2 <= nx)%Z. Proof. apply (sa_nx V S). Qed.
Let Ny : (2 <= ny)%Z. Proof. apply (sa_ny V S). Qed.

Lemma tel20 (t : Z -> Z -> R) : (forall j, (0 <= j < ny - 1)%Z -> t 0%Z j = 0 /\ t (nx - 1)%Z j = 0) ->
  rsum (els2 V) (fun e => let '(ex, ey) := e in t (ex + 1)%Z ey - t ex ey) = 0.
Proof.
  intros H. rewrite rsum_els2, rsum_swap. apply rsum_zero. intros ey Hy. apply in_zrange in Hy.
  rewrite (rsum_telescope (nx - 1) (fun ex => t ex ey)) by lia. destruct (H ey Hy) as (-> & ->). ring.
Qed.
Lemma tel21 (t : Z -> Z -> R) : (forall i, (0 <= i < nx - 1)%Z -> t i 0%Z = 0 /\ t i (ny - 1)%Z = 0) ->
  rsum (els2 V) (fun e => let '(ex, ey) := e in t ex (ey + 1)%Z - t ex ey) = 0.
Proof.
  intros H. rewrite rsum_els2. apply rsum_zero. intros ex Hy. apply in_zrange in Hy.
  rewrite (rsum_telescope (ny - 1) (fun ey => t ex ey)) by lia. destruct (H ex Hy) as (-> & ->). ring.
Qed.
Definition zb2 (F : Z -> Z -> R) : Prop := forall i j, (0 <= i < nx)%Z -> (0 <= j < ny)%Z ->
  (i = 0 \/ i = nx - 1 \/ j = 0 \/ j = ny - 1)%Z -> F i j = 0.
Notation gsum f := (rsum (els2 V) (fun e => rsum (zrange 0 4) (fun g => f e g))).
Notation dr c F := (fun e g => gr2 V g c (at2 F e)).
Section Cross.
Variables F H : Z -> Z -> R.
Hypotheses (ZF : zb2 F) (ZH : zb2 H).
Definition ed2 (m n : Z) (i j : Z) : R := crs (at2 F (i, j)) (at2 H (i, j)) m n.
Lemma ed2_zero m n i j :
  (forall l, l = m -> let a := (i + cor_x l)%Z in let b := (j + cor_y l)%Z in (0 <= a < nx /\ 0 <= b < ny)%Z /\
    (a = 0 \/ a = nx - 1 \/ b = 0 \/ b = ny - 1)%Z) -> ed2 m n i j = 0.
Proof.
  intros L. destruct (L m eq_refl) as (A1 & A2). unfold ed2, crs, at2. rewrite (ZF (i + cor_x m)%Z), (ZH (i + cor_x m)%Z) by tauto. ring.
Qed.
Lemma null2 : gsum (fun e g => dr 0%Z F e g * dr 1%Z H e g - dr 1%Z F e g * dr 0%Z H e g) = 0.
Proof.
  rewrite (rsum_ext _ _ (fun e => 2 / (v_dx V * v_dy V) * ((let '(ex, ey) := e in ed2 0 3 (ex + 1) ey - ed2 0 3 ex ey) -
    (let '(ex, ey) := e in ed2 0 1 ex (ey + 1) - ed2 0 1 ex ey)))).
  - rewrite rsum_scal, rsum_minus, tel20, tel21; [ring|..].
    + intros i Hi. split; apply ed2_zero; intros l ->; cors; lia.
    + intros j Hj. split; apply ed2_zero; intros l ->; cors; lia.
  - intros (ex, ey) _. unfold gr2. rewrite cross by lra. unfold ed2, crs, at2. cors. rewrite ?Z.add_0_r. field. lra.
Qed.
End Cross.

Notation nodes f := (rsum (zrange 0 ny) (fun j => rsum (zrange 0 nx) (fun i => f i j))).
Lemma poincare2 F : zb2 F -> nodes (fun i j => F i j * F i j) <= 2 / 5 * (v_lx V * v_lx V) * gsum (fun e g => dr 0%Z F e g * dr 0%Z F e g).
Proof.
  intros ZF. set (q j := rsum (zrange 0 (nx - 1)) (fun i => (F (i + 1)%Z j - F i j) * (F (i + 1)%Z j - F i j))).
  set (n := IZR (nx - 1)).
  assert (A : nodes (fun i j => F i j * F i j) <= n * n / 2 * rsum (zrange 0 ny) q).
  { rewrite <- rsum_scal. apply rsum_le. intros j Hj. apply in_zrange in Hj.
    pose proof (line_sum (fun i => F i j) (nx - 1)) as L. cbv beta in L. rewrite Z.sub_add in L. apply L; [apply ZF; lia|apply ZF; lia|lia]. }
  assert (Q0 : forall j, (0 <= j < ny)%Z -> (j = 0 \/ j = ny - 1)%Z -> q j = 0).
  { intros j Hj B. unfold q. apply rsum_zero. intros i Hi. apply in_zrange in Hi. rewrite (ZF (i + 1)%Z j), (ZF i j) by lia. ring. }
  destruct (shift_sum q ny ltac:(lia) ltac:(apply Q0; lia) ltac:(apply Q0; lia)) as (B1 & B2).
  set (T := rsum (zrange 0 ny) q) in *.
  assert (B : 66 / 100 * (2 * T) <= v_dx V * v_dx V * gsum (fun e g => dr 0%Z F e g * dr 0%Z F e g)).
  { replace (2 * T) with (rsum (els2 V) (fun e => let f := at2 F e in (f 1%Z - f 0%Z) * (f 1%Z - f 0%Z) + (f 2%Z - f 3%Z) * (f 2%Z - f 3%Z))).
    - rewrite <- !rsum_scal. apply rsum_le. intros e He. apply along; lra.
    - rewrite rsum_els2. replace (2 * T) with (T + T) by ring. rewrite <- B1 at 1. rewrite <- B2. rewrite <- rsum_plus, rsum_swap. apply rsum_ext. intros j _.
      unfold q. rewrite <- rsum_plus. apply rsum_ext. intros i _. unfold at2. cors. rewrite ?Z.add_0_r. ring. }
  assert (E : v_lx V = n * v_dx V) by (unfold n; apply (ge_x V G)).
  rewrite E. assert (N0 : 0 <= n * n) by (apply Rle_0_sqr).
  set (X := gsum (fun e g => dr 0%Z F e g * dr 0%Z F e g)) in *.
  assert (T0 : 0 <= T) by (apply rsum_nonneg; intros; apply rsum_nonneg; intros; apply Rle_0_sqr).
  assert (n * n * T <= n * n * (4 / 5 * (v_dx V * v_dx V) * X)) by (apply Rmult_le_compat_l; lra). lra.
Qed.

(** ** Korn *)
Lemma van_zb2 w c : van V w -> (0 <= c < 2)%Z -> zb2 (cmp2 V w c).
Proof.
  intros W Hc i j Hi Hj B. unfold cmp2. assert (Q : bdof V (node nx ny i j 0 * 2 + c)) by (apply (bdof2_node V D); [assumption..|unfold bnd2, on_bnd; lia]).
  apply W; [|exact Q]. rewrite (ndofs2 V S D). pose proof (node_range nx ny 1 i j 0 Hi Hj ltac:(lia)). lia.
Qed.
Definition kn2 (e : Z -> R) : R := 2 * (e 0%Z * e 0%Z + e 1%Z * e 1%Z) + e 2%Z * e 2%Z.
Lemma korn2 w : van V w ->
  gsum (fun e g => rsum (zrange 0 2) (fun c => dr 0%Z (cmp2 V w c) e g * dr 0%Z (cmp2 V w c) e g)) <= gsum (fun e g => kn2 (str2 V w e g)).
Proof.
  intros W. set (Gr := fun (e : Z * Z) (g c d : Z) => gr2 V g c (at2 (cmp2 V w d) e)).
  pose proof (null2 (cmp2 V w 0) (cmp2 V w 1) (van_zb2 w 0 W ltac:(lia)) (van_zb2 w 1 W ltac:(lia))) as N1.
  assert (L : gsum (fun e g => rsum (zrange 0 2) (fun c => dr 0%Z (cmp2 V w c) e g * dr 0%Z (cmp2 V w c) e g)) <=
    gsum (fun e g => kn2 (str2 V w e g) + 2 * (Gr e g 0%Z 0%Z * Gr e g 1%Z 1%Z - Gr e g 1%Z 0%Z * Gr e g 0%Z 1%Z))).
  { apply rsum_le. intros e _. apply rsum_le. intros g _. change (zrange 0 2) with [0%Z; 1%Z]. cbn [rsum]. unfold kn2. rewrite !str2_grad by lia. cbn [Z.eqb Pos.eqb]. cbv zeta.
    fold (Gr e g 0%Z 0%Z) (Gr e g 0%Z 1%Z) (Gr e g 1%Z 0%Z) (Gr e g 1%Z 1%Z).
    generalize (Gr e g 0%Z 0%Z) (Gr e g 0%Z 1%Z) (Gr e g 1%Z 0%Z) (Gr e g 1%Z 1%Z).
    intros a b d f. pose proof (Rle_0_sqr (a + f)) as T. unfold Rsqr in T.
    pose proof (Rle_0_sqr a). pose proof (Rle_0_sqr f). pose proof (Rle_0_sqr d). unfold Rsqr in *. lra. }
  eapply Rle_trans; [exact L|]. clear L.
  rewrite (rsum_ext _ _ (fun e => rsum (zrange 0 4) (fun g => kn2 (str2 V w e g)) + 2 * rsum (zrange 0 4) (fun g => Gr e g 0%Z 0%Z * Gr e g 1%Z 1%Z - Gr e g 1%Z 0%Z * Gr e g 0%Z 1%Z)))
    by (intros e _; rewrite rsum_plus, rsum_scal; reflexivity).
  rewrite rsum_plus, rsum_scal. unfold Gr. rewrite N1. lra.
Qed.
Lemma dof_nodes2 w : rsum (zrange 0 (ndofs V)) (fun r => w r * w r) = rsum (zrange 0 2) (fun c => nodes (fun i j => cmp2 V w c i j * cmp2 V w c i j)).
Proof.
  rewrite (ndofs2 V S D), rsum_zrange_prod by nia. rewrite rsum_swap. apply rsum_ext. intros c _.
  replace (nx * ny)%Z with (ny * nx)%Z by ring. rewrite rsum_zrange_prod by lia.
  apply rsum_ext. intros j _. apply rsum_ext. intros i _. unfold cmp2, node.
  replace (i + nx * (j + ny * 0))%Z with (j * nx + i)%Z by ring. reflexivity.
Qed.
Lemma korn_poincare2 w : van V w -> rsum (zrange 0 (ndofs V)) (fun r => w r * w r) <= 2 / 5 * (v_lx V * v_lx V) * gsum (fun e g => kn2 (str2 V w e g)).
Proof.
  intros W. rewrite dof_nodes2. assert (P : 0 <= 2 / 5 * (v_lx V * v_lx V)) by (pose proof (Rle_0_sqr (v_lx V)) as Q; unfold Rsqr in Q; lra).
  eapply Rle_trans; [|apply Rmult_le_compat_l; [exact P|apply (korn2 w W)]].
  rewrite (rsum_ext (els2 V) _ (fun e => rsum (zrange 0 2) (fun c => rsum (zrange 0 4) (fun g => dr 0%Z (cmp2 V w c) e g * dr 0%Z (cmp2 V w c) e g)))) by (intros; apply rsum_swap).
  rewrite (rsum_swap (els2 V) (zrange 0 2)), <- rsum_scal. apply rsum_le. intros c Hc. apply in_zrange in Hc. apply poincare2. now apply van_zb2.
Qed.

(** ** the energy *)
Definition acell : R := v_dx V * v_dy V.
Definition low2 (m : R) : Prop := forall e, In e (els2 V) -> let a := mat_at V (ix2 V e) in m <= 2 * m_mu a /\ m <= 2 * (m_lambda a + m_mu a).
Lemma quad_kn2 a e : admissible a -> quad 3 (ctan2 (m_E a) (m_nu a)) e =
  (m_lambda a + m_mu a) * ((e 0%Z + e 1%Z) * (e 0%Z + e 1%Z)) + m_mu a * ((e 0%Z - e 1%Z) * (e 0%Z - e 1%Z)) + m_mu a * (e 2%Z * e 2%Z).
Proof. intros A. destruct A. rewrite quad2 by lra. rewrite ad_mu, ad_la. field. lra. Qed.
Lemma quad_low2 a m e : admissible a -> 0 <= m -> m <= 2 * m_mu a -> m <= 2 * (m_lambda a + m_mu a) -> m / 2 * kn2 e <= quad 3 (ctan2 (m_E a) (m_nu a)) e.
Proof.
  intros A Hm H1 H2. rewrite (quad_kn2 a e A). unfold kn2. set (t := e 0%Z + e 1%Z). set (d := e 0%Z - e 1%Z).
  replace (2 * (e 0%Z * e 0%Z + e 1%Z * e 1%Z)) with (t * t + d * d) by (unfold t, d; ring).
  assert (A1 : m / 2 * (t * t) <= (m_lambda a + m_mu a) * (t * t)) by (apply Rmult_le_compat_r; [apply Rle_0_sqr|lra]).
  assert (A2 : m / 2 * (d * d) <= m_mu a * (d * d)) by (apply Rmult_le_compat_r; [apply Rle_0_sqr|lra]).
  assert (A3 : m / 2 * (e 2%Z * e 2%Z) <= m_mu a * (e 2%Z * e 2%Z)) by (apply Rmult_le_compat_r; [apply Rle_0_sqr|lra]).
  lra.
Qed.
Lemma quad_up2 a m e : admissible a -> 2 * m_mu a <= m -> 2 * (m_lambda a + m_mu a) <= m -> quad 3 (ctan2 (m_E a) (m_nu a)) e <= m / 2 * kn2 e.
Proof.
  intros A H1 H2. rewrite (quad_kn2 a e A). unfold kn2. set (t := e 0%Z + e 1%Z). set (d := e 0%Z - e 1%Z).
  replace (2 * (e 0%Z * e 0%Z + e 1%Z * e 1%Z)) with (t * t + d * d) by (unfold t, d; ring).
  assert (A1 : (m_lambda a + m_mu a) * (t * t) <= m / 2 * (t * t)) by (apply Rmult_le_compat_r; [apply Rle_0_sqr|lra]).
  assert (A2 : m_mu a * (d * d) <= m / 2 * (d * d)) by (apply Rmult_le_compat_r; [apply Rle_0_sqr|lra]).
  assert (A3 : m_mu a * (e 2%Z * e 2%Z) <= m / 2 * (e 2%Z * e 2%Z)) by (apply Rmult_le_compat_r; [apply Rle_0_sqr|lra]).
  lra.
Qed.
Lemma work_quad2 w : work2 V (tsig2 V w) w = rsum (els2 V) (fun e => rsum (zrange 0 4) (fun g =>
  quad 3 (ctan2 (m_E (mat_at V (ix2 V e))) (m_nu (mat_at V (ix2 V e)))) (str2 V w e g))) * (acell / 4).
Proof.
  unfold work2, mwork. rewrite <- rsum_scal_r. apply rsum_ext. intros e _. rewrite <- rsum_scal_r. apply rsum_ext. intros g _.
  unfold quad. rewrite <- rsum_scal_r. apply rsum_ext. intros v _. unfold tsig2, tan2, str2. rewrite wg2_R. unfold acell. field.
Qed.
Lemma acell_pos : 0 < acell. Proof. unfold acell. apply Rmult_lt_0_compat; assumption. Qed.
Theorem work_low2 m w : adm V -> 0 <= m -> low2 m -> van V w ->
  m * acell * rsum (zrange 0 (ndofs V)) (fun r => w r * w r) <= 4 * (v_lx V * v_lx V) * work2 V (tsig2 V w) w.
Proof.
  intros A0 Hm Lo W. rewrite work_quad2. pose proof acell_pos as Pv.
  set (K := rsum (els2 V) (fun e => rsum (zrange 0 4) (fun g => kn2 (str2 V w e g)))).
  assert (A : m / 2 * K <= rsum (els2 V) (fun e => rsum (zrange 0 4) (fun g => quad 3 (ctan2 (m_E (mat_at V (ix2 V e))) (m_nu (mat_at V (ix2 V e)))) (str2 V w e g)))).
  { unfold K. rewrite <- rsum_scal. apply rsum_le. intros e He. rewrite <- rsum_scal. apply rsum_le. intros g _.
    destruct (Lo e He). apply quad_low2; try assumption. apply A0. now apply ix2_range. }
  pose proof (korn_poincare2 w W) as P. fold K in P. pose proof (Rle_0_sqr (v_lx V)) as Q. unfold Rsqr in Q.
  assert (K0 : 0 <= K). { apply rsum_nonneg. intros. apply rsum_nonneg. intros. unfold kn2. pose proof (sq_pos (str2 V w x x0 0%Z)). pose proof (sq_pos (str2 V w x x0 1%Z)). pose proof (sq_pos (str2 V w x x0 2%Z)). lra. }
  apply Rle_trans with (m * acell * (2 / 5 * (v_lx V * v_lx V) * K)).
  - apply Rmult_le_compat_l; [apply Rmult_le_pos; lra|exact P].
  - apply Rle_trans with (4 * (v_lx V * v_lx V) * (m / 2 * K * (acell / 4))).
    + replace (4 * (v_lx V * v_lx V) * (m / 2 * K * (acell / 4))) with (1 / 2 * (m * acell * ((v_lx V * v_lx V) * K))) by field.
      pose proof (Rmult_le_pos _ _ (Rmult_le_pos _ _ Hm (Rlt_le _ _ Pv)) (Rmult_le_pos _ _ Q K0)). lra.
    + apply Rmult_le_compat_l; [lra|]. apply Rmult_le_compat_r; [lra|exact A].
Qed.
End Two.
