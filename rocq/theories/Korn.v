(** A discrete Korn and Poincare inequality for the cells of the code: fields that vanish on the
    boundary are bounded by their strains at the Gauss points. *)
From Coq Require Import Reals Lra ZifyBool.
From Verif Require Import Base Scalar EllSpec EllInit Grid EllModel EllAsm AssemblyModel AsmPure AsmBnd AsmRun AsmMat FemGen FemAve FemMat FemMat2 FemDef FemPd MonoBody.
Open Scope Z_scope.
Open Scope R_scope.

Lemma sq_pos x : 0 <= x * x.
Proof. apply Rle_0_sqr. Qed.

(** ** One line of nodes *)
Lemma line_point (f : Z -> R) n : f 0%Z = 0 -> (0 <= n)%Z ->
  f n * f n <= IZR n * rsum (zrange 0 n) (fun i => (f (i + 1)%Z - f i) * (f (i + 1)%Z - f i)).
Proof.
  intros F0 Hn. pattern n. apply natlike_ind; [|intros m Hm IH|exact Hn].
  - rewrite F0. change (zrange 0 0) with (@nil Z). cbn [rsum]. lra.
  - rewrite <- Z.add_1_r, rsum_zrange_snoc by lia. set (D := rsum (zrange 0 m) _) in *. set (d := f (m + 1)%Z - f m).
    assert (D0 : 0 <= D) by (apply rsum_nonneg; intros; apply sq_pos).
    replace (f (m + 1)%Z) with (f m + d) by (unfold d; ring). rewrite plus_IZR.
    destruct (Z.eq_dec m 0) as [->|N].
    + rewrite F0. nra.
    + assert (M : 1 <= IZR m) by (apply IZR_le; lia). set (M' := IZR m) in *.
      assert (X : 0 <= (f m - M' * d) * (f m - M' * d)) by apply sq_pos.
      assert (Y : M' * (2 * f m * d) <= f m * f m + M' * M' * (d * d)) by nra.
      assert (Z1 : M' * ((f m + d) * (f m + d)) <= M' * ((M' + 1) * (D + d * d))).
      { replace (M' * ((f m + d) * (f m + d))) with (M' * (f m * f m) + M' * (2 * f m * d) + M' * (d * d)) by ring.
        assert (A : (M' + 1) * (f m * f m) <= (M' + 1) * (M' * D)) by (apply Rmult_le_compat_l; lra). nra. }
      apply Rmult_le_reg_l with M'; lra.
Qed.
Lemma tri_sum n : (0 <= n)%Z -> rsum (zrange 0 n) IZR = IZR n * (IZR n - 1) / 2.
Proof.
  intros Hn. pattern n. apply natlike_ind; [|intros m Hm IH|exact Hn].
  - change (zrange 0 0) with (@nil Z). cbn [rsum]. lra.
  - rewrite <- Z.add_1_r, rsum_zrange_snoc, IH, plus_IZR by lia. field.
Qed.
(** n intervals, zero at both ends *)
Lemma line_sum (f : Z -> R) n : f 0%Z = 0 -> f n = 0 -> (0 <= n)%Z ->
  rsum (zrange 0 (n + 1)) (fun i => f i * f i) <= IZR n * IZR n / 2 * rsum (zrange 0 n) (fun i => (f (i + 1)%Z - f i) * (f (i + 1)%Z - f i)).
Proof.
  intros F0 Fn Hn. rewrite rsum_zrange_snoc, Fn by exact Hn. set (D := rsum (zrange 0 n) (fun i => (f (i + 1)%Z - f i) * _)).
  assert (D0 : 0 <= D) by (apply rsum_nonneg; intros; apply sq_pos).
  assert (B : rsum (zrange 0 n) (fun i => f i * f i) <= rsum (zrange 0 n) (fun i => IZR i * D)).
  { apply rsum_le. intros i Hi. apply in_zrange in Hi. pose proof (line_point f i F0 ltac:(lia)) as L.
    apply (Rle_trans _ _ _ L). apply Rmult_le_compat_l; [apply IZR_le; lia|]. unfold D.
    rewrite (zrange_app 0 i n) by lia.
    rewrite rsum_app. assert (0 <= rsum (zrange i n) (fun i => (f (i + 1)%Z - f i) * (f (i + 1)%Z - f i))) by (apply rsum_nonneg; intros; apply sq_pos). lra. }
  rewrite rsum_scal_r, tri_sum in B by exact Hn. assert (0 <= IZR n) by (apply IZR_le; lia). nra.
Qed.
(** sums over the cells of a line against sums over its nodes *)
Lemma shift_sum (h : Z -> R) n : (1 <= n)%Z -> h 0%Z = 0 -> h (n - 1)%Z = 0 ->
  rsum (zrange 0 (n - 1)) h = rsum (zrange 0 n) h /\ rsum (zrange 0 (n - 1)) (fun i => h (i + 1)%Z) = rsum (zrange 0 n) h.
Proof.
  intros Hn H0 H1. replace n with (n - 1 + 1)%Z at 2 4 by lia. rewrite rsum_zrange_snoc, H1 by lia. split; [lra|].
  pose proof (rsum_telescope (n - 1) h ltac:(lia)) as T. rewrite rsum_minus in T. lra.
Qed.

(** ** One cell *)
Lemma bil_low p a b c d : 0 <= p * p <= 1 ->
  let A s t := (1 - s) * (1 - t) * a + (1 + s) * (1 - t) * b + (1 - s) * (1 + t) * c + (1 + s) * (1 + t) * d in
  16 * (p * p) * (p * p) * (a * a + b * b + c * c + d * d) <= A (- p) (- p) * A (- p) (- p) + A p (- p) * A p (- p) + A (- p) p * A (- p) p + A p p * A p p.
Proof.
  intros Hp A. set (q := p * p) in *.
  set (s0 := a + b + c + d). set (s1 := b + d - a - c). set (s2 := c + d - a - b). set (s3 := a + d - b - c).
  replace (A (- p) (- p) * A (- p) (- p) + A p (- p) * A p (- p) + A (- p) p * A (- p) p + A p p * A p p)
    with (4 * (s0 * s0 + q * (s1 * s1) + q * (s2 * s2) + q * q * (s3 * s3))) by (unfold A, s0, s1, s2, s3, q; ring).
  replace (16 * q * q * (a * a + b * b + c * c + d * d)) with (4 * (q * q * (s0 * s0) + q * q * (s1 * s1) + q * q * (s2 * s2) + q * q * (s3 * s3))) by (unfold s0, s1, s2, s3; field).
  assert (Q1 : q * q <= q) by nra. assert (Q2 : q * q <= 1) by nra.
  pose proof (Rmult_le_compat_r (s0 * s0) _ _ (sq_pos s0) Q2). pose proof (Rmult_le_compat_r (s1 * s1) _ _ (sq_pos s1) Q1). pose proof (Rmult_le_compat_r (s2 * s2) _ _ (sq_pos s2) Q1). lra.
Qed.
Lemma gpt_bounds : 33 / 100 <= (gpt : R) * gpt <= 1.
Proof. unfold gpt, dec. cbn [odiv ofZ ROps]. change (10 ^ 15)%Z with 1000000000000000%Z. split; lra. Qed.

(** the part of a product of derivatives that a sum over the cells does not see *)
Section Cell.
Variables dx dy dz : R.
Hypotheses (Hx : dx <> 0) (Hy : dy <> 0) (Hz : dz <> 0).
Notation G c g f := (grad3 (xg g 0) (xg g 1) (xg g 2) dx dy dz c f).
Definition lev (s : R) (f : Z -> R) (m n : Z) : R := (1 - s) * f m + (1 + s) * f n.
Definition lcr (f h : Z -> R) (s : R) (m n m' n' : Z) : R := lev s f m n * lev s h m' n' - lev s f m' n' * lev s h m n.
(** both levels *)
Definition edge (f h : Z -> R) (m n m' n' : Z) : R := lcr f h (- gpt) m n m' n' + lcr f h gpt m n m' n'.
Ltac crunch := rewrite zr8; cbn [rsum]; unfold grad3; rewrite zr8; cbn [rsum]; rewrite !xg_val; unfold edge, lcr, lev; generalize (gpt : R); intros p; unfold dsh3; cbn;
  repeat match goal with |- context [?f ?z] => match type of f with Z -> R => match z with Z0 => idtac | Zpos _ => idtac end; is_var f; generalize (f z); intro end end; field; auto.
Lemma cross01 f h : rsum (zrange 0 8) (fun g => G 0%Z g f * G 1%Z g h - G 1%Z g f * G 0%Z g h) =
  (edge f h 1 5 2 6 - edge f h 0 4 3 7 - (edge f h 3 7 2 6 - edge f h 0 4 1 5)) / (2 * dx * dy).
Proof. crunch. Qed.
Lemma cross02 f h : rsum (zrange 0 8) (fun g => G 0%Z g f * G 2%Z g h - G 2%Z g f * G 0%Z g h) =
  (edge f h 1 2 5 6 - edge f h 0 3 4 7 - (edge f h 4 7 5 6 - edge f h 0 3 1 2)) / (2 * dx * dz).
Proof. crunch. Qed.
Lemma cross12 f h : rsum (zrange 0 8) (fun g => G 1%Z g f * G 2%Z g h - G 2%Z g f * G 1%Z g h) =
  (edge f h 3 2 7 6 - edge f h 0 1 4 5 - (edge f h 4 5 7 6 - edge f h 0 1 3 2)) / (2 * dy * dz).
Proof. crunch. Qed.
(** the derivative along x against the differences along the x edges *)
Lemma along0 f : 8 / 10 * ((f 1%Z - f 0%Z) * (f 1%Z - f 0%Z) + (f 2%Z - f 3%Z) * (f 2%Z - f 3%Z) + (f 5%Z - f 4%Z) * (f 5%Z - f 4%Z) + (f 6%Z - f 7%Z) * (f 6%Z - f 7%Z))
  <= 4 * (dx * dx) * rsum (zrange 0 8) (fun g => G 0%Z g f * G 0%Z g f).
Proof.
  rewrite zr8. cbn [rsum].
  assert (F : forall x0 x1 x2, grad3 x0 x1 x2 dx dy dz 0 f = ((1 - x1) * (1 - x2) * (f 1%Z - f 0%Z) + (1 + x1) * (1 - x2) * (f 2%Z - f 3%Z)
   + (1 - x1) * (1 + x2) * (f 5%Z - f 4%Z) + (1 + x1) * (1 + x2) * (f 6%Z - f 7%Z)) / (4 * dx)).
  { intros. unfold grad3. rewrite zr8. cbn [rsum]. unfold dsh3. cbn. field. auto. }
  rewrite !F, !xg_val. clear F. cbn [Z.eqb Pos.eqb Z.ltb Z.compare Pos.compare Pos.compare_cont orb].
  set (p := (gpt : R)). pose proof gpt_bounds as Hp. fold p in Hp.
  pose proof (bil_low p (f 1%Z - f 0%Z) (f 2%Z - f 3%Z) (f 5%Z - f 4%Z) (f 6%Z - f 7%Z) ltac:(lra)) as B. cbv beta zeta in B.
  set (a := f 1%Z - f 0%Z) in *. set (b := f 2%Z - f 3%Z) in *. set (c := f 5%Z - f 4%Z) in *. set (d := f 6%Z - f 7%Z) in *. clearbody a b c d p.
  set (A1 := (1 - - p) * (1 - - p) * a + (1 + - p) * (1 - - p) * b + (1 - - p) * (1 + - p) * c + (1 + - p) * (1 + - p) * d) in *.
  set (A2 := (1 - p) * (1 - - p) * a + (1 + p) * (1 - - p) * b + (1 - p) * (1 + - p) * c + (1 + p) * (1 + - p) * d) in *.
  set (A3 := (1 - - p) * (1 - p) * a + (1 + - p) * (1 - p) * b + (1 - - p) * (1 + p) * c + (1 + - p) * (1 + p) * d) in *.
  set (A4 := (1 - p) * (1 - p) * a + (1 + p) * (1 - p) * b + (1 - p) * (1 + p) * c + (1 + p) * (1 + p) * d) in *.
  match goal with |- _ <= ?r => replace r with (1 / 2 * (A1 * A1 + A2 * A2 + A3 * A3 + A4 * A4)) by (field; exact Hx) end.
  clearbody A1 A2 A3 A4. assert (Q : 1 / 10 <= p * p * (p * p)) by nra.
  pose proof (Rmult_le_compat_r (a * a + b * b + c * c + d * d) _ _ ltac:(pose proof (sq_pos a); pose proof (sq_pos b); pose proof (sq_pos c); pose proof (sq_pos d); lra) Q). lra.
Qed.
End Cell.
