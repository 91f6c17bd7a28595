(** Energy of element matrices and of the assembled stiffness: symmetry,
    definiteness and rigid motions. *)
From Coq Require Import Reals Lra ZifyBool.
From Verif Require Import Base Scalar EllSpec EllInit Grid EllModel EllAsm EllOp EllFinal
  CgPure CgTheory CgFinal CgProps AssemblyModel AsmPure AsmBnd AsmRun AsmMat FemGen FemAve FemMat FemMat2.
Open Scope Z_scope.
Open Scope R_scope.

Lemma rsum_all0 {A} (l : list A) f : (forall a, In a l -> 0 <= f a) -> rsum l f = 0 -> forall a, In a l -> f a = 0.
Proof.
  intros P E a Ha. apply Rle_antisym; [|now apply P].
  induction l as [|b l IH]; [easy|]. cbn [rsum] in E.
  assert (0 <= rsum l f) by (apply rsum_nonneg; intros; apply P; now right).
  assert (0 <= f b) by (apply P; now left).
  destruct Ha as [->|Ha]; [lra|]. apply IH; try assumption; [intros; apply P; now right|lra].
Qed.

(** ** Energies on a mesh *)
Section Mesh.
Context {E : Type}.
Variables (els : list E) (nd nv : Z) (gs : list Z) (addr : E -> Z -> Z) (B : Z -> Z -> Z -> R) (wg : R).
Variable C : E -> Z -> Z -> Z -> R.
Let eps := mstrain nd addr B.
Let sig (w : Z -> R) (e : E) (g m : Z) : R := rsum (zrange 0 nv) (fun k => C e g m k * eps w e g k).
Let work := mwork els nd nv gs addr B wg.

Lemma work_sym v w : (forall e g m k, C e g m k = C e g k m) -> work (sig w) v = work (sig v) w.
Proof.
  intros Sy. unfold work, mwork. apply rsum_ext. intros e _. apply rsum_ext. intros g _.
  fold eps. unfold sig.
  assert (X : forall w v, rsum (zrange 0 nv) (fun m => rsum (zrange 0 nv) (fun k => C e g m k * eps w e g k) * eps v e g m * wg)
    = rsum (zrange 0 nv) (fun m => rsum (zrange 0 nv) (fun k => C e g m k * eps w e g k * eps v e g m * wg))).
  { intros w' v'. apply rsum_ext. intros m _. rewrite <- !rsum_scal_r. apply rsum_ext. intros k _. ring. }
  rewrite !X, rsum_swap. apply rsum_ext. intros k _. apply rsum_ext. intros m _. rewrite (Sy e g m k). ring.
Qed.

Lemma work_quad w : work (sig w) w = rsum els (fun e => rsum gs (fun g => quad nv (C e g) (eps w e g) * wg)).
Proof.
  unfold work, mwork. apply rsum_ext. intros e _. apply rsum_ext. intros g _. unfold quad.
  rewrite <- rsum_scal_r. apply rsum_ext. intros m _. reflexivity.
Qed.

Hypothesis Hw : 0 < wg.
Hypothesis Hq : forall e g x, In e els -> In g gs ->
  0 <= quad nv (C e g) x /\ (quad nv (C e g) x = 0 -> forall v, (0 <= v < nv)%Z -> x v = 0).

Lemma work_nonneg w : 0 <= work (sig w) w.
Proof.
  rewrite work_quad. apply rsum_nonneg. intros e He. apply rsum_nonneg. intros g Hg.
  apply Rmult_le_pos; [now apply Hq|lra].
Qed.
Lemma work_zero w : work (sig w) w = 0 ->
  forall e g v, In e els -> In g gs -> (0 <= v < nv)%Z -> eps w e g v = 0.
Proof.
  rewrite work_quad. intros Z0 e g v He Hg Hv.
  assert (P : forall e, In e els -> 0 <= rsum gs (fun g => quad nv (C e g) (eps w e g) * wg)).
  { intros e' He'. apply rsum_nonneg. intros g' Hg'. apply Rmult_le_pos; [now apply Hq|lra]. }
  pose proof (rsum_all0 els _ P Z0 e He) as Ze. cbv beta in Ze.
  assert (Zg := rsum_all0 gs (fun g => quad nv (C e g) (eps w e g) * wg)
    ltac:(intros g' Hg'; apply Rmult_le_pos; [now apply Hq|lra]) Ze g Hg). cbv beta in Zg.
  apply Rmult_integral in Zg. destruct Zg as [Zg|Zg]; [|lra].
  destruct (Hq e g (eps w e g) He Hg) as (_ & D). now apply D.
Qed.
End Mesh.

(** ** Fields without strain *)
Lemma gpt_pos : 0 < (gpt : R).
Proof.
  unfold gpt, dec. cbn [odiv ofZ ROps]. apply Rdiv_lt_0_compat; apply IZR_lt; reflexivity.
Qed.

Lemma bil4 p a b c d : p <> 0 ->
  let A s t := (1 - s) * (1 - t) * a + (1 + s) * (1 - t) * b + (1 - s) * (1 + t) * c + (1 + s) * (1 + t) * d in
  A (- p) (- p) = 0 -> A p (- p) = 0 -> A (- p) p = 0 -> A p p = 0 -> a = 0 /\ b = 0 /\ c = 0 /\ d = 0.
Proof.
  intros Hp A. unfold A. intros E1 E2 E3 E4.
  assert (S0 : a + b + c + d = 0) by lra.
  assert (S1 : p * (b + d - a - c) = 0) by lra.
  assert (S2 : p * (c + d - a - b) = 0) by lra.
  assert (S3 : (p * p) * (a + d - b - c) = 0) by lra.
  apply Rmult_integral in S1, S2, S3.
  assert (p * p <> 0) by now apply Rmult_integral_contrapositive.
  destruct S1 as [S1|S1]; [easy|]. destruct S2 as [S2|S2]; [easy|]. destruct S3 as [S3|S3]; [easy|]. repeat split; lra.
Qed.
Lemma lin2 p a b : p <> 0 -> (1 - - p) * a + (1 + - p) * b = 0 -> (1 - p) * a + (1 + p) * b = 0 -> a = 0 /\ b = 0.
Proof.
  intros Hp E1 E2. assert (S0 : a + b = 0) by lra. assert (S1 : p * (b - a) = 0) by lra.
  apply Rmult_integral in S1. destruct S1; [easy|]. split; lra.
Qed.

(** local strain of nodal values of one cell *)
Definition lstr3 (V : env R) (x : Z -> R) (g v : Z) : R := rsum (zrange 0 24) (fun i => B3 V g v i * x i).
Definition lstr2 (V : env R) (x : Z -> R) (g v : Z) : R := rsum (zrange 0 8) (fun i => B2 V g v i * x i).

(** infinitesimal rigid motions of one cell: translation plus rotation *)
Definition rigid3 (V : env R) (x : Z -> R) : Prop := exists t0 t1 t2 w0 w1 w2, forall n, (0 <= n < 8)%Z ->
  let X := IZR (cor_x n) * v_dx V in let Y := IZR (cor_y n) * v_dy V in let Zc := IZR (cor_z n) * v_dz V in
  x (n * 3)%Z = t0 + w1 * Zc - w2 * Y /\ x (n * 3 + 1)%Z = t1 + w2 * X - w0 * Zc /\
  x (n * 3 + 2)%Z = t2 + w0 * Y - w1 * X.
Definition rigid2 (V : env R) (x : Z -> R) : Prop := exists t0 t1 w, forall n, (0 <= n < 4)%Z ->
  let X := IZR (cor_x n) * v_dx V in let Y := IZR (cor_y n) * v_dy V in
  x (n * 2)%Z = t0 - w * Y /\ x (n * 2 + 1)%Z = t1 + w * X.

Section Local.
Variable V : env R.
Hypotheses (Hx : v_dx V <> 0) (Hy : v_dy V <> 0).
Notation dx := (v_dx V). Notation dy := (v_dy V). Notation dz := (v_dz V).

Lemma grad3_form0 x0 x1 x2 (f : Z -> R) : 
  grad3 x0 x1 x2 dx dy dz 0 f = ((1 - x1) * (1 - x2) * (f 1%Z - f 0%Z) + (1 + x1) * (1 - x2) * (f 2%Z - f 3%Z)
   + (1 - x1) * (1 + x2) * (f 5%Z - f 4%Z) + (1 + x1) * (1 + x2) * (f 6%Z - f 7%Z)) / (4 * dx).
Proof. unfold grad3. rewrite zr8. cbn [rsum]. unfold dsh3. cbn. field. auto. Qed.
Lemma grad3_form1 x0 x1 x2 (f : Z -> R) : 
  grad3 x0 x1 x2 dx dy dz 1 f = ((1 - x0) * (1 - x2) * (f 3%Z - f 0%Z) + (1 + x0) * (1 - x2) * (f 2%Z - f 1%Z)
   + (1 - x0) * (1 + x2) * (f 7%Z - f 4%Z) + (1 + x0) * (1 + x2) * (f 6%Z - f 5%Z)) / (4 * dy).
Proof. unfold grad3. rewrite zr8. cbn [rsum]. unfold dsh3. cbn. field. auto. Qed.
Lemma grad2_form0 x0 x1 (f : Z -> R) :
  grad2 x0 x1 dx dy 0 f = ((1 - x1) * (f 1%Z - f 0%Z) + (1 + x1) * (f 2%Z - f 3%Z)) / (2 * dx).
Proof. unfold grad2. rewrite zr4. cbn [rsum]. unfold dsh2. cbn. field. auto. Qed.
Lemma grad2_form1 x0 x1 (f : Z -> R) :
  grad2 x0 x1 dx dy 1 f = ((1 - x0) * (f 3%Z - f 0%Z) + (1 + x0) * (f 2%Z - f 1%Z)) / (2 * dy).
Proof. unfold grad2. rewrite zr4. cbn [rsum]. unfold dsh2. cbn. field. auto. Qed.

Lemma div0 a b : b <> 0 -> a / b = 0 -> a = 0.
Proof. intros Hb E. apply (Rmult_eq_compat_r b) in E. unfold Rdiv in E. rewrite Rmult_assoc, Rinv_l in E by assumption. lra. Qed.
Lemma div0_2 a b c d : b <> 0 -> d <> 0 -> a / b + c / d = 0 -> a * d + c * b = 0.
Proof.
  intros Hb Hd E. apply (Rmult_eq_compat_r (b * d)) in E.
  replace ((a / b + c / d) * (b * d)) with (a * d + c * b) in E by (field; auto). lra.
Qed.

Notation G2 c k g x := (grad2 (xg g 0) (xg g 1) dx dy c (fun n => x (n * 2 + k)%Z)).
Theorem strain_free2 x : (forall g v, (0 <= g < 4)%Z -> (0 <= v < 3)%Z -> lstr2 V x g v = 0) <-> rigid2 V x.
Proof.
  split.
  - intros H. pose proof gpt_pos as Hp. assert (Hp' : (gpt : R) <> 0) by lra.
    assert (X : forall g, (0 <= g < 4)%Z -> G2 0%Z 0%Z g x = 0).
    { intros g Hg. rewrite <- (H g 0%Z Hg ltac:(lia)). unfold lstr2, B2. now rewrite bmat2_strain by lia. }
    assert (Y : forall g, (0 <= g < 4)%Z -> G2 1%Z 1%Z g x = 0).
    { intros g Hg. rewrite <- (H g 1%Z Hg ltac:(lia)). unfold lstr2, B2. now rewrite bmat2_strain by lia. }
    assert (XY : forall g, (0 <= g < 4)%Z -> G2 1%Z 0%Z g x + G2 0%Z 1%Z g x = 0).
    { intros g Hg. rewrite <- (H g 2%Z Hg ltac:(lia)). unfold lstr2, B2. now rewrite bmat2_strain by lia. }
    assert (X0 := X 0%Z ltac:(lia)). assert (X3 := X 3%Z ltac:(lia)).
    assert (Y0 := Y 0%Z ltac:(lia)). assert (Y1 := Y 1%Z ltac:(lia)).
    assert (S0 := XY 0%Z ltac:(lia)). clear X Y XY.
    rewrite grad2_form0 in X0, X3. rewrite grad2_form1 in Y0, Y1. rewrite grad2_form0, grad2_form1 in S0.
    rewrite !xg_val in *. cbn -[gpt] in X0, X3, Y0, Y1, S0.
    apply div0 in X0, X3, Y0, Y1; try lra.
    destruct (lin2 _ _ _ Hp' X0 X3) as (A1 & A2). destruct (lin2 _ _ _ Hp' Y0 Y1) as (A3 & A4).
    apply div0_2 in S0; try lra.
    assert (A : (x 6%Z - x 0%Z) * dx + (x 3%Z - x 1%Z) * dy = 0).
    { replace (x 4%Z) with (x 6%Z) in S0 by lra. replace (x 2%Z) with (x 0%Z) in S0 by lra.
      replace (x 5%Z) with (x 3%Z) in S0 by lra. replace (x 7%Z) with (x 1%Z) in S0 by lra. lra. }
    exists (x 0%Z), (x 1%Z), ((x 3%Z - x 1%Z) / dx).
    assert (W : (x 3%Z - x 1%Z) / dx * dy = x 0%Z - x 6%Z).
    { apply (Rmult_eq_reg_r dx); [|assumption]. transitivity ((x 3%Z - x 1%Z) * dy); [field; assumption|lra]. }
    assert (W' : (x 3%Z - x 1%Z) / dx * dx = x 3%Z - x 1%Z) by (field; assumption).
    intros n Hn. assert (C : (n = 0 \/ n = 1 \/ n = 2 \/ n = 3)%Z) by lia.
    destruct C as [->|[->|[->| ->]]]; cors; cbn [Z.mul Z.add Pos.mul Pos.add Pos.succ];
      rewrite ?Rmult_0_l, ?Rmult_0_r, ?Rmult_1_l, ?W, ?W'; split; lra.
  - intros (t0 & t1 & w & H) g v Hg Hv. unfold lstr2, B2. rewrite bmat2_strain by assumption. cbv beta zeta.
    assert (E : forall c, (0 <= c < 2)%Z -> G2 c 0%Z g x = if (c =? 0)%Z then 0 else - w).
    { intros c Hc. rewrite <- (grad2_affine (xg g 0) (xg g 1) dx dy Hx Hy c t0 0 (- w) Hc). apply grad2_ext.
      intros n Hn. destruct (H n Hn) as (E & _). rewrite Z.add_0_r, E. ring. }
    assert (E1 : forall c, (0 <= c < 2)%Z -> G2 c 1%Z g x = if (c =? 0)%Z then w else 0).
    { intros c Hc. rewrite <- (grad2_affine (xg g 0) (xg g 1) dx dy Hx Hy c t1 w 0 Hc). apply grad2_ext.
      intros n Hn. destruct (H n Hn) as (_ & E1). rewrite E1. ring. }
    rewrite !E, !E1 by lia. cbn [Z.eqb Pos.eqb]. destruct (v =? 0)%Z; [reflexivity|]. destruct (v =? 1)%Z; [reflexivity|ring].
Qed.

Hypothesis Hz : dz <> 0.
Lemma grad3_form2 x0 x1 x2 (f : Z -> R) : 
  grad3 x0 x1 x2 dx dy dz 2 f = ((1 - x0) * (1 - x1) * (f 4%Z - f 0%Z) + (1 + x0) * (1 - x1) * (f 5%Z - f 1%Z)
   + (1 - x0) * (1 + x1) * (f 7%Z - f 3%Z) + (1 + x0) * (1 + x1) * (f 6%Z - f 2%Z)) / (4 * dz).
Proof. unfold grad3. rewrite zr8. cbn [rsum]. unfold dsh3. cbn. field. auto. Qed.

(** no derivative along an axis at the Gauss points: constant along its edges *)
Lemma flat3_0 f : (forall g, (0 <= g < 8)%Z -> grad3 (xg g 0) (xg g 1) (xg g 2) dx dy dz 0 f = 0) ->
  f 1%Z = f 0%Z /\ f 2%Z = f 3%Z /\ f 5%Z = f 4%Z /\ f 6%Z = f 7%Z.
Proof.
  intros X. pose proof gpt_pos as Hp. assert (Hp' : (gpt : R) <> 0) by lra.
  assert (X0 := X 0%Z ltac:(lia)). assert (X3 := X 3%Z ltac:(lia)). assert (X4 := X 4%Z ltac:(lia)). assert (X7 := X 7%Z ltac:(lia)).
  rewrite grad3_form0 in *. rewrite !xg_val in X0, X3, X4, X7. cbn -[gpt] in X0, X3, X4, X7. apply div0 in X0, X3, X4, X7; try lra.
  destruct (bil4 _ _ _ _ _ Hp' X0 X3 X4 X7) as (A & B & C & D). repeat split; lra.
Qed.
Lemma flat3_1 f : (forall g, (0 <= g < 8)%Z -> grad3 (xg g 0) (xg g 1) (xg g 2) dx dy dz 1 f = 0) ->
  f 3%Z = f 0%Z /\ f 2%Z = f 1%Z /\ f 7%Z = f 4%Z /\ f 6%Z = f 5%Z.
Proof.
  intros X. pose proof gpt_pos as Hp. assert (Hp' : (gpt : R) <> 0) by lra.
  assert (X0 := X 0%Z ltac:(lia)). assert (X3 := X 1%Z ltac:(lia)). assert (X4 := X 4%Z ltac:(lia)). assert (X7 := X 5%Z ltac:(lia)).
  rewrite grad3_form1 in *. rewrite !xg_val in X0, X3, X4, X7. cbn -[gpt] in X0, X3, X4, X7. apply div0 in X0, X3, X4, X7; try lra.
  destruct (bil4 _ _ _ _ _ Hp' X0 X3 X4 X7) as (A & B & C & D). repeat split; lra.
Qed.
Lemma flat3_2 f : (forall g, (0 <= g < 8)%Z -> grad3 (xg g 0) (xg g 1) (xg g 2) dx dy dz 2 f = 0) ->
  f 4%Z = f 0%Z /\ f 5%Z = f 1%Z /\ f 7%Z = f 3%Z /\ f 6%Z = f 2%Z.
Proof.
  intros X. pose proof gpt_pos as Hp. assert (Hp' : (gpt : R) <> 0) by lra.
  assert (X0 := X 0%Z ltac:(lia)). assert (X3 := X 1%Z ltac:(lia)). assert (X4 := X 3%Z ltac:(lia)). assert (X7 := X 2%Z ltac:(lia)).
  rewrite grad3_form2 in *. rewrite !xg_val in X0, X3, X4, X7. cbn -[gpt] in X0, X3, X4, X7. apply div0 in X0, X3, X4, X7; try lra.
  destruct (bil4 _ _ _ _ _ Hp' X0 X3 X4 X7) as (A & B & C & D). repeat split; lra.
Qed.

Notation G3 c k g x := (grad3 (xg g 0) (xg g 1) (xg g 2) dx dy dz c (fun n => x (n * 3 + k)%Z)).
Theorem strain_free3 x : (forall g v, (0 <= g < 8)%Z -> (0 <= v < 6)%Z -> lstr3 V x g v = 0) <-> rigid3 V x.
Proof.
  split.
  - intros H. pose proof gpt_pos as Hp. assert (Hp' : (gpt : R) <> 0) by lra.
    assert (L : forall g v, (0 <= v < 6)%Z -> lstr3 V x g v = _)
      by (intros g v Hv; exact (bmat3_strain _ _ _ _ _ _ v x Hv)). cbv beta zeta in L.
    destruct (flat3_0 (fun n => x (n * 3 + 0)%Z)) as (X1 & X2 & X3 & X4).
    { intros g Hg. rewrite <- (H g 0%Z Hg ltac:(lia)), L by lia. reflexivity. }
    destruct (flat3_1 (fun n => x (n * 3 + 1)%Z)) as (Y1 & Y2 & Y3 & Y4).
    { intros g Hg. rewrite <- (H g 1%Z Hg ltac:(lia)), L by lia. reflexivity. }
    destruct (flat3_2 (fun n => x (n * 3 + 2)%Z)) as (Z1 & Z2 & Z3 & Z4).
    { intros g Hg. rewrite <- (H g 2%Z Hg ltac:(lia)), L by lia. reflexivity. }
    cbn [Z.mul Z.add Pos.mul Pos.add Pos.succ] in X1, X2, X3, X4, Y1, Y2, Y3, Y4, Z1, Z2, Z3, Z4.
    assert (XY : forall g, (0 <= g < 8)%Z -> G3 1%Z 0%Z g x + G3 0%Z 1%Z g x = 0).
    { intros g Hg. rewrite <- (H g 3%Z Hg ltac:(lia)), L by lia. reflexivity. }
    assert (XZ : forall g, (0 <= g < 8)%Z -> G3 2%Z 0%Z g x + G3 0%Z 2%Z g x = 0).
    { intros g Hg. rewrite <- (H g 4%Z Hg ltac:(lia)), L by lia. reflexivity. }
    assert (YZ : forall g, (0 <= g < 8)%Z -> G3 2%Z 1%Z g x + G3 1%Z 2%Z g x = 0).
    { intros g Hg. rewrite <- (H g 5%Z Hg ltac:(lia)), L by lia. reflexivity. }
    assert (A0 := XY 0%Z ltac:(lia)). assert (A4 := XY 4%Z ltac:(lia)).
    assert (B0 := XZ 0%Z ltac:(lia)). assert (B3' := XZ 3%Z ltac:(lia)).
    assert (C0 := YZ 0%Z ltac:(lia)). assert (C1 := YZ 1%Z ltac:(lia)). clear XY XZ YZ L H.
    rewrite grad3_form0, grad3_form1 in A0, A4. rewrite grad3_form0, grad3_form2 in B0, B3'.
    rewrite grad3_form1, grad3_form2 in C0, C1.
    rewrite !xg_val in A0, A4, B0, B3', C0, C1. cbn -[gpt] in A0, A4, B0, B3', C0, C1.
    apply div0_2 in A0, A4, B0, B3', C0, C1; try lra.
    rewrite X1, X2, X3, X4, Y1, Y2, Y3, Y4 in *. rewrite Z1, Z2, Z3, Z4 in *.
    set (p := (gpt : R)) in *.
    destruct (lin2 p ((x 9%Z - x 0%Z) * dx + (x 4%Z - x 1%Z) * dy) ((x 21%Z - x 12%Z) * dx + (x 16%Z - x 13%Z) * dy))
      as (P1 & P2); [exact Hp'|lra|lra|].
    destruct (lin2 p ((x 12%Z - x 0%Z) * dx + (x 5%Z - x 2%Z) * dz) ((x 21%Z - x 9%Z) * dx + (x 8%Z - x 11%Z) * dz))
      as (Q1 & Q2); [exact Hp'|lra|lra|].
    destruct (lin2 p ((x 13%Z - x 1%Z) * dy + (x 11%Z - x 2%Z) * dz) ((x 16%Z - x 4%Z) * dy + (x 8%Z - x 5%Z) * dz))
      as (R1 & R2); [exact Hp'|lra|lra|].
    clear A0 A4 B0 B3' C0 C1.
    assert (D1 : dx * (x 21%Z - x 12%Z - x 9%Z + x 0%Z) = 0) by lra.
    assert (D2 : dy * (x 16%Z - x 13%Z - x 4%Z + x 1%Z) = 0) by lra.
    assert (D3 : dz * (x 8%Z - x 11%Z - x 5%Z + x 2%Z) = 0) by lra.
    apply Rmult_integral in D1, D2, D3.
    destruct D1 as [D1|D1]; [easy|]. destruct D2 as [D2|D2]; [easy|]. destruct D3 as [D3|D3]; [easy|].
    set (a := x 9%Z - x 0%Z) in *. set (b := x 4%Z - x 1%Z) in *.
    set (c := x 12%Z - x 0%Z) in *. set (d := x 5%Z - x 2%Z) in *.
    set (f := x 13%Z - x 1%Z) in *. set (h := x 11%Z - x 2%Z) in *.
    exists (x 0%Z), (x 1%Z), (x 2%Z), (h / dy), (- d / dx), (b / dx).
    assert (W1 : b / dx * dx = b) by (field; assumption).
    assert (W2 : b / dx * dy = - a).
    { apply (Rmult_eq_reg_r dx); [|assumption]. transitivity (b * dy); [field; assumption|lra]. }
    assert (W3 : - d / dx * dx = - d) by (field; assumption).
    assert (W4 : - d / dx * dz = c).
    { apply (Rmult_eq_reg_r dx); [|assumption]. transitivity (- d * dz); [field; assumption|lra]. }
    assert (W5 : h / dy * dy = h) by (field; assumption).
    assert (W6 : h / dy * dz = - f).
    { apply (Rmult_eq_reg_r dy); [|assumption]. transitivity (h * dz); [field; assumption|lra]. }
    assert (U0 : x 9%Z = x 0%Z + a) by (unfold a; lra). assert (U1 : x 4%Z = x 1%Z + b) by (unfold b; lra).
    assert (U2 : x 12%Z = x 0%Z + c) by (unfold c; lra). assert (U3 : x 5%Z = x 2%Z + d) by (unfold d; lra).
    assert (U4 : x 13%Z = x 1%Z + f) by (unfold f; lra). assert (U5 : x 11%Z = x 2%Z + h) by (unfold h; lra).
    clearbody a b c d f h p.
    intros n Hn. assert (Cn : (n = 0 \/ n = 1 \/ n = 2 \/ n = 3 \/ n = 4 \/ n = 5 \/ n = 6 \/ n = 7)%Z) by lia.
    destruct Cn as [->|[->|[->|[->|[->|[->|[->| ->]]]]]]]; cors; cbn [Z.mul Z.add Pos.mul Pos.add Pos.succ];
      rewrite ?Rmult_0_l, ?Rmult_0_r, ?Rmult_1_l, ?W1, ?W2, ?W3, ?W4, ?W5, ?W6; repeat split; lra.
  - intros (t0 & t1 & t2 & w0 & w1 & w2 & H) g v Hg Hv. unfold lstr3, B3. rewrite bmat3_strain by assumption. cbv beta zeta.
    assert (E0 : forall c, (0 <= c < 3)%Z -> G3 c 0%Z g x = if (c =? 0)%Z then 0 else if (c =? 1)%Z then - w2 else w1).
    { intros c Hc. rewrite <- (grad3_affine (xg g 0) (xg g 1) (xg g 2) dx dy dz Hx Hy Hz c t0 0 (- w2) w1 Hc). apply grad3_ext.
      intros n Hn. destruct (H n Hn) as (E & _ & _). rewrite Z.add_0_r, E. ring. }
    assert (E1 : forall c, (0 <= c < 3)%Z -> G3 c 1%Z g x = if (c =? 0)%Z then w2 else if (c =? 1)%Z then 0 else - w0).
    { intros c Hc. rewrite <- (grad3_affine (xg g 0) (xg g 1) (xg g 2) dx dy dz Hx Hy Hz c t1 w2 0 (- w0) Hc). apply grad3_ext.
      intros n Hn. destruct (H n Hn) as (_ & E & _). rewrite E. ring. }
    assert (E2 : forall c, (0 <= c < 3)%Z -> G3 c 2%Z g x = if (c =? 0)%Z then - w1 else if (c =? 1)%Z then w0 else 0).
    { intros c Hc. rewrite <- (grad3_affine (xg g 0) (xg g 1) (xg g 2) dx dy dz Hx Hy Hz c t2 (- w1) w0 0 Hc). apply grad3_ext.
      intros n Hn. destruct (H n Hn) as (_ & _ & E). rewrite E. ring. }
    rewrite !E0, !E1, !E2 by lia. pattern v. apply case6; [exact Hv|..]; cbn [Z.eqb Pos.eqb]; ring.
Qed.
End Local.
