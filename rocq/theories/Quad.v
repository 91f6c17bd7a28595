(** The 2x2 and 2x2x2 Gauss rules against the exact integral of the energy
    density over a cell. *)
From Coq Require Import Reals Lra Psatz ZifyBool.
From Verif Require Import Base Scalar EllSpec EllInit Grid EllModel EllAsm EllOp EllFinal EllProps
  CgPure CgTheory CgFinal CgProps AssemblyModel AsmPure AsmBnd AsmRun AsmMat FemGen FemAve FemMat FemMat2 FemDef FemPd FemRhs FemEquil AsmSpec AsmProps.
Open Scope Z_scope.
Open Scope R_scope.

(** ** Integrals by antiderivatives *)
(** I is the integral of f over [a, b] *)
Definition is_int (f : R -> R) (a b I : R) : Prop :=
  exists F, (forall x, a <= x <= b -> derivable_pt_lim F x (f x)) /\ I = F b - F a.
(** iterated integrals over [0,a] x [0,b] and [0,a] x [0,b] x [0,c] *)
Definition is_int2 (f : R -> R -> R) (a b I : R) : Prop :=
  exists g, (forall y, 0 <= y <= b -> is_int (fun x => f x y) 0 a (g y)) /\ is_int g 0 b I.
Definition is_int3 (f : R -> R -> R -> R) (a b c I : R) : Prop :=
  exists g, (forall z, 0 <= z <= c -> is_int2 (fun x y => f x y z) a b (g z)) /\ is_int g 0 c I.

Lemma is_int_unique f g a b I J : a <= b -> (forall x, a <= x <= b -> f x = g x) ->
  is_int f a b I -> is_int g a b J -> I = J.
Proof.
  intros Hab E (F & HF & ->) (G & HG & ->).
  destruct (Req_dec a b) as [->|N]; [ring|].
  assert (L : a < b) by lra.
  assert (P : forall c, a < c < b -> derivable_pt (fun x => F x - G x) c).
  { intros c Hc. exists (f c - g c). apply derivable_pt_lim_minus; [apply HF|apply HG]; lra. }
  assert (C : forall c, a <= c <= b -> continuity_pt (fun x => F x - G x) c).
  { intros c Hc. apply derivable_continuous_pt. exists (f c - g c).
    apply derivable_pt_lim_minus; [apply HF|apply HG]; lra. }
  pose proof (MVT_cor1 (fun x => F x - G x) a b) as M.
  destruct (MVT (fun x => F x - G x) id a b P (fun c _ => derivable_pt_id c) L C
    (fun c _ => derivable_continuous_pt id c (derivable_pt_id c))) as (c & Hc & M').
  rewrite derive_pt_id in M'. unfold id in M'.
  assert (Z : derive_pt (fun x => F x - G x) c (P c Hc) = 0).
  { apply derive_pt_eq_0. replace 0 with (f c - g c) by (rewrite E; lra).
    apply derivable_pt_lim_minus; [apply HF|apply HG]; lra. }
  rewrite Z in M'. lra.
Qed.
Lemma is_int2_unique f g a b I J : 0 <= a -> 0 <= b -> (forall x y, f x y = g x y) ->
  is_int2 f a b I -> is_int2 g a b J -> I = J.
Proof.
  intros Ha Hb E (p & Hp & HI) (q & Hq & HJ). apply (is_int_unique p q 0 b); try assumption.
  intros y Hy. apply (is_int_unique (fun x => f x y) (fun x => g x y) 0 a); auto.
Qed.
Lemma is_int3_unique f g a b c I J : 0 <= a -> 0 <= b -> 0 <= c -> (forall x y z, f x y z = g x y z) ->
  is_int3 f a b c I -> is_int3 g a b c J -> I = J.
Proof.
  intros Ha Hb Hc E (p & Hp & HI) (q & Hq & HJ). apply (is_int_unique p q 0 c); try assumption.
  intros z Hz. apply (is_int2_unique (fun x y => f x y z) (fun x y => g x y z) a b); auto.
Qed.

(** ** Quadratics *)
Definition isq (f : R -> R) : Prop := exists a b c, forall x, f x = a + b * x + c * (x * x).
Definition isa (f : R -> R) : Prop := exists a b, forall x, f x = a + b * x.
Lemma isq_lin f g a b : isq f -> isq g -> isq (fun x => a * f x + b * g x).
Proof.
  intros (p & q & r & Hf) (p' & q' & r' & Hg). exists (a * p + b * p'), (a * q + b * q'), (a * r + b * r').
  intros x. rewrite Hf, Hg. ring.
Qed.
Lemma isq_ext f g : (forall x, f x = g x) -> isq f -> isq g.
Proof. intros E (a & b & c & H). exists a, b, c. intros x. now rewrite <- E. Qed.
Lemma isa_ext f g : (forall x, f x = g x) -> isa f -> isa g.
Proof. intros E (a & b & H). exists a, b. intros x. now rewrite <- E. Qed.
Lemma isa_lin f g a b : isa f -> isa g -> isa (fun x => a * f x + b * g x).
Proof.
  intros (p & q & Hf) (p' & q' & Hg). exists (a * p + b * p'), (a * q + b * q').
  intros x. rewrite Hf, Hg. ring.
Qed.
Lemma isa_const k : isa (fun _ => k).
Proof. exists k, 0. intros. ring. Qed.
Lemma isa_mul f g : isa f -> isa g -> isq (fun x => f x * g x).
Proof.
  intros (p & q & Hf) (p' & q' & Hg). exists (p * p'), (p * q' + q * p'), (q * q'). intros x. rewrite Hf, Hg. ring.
Qed.

(** exact integral over [0, L] (Simpson) and two-point rule *)
Definition simp (L : R) (f : R -> R) : R := L * (f 0 + 4 * f (L / 2) + f L) / 6.
Definition two (L g : R) (f : R -> R) : R := L / 2 * (f ((1 + - g) / 2 * L) + f ((1 + g) / 2 * L)).
Lemma simp_int f L : isq f -> is_int f 0 L (simp L f).
Proof.
  intros (a & b & c & H). exists (fun x => a * x + b / 2 * (x * x) + c / 3 * (x * x * x)). split.
  - intros x _. rewrite H.
    replace (a + b * x + c * (x * x)) with ((a * 1 + b / 2 * (1 * x + x * 1)) + c / 3 * ((1 * x + x * 1) * x + x * x * 1)) by field.
    apply derivable_pt_lim_plus; [apply derivable_pt_lim_plus|].
    + apply (derivable_pt_lim_scal id a x 1). apply derivable_pt_lim_id.
    + apply (derivable_pt_lim_scal (fun x => x * x) (b / 2) x). apply (derivable_pt_lim_mult id id x 1 1); apply derivable_pt_lim_id.
    + apply (derivable_pt_lim_scal (fun x => x * x * x) (c / 3) x).
      apply (derivable_pt_lim_mult (fun x => x * x) id x (1 * x + x * 1) 1); [apply (derivable_pt_lim_mult id id x 1 1)|]; apply derivable_pt_lim_id.
  - unfold simp. rewrite !H. field.
Qed.
Lemma isq_pos a b c : (forall x, 0 <= a + b * x + c * (x * x)) -> 0 <= c.
Proof.
  intros H. destruct (Rle_dec 0 c) as [|N]; [assumption|]. exfalso. apply Rnot_le_lt in N.
  pose proof (H 0) as H0. 
  set (s := 1 + (a / - c)).
  assert (S0 : 0 <= a / - c) by (apply Rmult_le_pos; [lra|apply Rlt_le, Rinv_0_lt_compat; lra]).
  assert (S1 : 1 <= s) by (unfold s; lra).
  pose proof (H s) as H1. pose proof (H (- s)) as H2.
  assert (S2 : a = - c * (s - 1)) by (unfold s; field; lra).
  assert (0 <= a + c * (s * s)) by lra. nra.
Qed.
Lemma two_simp f L g d : 0 < L -> 1 / 3 <= g * g -> 3 * (g * g) <= 1 + d -> isq f -> (forall x, 0 <= f x) ->
  simp L f <= two L g f /\ two L g f <= (1 + d) * simp L f.
Proof.
  intros HL H1 H2 (a & b & c & H) P.
  assert (C : 0 <= c). { apply (isq_pos a b). intros x. rewrite <- H. apply P. }
  set (A := a + b * (L / 2) + c * (L / 2 * (L / 2))).
  assert (A0 : 0 <= A). { unfold A. rewrite <- H. apply P. }
  assert (E1 : simp L f = L * (A + c * (L * L) / 4 * (1 / 3))) by (unfold simp, A; rewrite !H; field).
  assert (E2 : two L g f = L * (A + c * (L * L) / 4 * (g * g))) by (unfold two, A; rewrite !H; field).
  rewrite E1, E2. set (k := c * (L * L) / 4).
  assert (K : 0 <= k) by (unfold k; apply Rmult_le_pos; [apply Rmult_le_pos; [assumption|nra]|lra]).
  clearbody k A. clear - HL H1 H2 K A0. split.
  - apply Rmult_le_compat_l; [lra|]. apply Rplus_le_compat_l. apply Rmult_le_compat_l; assumption.
  - replace ((1 + d) * (L * (A + k * (1 / 3)))) with (L * ((1 + d) * A + k * ((1 + d) / 3))) by field.
    apply Rmult_le_compat_l; [lra|]. apply Rplus_le_compat; [nra|]. apply Rmult_le_compat_l; lra.
Qed.
Lemma two_mono L g f h : 0 < L -> (forall x, f x <= h x) -> two L g f <= two L g h.
Proof. intros HL H. unfold two. apply Rmult_le_compat_l; [lra|]. apply Rplus_le_compat; apply H. Qed.
Lemma two_scal L g f k : two L g (fun x => k * f x) = k * two L g f.
Proof. unfold two. ring. Qed.
Lemma simp_pos L f : 0 < L -> (forall x, 0 <= f x) -> 0 <= simp L f.
Proof.
  intros HL P. unfold simp. pose proof (P 0). pose proof (P (L / 2)). pose proof (P L).
  apply Rmult_le_pos; [|lra]. apply Rmult_le_pos; lra.
Qed.
Lemma simp_isq L f : (forall x, isq (f x)) -> isq (fun y => simp L (fun x => f x y)).
Proof.
  intros H. unfold simp.
  apply (isq_ext (fun y => L / 6 * (1 * f 0 y + 4 * f (L / 2) y) + L / 6 * f L y)); [intros; field|].
  apply isq_lin; [apply isq_lin|]; apply H.
Qed.

Section Rule.
Variables (g d : R).
Hypotheses (G1 : 1 / 3 <= g * g) (G2 : 3 * (g * g) <= 1 + d) (Hd : 0 <= d).

Lemma rule2 f a b : 0 < a -> 0 < b -> (forall y, isq (fun x => f x y)) -> (forall x, isq (f x)) -> (forall x y, 0 <= f x y) ->
  is_int2 f a b (simp b (fun y => simp a (fun x => f x y))) /\
  isq (fun y => simp a (fun x => f x y)) /\
  simp b (fun y => simp a (fun x => f x y)) <= two b g (fun y => two a g (fun x => f x y)) /\
  two b g (fun y => two a g (fun x => f x y)) <= (1 + d) * (1 + d) * simp b (fun y => simp a (fun x => f x y)).
Proof.
  intros Ha Hb Qx Qy P.
  assert (Q : isq (fun y => simp a (fun x => f x y))) by now apply simp_isq.
  assert (P1 : forall y, 0 <= simp a (fun x => f x y)) by (intros; apply simp_pos; auto).
  destruct (two_simp _ b g d Hb G1 G2 Q P1) as (B1 & B2).
  assert (A : forall y, simp a (fun x => f x y) <= two a g (fun x => f x y) /\ two a g (fun x => f x y) <= (1 + d) * simp a (fun x => f x y))
    by (intros; apply two_simp; auto).
  split; [|split; [exact Q|split]].
  - exists (fun y => simp a (fun x => f x y)). split; [intros; now apply simp_int|now apply simp_int].
  - eapply Rle_trans; [exact B1|]. apply two_mono; [assumption|]. intros; apply A.
  - eapply Rle_trans; [apply two_mono; [assumption|intros y; apply (proj2 (A y))]|].
    rewrite (two_scal b g (fun y => simp a (fun x => f x y))). rewrite Rmult_assoc. apply Rmult_le_compat_l; lra.
Qed.
Lemma rule3 f a b c : 0 < a -> 0 < b -> 0 < c ->
  (forall y z, isq (fun x => f x y z)) -> (forall x z, isq (fun y => f x y z)) -> (forall x y, isq (f x y)) -> (forall x y z, 0 <= f x y z) ->
  exists I, is_int3 f a b c I /\ 0 <= I /\
  I <= two c g (fun z => two b g (fun y => two a g (fun x => f x y z))) /\
  two c g (fun z => two b g (fun y => two a g (fun x => f x y z))) <= (1 + d) * (1 + d) * (1 + d) * I.
Proof.
  intros Ha Hb Hc Qx Qy Qz P.
  set (h := fun z => simp b (fun y => simp a (fun x => f x y z))).
  assert (A : forall z, is_int2 (fun x y => f x y z) a b (h z) /\ h z <= two b g (fun y => two a g (fun x => f x y z)) /\
    two b g (fun y => two a g (fun x => f x y z)) <= (1 + d) * (1 + d) * h z).
  { intros z. destruct (rule2 (fun x y => f x y z) a b Ha Hb) as (A1 & _ & A2 & A3); auto. }
  assert (P1 : forall z, 0 <= h z) by (intros; apply simp_pos; [assumption|]; intros; apply simp_pos; auto).
  assert (Q : isq h).
  { unfold h. apply (simp_isq b (fun y z => simp a (fun x => f x y z))). intros y. apply simp_isq. auto. }
  destruct (two_simp _ c g d Hc G1 G2 Q P1) as (B1 & B2).
  exists (simp c h). split; [|split; [now apply simp_pos|split]].
  - exists h. split; [intros; apply A|now apply simp_int].
  - eapply Rle_trans; [exact B1|]. apply two_mono; [assumption|]. intros; apply A.
  - eapply Rle_trans; [apply two_mono; [assumption|intros z; apply (proj2 (proj2 (A z)))]|].
    rewrite (two_scal c g h). rewrite (Rmult_assoc ((1 + d) * (1 + d))). apply Rmult_le_compat_l; [nra|exact B2].
Qed.
End Rule.

(** ** Energy density *)
(** isotropic energy density sigma : epsilon for Young modulus E and Poisson ratio nu; g0 .. g5 are
    exx, eyy, ezz and the engineering shears *)
Definition density (E nu e0 e1 e2 e3 e4 e5 : R) : R :=
  nu * E / ((1 + nu) * (1 - 2 * nu)) * ((e0 + e1 + e2) * (e0 + e1 + e2)) +
  E / (1 + nu) * (e0 * e0 + e1 * e1 + e2 * e2) + E / (2 * (1 + nu)) * (e3 * e3 + e4 * e4 + e5 * e5).
Lemma density_pos E nu e0 e1 e2 e3 e4 e5 : 0 < E -> -1 < nu -> nu < 1 / 2 -> 0 <= density E nu e0 e1 e2 e3 e4 e5.
Proof.
  intros HE H1 H2. unfold density.
  replace (_ + _ + _) with (E / (3 * (1 - 2 * nu)) * ((e0 + e1 + e2) * (e0 + e1 + e2)) +
    E / (1 + nu) * (((e0 - e1) * (e0 - e1) + (e1 - e2) * (e1 - e2) + (e0 - e2) * (e0 - e2)) / 3) +
    E / (2 * (1 + nu)) * (e3 * e3 + e4 * e4 + e5 * e5)) by (field; lra).
  assert (0 < E / (3 * (1 - 2 * nu))) by (apply Rdiv_lt_0_compat; lra).
  assert (0 < E / (1 + nu)) by (apply Rdiv_lt_0_compat; lra).
  assert (0 < E / (2 * (1 + nu))) by (apply Rdiv_lt_0_compat; lra).
  pose proof (Rle_0_sqr (e0 + e1 + e2)) as S0. pose proof (Rle_0_sqr (e0 - e1)) as S1. pose proof (Rle_0_sqr (e1 - e2)) as S2.
  pose proof (Rle_0_sqr (e0 - e2)) as S3. pose proof (Rle_0_sqr e3) as S4. pose proof (Rle_0_sqr e4) as S5. pose proof (Rle_0_sqr e5) as S6.
  unfold Rsqr in *.
  apply Rplus_le_le_0_compat; [apply Rplus_le_le_0_compat|]; apply Rmult_le_pos; lra.
Qed.
Lemma density_isq E nu f0 f1 f2 f3 f4 f5 : isa f0 -> isa f1 -> isa f2 -> isa f3 -> isa f4 -> isa f5 ->
  isq (fun x => density E nu (f0 x) (f1 x) (f2 x) (f3 x) (f4 x) (f5 x)).
Proof.
  intros (a0 & b0 & H0) (a1 & b1 & H1) (a2 & b2 & H2) (a3 & b3 & H3) (a4 & b4 & H4) (a5 & b5 & H5).
  exists (density E nu a0 a1 a2 a3 a4 a5),
    (2 * (nu * E / ((1 + nu) * (1 - 2 * nu)) * ((a0 + a1 + a2) * (b0 + b1 + b2)) +
  E / (1 + nu) * (a0 * b0 + a1 * b1 + a2 * b2) + E / (2 * (1 + nu)) * (a3 * b3 + a4 * b4 + a5 * b5))),
    (density E nu b0 b1 b2 b3 b4 b5).
  intros x. rewrite H0, H1, H2, H3, H4, H5. unfold density.
  generalize (nu * E / ((1 + nu) * (1 - 2 * nu))) (E / (1 + nu)) (E / (2 * (1 + nu))). intros. ring.
Qed.

(** D c a is the derivative of component c of F along axis a, everywhere *)
Definition gradient3 (F : Z -> R -> R -> R -> R) (D : Z -> Z -> R -> R -> R -> R) : Prop :=
  forall c X Y Zc, (0 <= c < 3)%Z ->
  derivable_pt_lim (fun s => F c s Y Zc) X (D c 0%Z X Y Zc) /\
  derivable_pt_lim (fun s => F c X s Zc) Y (D c 1%Z X Y Zc) /\
  derivable_pt_lim (fun s => F c X Y s) Zc (D c 2%Z X Y Zc).
Definition gradient2 (F : Z -> R -> R -> R) (D : Z -> Z -> R -> R -> R) : Prop :=
  forall c X Y, (0 <= c < 2)%Z ->
  derivable_pt_lim (fun s => F c s Y) X (D c 0%Z X Y) /\
  derivable_pt_lim (fun s => F c X s) Y (D c 1%Z X Y).
(** energy density of the displacement with gradient D *)
Definition dens3 (m : material R) (D : Z -> Z -> R -> R -> R -> R) (X Y Zc : R) : R :=
  density (m_E m) (m_nu m) (D 0%Z 0%Z X Y Zc) (D 1%Z 1%Z X Y Zc) (D 2%Z 2%Z X Y Zc)
    (D 0%Z 1%Z X Y Zc + D 1%Z 0%Z X Y Zc) (D 0%Z 2%Z X Y Zc + D 2%Z 0%Z X Y Zc) (D 1%Z 2%Z X Y Zc + D 2%Z 1%Z X Y Zc).
Definition dens2 (m : material R) (D : Z -> Z -> R -> R -> R) (X Y : R) : R :=
  density (m_E m) (m_nu m) (D 0%Z 0%Z X Y) (D 1%Z 1%Z X Y) 0 (D 0%Z 1%Z X Y + D 1%Z 0%Z X Y) 0 0.

(** ** The interpolation is affine along each axis *)
Lemma hat_aff c k : isa (fun s => hat c (s / k)).
Proof.
  unfold hat. destruct (c =? 0)%Z.
  - exists 1, (- / k). intros x. unfold Rdiv. ring.
  - exists 0, (/ k). intros x. unfold Rdiv. ring.
Qed.
Lemma rsum_isa {A} (l : list A) (f : A -> R -> R) : (forall x, isa (f x)) -> isa (fun s => rsum l (fun x => f x s)).
Proof.
  intros H. induction l as [|x l IH]; cbn [rsum]; [apply isa_const|].
  apply (isa_ext (fun s => 1 * f x s + 1 * rsum l (fun x => f x s))); [intros; ring|]. now apply isa_lin.
Qed.
Lemma interp3_x V f Y Zc : isa (fun s => interp3 V f s Y Zc).
Proof.
  unfold interp3. apply rsum_isa. intros n. destruct (hat_aff (cor_x n) (v_dx V)) as (a & b & H).
  exists (f n * a * hat (cor_y n) (Y / v_dy V) * hat (cor_z n) (Zc / v_dz V)), (f n * b * hat (cor_y n) (Y / v_dy V) * hat (cor_z n) (Zc / v_dz V)).
  intros s. rewrite H. ring.
Qed.
Lemma interp3_y V f X Zc : isa (fun s => interp3 V f X s Zc).
Proof.
  unfold interp3. apply rsum_isa. intros n. destruct (hat_aff (cor_y n) (v_dy V)) as (a & b & H).
  exists (f n * a * hat (cor_x n) (X / v_dx V) * hat (cor_z n) (Zc / v_dz V)), (f n * b * hat (cor_x n) (X / v_dx V) * hat (cor_z n) (Zc / v_dz V)).
  intros s. rewrite H. ring.
Qed.
Lemma interp3_z V f X Y : isa (fun s => interp3 V f X Y s).
Proof.
  unfold interp3. apply rsum_isa. intros n. destruct (hat_aff (cor_z n) (v_dz V)) as (a & b & H).
  exists (f n * a * hat (cor_x n) (X / v_dx V) * hat (cor_y n) (Y / v_dy V)), (f n * b * hat (cor_x n) (X / v_dx V) * hat (cor_y n) (Y / v_dy V)).
  intros s. rewrite H. ring.
Qed.
Lemma interp2_x V f Y : isa (fun s => interp2 V f s Y).
Proof.
  unfold interp2. apply rsum_isa. intros n. destruct (hat_aff (cor_x n) (v_dx V)) as (a & b & H).
  exists (f n * a * hat (cor_y n) (Y / v_dy V)), (f n * b * hat (cor_y n) (Y / v_dy V)).
  intros s. rewrite H. ring.
Qed.
Lemma interp2_y V f X : isa (fun s => interp2 V f X s).
Proof.
  unfold interp2. apply rsum_isa. intros n. destruct (hat_aff (cor_y n) (v_dy V)) as (a & b & H).
  exists (f n * a * hat (cor_x n) (X / v_dx V)), (f n * b * hat (cor_x n) (X / v_dx V)).
  intros s. rewrite H. ring.
Qed.
Lemma isa_slope h x l : isa h -> derivable_pt_lim h x l -> l = h 1 - h 0.
Proof.
  intros (a & b & H) L. rewrite (uniqueness_limite _ _ _ _ L (derivable_aff h a b x H)), !H. ring.
Qed.
Lemma isa_minus h k : isa h -> isa k -> isa (fun s => h s - k s).
Proof. intros A B. apply (isa_ext (fun s => 1 * h s + (-1) * k s)); [intros; ring|]. now apply isa_lin. Qed.
Lemma isa_plus h k : isa h -> isa k -> isa (fun s => h s + k s).
Proof. intros A B. apply (isa_ext (fun s => 1 * h s + 1 * k s)); [intros; ring|]. now apply isa_lin. Qed.

Section Cell3.
Variables (F : Z -> R -> R -> R -> R) (D : Z -> Z -> R -> R -> R -> R).
Hypotheses (Fx : forall c y z, isa (fun s => F c s y z)) (Fy : forall c x z, isa (fun s => F c x s z)) (Fz : forall c x y, isa (fun s => F c x y s)).
Hypothesis (HD : gradient3 F D).
Lemma grad_slope c : (0 <= c < 3)%Z -> forall X Y Zc,
  D c 0%Z X Y Zc = F c 1 Y Zc - F c 0 Y Zc /\ D c 1%Z X Y Zc = F c X 1 Zc - F c X 0 Zc /\ D c 2%Z X Y Zc = F c X Y 1 - F c X Y 0.
Proof.
  intros Hc X Y Zc. destruct (HD c X Y Zc Hc) as (A & B & C).
  split; [|split]; [apply (isa_slope _ _ _ (Fx c Y Zc) A)|apply (isa_slope _ _ _ (Fy c X Zc) B)|apply (isa_slope _ _ _ (Fz c X Y) C)].
Qed.
Lemma grad_isa c a : (0 <= c < 3)%Z -> (0 <= a < 3)%Z ->
  (forall y z, isa (fun s => D c a s y z)) /\ (forall x z, isa (fun s => D c a x s z)) /\ (forall x y, isa (fun s => D c a x y s)).
Proof.
  intros Hc Ha. pose proof (grad_slope c Hc) as G. revert Ha. intros Ha. assert (C : (a = 0 \/ a = 1 \/ a = 2)%Z) by lia.
  destruct C as [-> | [-> | ->]]; (split; [|split]); intros p q;
  first
   [ apply (isa_ext (fun s => F c 1 p q - F c 0 p q)); [intros s; symmetry; apply (G s p q)|]; apply isa_const
   | apply (isa_ext (fun s => F c 1 s q - F c 0 s q)); [intros s; symmetry; apply (G p s q)|]; apply isa_minus; solve [auto]
   | apply (isa_ext (fun s => F c 1 q s - F c 0 q s)); [intros s; symmetry; apply (G p q s)|]; apply isa_minus; solve [auto]
   | apply (isa_ext (fun s => F c s 1 q - F c s 0 q)); [intros s; symmetry; apply (G s p q)|]; apply isa_minus; solve [auto]
   | apply (isa_ext (fun s => F c p 1 q - F c p 0 q)); [intros s; symmetry; apply (G p s q)|]; apply isa_const
   | apply (isa_ext (fun s => F c p 1 s - F c p 0 s)); [intros s; symmetry; apply (G p q s)|]; apply isa_minus; solve [auto]
   | apply (isa_ext (fun s => F c s p 1 - F c s p 0)); [intros s; symmetry; apply (G s p q)|]; apply isa_minus; solve [auto]
   | apply (isa_ext (fun s => F c p s 1 - F c p s 0)); [intros s; symmetry; apply (G p s q)|]; apply isa_minus; solve [auto]
   | apply (isa_ext (fun s => F c p q 1 - F c p q 0)); [intros s; symmetry; apply (G p q s)|]; apply isa_const ].
Qed.
Lemma dens3_isq m :
  (forall y z, isq (fun x => dens3 m D x y z)) /\ (forall x z, isq (fun y => dens3 m D x y z)) /\ (forall x y, isq (dens3 m D x y)).
Proof.
  split; [|split]; intros p q; unfold dens3; apply density_isq; repeat apply isa_plus;
    first [apply (grad_isa _ _ ltac:(lia) ltac:(lia))|idtac]; try (apply grad_isa; lia).
Qed.
End Cell3.

Lemma gpt_R : (gpt : R) = 577350269189626 / 1000000000000000.
Proof. reflexivity. Qed.
Definition slack : R := 9 / 10000000000000000.
Lemma gpt_sq : 1 / 3 <= (gpt : R) * gpt /\ 3 * ((gpt : R) * gpt) <= 1 + slack.
Proof. rewrite gpt_R. unfold slack. split; lra. Qed.
Lemma slack_pos : 0 <= slack. Proof. unfold slack. lra. Qed.
Lemma slack3 : (1 + slack) * (1 + slack) * (1 + slack) <= 1 + 3 / 1000000000000000.
Proof. unfold slack. lra. Qed.
Lemma slack2 : (1 + slack) * (1 + slack) <= 1 + 2 / 1000000000000000.
Proof. unfold slack. lra. Qed.

(** the sum over the Gauss points is the product rule *)
Lemma sum8_two a b c (f : R -> R -> R -> R) :
  rsum (zrange 0 8) (fun g => f (gpos a g 0) (gpos b g 1) (gpos c g 2) * (a * b * c / 8)) =
  two c gpt (fun z => two b gpt (fun y => two a gpt (fun x => f x y z))).
Proof.
  rewrite zr8. cbn [rsum]. unfold gpos. rewrite !xg_val. cbn [Z.eqb Pos.eqb orb Z.ltb Z.compare Pos.compare Pos.compare_cont].
  generalize (gpt : R). intros p. unfold two. field.
Qed.
Lemma sum4_two a b (f : R -> R -> R) :
  rsum (zrange 0 4) (fun g => f (gpos a g 0) (gpos b g 1) * (a * b / 4)) =
  two b gpt (fun y => two a gpt (fun x => f x y)).
Proof.
  rewrite zr4. cbn [rsum]. unfold gpos. rewrite !xg_val. cbn [Z.eqb Pos.eqb orb Z.ltb Z.compare Pos.compare Pos.compare_cont].
  generalize (gpt : R). intros p. unfold two. field.
Qed.

Theorem exact_energy3 V u vold vnew ex ey ez w D : body3 V -> full u (ndofs V) -> vars_ok V vold vnew -> is_cell3 V ex ey ez ->
  plastic_at V (cellno V ex ey ez) = false -> admissible (mat_at V (cellno V ex ey ez)) ->
  full w (ndofs V) -> gradient3 (inside3 V w ex ey ez) D ->
  exists K I, get_elem_mat3D V u vold vnew ex ey ez = Ok (K, vnew) /\
    is_int3 (dens3 (mat_at V (cellno V ex ey ez)) D) (v_dx V) (v_dy V) (v_dz V) I /\
    (forall J, is_int3 (dens3 (mat_at V (cellno V ex ey ez)) D) (v_dx V) (v_dy V) (v_dz V) J -> J = I) /\
    let q := qform 24 K (fun i => val w (cdof3 V ex ey ez (i / 3) (i mod 3))) in
    I <= q /\ q <= (1 + 3 / 1000000000000000) * I.
Proof.
  intros B F W Hc P A Fw HD. pose proof B as (Sv & G & D3).
  pose proof (ge_px V G). pose proof (ge_py V G). pose proof (ge_pz V G D3).
  set (eps := fun ex ey ez g v => str3 V (val w) (ex, ey, ez) g v).
  set (sig := fun ex ey ez g v => gs3 V (val w) (val vold) (ex, ey, ez) g v).
  destruct (elem_energy3 V u vold vnew ex ey ez w eps sig) as (K & EK & Q & _); try assumption.
  { apply strain_field3_iff; [assumption..|reflexivity]. }
  { apply stress_field3_iff; [assumption..|reflexivity]. }
  set (m := mat_at V (cellno V ex ey ez)) in *.
  assert (Fx : forall c y z, isa (fun s => inside3 V w ex ey ez c s y z)) by (intros; apply interp3_x).
  assert (Fy : forall c x z, isa (fun s => inside3 V w ex ey ez c x s z)) by (intros; apply interp3_y).
  assert (Fz : forall c x y, isa (fun s => inside3 V w ex ey ez c x y s)) by (intros; apply interp3_z).
  destruct (dens3_isq _ D Fx Fy Fz HD m) as (Q1 & Q2 & Q3).
  assert (Pd : forall x y z, 0 <= dens3 m D x y z) by (intros; destruct A; now apply density_pos).
  destruct gpt_sq as (G1 & G2).
  destruct (rule3 gpt slack G1 G2 slack_pos (dens3 m D) (v_dx V) (v_dy V) (v_dz V)) as (I & HI & I0 & B1 & B2); try assumption.
  exists K, I. split; [exact EK|]. split; [exact HI|]. split.
  { intros J HJ. apply (is_int3_unique (dens3 m D) (dens3 m D) (v_dx V) (v_dy V) (v_dz V)); try assumption; try lra; reflexivity. }
  cbv zeta in *. rewrite Q.
  rewrite (rsum_ext _ _ (fun g => dens3 m D (gpos (v_dx V) g 0) (gpos (v_dy V) g 1) (gpos (v_dz V) g 2) * (v_dx V * v_dy V * v_dz V / 8))).
  - rewrite (sum8_two (v_dx V) (v_dy V) (v_dz V) (dens3 m D)). split; [exact B1|].
    eapply Rle_trans; [exact B2|]. apply Rmult_le_compat_r; [exact I0|apply slack3].
  - intros g Hg. apply in_zrange in Hg. f_equal.
    destruct (strain3_gradient V w ex ey ez g B Fw Hc Hg) as (l & D' & El & HD' & L0 & L1 & L2 & L3 & L4 & L5).
    assert (X : forall c a, (0 <= c < 3)%Z -> (0 <= a < 3)%Z -> D' c a = D c a (gpos (v_dx V) g 0) (gpos (v_dy V) g 1) (gpos (v_dz V) g 2)).
    { intros c a Hcc Ha. destruct (HD c (gpos (v_dx V) g 0) (gpos (v_dy V) g 1) (gpos (v_dz V) g 2) Hcc) as (T0 & T1 & T2).
      destruct (HD' c Hcc) as (U0 & U1 & U2). assert (C : (a = 0 \/ a = 1 \/ a = 2)%Z) by lia.
      destruct C as [-> | [-> | ->]]; eapply uniqueness_limite; eassumption. }
    assert (El' : forall v, (0 <= v < 6)%Z -> eps ex ey ez g v = lget l v).
    { intros v Hv. pose proof (full_rep _ _ Fw) as Uw. rewrite (ndofs3 V D3) in Uw.
      assert (E2 : get_strain3D V w ex ey ez g = Ok (strain3 V (val w) (ex, ey, ez) g)) by (apply strain3_ok; [exact Uw|now apply in_els3]). rewrite E2 in El. inversion El. unfold eps. now rewrite strain3_str. }
    unfold dens3. rewrite <- !X by lia. rewrite <- L0, <- L1, <- L2, <- L3, <- L4, <- L5, <- !El' by lia.
    transitivity (quad 6 (ctan3 (m_lambda m) (m_mu m)) (eps ex ey ez g)).
    + unfold dot, quad. apply rsum_ext. intros v Hv. apply in_zrange in Hv. f_equal. unfold sig, gs3, sig3.
      replace (plastic_at V (ix3 V (ex, ey, ez))) with false by (now rewrite <- cellno_ix3, P).
      rewrite lin_stress_ctan by assumption. rewrite <- cellno_ix3. apply rsum_ext. intros k Hk. apply in_zrange in Hk. now rewrite strain3_str.
    + rewrite quad3. unfold density. destruct A. fold m in ad_mu, ad_la. rewrite ad_mu, ad_la. field. lra.
Qed.

Section Cell2.
Variables (F : Z -> R -> R -> R) (D : Z -> Z -> R -> R -> R).
Hypotheses (Fx : forall c y, isa (fun s => F c s y)) (Fy : forall c x, isa (fun s => F c x s)).
Hypothesis (HD : gradient2 F D).
Lemma grad_slope2 c : (0 <= c < 2)%Z -> forall X Y,
  D c 0%Z X Y = F c 1 Y - F c 0 Y /\ D c 1%Z X Y = F c X 1 - F c X 0.
Proof.
  intros Hc X Y. destruct (HD c X Y Hc) as (A & B).
  split; [apply (isa_slope _ _ _ (Fx c Y) A)|apply (isa_slope _ _ _ (Fy c X) B)].
Qed.
Lemma grad_isa2 c a : (0 <= c < 2)%Z -> (0 <= a < 2)%Z ->
  (forall y, isa (fun s => D c a s y)) /\ (forall x, isa (fun s => D c a x s)).
Proof.
  intros Hc Ha. pose proof (grad_slope2 c Hc) as G. assert (C : (a = 0 \/ a = 1)%Z) by lia.
  destruct C as [-> | ->]; split; intros p;
  first
   [ apply (isa_ext (fun s => F c 1 p - F c 0 p)); [intros s; symmetry; apply (G s p)|]; apply isa_const
   | apply (isa_ext (fun s => F c 1 s - F c 0 s)); [intros s; symmetry; apply (G p s)|]; apply isa_minus; solve [auto]
   | apply (isa_ext (fun s => F c s 1 - F c s 0)); [intros s; symmetry; apply (G s p)|]; apply isa_minus; solve [auto]
   | apply (isa_ext (fun s => F c p 1 - F c p 0)); [intros s; symmetry; apply (G p s)|]; apply isa_const ].
Qed.
Lemma dens2_isq m : (forall y, isq (fun x => dens2 m D x y)) /\ (forall x, isq (dens2 m D x)).
Proof.
  split; intros p; unfold dens2; apply density_isq; repeat apply isa_plus; first [apply isa_const|apply grad_isa2; lia].
Qed.
End Cell2.

Theorem exact_energy2 V ex ey w D : body2 V -> is_cell2 V ex ey -> admissible (mat_at V (cellno V ex ey 0)) ->
  full w (ndofs V) -> gradient2 (inside2 V w ex ey) D ->
  exists K I, get_elem_mat2D V ex ey = Ok K /\
    is_int2 (dens2 (mat_at V (cellno V ex ey 0)) D) (v_dx V) (v_dy V) I /\
    (forall J, is_int2 (dens2 (mat_at V (cellno V ex ey 0)) D) (v_dx V) (v_dy V) J -> J = I) /\
    let q := qform 8 K (fun i => val w (cdof2 V ex ey (i / 2) (i mod 2))) in
    I <= q /\ q <= (1 + 2 / 1000000000000000) * I.
Proof.
  intros B Hc A Fw HD. pose proof B as (Sv & G & D2).
  pose proof (ge_px V G). pose proof (ge_py V G).
  set (eps := fun ex ey g v => str2 V (val w) (ex, ey) g v).
  set (sig := fun ex ey g v => gs2 V (val w) (ex, ey) g v).
  destruct (elem_energy2 V ex ey w eps sig) as (K & EK & Q & _); try assumption.
  { apply strain_field2_iff; [assumption..|reflexivity]. }
  { apply stress_field2_iff; [assumption..|reflexivity]. }
  set (m := mat_at V (cellno V ex ey 0)) in *.
  assert (Fx : forall c y, isa (fun s => inside2 V w ex ey c s y)) by (intros; apply interp2_x).
  assert (Fy : forall c x, isa (fun s => inside2 V w ex ey c x s)) by (intros; apply interp2_y).
  destruct (dens2_isq _ D Fx Fy HD m) as (Q1 & Q2).
  assert (Pd : forall x y, 0 <= dens2 m D x y) by (intros; destruct A; now apply density_pos).
  destruct gpt_sq as (G1 & G2).
  destruct (rule2 gpt slack G1 G2 slack_pos (dens2 m D) (v_dx V) (v_dy V)) as (HI & _ & B1 & B2); try assumption.
  set (I := simp (v_dy V) (fun y => simp (v_dx V) (fun x => dens2 m D x y))) in *.
  assert (I0 : 0 <= I) by (unfold I; apply simp_pos; [lra|]; intros; apply simp_pos; auto).
  exists K, I. split; [exact EK|]. split; [exact HI|]. split.
  { intros J HJ. apply (is_int2_unique (dens2 m D) (dens2 m D) (v_dx V) (v_dy V)); try assumption; try lra; reflexivity. }
  cbv zeta in *. rewrite Q.
  rewrite (rsum_ext _ _ (fun g => dens2 m D (gpos (v_dx V) g 0) (gpos (v_dy V) g 1) * (v_dx V * v_dy V / 4))).
  - rewrite (sum4_two (v_dx V) (v_dy V) (dens2 m D)). split; [exact B1|].
    eapply Rle_trans; [exact B2|]. apply Rmult_le_compat_r; [exact I0|apply slack2].
  - intros g Hg. apply in_zrange in Hg. f_equal.
    destruct (strain2_gradient V w ex ey g B Fw Hc Hg) as (l & D' & El & HD' & L0 & L1 & L2).
    assert (X : forall c a, (0 <= c < 2)%Z -> (0 <= a < 2)%Z -> D' c a = D c a (gpos (v_dx V) g 0) (gpos (v_dy V) g 1)).
    { intros c a Hcc Ha. destruct (HD c (gpos (v_dx V) g 0) (gpos (v_dy V) g 1) Hcc) as (T0 & T1).
      destruct (HD' c Hcc) as (U0 & U1). assert (C : (a = 0 \/ a = 1)%Z) by lia.
      destruct C as [-> | ->]; eapply uniqueness_limite; eassumption. }
    assert (El' : forall v, (0 <= v < 3)%Z -> eps ex ey g v = lget l v).
    { intros v Hv. pose proof (full_rep _ _ Fw) as Uw. rewrite (ndofs2 V Sv D2) in Uw.
      assert (E2 : get_strain2D V w ex ey g = Ok (strain2 V (val w) (ex, ey) g)) by (apply strain2_ok; [exact Uw|now apply in_els2]). rewrite E2 in El. inversion El. unfold eps. now rewrite strain2_str. }
    unfold dens2. rewrite <- !X by lia. rewrite <- L0, <- L1, <- L2, <- !El' by lia.
    transitivity (quad 3 (ctan2 (m_E m) (m_nu m)) (eps ex ey g)).
    + unfold dot, quad. apply rsum_ext. intros v Hv. apply in_zrange in Hv. f_equal. unfold sig. rewrite gs2_tsig by assumption.
      unfold tsig2, tan2. rewrite <- cellno_ix2. reflexivity.
    + destruct A. fold m in ad_E, ad_nu1, ad_nu2. rewrite quad2 by lra. unfold density. field. lra.
Qed.

(** ** The gradient exists *)
Lemma has_gradient3 V w ex ey ez : exists D, gradient3 (inside3 V w ex ey ez) D.
Proof.
  set (F := inside3 V w ex ey ez).
  exists (fun c a X Y Zc => if (a =? 0)%Z then F c 1 Y Zc - F c 0 Y Zc else if (a =? 1)%Z then F c X 1 Zc - F c X 0 Zc else F c X Y 1 - F c X Y 0).
  intros c X Y Zc _. cbn [Z.eqb Pos.eqb]. split; [|split].
  - destruct (interp3_x V (fun n => val w (cdof3 V ex ey ez n c)) Y Zc) as (a & b & H). fold (inside3 V w ex ey ez c) in H. fold F in H.
    replace (F c 1 Y Zc - F c 0 Y Zc) with b by (rewrite !H; ring). now apply (derivable_aff _ a).
  - destruct (interp3_y V (fun n => val w (cdof3 V ex ey ez n c)) X Zc) as (a & b & H). fold (inside3 V w ex ey ez c) in H. fold F in H.
    replace (F c X 1 Zc - F c X 0 Zc) with b by (rewrite !H; ring). now apply (derivable_aff _ a).
  - destruct (interp3_z V (fun n => val w (cdof3 V ex ey ez n c)) X Y) as (a & b & H). fold (inside3 V w ex ey ez c) in H. fold F in H.
    replace (F c X Y 1 - F c X Y 0) with b by (rewrite !H; ring). now apply (derivable_aff _ a).
Qed.
Lemma has_gradient2 V w ex ey : exists D, gradient2 (inside2 V w ex ey) D.
Proof.
  set (F := inside2 V w ex ey).
  exists (fun c a X Y => if (a =? 0)%Z then F c 1 Y - F c 0 Y else F c X 1 - F c X 0).
  intros c X Y _. cbn [Z.eqb Pos.eqb]. split.
  - destruct (interp2_x V (fun n => val w (cdof2 V ex ey n c)) Y) as (a & b & H). fold (inside2 V w ex ey c) in H. fold F in H.
    replace (F c 1 Y - F c 0 Y) with b by (rewrite !H; ring). now apply (derivable_aff _ a).
  - destruct (interp2_y V (fun n => val w (cdof2 V ex ey n c)) X) as (a & b & H). fold (inside2 V w ex ey c) in H. fold F in H.
    replace (F c X 1 - F c X 0) with b by (rewrite !H; ring). now apply (derivable_aff _ a).
Qed.
