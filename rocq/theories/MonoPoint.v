(** The return mapping is a projection: the stress is a monotone and non-expansive function of the strain. *)
From Coq Require Import Reals Lra Psatz.
From Verif Require Import Base Scalar AssemblyModel AsmPure FemGen FemMat FemPd PlastProps AsmSpec AsmPoint.
Open Scope Z_scope.
Open Scope R_scope.

(** complementary energy of a stress *)
Definition compliance (m : material R) (t : Z -> R) : R :=
  contract6 (dev6 t) (dev6 t) / (2 * m_mu m) + trace6 t * trace6 t / (9 * (m_lambda m + 2 * m_mu m / 3)).

Lemma tdot_zero x y : frob2 x = 0 -> tdot x y = 0.
Proof.
  intros H. assert (Q : forall a, a * a = 0 -> a = 0) by (intros a Ha; now apply Rsqr_0_uniq).
  unfold frob2 in H. pose proof (Rle_0_sqr (x 0%Z)); pose proof (Rle_0_sqr (x 1%Z)); pose proof (Rle_0_sqr (x 2%Z));
    pose proof (Rle_0_sqr (x 3%Z)); pose proof (Rle_0_sqr (x 4%Z)); pose proof (Rle_0_sqr (x 5%Z)); unfold Rsqr in *.
  unfold tdot. rewrite (Q (x 0%Z)), (Q (x 1%Z)), (Q (x 2%Z)), (Q (x 3%Z)), (Q (x 4%Z)), (Q (x 5%Z)) by lra. ring.
Qed.
Lemma tdot_sym x y : tdot x y = tdot y x. Proof. unfold tdot. ring. Qed.
Lemma tdot_cs x y : tdot x y <= sqrt (frob2 x) * sqrt (frob2 y).
Proof.
  pose proof (frob2_nonneg x) as X. pose proof (frob2_nonneg y) as Y.
  pose proof (sqrt_pos (frob2 x)) as A. pose proof (sqrt_pos (frob2 y)) as B.
  pose proof (sqrt_sqrt _ X) as A2. pose proof (sqrt_sqrt _ Y) as B2.
  set (a := sqrt (frob2 x)) in *. set (b := sqrt (frob2 y)) in *.
  destruct (Req_dec a 0) as [a0|a0]; [rewrite tdot_zero by nra; nra|].
  destruct (Req_dec b 0) as [b0|b0]; [rewrite tdot_sym, tdot_zero by nra; nra|].
  pose proof (frob2_nonneg (fun i => b * x i - a * y i)) as N.
  assert (E : frob2 (fun i => b * x i - a * y i) = b * b * frob2 x + a * a * frob2 y - 2 * (a * b) * tdot x y) by (unfold frob2, tdot; ring).
  rewrite E, <- A2, <- B2 in N. assert (P : 0 < a * b) by nra.
  assert (2 * (a * b) * (a * b - tdot x y) >= 0) by lra. nra.
Qed.

(** scaling of a tensor back to the ball of radius r *)
Definition shrinks (r : R) (x : Z -> R) (c : R) : Prop :=
  0 <= c <= 1 /\ c * sqrt (frob2 x) <= r /\ (c < 1 -> c * sqrt (frob2 x) = r).
Lemma firm r x y c d : 0 <= r -> shrinks r x c -> shrinks r y d ->
  let P i := c * x i - d * y i in let Q i := x i - y i in frob2 P <= tdot P Q <= frob2 Q.
Proof.
  intros Hr (C1 & C2 & C3) (D1 & D2 & D3) P Q.
  pose proof (tdot_cs x y) as T. pose proof (sqrt_sqrt _ (frob2_nonneg x)) as A2. pose proof (sqrt_sqrt _ (frob2_nonneg y)) as B2.
  pose proof (sqrt_pos (frob2 x)) as A. pose proof (sqrt_pos (frob2 y)) as B.
  set (a := sqrt (frob2 x)) in *. set (b := sqrt (frob2 y)) in *. set (t := tdot x y) in *.
  assert (E : tdot P Q - frob2 P = c * (1 - c) * (a * a) + d * (1 - d) * (b * b) - (c * (1 - d) + d * (1 - c)) * t).
  { rewrite A2, B2. unfold P, Q, t, tdot, frob2. ring. }
  assert (W : 0 <= c * (1 - d) + d * (1 - c)) by (pose proof (Rmult_le_pos c (1 - d)); pose proof (Rmult_le_pos d (1 - c)); lra).
  assert (F : 0 <= (c * a - d * b) * ((a - c * a) - (b - d * b))).
  { assert (0 <= (1 - c) * a) by (apply Rmult_le_pos; lra). assert (0 <= (1 - d) * b) by (apply Rmult_le_pos; lra).
    destruct (Rlt_dec c 1) as [c1|c1].
    - pose proof (C3 c1). destruct (Rlt_dec d 1) as [d1|d1].
      + pose proof (D3 d1). replace (c * a - d * b) with 0 by lra. lra.
      + replace d with 1 in * by lra. apply Rmult_le_pos; nra.
    - replace c with 1 in * by lra. destruct (Rlt_dec d 1) as [d1|d1].
      + pose proof (D3 d1). replace ((1 * a - d * b) * (a - 1 * a - (b - d * b))) with ((d * b - a) * ((1 - d) * b)) by ring.
        apply Rmult_le_pos; nra.
      + replace d with 1 by lra. lra. }
  assert (G : 0 <= tdot P Q - frob2 P).
  { rewrite E. pose proof (Rmult_le_compat_l _ _ _ W T) as M.
    replace ((c * a - d * b) * (a - c * a - (b - d * b)))
      with (c * (1 - c) * (a * a) + d * (1 - d) * (b * b) - (c * (1 - d) + d * (1 - c)) * (a * b)) in F by ring. lra. }
  split; [lra|]. pose proof (frob2_nonneg (fun i => P i - Q i)) as N.
  assert (E2 : frob2 (fun i => P i - Q i) = frob2 P - 2 * tdot P Q + frob2 Q) by (unfold frob2, tdot; ring). lra.
Qed.

(** the factor of one plastic step *)
Definition factor (m : material R) eps ep al : R :=
  if ps_nl (plastic_step m eps ep al) then 1 - ftrial m eps ep al / sqrt (frob2 (trial m eps ep)) else 1.
Lemma factor_ok m eps ep al : 0 < m_mu m -> 0 <= m_Sy m + m_Ka m * al ->
  shrinks (sqrt (2 / 3) * (m_Sy m + m_Ka m * al)) (trial m eps ep) (factor m eps ep al) /\
  (forall i, (0 <= i < 6)%Z -> lget (ps_stress (plastic_step m eps ep al)) i =
     (if (i <? 3)%Z then m_k m * tr eps else 0) + factor m eps ep al * trial m eps ep i).
Proof.
  intros Hmu Hy. destruct (step_forms m eps ep al Hmu) as (N & S & _). cbv zeta in N, S.
  set (r := sqrt (2 / 3) * (m_Sy m + m_Ka m * al)). assert (Hr : 0 <= r) by (apply Rmult_le_pos; [apply sqrt_pos|exact Hy]).
  pose proof (sqrt_pos (frob2 (trial m eps ep))) as A. unfold shrinks, factor.
  assert (Ef : ftrial m eps ep al = sqrt (frob2 (trial m eps ep)) - r) by reflexivity.
  set (a := sqrt (frob2 (trial m eps ep))) in *. set (p := plastic_step m eps ep al) in *. split.
  - destruct (ps_nl p).
    + assert (F : 0 < ftrial m eps ep al) by now apply N. assert (0 < a) by lra.
      assert (E : (1 - ftrial m eps ep al / a) * a = r) by (rewrite Ef; field; lra).
      assert (E2 : 1 - ftrial m eps ep al / a = r / a) by (rewrite Ef; field; lra).
      split; [|split; [lra|intros; exact E]]. rewrite E2. split; [apply Rmult_le_pos; [exact Hr|left; now apply Rinv_0_lt_compat]|].
      apply (Rmult_le_reg_r a); [assumption|]. unfold Rdiv. rewrite Rmult_assoc, Rinv_l by lra. lra.
    + assert (~ 0 < ftrial m eps ep al) by (intros H; apply N in H; discriminate). split; [lra|]. split; [lra|lra].
  - intros i Hi. destruct (S i Hi) as (_ & ->). destruct (ps_nl p) eqn:En; [|ring].
    assert (F : 0 < ftrial m eps ep al) by now apply N. assert (0 < a) by lra. field. lra.
Qed.

Lemma dot6 s e : dot 6 s e = s 0%Z * e 0%Z + s 1%Z * e 1%Z + s 2%Z * e 2%Z + s 3%Z * e 3%Z + s 4%Z * e 4%Z + s 5%Z * e 5%Z.
Proof. unfold dot. rewrite zr6. cbn [rsum]. ring. Qed.

(** two strains, same history *)
Lemma mono_step m e1 e2 ep al : 0 < m_mu m -> 0 < m_k m -> m_k m = m_lambda m + 2 * m_mu m / 3 -> 0 <= m_Sy m + m_Ka m * al ->
  let D i := lget (ps_stress (plastic_step m e1 ep al)) i - lget (ps_stress (plastic_step m e2 ep al)) i in
  let E i := lget e1 i - lget e2 i in
  compliance m D <= dot 6 D E <= dot 6 (hooke m E) E.
Proof.
  intros Hmu Hk Ek Hy D E. destruct (factor_ok m e1 ep al Hmu Hy) as (S1 & F1). destruct (factor_ok m e2 ep al Hmu Hy) as (S2 & F2).
  set (c := factor m e1 ep al) in *. set (d := factor m e2 ep al) in *.
  assert (Hr : 0 <= sqrt (2 / 3) * (m_Sy m + m_Ka m * al)) by (apply Rmult_le_pos; [apply sqrt_pos|exact Hy]).
  pose proof (firm _ _ _ _ _ Hr S1 S2) as F. cbv zeta in F.
  set (P := fun i => c * trial m e1 ep i - d * trial m e2 ep i) in *.
  set (Q := fun i => trial m e1 ep i - trial m e2 ep i) in *.
  assert (TP : P 0%Z + P 1%Z + P 2%Z = 0).
  { unfold P. replace (_ + _) with (c * (trial m e1 ep 0 + trial m e1 ep 1 + trial m e1 ep 2) - d * (trial m e2 ep 0 + trial m e2 ep 1 + trial m e2 ep 2)) by ring.
    rewrite !trial_tr. ring. }
  set (T := E 0%Z + E 1%Z + E 2%Z).
  assert (HD : forall i, (0 <= i < 6)%Z -> D i = (if (i <? 3)%Z then m_k m * T else 0) + P i).
  { intros i Hi. unfold D, P. rewrite F1, F2 by assumption. unfold T, E, tr. destruct (i <? 3)%Z; ring. }
  assert (HQ : forall i, (0 <= i < 6)%Z -> Q i = if (i <? 3)%Z then 2 * m_mu m * (E i - T / 3) else m_mu m * E i).
  { intros i Hi. unfold Q, trial, T, E, tr. destruct (i <? 3)%Z; field. }
  assert (EPQ : tdot P Q = 2 * m_mu m * (dot 6 D E - m_k m * T * T)).
  { rewrite dot6, !HD by lia. unfold tdot. rewrite !HQ by lia. cbn [Z.ltb Z.compare Pos.compare Pos.compare_cont].
    replace (P 2%Z) with (- P 0%Z - P 1%Z) by lra. unfold T. field. }
  assert (EQQ : frob2 Q = 2 * m_mu m * (dot 6 (hooke m E) E - m_k m * T * T)).
  { rewrite dot6. unfold frob2, hooke. rewrite !HQ by lia. cbn [Z.ltb Z.compare Pos.compare Pos.compare_cont].
    rewrite Ek. unfold T. field. }
  assert (EPP : frob2 P = 2 * m_mu m * (compliance m D - m_k m * T * T)).
  { unfold compliance. rewrite <- Ek. unfold contract6, dev6, trace6. rewrite !HD by lia. cbn [Z.ltb Z.compare Pos.compare Pos.compare_cont].
    unfold frob2. replace (P 2%Z) with (- P 0%Z - P 1%Z) by lra. field. lra. }
  assert (M : 0 < 2 * m_mu m) by lra. split; apply (Rmult_le_reg_l _ _ _ M).
  - assert (2 * m_mu m * (compliance m D - m_k m * T * T) <= 2 * m_mu m * (dot 6 D E - m_k m * T * T)) by lra. lra.
  - assert (2 * m_mu m * (dot 6 D E - m_k m * T * T) <= 2 * m_mu m * (dot 6 (hooke m E) E - m_k m * T * T)) by lra. lra.
Qed.
