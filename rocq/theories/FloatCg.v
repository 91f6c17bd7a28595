(** The conjugate gradient solver in IEEE doubles: how far the residual it carries along can
    drift from the residual of the vector it returns. *)
From Coq Require Import Reals Lra ZifyBool ZifyNat.
From Flocq Require Import BinarySingleNaN.
From Verif Require Import Base Scalar MonoBody ConvexMin BinInst FloatSum EllModel EllSpec EllInit EllAsm EllOp EllFinal CgPure CgFinal.
Open Scope Z_scope.
Open Scope R_scope.

Lemma uro_small : uro <= / 1000.
Proof. rewrite uro_val. lra. Qed.
Lemma eta_small : eta <= tiny.
Proof. rewrite eta_tiny. pose proof uro_small. pose proof tiny_pos. nra. Qed.

(** the product of a row in doubles *)
Lemma mvf_near : forall nnz cf (vf x : Z -> flt) i, fin (mvf nnz cf vf x i) ->
  near (S (Z.to_nat nnz)) (mvf nnz cf vf x i)
    (rsum (zrange 0 nnz) (fun j => val (vf (i * nnz + j)%Z) * val (x (cf (i * nnz + j)%Z))))
    (rsum (zrange 0 nnz) (fun j => Rabs (val (vf (i * nnz + j)%Z)) * Rabs (val (x (cf (i * nnz + j)%Z)))) + INR (Z.to_nat nnz) * tiny).
Proof.
  intros nnz cf vf x i F. pose proof (dot_near (zrange 0 nnz) (fun j => vf (i * nnz + j)%Z) (fun j => x (cf (i * nnz + j)%Z)) F) as D.
  rewrite length_zrange, Z.sub_0_r in D. exact D.
Qed.
Lemma mvf_fin : forall nnz cf (vf x : Z -> flt) i, fin (mvf nnz cf vf x i) ->
  forall j, (0 <= j < nnz)%Z -> fin (vf (i * nnz + j)%Z) /\ fin (x (cf (i * nnz + j)%Z)).
Proof. intros nnz cf vf x i F j J. apply fin_mul. apply (sumf_fin _ _ F). apply in_zrange. exact J. Qed.

Lemma cancel_le : forall a b c : R, (1 - uro) * a <= b -> b <= (1 - uro) * c -> a <= c.
Proof. intros a b c H K. pose proof uro_small. apply Rmult_le_reg_l with (1 - uro); lra. Qed.

(** one update  x -= d * p  of numbers that stay below X *)
Lemma update_error : forall (x d p : flt) X, fin (osub x (omul d p)) -> Rabs (val x) <= X -> Rabs (val (osub x (omul d p))) <= X ->
  Rabs (val (osub x (omul d p)) - (val x - val d * val p)) <= 4 * uro * X + 2 * eta /\ Rabs (val d * val p) <= 3 * X + 2 * eta.
Proof.
  intros x d p X F Hx Hy. pose proof (sub_error _ _ F) as E1. destruct (fin_sub _ _ F) as [_ F2]. pose proof (mul_error _ _ F2) as E2.
  set (y := val (osub x (omul d p))) in *. set (w := val (omul d p)) in *. set (v := val d * val p) in *. set (x0 := val x) in *.
  pose proof uro_pos as U. pose proof uro_small as U'. pose proof eta_pos as P.
  assert (X0 : 0 <= X) by (pose proof (Rabs_pos x0); lra).
  assert (A1 : Rabs (x0 - w) <= (1 + 2 * uro) * X).
  { assert (Rabs (x0 - w) <= Rabs y + Rabs (y - (x0 - w))).
    { replace (x0 - w) with (y + - (y - (x0 - w))) at 1 by ring. eapply Rle_trans; [apply Rabs_triang|]. rewrite Rabs_Ropp. lra. }
    assert ((1 - uro) * Rabs (x0 - w) <= X) by lra.
    apply (cancel_le _ X); [lra|].
    assert (0 <= uro * X * (1 - 2 * uro)) by (apply Rmult_le_pos; [apply Rmult_le_pos|]; lra). lra. }
  assert (A2 : Rabs w <= (2 + 2 * uro) * X).
  { replace w with (x0 + - (x0 - w)) by ring. eapply Rle_trans; [apply Rabs_triang|]. rewrite Rabs_Ropp. lra. }
  assert (A3 : Rabs v <= (2 + 7 * uro) * X + 2 * eta).
  { assert (Rabs v <= Rabs w + Rabs (w - v)).
    { replace v with (w + - (w - v)) at 1 by ring. eapply Rle_trans; [apply Rabs_triang|]. rewrite Rabs_Ropp. lra. }
    assert ((1 - uro) * Rabs v <= (2 + 2 * uro) * X + eta) by lra.
    apply (cancel_le _ ((2 + 2 * uro) * X + eta)); [lra|].
    assert (0 <= uro * X * (3 - 7 * uro)) by (apply Rmult_le_pos; [apply Rmult_le_pos|]; lra).
    assert (0 <= eta * (1 - 2 * uro)) by (apply Rmult_le_pos; lra). lra. }
  assert (UX : 0 <= X * (1 - 7 * uro)) by (apply Rmult_le_pos; lra).
  split; [|lra].
  replace (y - (x0 - v)) with (y - (x0 - w) + - (w - v)) by ring. eapply Rle_trans; [apply Rabs_triang|]. rewrite Rabs_Ropp.
  assert (uro * Rabs (x0 - w) <= uro * ((1 + 2 * uro) * X)) by (apply Rmult_le_compat_l; lra).
  assert (uro * Rabs v <= uro * ((2 + 7 * uro) * X + 2 * eta)) by (apply Rmult_le_compat_l; lra).
  assert (uro * X * (9 * uro) <= uro * X * 1) by (apply Rmult_le_compat_l; [apply Rmult_le_pos|]; lra).
  assert (0 <= eta * (1 - 2 * uro)) by (apply Rmult_le_pos; lra). lra.
Qed.

Section Drift.
Variables (nnz n : Z) (cf : Z -> Z) (vf bf : Z -> flt).
Variables (xs rs ps : nat -> Z -> flt) (ds : nat -> flt).
Hypothesis Cf : forall i j, (0 <= i < n)%Z -> (0 <= j < nnz)%Z -> (0 <= cf (i * nnz + j) < n)%Z.
Hypothesis R0 : forall i, rs 0%nat i = osub (mvf nnz cf vf (xs 0%nat) i) (bf i).
Hypothesis XS : forall k i, xs (S k) i = osub (xs k i) (omul (ds k) (ps k i)).
Hypothesis RS : forall k i, rs (S k) i = osub (rs k i) (omul (ds k) (mvf nnz cf vf (ps k) i)).

(** the residual of iterate k in exact arithmetic *)
Definition true_res (k : nat) (i : Z) : R :=
  rsum (zrange 0 nnz) (fun j => val (vf (i * nnz + j)%Z) * val (xs k (cf (i * nnz + j)%Z))) - val (bf i).
(** the sum of the sizes of the entries of row i *)
Definition row_size (i : Z) : R := rsum (zrange 0 nnz) (fun j => Rabs (val (vf (i * nnz + j)%Z))).
Lemma row_size_pos : forall i, 0 <= row_size i.
Proof. intro i. unfold row_size. apply rsum_nonneg. intros. apply Rabs_pos. Qed.

Lemma weighted : forall i (h : Z -> R) B, (forall j, (0 <= j < nnz)%Z -> Rabs (h j) <= B) ->
  rsum (zrange 0 nnz) (fun j => Rabs (val (vf (i * nnz + j)%Z)) * Rabs (h j)) <= row_size i * B.
Proof.
  intros i h B H. unfold row_size. rewrite <- rsum_scal_r. apply rsum_le. intros j J. apply in_zrange in J.
  apply Rmult_le_compat_l; [apply Rabs_pos|]. apply H. exact J.
Qed.

Variables (X Rm D : R) (K : nat).
Hypothesis HX : forall k i, (k <= K)%nat -> (0 <= i < n)%Z -> Rabs (val (xs k i)) <= X.
Hypothesis HR : forall k i, (k <= K)%nat -> (0 <= i < n)%Z -> Rabs (val (rs k i)) <= Rm.
Hypothesis D0 : 0 <= D.
Hypothesis HD : forall k, (k < K)%nat -> Rabs (val (ds k)) <= D.
Hypothesis FX : forall i, (0 <= i < n)%Z -> fin (xs K i).
Hypothesis FR : forall i, (0 <= i < n)%Z -> fin (rs K i).
Let g := gam (S (Z.to_nat nnz)).

Lemma fin_back : forall d k i, (k + d = K)%nat -> (0 <= i < n)%Z -> fin (xs k i) /\ fin (rs k i).
Proof.
  induction d as [|d IH]; intros k i E I.
  - replace k with K by lia. split; [apply FX|apply FR]; exact I.
  - destruct (IH (S k) i ltac:(lia) I) as [A B]. rewrite XS in A. rewrite RS in B.
    apply fin_sub in A. apply fin_sub in B. tauto.
Qed.
Lemma g_uro : uro <= g.
Proof. unfold g. rewrite <- gam_1. apply gam_le. lia. Qed.
Lemma g_pos : 0 <= g. Proof. apply gam_pos. Qed.

(** the price of one step *)
Definition step_cost (i : Z) : R :=
  g * (7 * row_size i * X + 4 * Rm + (4 * row_size i + 2 + INR (Z.to_nat nnz) * (D + 1)) * tiny).

Lemma start_drift : forall i, (0 <= i < n)%Z -> Rabs (val (rs 0%nat i) - true_res 0 i) <=
  g * (row_size i * X + 2 * Rm + INR (Z.to_nat nnz) * tiny).
Proof.
  intros i I. destruct (fin_back K 0%nat i ltac:(lia) I) as [_ F]. pose proof (HR 0 i ltac:(lia) I) as H.
  rewrite R0 in *. pose proof (sub_error _ _ F) as E. destruct (fin_sub _ _ F) as [F1 _].
  destruct (mvf_near _ _ _ _ _ F1) as [M _]. fold g in M.
  assert (W := weighted i (fun j => val (xs 0%nat (cf (i * nnz + j)%Z))) X ltac:(intros j J; apply HX; [lia|apply Cf; assumption])).
  unfold true_res. set (v := val (mvf nnz cf vf (xs 0%nat) i)) in *. set (y := val (osub _ _)) in *.
  set (s := rsum _ (fun j => val (vf (i * nnz + j)%Z) * val (xs 0%nat (cf (i * nnz + j)%Z)))) in *.
  pose proof uro_pos as U. pose proof uro_small as U'. pose proof g_uro as G. pose proof g_pos as G0.
  assert (A1 : Rabs (v - val (bf i)) <= 2 * Rm).
  { assert (Rabs (v - val (bf i)) <= Rabs y + Rabs (y - (v - val (bf i)))).
    { replace (v - val (bf i)) with (y + - (y - (v - val (bf i)))) at 1 by ring. eapply Rle_trans; [apply Rabs_triang|]. rewrite Rabs_Ropp. lra. }
    assert (uro * Rabs (v - val (bf i)) <= / 1000 * Rabs (v - val (bf i))) by (apply Rmult_le_compat_r; [apply Rabs_pos|lra]).
    pose proof (Rabs_pos y). lra. }
  replace (y - (s - val (bf i))) with (y - (v - val (bf i)) + (v - s)) by ring. eapply Rle_trans; [apply Rabs_triang|].
  assert (uro * Rabs (v - val (bf i)) <= g * (2 * Rm)) by (apply Rmult_le_compat; try apply Rabs_pos; lra).
  assert (Rabs (v - s) <= g * (row_size i * X + INR (Z.to_nat nnz) * tiny)).
  { eapply Rle_trans; [exact M|]. apply Rmult_le_compat_l; [exact G0|]. lra. }
  lra.
Qed.

Lemma one_drift : forall k i, (k < K)%nat -> (0 <= i < n)%Z ->
  Rabs ((val (rs (S k) i) - true_res (S k) i) - (val (rs k i) - true_res k i)) <= step_cost i.
Proof.
  intros k i Hk I. pose proof uro_pos as U. pose proof uro_small as U'. pose proof g_uro as G. pose proof g_pos as G0.
  pose proof tiny_pos as T0. pose proof eta_pos as E0. pose proof eta_small as E1. pose proof (row_size_pos i) as RS0.
  assert (Xn : forall j, (0 <= j < n)%Z ->
    Rabs (val (xs (S k) j) - (val (xs k j) - val (ds k) * val (ps k j))) <= 4 * uro * X + 2 * eta /\ Rabs (val (ds k) * val (ps k j)) <= 3 * X + 2 * eta).
  { intros j J. destruct (fin_back (K - S k) (S k) j ltac:(lia) J) as [F _]. pose proof (HX (S k) j ltac:(lia) J) as H1.
    rewrite XS in *. apply update_error; [exact F|apply HX; [lia|exact J]|exact H1]. }
  assert (Rn : Rabs (val (rs (S k) i) - (val (rs k i) - val (ds k) * val (mvf nnz cf vf (ps k) i))) <= 4 * uro * Rm + 2 * eta /\ fin (mvf nnz cf vf (ps k) i)).
  { destruct (fin_back (K - S k) (S k) i ltac:(lia) I) as [_ F]. pose proof (HR (S k) i ltac:(lia) I) as H1.
    rewrite RS in *. split; [apply update_error; [exact F|apply HR; [lia|exact I]|exact H1]|].
    apply fin_sub in F. destruct F as [_ F]. apply fin_mul in F. tauto. }
  destruct Rn as [Rn Fq]. destruct (mvf_near _ _ _ _ _ Fq) as [M _]. fold g in M.
  set (q := val (mvf nnz cf vf (ps k) i)) in *. set (d := val (ds k)) in *.
  set (Ap := rsum (zrange 0 nnz) (fun j => val (vf (i * nnz + j)%Z) * val (ps k (cf (i * nnz + j)%Z)))) in *.
  set (xi := fun j : Z => val (xs (S k) j) - (val (xs k j) - d * val (ps k j))).
  assert (TR : true_res (S k) i = true_res k i - d * Ap + rsum (zrange 0 nnz) (fun j => val (vf (i * nnz + j)%Z) * xi (cf (i * nnz + j)%Z))).
  { unfold true_res, Ap, xi. rewrite <- rsum_scal. 
    rewrite (rsum_ext _ (fun j => val (vf (i * nnz + j)%Z) * val (xs (S k) (cf (i * nnz + j)%Z)))
      (fun j => (val (vf (i * nnz + j)%Z) * val (xs k (cf (i * nnz + j)%Z)) + - (d * (val (vf (i * nnz + j)%Z) * val (ps k (cf (i * nnz + j)%Z))))) +
        val (vf (i * nnz + j)%Z) * (val (xs (S k) (cf (i * nnz + j)%Z)) - (val (xs k (cf (i * nnz + j)%Z)) - d * val (ps k (cf (i * nnz + j)%Z))))))
      by (intros; ring).
    rewrite !rsum_plus, rsum_opp. ring. }
  rewrite TR.
  set (Sx := rsum (zrange 0 nnz) (fun j => val (vf (i * nnz + j)%Z) * xi (cf (i * nnz + j)%Z))) in *.
  set (rho := val (rs (S k) i) - (val (rs k i) - d * q)) in *.
  replace (val (rs (S k) i) - (true_res k i - d * Ap + Sx) - (val (rs k i) - true_res k i)) with (rho + (- (d * (q - Ap)) + - Sx)) by (unfold rho; ring).
  assert (B1 : Rabs Sx <= row_size i * (4 * uro * X + 2 * eta)).
  { unfold Sx, row_size. apply (rsum_abs_le _ (fun j => val (vf (i * nnz + j)%Z)) (fun j => xi (cf (i * nnz + j)%Z))).
    intros j J. apply in_zrange in J. apply Xn. apply Cf; assumption. }
  assert (B2 : Rabs (d * (q - Ap)) <= g * (row_size i * (3 * X + 2 * eta) + INR (Z.to_nat nnz) * D * tiny)).
  { rewrite Rabs_mult. 
    apply Rle_trans with (Rabs d * (g * (rsum (zrange 0 nnz) (fun j => Rabs (val (vf (i * nnz + j)%Z)) * Rabs (val (ps k (cf (i * nnz + j)%Z)))) + INR (Z.to_nat nnz) * tiny))).
    { apply Rmult_le_compat_l; [apply Rabs_pos|exact M]. }
    replace (Rabs d * (g * (rsum (zrange 0 nnz) (fun j => Rabs (val (vf (i * nnz + j)%Z)) * Rabs (val (ps k (cf (i * nnz + j)%Z)))) + INR (Z.to_nat nnz) * tiny)))
      with (g * (Rabs d * rsum (zrange 0 nnz) (fun j => Rabs (val (vf (i * nnz + j)%Z)) * Rabs (val (ps k (cf (i * nnz + j)%Z)))) + INR (Z.to_nat nnz) * Rabs d * tiny)) by ring.
    apply Rmult_le_compat_l; [exact G0|]. apply Rplus_le_compat.
    - rewrite <- rsum_scal.
      rewrite (rsum_ext _ _ (fun j => Rabs (val (vf (i * nnz + j)%Z)) * Rabs (d * val (ps k (cf (i * nnz + j)%Z))))) by (intros; rewrite Rabs_mult; ring).
      apply (weighted i (fun j => d * val (ps k (cf (i * nnz + j)%Z)))). intros j J. apply Xn. apply Cf; assumption.
    - apply Rmult_le_compat_r; [lra|]. apply Rmult_le_compat_l; [apply pos_INR|]. apply HD. exact Hk. }
  eapply Rle_trans; [apply Rabs_triang|].
  assert (C : Rabs (- (d * (q - Ap)) + - Sx) <= Rabs (d * (q - Ap)) + Rabs Sx).
  { eapply Rle_trans; [apply Rabs_triang|]. rewrite !Rabs_Ropp. lra. }
  assert (X0 : 0 <= X) by (eapply Rle_trans; [apply Rabs_pos|apply (HX k i); [lia|exact I]]).
  assert (Rm0 : 0 <= Rm) by (eapply Rle_trans; [apply Rabs_pos|apply (HR k i); [lia|exact I]]).
  unfold step_cost.
  assert (Q1 : row_size i * (4 * uro * X) <= g * (4 * row_size i * X)).
  { replace (row_size i * (4 * uro * X)) with (uro * (4 * row_size i * X)) by ring. apply Rmult_le_compat_r; [|lra].
    apply Rmult_le_pos; [|exact X0]. lra. }
  assert (Q2 : 4 * uro * Rm <= g * (4 * Rm)) by nra.
  assert (Et : eta <= g * tiny) by (rewrite eta_tiny; apply Rmult_le_compat_r; lra).
  assert (Q3 : row_size i * (2 * eta) <= g * (2 * row_size i * tiny)).
  { replace (g * (2 * row_size i * tiny)) with (row_size i * (2 * (g * tiny))) by ring. apply Rmult_le_compat_l; lra. }
  assert (Q4 : g * (row_size i * (2 * eta)) <= g * (2 * row_size i * tiny)).
  { apply Rmult_le_compat_l; [exact G0|]. replace (2 * row_size i * tiny) with (row_size i * (2 * tiny)) by ring. apply Rmult_le_compat_l; lra. }
  assert (Q5 : 0 <= g * (INR (Z.to_nat nnz) * tiny)) by (apply Rmult_le_pos; [exact G0|apply Rmult_le_pos; [apply pos_INR|lra]]).
  rewrite !Rmult_plus_distr_l in B1, B2.
  replace (g * (7 * row_size i * X + 4 * Rm + (4 * row_size i + 2 + INR (Z.to_nat nnz) * (D + 1)) * tiny))
    with (g * (4 * row_size i * X) + g * (row_size i * (3 * X)) + g * (4 * Rm) + (g * (2 * row_size i * tiny) + g * (2 * row_size i * tiny) + 2 * (g * tiny)
      + g * (INR (Z.to_nat nnz) * D * tiny) + g * (INR (Z.to_nat nnz) * tiny))) by ring.
  lra.
Qed.

Lemma drift : forall i, (0 <= i < n)%Z -> forall k, (k <= K)%nat -> Rabs (val (rs k i) - true_res k i) <= INR (S k) * step_cost i.
Proof.
  intros i I. induction k as [|k IH]; intro Hk.
  - eapply Rle_trans; [apply start_drift; exact I|]. simpl. rewrite Rmult_1_l. unfold step_cost.
    apply Rmult_le_compat_l; [apply g_pos|].
    assert (X0 : 0 <= X) by (eapply Rle_trans; [apply Rabs_pos|apply (HX 0%nat i); [lia|exact I]]).
    assert (Rm0 : 0 <= Rm) by (eapply Rle_trans; [apply Rabs_pos|apply (HR 0%nat i); [lia|exact I]]).
    pose proof (row_size_pos i) as RS0. pose proof tiny_pos as T0.
    assert (0 <= row_size i * X) by (apply Rmult_le_pos; assumption).
    assert (0 <= INR (Z.to_nat nnz) * D * tiny) by (repeat apply Rmult_le_pos; try apply pos_INR; lra).
    assert (0 <= row_size i * tiny) by (apply Rmult_le_pos; lra). lra.
  - specialize (IH ltac:(lia)). pose proof (one_drift k i ltac:(lia) I) as H.
    replace (val (rs (S k) i) - true_res (S k) i) with
      ((val (rs (S k) i) - true_res (S k) i - (val (rs k i) - true_res k i)) + (val (rs k i) - true_res k i)) by ring.
    eapply Rle_trans; [apply Rabs_triang|]. rewrite (S_INR (S k)). lra.
Qed.
End Drift.

(** the norm computed in doubles bounds every entry *)
Lemma norm_entry : forall n (r : Z -> flt), gam (S (Z.to_nat n)) <= / 2 -> fin (osqrt (dotf n r r)) ->
  (forall i, (0 <= i < n)%Z -> fin (r i)) /\
  sqrt (rsum (zrange 0 n) (fun i => val (r i) * val (r i))) <=
    (1 + 4 * gam (S (Z.to_nat n))) * (val (osqrt (dotf n r r)) + eta) + 2 * sqrt (INR (Z.to_nat n) * tiny).
Proof.
  intros n r G F. destruct (fin_sqrt _ F) as [Fd Pd]. split.
  { intros i I. apply (fin_mul (r i) (r i)). apply (sumf_fin _ _ Fd). apply in_zrange. exact I. }
  pose proof (dot_near (zrange 0 n) r r Fd) as [D _]. fold (dotf n r r) in D. rewrite length_zrange, Z.sub_0_r in D.
  rewrite (rsum_ext _ (fun x => Rabs (val (r x)) * Rabs (val (r x))) (fun x => val (r x) * val (r x))) in D
    by (intros; rewrite <- Rabs_mult, Rabs_pos_eq; [reflexivity|apply Rle_0_sqr]).
  pose proof (sqrt_error (dotf n r r)) as E.
  set (g := gam _) in *. set (s := val (dotf n r r)) in *. set (e := val (osqrt (dotf n r r))) in *.
  set (ss := rsum _ _) in *. set (t := INR (Z.to_nat n) * tiny) in *.
  pose proof uro_pos as U. pose proof uro_small as U'. pose proof eta_pos as E0.
  assert (G0 : uro <= g) by (unfold g; rewrite <- gam_1; apply gam_le; lia).
  assert (T0 : 0 <= t) by (apply Rmult_le_pos; [apply pos_INR|left; apply tiny_pos]).
  assert (S0 : 0 <= ss) by (apply rsum_nonneg; intros; apply Rle_0_sqr).
  assert (P1 : (1 - uro) * sqrt s <= e + eta) by (apply abs_bound in E; lra).
  assert (P2 : sqrt s <= (1 + 2 * uro) * (e + eta)).
  { pose proof (sqrt_pos s). apply (cancel_le _ (e + eta)); [exact P1|].
    assert (0 <= (1 - uro) * sqrt s) by (apply Rmult_le_pos; lra).
    assert (0 <= uro * (1 - 2 * uro) * (e + eta)) by (repeat apply Rmult_le_pos; lra). lra. }
  assert (P3 : (1 - g) * ss <= s + g * t) by (apply abs_bound in D; lra).
  assert (P4 : ss <= ((1 + g) * (1 + g)) * (s + g * t)).
  { assert (1 <= (1 - g) * ((1 + g) * (1 + g))) by nra.
    assert (ss * 1 <= ss * ((1 - g) * ((1 + g) * (1 + g)))) by (apply Rmult_le_compat_l; assumption).
    assert ((1 - g) * ss * ((1 + g) * (1 + g)) <= (s + g * t) * ((1 + g) * (1 + g))) by (apply Rmult_le_compat_r; [nra|exact P3]). lra. }
  apply Rle_trans with ((1 + g) * (sqrt s + sqrt t)).
  - replace ((1 + g) * (sqrt s + sqrt t)) with (sqrt (((1 + g) * (sqrt s + sqrt t)) * ((1 + g) * (sqrt s + sqrt t)))).
    2:{ apply sqrt_square. apply Rmult_le_pos; [lra|]. pose proof (sqrt_pos s). pose proof (sqrt_pos t). lra. }
    apply sqrt_le_1_alt. eapply Rle_trans; [exact P4|].
    replace ((1 + g) * (sqrt s + sqrt t) * ((1 + g) * (sqrt s + sqrt t))) with
      ((1 + g) * (1 + g) * (sqrt s * sqrt s + sqrt t * sqrt t + 2 * (sqrt s * sqrt t))) by ring.
    rewrite !sqrt_sqrt by assumption. apply Rmult_le_compat_l; [nra|].
    assert (0 <= sqrt s * sqrt t) by (apply Rmult_le_pos; apply sqrt_pos).
    assert (g * t <= 1 * t) by (apply Rmult_le_compat_r; lra). lra.
  - pose proof (sqrt_pos t) as ST. pose proof (sqrt_pos s) as SS.
    assert (0 <= e + eta).
    { apply Rle_trans with ((1 - uro) * sqrt s); [apply Rmult_le_pos; lra|exact P1]. }
    assert (g * sqrt t <= 1 * sqrt t) by (apply Rmult_le_compat_r; lra).
    assert ((1 + g) * sqrt s <= (1 + g) * ((1 + 2 * uro) * (e + eta))) by (apply Rmult_le_compat_l; lra).
    assert ((1 + g) * ((1 + 2 * uro) * (e + eta)) <= (1 + 4 * g) * (e + eta)).
    { rewrite <- Rmult_assoc. apply Rmult_le_compat_r; [assumption|]. nra. }
    lra.
Qed.
Lemma rsum_term_le {A} : forall (l : list A) f x, (forall y, 0 <= f y) -> In x l -> f x <= rsum l f.
Proof.
  induction l as [|a l IH]; intros f x H I; [destruct I|]. cbn [rsum]. pose proof (H a). destruct I as [<-|I].
  - pose proof (rsum_nonneg l f (fun y _ => H y)). lra.
  - pose proof (IH f x H I). lra.
Qed.
Lemma entry_norm : forall n (r : Z -> R) i, (0 <= i < n)%Z -> Rabs (r i) <= sqrt (rsum (zrange 0 n) (fun i => r i * r i)).
Proof.
  intros n r i I. rewrite <- (sqrt_square (Rabs (r i))) by apply Rabs_pos. apply sqrt_le_1_alt.
  rewrite <- Rabs_mult, Rabs_pos_eq by apply Rle_0_sqr.
  apply (rsum_term_le (zrange 0 n) (fun i => r i * r i)); [intros; apply Rle_0_sqr|apply in_zrange; exact I].
Qed.

(** an accepted error is finite *)
Lemma less_fin : forall x t : flt, oltb (osqrt x) t = true -> fin t -> fin (osqrt x).
Proof.
  intros x t H F. pose proof (sqrt_not_minf x) as K.
  destruct (osqrt x) as [ | [] | | ]; [reflexivity|exfalso; apply K; reflexivity| | |reflexivity];
    destruct t as [ | [] | | []]; cbn in H, F; discriminate.
Qed.

(** the recurrences of the method in doubles: [A] is the stored matrix times a vector, [kf] the
    inverse of its diagonal *)
Definition cg_trace (n : Z) (A : (Z -> flt) -> Z -> flt) (kf bf x0 : Z -> flt) (xs rs ps : nat -> Z -> flt) (ds : nat -> flt) : Prop :=
  let z k i := omul (kf i) (rs k i) in
  let rho k := dotf n (rs k) (z k) in
  (forall i, xs 0%nat i = x0 i /\ rs 0%nat i = osub (A x0 i) (bf i) /\ ps 0%nat i = z 0%nat i) /\
  forall k i, ps (S k) i = oadd (z (S k) i) (omul (odiv (rho (S k)) (rho k)) (ps k i)) /\
    ds k = odiv (rho k) (dotf n (ps k) (A (ps k))) /\
    xs (S k) i = osub (xs k i) (omul (ds k) (ps k i)) /\
    rs (S k) i = osub (rs k i) (omul (ds k) (A (ps k) i)).

Section Solve.
Variables (f : cgfun) (m : ell flt) (nF nx ny nz : Z) (b x : arr flt) (bf xf vf : Z -> flt).
Let N := (nodes f nx ny nz * nF)%Z.
Let nnz := (slots f * nF)%Z.
Hypothesis W : wf_ell m (slots f) nF (nodes f nx ny nz).
Hypothesis V : rep (e_vals m) (nnz * N) vf.
Hypothesis B : rep b N bf.
Hypothesis X : rep x N xf.
Let A := mvf nnz (colsf m) vf.
Let kf := fun i => odiv (ofZ 1) (vf (diag_ix (slots f) (dslot f) nF i)).
Let sq := cgseq N A kf (cg_init nnz (colsf m) vf bf xf).

Lemma solve_trace : forall sv, exists xs rs ps ds sv' x', cg_trace N A kf bf xf xs rs ps ds /\
  run_cg f sv m nF nx ny nz b x = Ok (sv', x') /\
  exists k, s_its sv' = Z.of_nat k /\ rep x' N (xs k) /\
    ((s_its sv' < s_max_its sv)%Z -> s_err sv' = osqrt (dotf N (rs k) (rs k)) /\ oltb (s_err sv') (s_min_tol sv) = true).
Proof.
  intros sv. exists (fun k => sx (sq k)), (fun k => sr (sq k)), (fun k => sp (sq (S k))), (fun k => cgd N A kf (Nat.eqb k 0) (sq k)).
  rewrite run_cgpd. pose proof (wf_reps _ _ _ _ W) as C.
  destruct (cgpd_ok m (slots f) (dslot f) nF (nodes f nx ny nz) (colsf m) vf sv b x bf xf W (dslot_range f) C V B X)
    as (x' & er & its & E & (k & _ & Ei & Rx & _ & Hc)).
  fold nnz N in Rx, Hc. fold A kf in Rx, Hc. fold sq in Rx, Hc.
  exists (mkSolver (s_max_its sv) its (s_min_tol sv) er), x'. split; [|split; [exact E|]].
  - split; [intro i; split; [reflexivity|split; reflexivity]|]. intros k' i. split; [reflexivity|]. split; [|split; reflexivity].
    unfold cgd. reflexivity.
  - exists k. cbn [s_its s_err]. split; [exact Ei|]. split; [exact Rx|]. intro L.
    destruct Hc as [(C1 & C2 & C3)|(C0 & C1 & C2)]; [|lia].
    rewrite C2. split; [reflexivity|exact C1].
Qed.

Lemma solve_double : forall sv, exists xs rs ps ds sv' x', cg_trace N A kf bf xf xs rs ps ds /\
  run_cg f sv m nF nx ny nz b x = Ok (sv', x') /\
  exists k, s_its sv' = Z.of_nat k /\ rep x' N (xs k) /\
    forall Xm Rm D, (s_its sv' < s_max_its sv)%Z -> fin (s_min_tol sv) -> gam (S (Z.to_nat N)) <= / 2 ->
      (forall i, (0 <= i < N)%Z -> fin (xs k i)) ->
      (forall j i, (j <= k)%nat -> (0 <= i < N)%Z -> Rabs (val (xs j i)) <= Xm) ->
      (forall j i, (j <= k)%nat -> (0 <= i < N)%Z -> Rabs (val (rs j i)) <= Rm) ->
      0 <= D -> (forall j, (j < k)%nat -> Rabs (val (ds j)) <= D) ->
      val (s_err sv') < val (s_min_tol sv) /\
      forall i, (0 <= i < N)%Z ->
        Rabs (rsum (zrange 0 nnz) (fun j => val (vf (i * nnz + j)%Z) * val (xs k (colsf m (i * nnz + j)))) - val (bf i)) <=
          (1 + 4 * gam (S (Z.to_nat N))) * (val (s_err sv') + eta) + 2 * sqrt (INR (Z.to_nat N) * tiny) +
          INR (S k) * (gam (S (Z.to_nat nnz)) * (7 * row_size nnz vf i * Xm + 4 * Rm +
            (4 * row_size nnz vf i + 2 + INR (Z.to_nat nnz) * (D + 1)) * tiny)).
Proof.
  intros sv. destruct (solve_trace sv) as (xs & rs & ps & ds & sv' & x' & T & E & k & Ek & Rx & Hc).
  exists xs, rs, ps, ds, sv', x'. split; [exact T|]. split; [exact E|]. exists k. split; [exact Ek|]. split; [exact Rx|].
  intros Xm Rm D L Ft G FX HX HR D0 HD. destruct (Hc L) as [Ee Lt]. rewrite Ee in Lt. pose proof (less_fin _ _ Lt Ft) as Fe.
  destruct (norm_entry N (rs k) G Fe) as [FR NE].
  split. { rewrite Ee. apply lt_val; assumption. }
  intros i I. destruct T as [T0 T1].
  assert (C0 : forall i j, (0 <= i < N)%Z -> (0 <= j < nnz)%Z -> (0 <= colsf m (i * nnz + j) < N)%Z).
  { intros i0 j0 I0 J0. destruct (wf_cols _ _ _ _ W) as (cf & (Lc & C1) & C2).
    assert (Ha : (0 <= i0 * nnz + j0 < nnz * N)%Z) by nia.
    assert (Ec : colsf m (i0 * nnz + j0) = cf (i0 * nnz + j0)%Z) by (unfold colsf; rewrite C1; [reflexivity|exact Ha]).
    rewrite Ec. apply C2. exact Ha. }
  pose proof (drift nnz N (colsf m) vf bf xs rs ps ds C0) as Dr.
  assert (A0 : forall i, rs 0%nat i = osub (mvf nnz (colsf m) vf (xs 0%nat) i) (bf i)).
  { intro i0. destruct (T0 i0) as (_ & Q & _). rewrite Q. unfold A. f_equal. apply sumf_ext. intros j0 J0.
    destruct (T0 (colsf m (i0 * nnz + j0))) as (Q2 & _). rewrite Q2. reflexivity. }
  specialize (Dr A0 (fun k i => proj1 (proj2 (proj2 (T1 k i)))) (fun k i => proj2 (proj2 (proj2 (T1 k i)))) Xm Rm D k HX HR D0 HD FX FR i I k (le_n k)).
  unfold step_cost in Dr. unfold true_res in Dr.
  pose proof (entry_norm N (fun i => val (rs k i)) i I) as En. cbv beta in En. rewrite <- Ee in NE.
  set (e := rsum (zrange 0 nnz) (fun j => val (vf (i * nnz + j)%Z) * val (xs k (colsf m (i * nnz + j)))) - val (bf i)) in *.
  replace e with (val (rs k i) + - (val (rs k i) - e)) by ring.
  eapply Rle_trans; [apply Rabs_triang|]. rewrite Rabs_Ropp. lra.
Qed.
End Solve.
