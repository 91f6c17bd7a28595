(** Rounding errors of sums, products and matrix products in IEEE doubles. *)
From Coq Require Import Reals Lra.
From Flocq Require Import BinarySingleNaN.
From Verif Require Import Base Scalar MonoBody BinInst EllModel.
Open Scope Z_scope.
Open Scope R_scope.

(** the relative error of n roundings: (1 + 2^-53)^n - 1 *)
Definition gam (n : nat) : R := (1 + uro) ^ n - 1.
(** the smallest normal double, 2^-1022 *)
Definition tiny : R := Raux.bpow Zaux.radix2 (-1022).
Lemma tiny_pos : 0 < tiny.
Proof. apply Raux.bpow_gt_0. Qed.
Lemma eta_tiny : eta = uro * tiny.
Proof. unfold eta, tiny. rewrite uro_bpow, <- Raux.bpow_plus. reflexivity. Qed.
Lemma pow_ge1 : forall n, 1 <= (1 + uro) ^ n.
Proof. intro n. apply pow_R1_Rle. pose proof uro_pos. lra. Qed.
Lemma gam_pos : forall n, 0 <= gam n.
Proof. intro n. unfold gam. pose proof (pow_ge1 n). lra. Qed.
Lemma gam_0 : gam 0 = 0.
Proof. unfold gam. simpl. ring. Qed.
Lemma gam_S : forall n, gam (S n) = gam n + uro * (1 + gam n).
Proof. intro n. unfold gam. simpl. ring. Qed.
Lemma gam_plus : forall a b, gam (a + b) = gam a + gam b + gam a * gam b.
Proof. intros a b. unfold gam. rewrite pow_add. ring. Qed.
Lemma gam_le : forall a b, (a <= b)%nat -> gam a <= gam b.
Proof. intros a b H. unfold gam. pose proof uro_pos. assert ((1 + uro) ^ a <= (1 + uro) ^ b) by (apply Rle_pow; [lra|exact H]). lra. Qed.
Lemma gam_1 : gam 1 = uro.
Proof. unfold gam. ring. Qed.
(** up to 10^15 roundings add up to at most 1.2 times their sum *)
Lemma gam_small : forall n, INR n * uro <= / 10 -> gam n <= 12 / 10 * (INR n * uro).
Proof.
  induction n as [|n IH]; [rewrite gam_0; simpl; lra|]. rewrite S_INR. intro H.
  pose proof uro_pos. assert (H1 : INR n * uro <= / 10) by nra. specialize (IH H1). rewrite gam_S.
  assert (0 <= INR n * uro) by (apply Rmult_le_pos; [apply pos_INR|lra]).
  nra.
Qed.

(** [x] approximates [y], whose size is at most [a], with k roundings *)
Definition near (k : nat) (x : flt) (y a : R) : Prop := Rabs (val x - y) <= gam k * a /\ Rabs y <= a.
Lemma near_size : forall k x y a, near k x y a -> Rabs (val x) <= (1 + gam k) * a.
Proof.
  intros k x y a [H K]. replace (val x) with (val x - y + y) by ring.
  eapply Rle_trans; [apply Rabs_triang|]. lra.
Qed.
Lemma near_pos : forall k x y a, near k x y a -> 0 <= a.
Proof. intros k x y a [_ K]. pose proof (Rabs_pos y). lra. Qed.
Lemma near_le : forall k k' x y a b, near k x y a -> (k <= k')%nat -> a <= b -> near k' x y b.
Proof.
  intros k k' x y a b N H K. pose proof (near_pos _ _ _ _ N) as P. destruct N as [N M]. split; [|lra].
  eapply Rle_trans; [exact N|]. apply Rmult_le_compat; [apply gam_pos|exact P|apply gam_le; exact H|exact K].
Qed.
(** a double approximates its own value *)
Lemma near_val : forall x : flt, near 0 x (val x) (Rabs (val x)).
Proof. intro x. split; [|lra]. rewrite Rminus_diag_eq by reflexivity. rewrite Rabs_R0, gam_0. lra. Qed.
Lemma near_int : forall z, (Z.abs z <= 2 ^ 53)%Z -> near 0 (ofZ z) (IZR z) (Rabs (IZR z)).
Proof. intros z H. destruct (int_exact z H) as [_ E]. rewrite <- E. apply near_val. Qed.
Lemma near_opp : forall k x y a, near k x y a -> near k (oopp x) (- y) a.
Proof.
  intros k x y a [H K]. split; [|rewrite Rabs_Ropp; exact K]. rewrite val_opp.
  replace (- val x - - y) with (- (val x - y)) by ring. rewrite Rabs_Ropp. exact H.
Qed.
Lemma near_abs : forall k x y a, near k x y a -> near k (oabs x) (Rabs y) a.
Proof.
  intros k x y a [H K]. split; [|rewrite Rabs_Rabsolu; exact K]. rewrite val_abs.
  eapply Rle_trans; [|exact H]. apply Rabs_triang_inv2.
Qed.
(** one more rounding *)
Lemma near_round : forall k r y a v b, Rabs (val r - v) <= uro * (Rabs v + b) -> Rabs (v - y) <= gam k * a -> Rabs y <= a -> 0 <= b ->
  near (S k) r y (a + b).
Proof.
  intros k r y a v b H K L B. split; [|lra].
  assert (V : Rabs v <= (1 + gam k) * a).
  { replace v with (v - y + y) by ring. eapply Rle_trans; [apply Rabs_triang|]. lra. }
  replace (val r - y) with (val r - v + (v - y)) by ring. eapply Rle_trans; [apply Rabs_triang|].
  rewrite gam_S. pose proof uro_pos. pose proof (gam_pos k).
  assert (uro * (Rabs v + b) <= uro * ((1 + gam k) * a + b)) by (apply Rmult_le_compat_l; lra).
  assert (0 <= gam k * b) by (apply Rmult_le_pos; assumption).
  assert (0 <= uro * (gam k * b)) by (apply Rmult_le_pos; lra).
  nra.
Qed.
Lemma near_add : forall k x1 y1 a1 x2 y2 a2, near k x1 y1 a1 -> near k x2 y2 a2 -> fin (oadd x1 x2) ->
  near (S k) (oadd x1 x2) (y1 + y2) (a1 + a2).
Proof.
  intros k x1 y1 a1 x2 y2 a2 [H1 K1] [H2 K2] F. pose proof (add_error x1 x2 F) as E.
  replace (a1 + a2) with (a1 + a2 + 0) by ring.
  apply near_round with (v := val x1 + val x2).
  - rewrite Rplus_0_r. exact E.
  - replace (val x1 + val x2 - (y1 + y2)) with (val x1 - y1 + (val x2 - y2)) by ring.
    eapply Rle_trans; [apply Rabs_triang|]. lra.
  - eapply Rle_trans; [apply Rabs_triang|]. lra.
  - lra.
Qed.
Lemma near_sub : forall k x1 y1 a1 x2 y2 a2, near k x1 y1 a1 -> near k x2 y2 a2 -> fin (osub x1 x2) ->
  near (S k) (osub x1 x2) (y1 - y2) (a1 + a2).
Proof.
  intros k x1 y1 a1 x2 y2 a2 [H1 K1] [H2 K2] F. pose proof (sub_error x1 x2 F) as E.
  replace (a1 + a2) with (a1 + a2 + 0) by ring.
  apply near_round with (v := val x1 - val x2).
  - rewrite Rplus_0_r. exact E.
  - replace (val x1 - val x2 - (y1 - y2)) with (val x1 - y1 + - (val x2 - y2)) by ring.
    eapply Rle_trans; [apply Rabs_triang|]. rewrite Rabs_Ropp. lra.
  - unfold Rminus. eapply Rle_trans; [apply Rabs_triang|]. rewrite Rabs_Ropp. lra.
  - lra.
Qed.
Lemma near_mul : forall k1 k2 x1 y1 a1 x2 y2 a2, near k1 x1 y1 a1 -> near k2 x2 y2 a2 -> fin (omul x1 x2) ->
  near (S (k1 + k2)) (omul x1 x2) (y1 * y2) (a1 * a2 + tiny).
Proof.
  intros k1 k2 x1 y1 a1 x2 y2 a2 N1 N2 F. pose proof (mul_error x1 x2 F) as E.
  pose proof (near_size _ _ _ _ N1) as S1. pose proof (near_size _ _ _ _ N2) as S2.
  pose proof (near_pos _ _ _ _ N1) as P1. pose proof (near_pos _ _ _ _ N2) as P2.
  destruct N1 as [H1 K1]. destruct N2 as [H2 K2].
  apply near_round with (v := val x1 * val x2).
  - rewrite eta_tiny in E. rewrite Rmult_plus_distr_l. exact E.
  - replace (val x1 * val x2 - y1 * y2) with ((val x1 - y1) * val x2 + y1 * (val x2 - y2)) by ring.
    eapply Rle_trans; [apply Rabs_triang|]. rewrite !Rabs_mult.
    assert (A : Rabs (val x1 - y1) * Rabs (val x2) <= (gam k1 * a1) * ((1 + gam k2) * a2))
      by (apply Rmult_le_compat; try apply Rabs_pos; assumption).
    assert (B : Rabs y1 * Rabs (val x2 - y2) <= a1 * (gam k2 * a2))
      by (apply Rmult_le_compat; try apply Rabs_pos; assumption).
    rewrite gam_plus. lra.
  - rewrite Rabs_mult. apply Rmult_le_compat; try apply Rabs_pos; assumption.
  - left. apply tiny_pos.
Qed.
(** division by a double taken at its value *)
Lemma near_div : forall k x1 y1 a1 (x2 : flt), near k x1 y1 a1 -> fin x2 -> fin (odiv x1 x2) ->
  near (S k) (odiv x1 x2) (y1 / val x2) (a1 / Rabs (val x2) + tiny).
Proof.
  intros k x1 y1 a1 x2 N F2 F. pose proof (div_error x1 x2 F F2) as E. destruct (fin_div x1 x2 F F2) as [_ Z].
  pose proof (Rabs_pos_lt _ Z) as P. destruct N as [H1 K1].
  apply near_round with (v := val x1 / val x2).
  - rewrite eta_tiny in E. rewrite Rmult_plus_distr_l. exact E.
  - replace (val x1 / val x2 - y1 / val x2) with ((val x1 - y1) / val x2) by (field; exact Z).
    unfold Rdiv. rewrite Rabs_mult, Rabs_inv. rewrite <- Rmult_assoc. apply Rmult_le_compat_r; [|exact H1].
    left. apply Rinv_0_lt_compat. exact P.
  - unfold Rdiv. rewrite Rabs_mult, Rabs_inv. apply Rmult_le_compat_r; [|exact K1].
    left. apply Rinv_0_lt_compat. exact P.
  - left. apply tiny_pos.
Qed.
Lemma near_sqrt : forall x : flt, fin (osqrt x) -> near 1 (osqrt x) (sqrt (val x)) (sqrt (val x) + tiny).
Proof.
  intros x F. pose proof (sqrt_error x) as E. pose proof (sqrt_pos (val x)) as P.
  apply near_round with (v := sqrt (val x)).
  - rewrite eta_tiny in E. rewrite (Rabs_pos_eq (sqrt _)) by exact P. lra.
  - rewrite Rminus_diag_eq by reflexivity. rewrite Rabs_R0, gam_0. lra.
  - rewrite Rabs_pos_eq by exact P. lra.
  - left. apply tiny_pos.
Qed.

(** ** Sums *)
(** a finite sum has finite terms *)
Lemma fold_fin {A} : forall (l : list A) (f : A -> flt) (z : flt), fin (fold_left (fun acc x => oadd acc (f x)) l z) ->
  fin z /\ (forall x, In x l -> fin (f x)).
Proof.
  induction l as [|x l IH]; simpl; intros f z F.
  - split; [exact F|intros y []].
  - destruct (IH f _ F) as [Fz G]. apply fin_add in Fz. destruct Fz as [Fz Fx].
    split; [exact Fz|]. intros y [<-|Y]; [exact Fx|]. apply G; exact Y.
Qed.
Lemma fold_near {A} : forall (l : list A) (f : A -> flt) (g b : A -> R) k (z : flt) y a,
  near k z y a -> (forall x, In x l -> near k (f x) (g x) (b x)) ->
  fin (fold_left (fun acc x => oadd acc (f x)) l z) ->
  near (k + length l) (fold_left (fun acc x => oadd acc (f x)) l z) (y + rsum l g) (a + rsum l b).
Proof.
  induction l as [|x l IH]; simpl; intros f g b k z y a N H F.
  - rewrite Nat.add_0_r, !Rplus_0_r. exact N.
  - destruct (fold_fin l f _ F) as [Fz _].
    replace (k + S (length l))%nat with (S k + length l)%nat by lia.
    rewrite <- !Rplus_assoc. apply IH; [|intros w W; apply near_le with (k := k) (a := b w); [apply H; right; exact W|lia|lra]|exact F].
    apply near_add; [exact N|apply H; left; reflexivity|exact Fz].
Qed.
Lemma sumf_fin {A} : forall (l : list A) (f : A -> flt), fin (sumf l f) -> forall x, In x l -> fin (f x).
Proof. intros l f F. apply (fold_fin l f (ofZ 0) F). Qed.
(** the sum of n numbers, each with k roundings *)
Lemma sum_near {A} : forall (l : list A) (f : A -> flt) (g b : A -> R) k,
  (forall x, In x l -> near k (f x) (g x) (b x)) -> fin (sumf l f) ->
  near (k + length l) (sumf l f) (rsum l g) (rsum l b).
Proof.
  intros l f g b k H F. unfold sumf in *.
  pose proof (fold_near l f g b k (ofZ 0) 0 0) as K. rewrite !Rplus_0_l in K. apply K; [|exact H|exact F].
  apply near_le with (k := 0%nat) (a := 0); [|lia|lra]. split; [rewrite val_0, Rminus_0_r, Rabs_R0, gam_0; lra|rewrite Rabs_R0; lra].
Qed.
(** the scalar product of two lists of doubles *)
Lemma dot_near {A} : forall (l : list A) (f g : A -> flt), fin (sumf l (fun x => omul (f x) (g x))) ->
  near (S (length l)) (sumf l (fun x => omul (f x) (g x))) (rsum l (fun x => val (f x) * val (g x)))
    (rsum l (fun x => Rabs (val (f x)) * Rabs (val (g x))) + INR (length l) * tiny).
Proof.
  intros l f g F. replace (S (length l)) with (1 + length l)%nat by lia.
  apply near_le with (k := (1 + length l)%nat) (a := rsum l (fun x => Rabs (val (f x)) * Rabs (val (g x)) + tiny)).
  - apply sum_near; [|exact F]. intros x X. apply (near_mul 0 0); [apply near_val..|].
    apply (sumf_fin l _ F x X).
  - lia.
  - rewrite rsum_plus, rsum_const. lra.
Qed.

(** a sum that was computed was computed from its terms *)
Lemma sumM_inv {T A} `{Ops T} : forall (l : list A) (f : A -> res T) s (d : T), sumM l f = Ok s ->
  s = sumf l (fun x => match f x with Ok v => v | Err _ => d end) /\ (forall x, In x l -> exists v, f x = Ok v).
Proof.
  intros l f s d. unfold sumM, sumf. generalize (ofZ 0 : T) as z.
  induction l as [|x l IH]; simpl; intros z E.
  - injection E as <-. split; [reflexivity|intros y []].
  - destruct (f x) as [v|e] eqn:Q; cbn in E; [|discriminate E].
    destruct (IH _ E) as [A1 A2]. split; [exact A1|].
    intros y [<-|Y]; [exists v; exact Q|apply A2; exact Y].
Qed.

(** the value read, 0 where nothing can be read *)
Definition at_ (a : arr flt) (i : Z) : R := match rd a i with Ok x => val x | Err _ => 0 end.
(** the column read *)
Definition col_ (a : arr Z) (i : Z) : Z := match rd a i with Ok c => c | Err _ => 0%Z end.

(** the scalar product as the solvers compute it *)
Theorem dot_double : forall n (a b : arr flt) s, dotM n a b = Ok s -> fin s ->
  Rabs (val s - rsum (zrange 0 n) (fun i => at_ a i * at_ b i)) <=
    gam (S (Z.to_nat n)) * (rsum (zrange 0 n) (fun i => Rabs (at_ a i) * Rabs (at_ b i)) + INR (Z.to_nat n) * tiny).
Proof.
  intros n a b s E F. unfold dotM in E. destruct (sumM_inv _ _ _ (ofZ 0) E) as [Q K].
  set (f := fun i => match rd a i with Ok x => x | Err _ => ofZ 0 end).
  set (g := fun i => match rd b i with Ok x => x | Err _ => ofZ 0 end).
  assert (E2 : s = sumf (zrange 0 n) (fun i => omul (f i) (g i))).
  { rewrite Q. apply sumf_ext. intros i I. destruct (K i I) as [v V]. rewrite V. unfold f, g. cbn beta in V.
    destruct (rd a i) as [x|]; cbn in V; [|discriminate V]. destruct (rd b i) as [y|]; cbn in V; [|discriminate V].
    injection V as <-. reflexivity. }
  rewrite E2 in F |- *. destruct (dot_near (zrange 0 n) f g F) as [D _]. rewrite length_zrange, Z.sub_0_r in D.
  assert (Ea : forall i, val (f i) = at_ a i) by (intro i; unfold f, at_; destruct (rd a i); [reflexivity|apply val_0]).
  assert (Eb : forall i, val (g i) = at_ b i) by (intro i; unfold g, at_; destruct (rd b i); [reflexivity|apply val_0]).
  rewrite (rsum_ext (zrange 0 n) (fun i => at_ a i * at_ b i) (fun i => val (f i) * val (g i))) by (intros; rewrite Ea, Eb; reflexivity).
  rewrite (rsum_ext (zrange 0 n) (fun i => Rabs (at_ a i) * Rabs (at_ b i)) (fun i => Rabs (val (f i)) * Rabs (val (g i)))) by (intros; rewrite Ea, Eb; reflexivity).
  exact D.
Qed.

(** a row of the matrix product *)
Theorem row_double : forall (m : ell flt) (x : arr flt) i s, mvp_row m x i = Ok s -> fin s ->
  Rabs (val s - rsum (zrange 0 (e_nnz m)) (fun j => at_ (e_vals m) (i * e_nnz m + j) * at_ x (col_ (e_cols m) (i * e_nnz m + j)))) <=
    gam (S (Z.to_nat (e_nnz m))) * (rsum (zrange 0 (e_nnz m)) (fun j =>
      Rabs (at_ (e_vals m) (i * e_nnz m + j)) * Rabs (at_ x (col_ (e_cols m) (i * e_nnz m + j)))) + INR (Z.to_nat (e_nnz m)) * tiny).
Proof.
  intros m x i s E F. unfold mvp_row in E. destruct (sumM_inv _ _ _ (ofZ 0) E) as [Q K].
  set (f := fun j => match rd (e_vals m) (i * e_nnz m + j) with Ok x => x | Err _ => ofZ 0 end).
  set (g := fun j => match rd x (col_ (e_cols m) (i * e_nnz m + j)) with Ok x => x | Err _ => ofZ 0 end).
  assert (E2 : s = sumf (zrange 0 (e_nnz m)) (fun i => omul (f i) (g i))).
  { rewrite Q. apply sumf_ext. intros j J. destruct (K j J) as [v V]. rewrite V. unfold f, g. cbn beta in V.
    destruct (rd (e_vals m) (i * e_nnz m + j)%Z) as [v1|]; cbn in V; [|discriminate V].
    unfold col_. destruct (rd (e_cols m) (i * e_nnz m + j)%Z) as [c|]; cbn in V; [|discriminate V].
    destruct (rd x c) as [y|]; cbn in V; [|discriminate V].
    injection V as <-. reflexivity. }
  rewrite E2 in F |- *. destruct (dot_near (zrange 0 (e_nnz m)) f g F) as [D _]. rewrite length_zrange, Z.sub_0_r in D.
  assert (Ea : forall j, val (f j) = at_ (e_vals m) (i * e_nnz m + j)) by (intro j; unfold f, at_; destruct (rd (e_vals m) (i * e_nnz m + j)%Z); [reflexivity|apply val_0]).
  assert (Eb : forall j, val (g j) = at_ x (col_ (e_cols m) (i * e_nnz m + j))) by (intro j; unfold g, at_; destruct (rd x (col_ (e_cols m) (i * e_nnz m + j))); [reflexivity|apply val_0]).
  rewrite (rsum_ext _ (fun j => at_ (e_vals m) (i * e_nnz m + j) * at_ x (col_ (e_cols m) (i * e_nnz m + j))) (fun j => val (f j) * val (g j))) by (intros; rewrite Ea, Eb; reflexivity).
  rewrite (rsum_ext _ (fun j => Rabs (at_ (e_vals m) (i * e_nnz m + j)) * Rabs (at_ x (col_ (e_cols m) (i * e_nnz m + j)))) (fun j => Rabs (val (f j)) * Rabs (val (g j)))) by (intros; rewrite Ea, Eb; reflexivity).
  exact D.
Qed.
