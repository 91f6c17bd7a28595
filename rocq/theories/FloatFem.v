(** Rounding errors of the element routines in doubles. *)
From Coq Require Import Reals Lra ZifyBool.
From Flocq Require Import BinarySingleNaN.
From Verif Require Import Base Scalar MonoBody ConvexMin EllSpec Grid AssemblyModel AsmPure FemGen BinInst FloatSum FloatCg.
Open Scope Z_scope.
Open Scope R_scope.

(** ** Finite results are near the exact ones *)
(** y is at most a in size and, if the double x is finite, it differs from y by at most k roundings of a *)
Definition cn (k : nat) (x : flt) (y a : R) : Prop := Rabs y <= a /\ (fin x -> Rabs (val x - y) <= gam k * a).
Lemma cn_pos k x y a : cn k x y a -> 0 <= a.
Proof. intros [H _]. pose proof (Rabs_pos y). lra. Qed.
Lemma cn_le k k' x y a b : cn k x y a -> (k <= k')%nat -> a <= b -> cn k' x y b.
Proof.
  intros N H K. pose proof (cn_pos _ _ _ _ N) as P. destruct N as [N M]. split; [lra|]. intro F.
  eapply Rle_trans; [exact (M F)|]. apply Rmult_le_compat; [apply gam_pos|exact P|apply gam_le; exact H|exact K].
Qed.
Lemma cn_val k x a : Rabs (val x) <= a -> cn k x (val x) a.
Proof. intro H. split; [exact H|]. intros _. rewrite Rminus_diag_eq, Rabs_R0 by reflexivity. pose proof (Rabs_pos (val x)). apply Rmult_le_pos; [apply gam_pos|lra]. Qed.
Lemma cn_int k z : (Z.abs z <= 2 ^ 53)%Z -> cn k (ofZ z) (IZR z) (Rabs (IZR z)).
Proof. intro H. destruct (int_exact z H) as [_ E]. rewrite <- E. apply cn_val. apply Rle_refl. Qed.
Lemma cn_zero k a : 0 <= a -> cn k (ofZ 0) 0 a.
Proof. intro H. rewrite <- val_0. apply cn_val. rewrite val_0, Rabs_R0. exact H. Qed.
Lemma cn_opp k x y a : cn k x y a -> cn k (oopp x) (- y) a.
Proof.
  intros [H K]. split; [rewrite Rabs_Ropp; exact H|]. intro F. rewrite fin_opp in F. rewrite val_opp.
  replace (- val x - - y) with (- (val x - y)) by ring. rewrite Rabs_Ropp. exact (K F).
Qed.
Lemma cn_near k x y a : cn k x y a -> fin x -> near k x y a.
Proof. intros [H K] F. split; [exact (K F)|exact H]. Qed.
Lemma cn_add k x1 y1 a1 x2 y2 a2 : cn k x1 y1 a1 -> cn k x2 y2 a2 -> cn (S k) (oadd x1 x2) (y1 + y2) (a1 + a2).
Proof.
  intros N1 N2. split; [eapply Rle_trans; [apply Rabs_triang|]; destruct N1, N2; lra|]. intro F. destruct (fin_add _ _ F) as [F1 F2].
  exact (proj1 (near_add _ _ _ _ _ _ _ (cn_near _ _ _ _ N1 F1) (cn_near _ _ _ _ N2 F2) F)).
Qed.
Lemma cn_sub k x1 y1 a1 x2 y2 a2 : cn k x1 y1 a1 -> cn k x2 y2 a2 -> cn (S k) (osub x1 x2) (y1 - y2) (a1 + a2).
Proof.
  intros N1 N2. split; [unfold Rminus; eapply Rle_trans; [apply Rabs_triang|]; rewrite Rabs_Ropp; destruct N1, N2; lra|]. intro F. destruct (fin_sub _ _ F) as [F1 F2].
  exact (proj1 (near_sub _ _ _ _ _ _ _ (cn_near _ _ _ _ N1 F1) (cn_near _ _ _ _ N2 F2) F)).
Qed.
Lemma two_roundings k r v y p : Rabs (r - v) <= uro * Rabs v + eta -> Rabs (v - y) <= gam k * p -> Rabs y <= p -> tiny <= p ->
  Rabs (r - y) <= gam (S (S k)) * p.
Proof.
  intros H K L B. pose proof uro_pos as U. pose proof tiny_pos as TP. pose proof (gam_pos k) as G.
  assert (V : Rabs v <= (1 + gam k) * p).
  { replace v with (v - y + y) by ring. eapply Rle_trans; [apply Rabs_triang|]. lra. }
  replace (r - y) with (r - v + (v - y)) by ring. eapply Rle_trans; [apply Rabs_triang|].
  rewrite eta_tiny in H. rewrite !gam_S.
  assert (uro * Rabs v <= uro * ((1 + gam k) * p)) by (apply Rmult_le_compat_l; lra).
  assert (uro * tiny <= uro * p) by (apply Rmult_le_compat_l; lra).
  assert (0 <= uro * (gam k + uro * (1 + gam k)) * p) by (apply Rmult_le_pos; [apply Rmult_le_pos; [lra|]|lra]; assert (0 <= uro * (1 + gam k)) by (apply Rmult_le_pos; lra); lra).
  lra.
Qed.
Lemma cn_mul k1 k2 x1 y1 a1 x2 y2 a2 : cn k1 x1 y1 a1 -> cn k2 x2 y2 a2 -> tiny <= a1 * a2 -> cn (S (S (k1 + k2))) (omul x1 x2) (y1 * y2) (a1 * a2).
Proof.
  intros N1 N2 L. pose proof (cn_pos _ _ _ _ N1) as P1. pose proof (cn_pos _ _ _ _ N2) as P2. destruct N1 as [A1 N1], N2 as [A2 N2].
  assert (Y : Rabs (y1 * y2) <= a1 * a2) by (rewrite Rabs_mult; apply Rmult_le_compat; try apply Rabs_pos; assumption).
  split; [exact Y|]. intro F. destruct (fin_mul _ _ F) as [F1 F2]. specialize (N1 F1). specialize (N2 F2).
  apply two_roundings with (v := val x1 * val x2); [apply mul_error; exact F| |exact Y|exact L].
  replace (val x1 * val x2 - y1 * y2) with ((val x1 - y1) * (val x2 - y2) + ((val x1 - y1) * y2 + y1 * (val x2 - y2))) by ring.
  eapply Rle_trans; [apply Rabs_triang|]. eapply Rle_trans; [apply Rplus_le_compat_l, Rabs_triang|]. rewrite !Rabs_mult, gam_plus.
  assert (Rabs (val x1 - y1) * Rabs (val x2 - y2) <= (gam k1 * a1) * (gam k2 * a2)) by (apply Rmult_le_compat; try apply Rabs_pos; assumption).
  assert (Rabs (val x1 - y1) * Rabs y2 <= (gam k1 * a1) * a2) by (apply Rmult_le_compat; try apply Rabs_pos; assumption).
  assert (Rabs y1 * Rabs (val x2 - y2) <= a1 * (gam k2 * a2)) by (apply Rmult_le_compat; try apply Rabs_pos; assumption).
  lra.
Qed.
(** divisors are finite and have a relative error *)
Definition rl (k : nat) (x : flt) (y : R) : Prop := fin x /\ 0 < y /\ Rabs (val x - y) <= gam k * y.
Lemma rl_cn k x y : rl k x y -> cn k x y y.
Proof. intros (_ & P & H). split; [rewrite Rabs_pos_eq; lra|]. intros _. exact H. Qed.
Lemma cn_div k1 k2 x1 y1 a1 x2 y2 : cn k1 x1 y1 a1 -> rl k2 x2 y2 -> gam k2 <= / 2 -> tiny <= a1 / y2 ->
  cn (S (S (k1 + (k2 + k2)))) (odiv x1 x2) (y1 / y2) (a1 / y2).
Proof.
  intros N1 (F2 & P2 & N2) G2 L. pose proof (cn_pos _ _ _ _ N1) as P1. destruct N1 as [A1 N1].
  assert (IP : 0 < / y2) by (apply Rinv_0_lt_compat; exact P2).
  assert (Y : Rabs (y1 / y2) <= a1 / y2).
  { unfold Rdiv. rewrite Rabs_mult, (Rabs_pos_eq (/ y2)) by lra. apply Rmult_le_compat_r; lra. }
  split; [exact Y|]. intro F. destruct (fin_div _ _ F F2) as [F1 Z2]. specialize (N1 F1).
  apply two_roundings with (v := val x1 / val x2); [apply div_error; assumption| |exact Y|exact L].
  pose proof (gam_pos k2) as G0. pose proof (gam_pos k1) as G1. set (g1 := gam k1) in *. set (g2 := gam k2) in *.
  assert (B2 : (1 - g2) * y2 <= val x2) by (apply abs_bound in N2; lra).
  assert (B0 : 0 < (1 - g2) * y2) by (apply Rmult_lt_0_compat; lra).
  assert (IX : 0 < / val x2 <= / ((1 - g2) * y2)) by (split; [apply Rinv_0_lt_compat; lra|apply Rinv_le_contravar; lra]).
  replace (val x1 / val x2 - y1 / y2) with (((val x1 - y1) + y1 * (y2 - val x2) * / y2) * / val x2) by (field; lra).
  rewrite Rabs_mult, (Rabs_pos_eq (/ val x2)) by lra.
  assert (Nm : Rabs (val x1 - y1 + y1 * (y2 - val x2) * / y2) <= (g1 + g2) * a1).
  { eapply Rle_trans; [apply Rabs_triang|]. rewrite !Rabs_mult, (Rabs_pos_eq (/ y2)), (Rabs_minus_sym y2) by lra.
    assert (Rabs y1 * Rabs (val x2 - y2) * / y2 <= a1 * (g2 * y2) * / y2).
    { apply Rmult_le_compat_r; [lra|]. apply Rmult_le_compat; try apply Rabs_pos; assumption. }
    replace (a1 * (g2 * y2) * / y2) with (g2 * a1) in H by (field; lra). lra. }
  apply Rle_trans with ((g1 + g2) * a1 * / ((1 - g2) * y2)).
  { apply Rmult_le_compat; try apply Rabs_pos; try lra. }
  assert (Q : g1 + g2 <= gam (k1 + (k2 + k2)) * (1 - g2)).
  { rewrite !gam_plus. fold g1 g2. set (h := g2 + g2 + g2 * g2).
    assert (E : (1 + h) * (1 - g2) - 1 = g2 * (1 - g2 * (1 + g2))) by (unfold h; ring).
    assert (0 <= g2 * (1 - g2 * (1 + g2))).
    { apply Rmult_le_pos; [lra|]. assert (g2 * (1 + g2) <= / 2 * (1 + / 2)) by (apply Rmult_le_compat; lra). lra. }
    assert (0 <= g1 * ((1 + h) * (1 - g2) - 1)) by (apply Rmult_le_pos; lra). lra. }
  replace ((g1 + g2) * a1 * / ((1 - g2) * y2)) with ((g1 + g2) * / (1 - g2) * (a1 / y2)) by (field; lra).
  apply Rmult_le_compat_r; [unfold Rdiv; apply Rmult_le_pos; lra|].
  apply Rmult_le_reg_r with (1 - g2); [lra|]. rewrite Rmult_assoc, Rinv_l by lra. lra.
Qed.

(** sums in program order *)
Lemma cn_fold {A} : forall (l : list A) (f : A -> flt) (h b : A -> R) k z y a,
  cn k z y a -> (forall x, In x l -> cn k (f x) (h x) (b x)) ->
  cn (k + length l) (fold_left (fun acc x => oadd acc (f x)) l z) (y + rsum l h) (a + rsum l b).
Proof.
  intros l f h b k z y a Hz Hf. split.
  - eapply Rle_trans; [apply Rabs_triang|]. destruct Hz as [Hz _]. apply Rplus_le_compat; [exact Hz|].
    clear - Hf. induction l as [|x l IH]; cbn [rsum]; [rewrite Rabs_R0; lra|]. eapply Rle_trans; [apply Rabs_triang|].
    pose proof (proj1 (Hf x (or_introl eq_refl))). specialize (IH (fun x H => Hf x (or_intror H))). lra.
  - intro F. destruct (fold_fin l f z F) as [Fz Ff]. apply fold_near with (b := b) (g := h); [exact (cn_near _ _ _ _ Hz Fz)| |exact F].
    intros x Hx. exact (cn_near _ _ _ _ (Hf x Hx) (Ff x Hx)).
Qed.
Lemma cn_sum {A} (l : list A) (f : A -> flt) (h b : A -> R) k :
  (forall x, In x l -> cn k (f x) (h x) (b x)) -> cn (k + length l) (sumf l f) (rsum l h) (rsum l b).
Proof.
  intro H. pose proof (cn_fold l f h b k (ofZ 0) 0 0 (cn_zero k 0 (Rle_refl 0)) H) as N. rewrite !Rplus_0_l in N. exact N.
Qed.
Lemma rsum_same {A} (l : list A) c : rsum l (fun _ => c) = INR (length l) * c.
Proof. induction l as [|x l IH]; [simpl; lra|]. cbn [rsum length]. rewrite IH, S_INR. ring. Qed.
Lemma cn_sum_c {A} (l : list A) (f : A -> flt) (h : A -> R) k c :
  (forall x, In x l -> cn k (f x) (h x) c) -> cn (k + length l) (sumf l f) (rsum l h) (INR (length l) * c).
Proof. intro H. rewrite <- rsum_same. apply cn_sum. exact H. Qed.

(** ** Sizes *)
Notation p2 e := (Raux.bpow Zaux.radix2 e).
Lemma p2_mul d e x y : p2 d <= x -> p2 e <= y -> p2 (d + e) <= x * y.
Proof. intros H K. rewrite Raux.bpow_plus. apply Rmult_le_compat; try apply Raux.bpow_ge_0; assumption. Qed.
Lemma p2_div d e x y : p2 d <= x -> 0 < y -> y <= p2 e -> p2 (d - e) <= x / y.
Proof.
  intros H P K. unfold Rdiv. apply p2_mul; [exact H|]. rewrite Raux.bpow_opp. apply Rinv_le_contravar; assumption.
Qed.
Lemma p2_tiny e x : p2 e <= x -> (-1022 <= e)%Z -> tiny <= x.
Proof. intros H K. eapply Rle_trans; [|exact H]. apply Raux.bpow_le. exact K. Qed.
Lemma p2_le d e x : p2 e <= x -> (d <= e)%Z -> p2 d <= x.
Proof. intros H K. eapply Rle_trans; [|exact H]. apply Raux.bpow_le. exact K. Qed.
Lemma gam_half k : (k <= 1000)%nat -> gam k <= / 2.
Proof.
  intro K. eapply Rle_trans; [apply (gam_le k 1000 K)|]. eapply Rle_trans; [apply gam_small|]; rewrite INR_IZR_INZ, uro_val; change (Z.of_nat 1000) with 1000%Z; lra.
Qed.
Lemma rl_int z : (0 < z <= 2 ^ 53)%Z -> rl 0 (ofZ z) (IZR z).
Proof.
  intro H. destruct (int_exact z ltac:(lia)) as [F E]. split; [exact F|]. split; [apply IZR_lt; lia|].
  rewrite E, Rminus_diag_eq, Rabs_R0, gam_0 by reflexivity. lra.
Qed.
Lemma cn_dec m e : (0 < m <= 2 ^ 53)%Z -> (0 <= e <= 15)%Z -> cn 2 (dec m e) (IZR m / IZR (10 ^ e)) (IZR m / IZR (10 ^ e)).
Proof.
  intros M E. assert (T : (0 < 10 ^ e <= 2 ^ 50)%Z).
  { split; [apply Z.pow_pos_nonneg; lia|]. apply Z.le_trans with (10 ^ 15)%Z; [apply Z.pow_le_mono_r; lia|apply Z.leb_le; vm_compute; reflexivity]. }
  assert (T0 : 0 < IZR (10 ^ e)) by (apply IZR_lt; lia).
  pose proof (cn_div 0 0 (ofZ m) (IZR m) (Rabs (IZR m)) (ofZ (10 ^ e)) (IZR (10 ^ e)) (cn_int 0 m ltac:(lia)) (rl_int (10 ^ e) ltac:(lia)) (gam_half 0 ltac:(lia))) as H.
  rewrite (Rabs_pos_eq (IZR m)) in H by (apply IZR_le; lia). apply H. apply (p2_tiny (0 - 50)); [|lia].
  apply p2_div; [apply (IZR_le 1); lia|exact T0|]. change (p2 50) with (IZR (2 ^ 50)). apply IZR_le. lia.
Qed.

(** ** Shape functions *)
Lemma cn_gpt : cn 2 gpt gpt 1.
Proof.
  apply (cn_le 2 2 _ _ (IZR 577350269189626 / IZR (10 ^ 15))); [exact (cn_dec 577350269189626 15 ltac:(lia) ltac:(lia))|lia|].
  change (IZR (10 ^ 15)) with 1000000000000000. lra.
Qed.
Lemma cn_xg g c : cn 2 (xg g c) (xg g c) 1.
Proof.
  pose proof cn_gpt as P. pose proof (cn_opp _ _ _ _ P) as N. unfold xg.
  destruct c as [|[]|]; repeat match goal with |- context [if ?b then _ else _] => destruct b end; first [exact P|exact N].
Qed.
Lemma cn_one k : cn k (ofZ 1) 1 1.
Proof. pose proof (cn_int k 1 ltac:(lia)) as H. rewrite (Rabs_pos_eq 1) in H by lra. exact H. Qed.
Lemma cn_plus x y : cn 2 x y 1 -> cn 3 (oadd (ofZ 1) x) (1 + y) 2.
Proof. intro H. replace 2 with (1 + 1) by lra. apply cn_add; [apply cn_one|exact H]. Qed.
Lemma cn_minus x y : cn 2 x y 1 -> cn 3 (osub (ofZ 1) x) (1 - y) 2.
Proof. intro H. replace 2 with (1 + 1) by lra. apply cn_sub; [apply cn_one|exact H]. Qed.

(** the size of a cell: exactly d, 2^-91 to 2^60 *)
Definition cellsz (x : flt) (d : R) : Prop := rl 2 x d /\ p2 (-91) <= d <= p2 60.
Lemma shp3 p q yp yq x d : cn 3 p yp 2 -> cn 3 q yq 2 -> cellsz x d ->
  cn 18 (odiv (omul (odiv (omul p q) (ofZ 8)) (ofZ 2)) x) (yp * yq / 8 * 2 / d) (/ d).
Proof.
  intros P Q (X & Lo & Hi). pose proof X as (_ & D & _).
  assert (L1 : p2 0 <= 2 * 2) by (cbn; lra). assert (L2 : p2 (-1) <= 2 * 2 / 8) by (cbn; lra). assert (L3 : p2 0 <= 2 * 2 / 8 * 2) by (cbn; lra).
  pose proof (p2_div _ _ _ _ L3 D Hi) as L4.
  pose proof (cn_mul _ _ _ _ _ _ _ _ P Q (p2_tiny _ _ L1 ltac:(lia))) as M1.
  pose proof (cn_div _ 0 _ _ _ (ofZ 8) 8 M1 (rl_int 8 ltac:(lia)) (gam_half 0 ltac:(lia)) (p2_tiny _ _ L2 ltac:(lia))) as M2.
  pose proof (cn_int 0 2 ltac:(lia)) as I2. rewrite (Rabs_pos_eq 2) in I2 by lra.
  pose proof (cn_mul _ _ _ _ _ _ _ _ M2 I2 (p2_tiny _ _ L3 ltac:(lia))) as M3.
  pose proof (cn_div _ 2 _ _ _ x d M3 X (gam_half 2 ltac:(lia)) (p2_tiny _ _ L4 ltac:(lia))) as M4.
  replace (2 * 2 / 8 * 2 / d) with (/ d) in M4 by (field; lra). exact M4.
Qed.
Lemma shp2 p yp x d : cn 3 p yp 2 -> cellsz x d -> cn 18 (odiv (omul (odiv p (ofZ 4)) (ofZ 2)) x) (yp / 4 * 2 / d) (/ d).
Proof.
  intros P (X & Lo & Hi). pose proof X as (_ & D & _).
  assert (L2 : p2 (-1) <= 2 / 4) by (cbn; lra). assert (L3 : p2 0 <= 2 / 4 * 2) by (cbn; lra).
  pose proof (p2_div _ _ _ _ L3 D Hi) as L4.
  pose proof (cn_div _ 0 _ _ _ (ofZ 4) 4 P (rl_int 4 ltac:(lia)) (gam_half 0 ltac:(lia)) (p2_tiny _ _ L2 ltac:(lia))) as M2.
  pose proof (cn_int 0 2 ltac:(lia)) as I2. rewrite (Rabs_pos_eq 2) in I2 by lra.
  pose proof (cn_mul _ _ _ _ _ _ _ _ M2 I2 (p2_tiny _ _ L3 ltac:(lia))) as M3.
  pose proof (cn_div _ 2 _ _ _ x d M3 X (gam_half 2 ltac:(lia)) (p2_tiny _ _ L4 ltac:(lia))) as M4.
  replace (2 / 4 * 2 / d) with (/ d) in M4 by (field; lra). eapply cn_le; [exact M4|lia|lra].
Qed.
Definition pick3 (c : Z) (a b d : R) : R := match c with 0%Z => a | 1%Z => b | _ => d end.
Lemma cn_dsh3 x0 x1 x2 y0 y1 y2 dx dy dz ex ey ez n c : cn 2 x0 y0 1 -> cn 2 x1 y1 1 -> cn 2 x2 y2 1 -> cellsz dx ex -> cellsz dy ey -> cellsz dz ez ->
  cn 18 (dsh3 x0 x1 x2 dx dy dz n c) (dsh3 y0 y1 y2 ex ey ez n c) (/ pick3 c ex ey ez).
Proof.
  intros X0 X1 X2 Dx Dy Dz.
  pose proof (cn_plus _ _ X0) as A0. pose proof (cn_plus _ _ X1) as A1. pose proof (cn_plus _ _ X2) as A2.
  pose proof (cn_minus _ _ X0) as S0. pose proof (cn_minus _ _ X1) as S1. pose proof (cn_minus _ _ X2) as S2.
  pose proof (cn_opp _ _ _ _ A0) as NA0. pose proof (cn_opp _ _ _ _ A1) as NA1.
  pose proof (cn_opp _ _ _ _ S0) as NS0. pose proof (cn_opp _ _ _ _ S1) as NS1.
  unfold dsh3, pick3.
  destruct n as [|n|n]; [|do 3 (try destruct n as [n|n|])|]; (destruct c as [|[]|]);
    (apply shp3; assumption).
Qed.
Lemma cn_dsh2 x0 x1 y0 y1 dx dy ex ey n c : cn 2 x0 y0 1 -> cn 2 x1 y1 1 -> cellsz dx ex -> cellsz dy ey ->
  cn 18 (dsh2 x0 x1 dx dy n c) (dsh2 y0 y1 ex ey n c) (/ pick3 c ex ey ey).
Proof.
  intros X0 X1 Dx Dy.
  pose proof (cn_plus _ _ X0) as A0. pose proof (cn_plus _ _ X1) as A1. pose proof (cn_minus _ _ X0) as S0. pose proof (cn_minus _ _ X1) as S1.
  pose proof (cn_opp _ _ _ _ A0) as NA0. pose proof (cn_opp _ _ _ _ A1) as NA1. pose proof (cn_opp _ _ _ _ S0) as NS0. pose proof (cn_opp _ _ _ _ S1) as NS1.
  unfold dsh2, pick3.
  destruct n as [|n|n]; [|do 2 (try destruct n as [n|n|])|]; (destruct c as [|[]|]); (apply shp2; assumption).
Qed.
Lemma in6 v : (0 <= v < 6 -> v = 0 \/ v = 1 \/ v = 2 \/ v = 3 \/ v = 4 \/ v = 5)%Z. Proof. lia. Qed.
Lemma in3 v : (0 <= v < 3 -> v = 0 \/ v = 1 \/ v = 2)%Z. Proof. lia. Qed.
Lemma in2 v : (0 <= v < 2 -> v = 0 \/ v = 1)%Z. Proof. lia. Qed.

Section Fem.
Variables (V : env flt) (W : env R) (H : R).
Hypotheses (Dx : cellsz (v_dx V) (v_dx W)) (Dy : cellsz (v_dy V) (v_dy W)).
Hypotheses (Hx : / v_dx W <= H) (Hy : / v_dy W <= H).
Lemma H_pos : p2 (-60) <= H.
Proof. destruct Dx as ((_ & P & _) & _ & K). eapply Rle_trans; [|exact Hx]. change (-60)%Z with (Z.opp 60). rewrite Raux.bpow_opp. apply Rinv_le_contravar; assumption. Qed.
Lemma H_0 : 0 <= H.
Proof. pose proof H_pos. pose proof (Raux.bpow_gt_0 Zaux.radix2 (-60)). lra. Qed.

Lemma cn_B2 g v i : (0 <= v < 3)%Z -> cn 18 (B2 V g v i) (B2 W g v i) H.
Proof.
  intro Hv. pose proof (fun n c => cn_dsh2 _ _ _ _ _ _ _ _ n c (cn_xg g 0) (cn_xg g 1) Dx Dy) as D.
  assert (D0 : forall n, cn 18 (dsh2 (xg g 0) (xg g 1) (v_dx V) (v_dy V) n 0) (dsh2 (xg g 0) (xg g 1) (v_dx W) (v_dy W) n 0) H).
  { intro n. exact (cn_le _ _ _ _ _ _ (D n 0%Z) (le_n _) Hx). }
  assert (D1 : forall n, cn 18 (dsh2 (xg g 0) (xg g 1) (v_dx V) (v_dy V) n 1) (dsh2 (xg g 0) (xg g 1) (v_dx W) (v_dy W) n 1) H).
  { intro n. exact (cn_le _ _ _ _ _ _ (D n 1%Z) (le_n _) Hy). }
  pose proof (cn_zero 18 H H_0) as Z0. unfold B2, bmat2.
  assert (M : (0 <= i mod 2 < 2)%Z) by (apply Z.mod_pos_bound; lia). apply in3 in Hv. apply in2 in M.
  destruct Hv as [-> |[-> | ->]]; destruct M as [-> | ->]; first [apply D0|apply D1|exact Z0].
Qed.

(** weights *)
Lemma rl_mul k1 k2 x1 y1 x2 y2 : rl k1 x1 y1 -> rl k2 x2 y2 -> gam k1 <= / 2 -> gam k2 <= / 2 -> tiny <= y1 * y2 -> y1 * y2 <= p2 1000 -> rl (S (S (k1 + k2))) (omul x1 x2) (y1 * y2).
Proof.
  intros R1 R2 G1 G2 L U. pose proof (cn_mul _ _ _ _ _ _ _ _ (rl_cn _ _ _ R1) (rl_cn _ _ _ R2) L) as N.
  destruct R1 as (F1 & P1 & N1), R2 as (F2 & P2 & N2).
  assert (F : fin (omul x1 x2)).
  { apply mul_fin; [exact F1|exact F2|]. rewrite Rabs_mult.
    assert (B1 : Rabs (val x1) <= 2 * y1). { replace (val x1) with (val x1 - y1 + y1) by ring. eapply Rle_trans; [apply Rabs_triang|]. rewrite (Rabs_pos_eq y1) by lra. assert (gam k1 * y1 <= / 2 * y1) by (apply Rmult_le_compat_r; lra). lra. }
    assert (B2 : Rabs (val x2) <= 2 * y2). { replace (val x2) with (val x2 - y2 + y2) by ring. eapply Rle_trans; [apply Rabs_triang|]. rewrite (Rabs_pos_eq y2) by lra. assert (gam k2 * y2 <= / 2 * y2) by (apply Rmult_le_compat_r; lra). lra. }
    apply Rle_trans with ((2 * y1) * (2 * y2)); [apply Rmult_le_compat; try apply Rabs_pos; assumption|].
    apply Rle_trans with (p2 2 * p2 1000); [change (p2 2) with 4; lra|]. rewrite <- Raux.bpow_plus. apply Raux.bpow_le. lia. }
  split; [exact F|]. split; [apply Rmult_lt_0_compat; assumption|]. exact (proj2 N F).
Qed.
Lemma p2_up d e x y : 0 <= x <= p2 d -> 0 <= y <= p2 e -> 0 <= x * y <= p2 (d + e).
Proof. intros X Y. rewrite Raux.bpow_plus. split; [apply Rmult_le_pos; lra|apply Rmult_le_compat; lra]. Qed.
Lemma p2_up_le d e x : 0 <= x <= p2 d -> (d <= e)%Z -> x <= p2 e.
Proof. intros [_ X] L. eapply Rle_trans; [exact X|]. apply Raux.bpow_le. exact L. Qed.
Lemma cell_up x d : cellsz x d -> 0 <= d <= p2 60.
Proof. intros ((_ & P & _) & _ & K). lra. Qed.
Lemma wg2_rl : rl 10 (wg2 V) (wg2 W) /\ p2 (-184) <= wg2 W /\ 0 <= wg2 W <= p2 120 /\ wg2 W = 1 / 4 * v_dx W * v_dy W.
Proof.
  assert (E : wg2 W = 1 / 4 * v_dx W * v_dy W).
  { unfold wg2, dec. change (10 ^ 2)%Z with 100%Z. cbn [omul odiv ofZ ROps]. lra. }
  pose proof (cn_dec 25 2 ltac:(lia) ltac:(lia)) as C. change (IZR (10 ^ 2)) with 100 in C.
  assert (Q : rl 2 (dec 25 2) (25 / 100)). { split; [vm_compute; reflexivity|]. split; [lra|]. apply C. vm_compute. reflexivity. }
  pose proof Dx as (Rx & Lx & _). pose proof Dy as (Ry & Ly & _). pose proof (cell_up _ _ Dx) as Ux. pose proof (cell_up _ _ Dy) as Uy.
  assert (L0 : p2 (-2) <= 25 / 100) by (cbn; lra). assert (U0 : 0 <= 25 / 100 <= p2 0) by (cbn; lra).
  pose proof (p2_mul _ _ _ _ L0 Lx) as L1. pose proof (p2_up _ _ _ _ U0 Ux) as U1.
  pose proof (p2_mul _ _ _ _ L1 Ly) as L2. pose proof (p2_up _ _ _ _ U1 Uy) as U2.
  pose proof (rl_mul _ _ _ _ _ _ Q Rx (gam_half 2 ltac:(lia)) (gam_half 2 ltac:(lia)) (p2_tiny _ _ L1 ltac:(lia)) (p2_up_le _ 1000 _ U1 ltac:(lia))) as R1.
  pose proof (rl_mul _ _ _ _ _ _ R1 Ry (gam_half 6 ltac:(lia)) (gam_half 2 ltac:(lia)) (p2_tiny _ _ L2 ltac:(lia)) (p2_up_le _ 1000 _ U2 ltac:(lia))) as R2.
  split; [exact R2|]. assert (E2 : wg2 W = 25 / 100 * v_dx W * v_dy W) by (rewrite E; lra). rewrite E2.
  split; [eapply p2_le; [exact L2|lia]|]. split; [exact U2|lra].
Qed.

Section Depth.
Hypotheses (Dz : cellsz (v_dz V) (v_dz W)) (Hz : / v_dz W <= H).
Lemma cn_B3 g v i : (0 <= v < 6)%Z -> cn 18 (B3 V g v i) (B3 W g v i) H.
Proof.
  intro Hv. pose proof (fun n c => cn_dsh3 _ _ _ _ _ _ _ _ _ _ _ _ n c (cn_xg g 0) (cn_xg g 1) (cn_xg g 2) Dx Dy Dz) as D.
  set (F := dsh3 (xg g 0) (xg g 1) (xg g 2) (v_dx V) (v_dy V) (v_dz V)) in *. set (G := dsh3 (xg g 0) (xg g 1) (xg g 2) (v_dx W) (v_dy W) (v_dz W)) in *.
  assert (D0 : forall n, cn 18 (F n 0%Z) (G n 0%Z) H) by (intro n; exact (cn_le _ _ _ _ _ _ (D n 0%Z) (le_n _) Hx)).
  assert (D1 : forall n, cn 18 (F n 1%Z) (G n 1%Z) H) by (intro n; exact (cn_le _ _ _ _ _ _ (D n 1%Z) (le_n _) Hy)).
  assert (D2 : forall n, cn 18 (F n 2%Z) (G n 2%Z) H) by (intro n; exact (cn_le _ _ _ _ _ _ (D n 2%Z) (le_n _) Hz)).
  pose proof (cn_zero 18 H H_0) as Z0. unfold B3, bmat3. fold F G.
  assert (M : (0 <= i mod 3 < 3)%Z) by (apply Z.mod_pos_bound; lia). apply in6 in Hv. apply in3 in M.
  destruct Hv as [-> |[-> |[-> |[-> |[-> | ->]]]]]; destruct M as [-> |[-> | ->]]; first [apply D0|apply D1|apply D2|exact Z0].
Qed.
Lemma wg3_rl : rl 14 (wg3 V) (wg3 W) /\ p2 (-276) <= wg3 W /\ 0 <= wg3 W <= p2 180 /\ wg3 W = 1 / 8 * v_dx W * v_dy W * v_dz W.
Proof.
  assert (Q : rl 2 (odiv (ofZ 1) (ofZ 8)) (1 / 8)).
  { split; [vm_compute; reflexivity|]. split; [lra|]. pose proof (cn_div 0 0 _ _ _ _ _ (cn_one 0) (rl_int 8 ltac:(lia)) (gam_half 0 ltac:(lia))) as C.
    apply C; [|vm_compute; reflexivity]. apply (p2_tiny (-3)); [cbn; lra|lia]. }
  pose proof Dx as (Rx & Lx & _). pose proof Dy as (Ry & Ly & _). pose proof Dz as (Rz & Lz & _). pose proof (cell_up _ _ Dx) as Ux. pose proof (cell_up _ _ Dy) as Uy. pose proof (cell_up _ _ Dz) as Uz.
  assert (L0 : p2 (-3) <= 1 / 8) by (cbn; lra). assert (U0 : 0 <= 1 / 8 <= p2 0) by (cbn; lra).
  pose proof (p2_mul _ _ _ _ L0 Lx) as L1. pose proof (p2_up _ _ _ _ U0 Ux) as U1.
  pose proof (p2_mul _ _ _ _ L1 Ly) as L2. pose proof (p2_up _ _ _ _ U1 Uy) as U2.
  pose proof (p2_mul _ _ _ _ L2 Lz) as L3. pose proof (p2_up _ _ _ _ U2 Uz) as U3.
  pose proof (rl_mul _ _ _ _ _ _ Q Rx (gam_half 2 ltac:(lia)) (gam_half 2 ltac:(lia)) (p2_tiny _ _ L1 ltac:(lia)) (p2_up_le _ 1000 _ U1 ltac:(lia))) as R1.
  pose proof (rl_mul _ _ _ _ _ _ R1 Ry (gam_half 6 ltac:(lia)) (gam_half 2 ltac:(lia)) (p2_tiny _ _ L2 ltac:(lia)) (p2_up_le _ 1000 _ U2 ltac:(lia))) as R2.
  pose proof (rl_mul _ _ _ _ _ _ R2 Rz (gam_half 10 ltac:(lia)) (gam_half 2 ltac:(lia)) (p2_tiny _ _ L3 ltac:(lia)) (p2_up_le _ 1000 _ U3 ltac:(lia))) as R3.
  split; [exact R3|]. change (wg3 W) with (1 / 8 * v_dx W * v_dy W * v_dz W).
  split; [eapply p2_le; [exact L3|lia]|]. split; [exact U3|lra].
Qed.
End Depth.
End Fem.

(** ** The loops over a cell *)
Lemma cn_acc {A} (l : list A) (f : A -> flt) (h : A -> R) k z y a c : cn k z y a -> (forall x, In x l -> cn k (f x) (h x) c) ->
  cn (k + length l) (accf z l f) (accf y l h) (a + INR (length l) * c).
Proof. intros Z0 F. rewrite accf_R, <- rsum_same. apply cn_fold; assumption. Qed.
Lemma cn_up k k' x y a : cn k x y a -> (k <= k')%nat -> cn k' x y a.
Proof. intros C L. exact (cn_le _ _ _ _ _ _ C L (Rle_refl a)). Qed.

Lemma cn_strain nv nd kd (B : Z -> Z -> flt) (C : Z -> Z -> R) ed gd H U v : (0 <= nd)%Z -> (0 <= v < nv)%Z ->
  (forall i, cn 18 (B v i) (C v i) H) -> (forall i, (0 <= i < nd)%Z -> cn kd (lget ed i) (lget gd i) U) -> tiny <= H * U ->
  cn (20 + kd + Z.to_nat nd) (lget (strain_of nv nd B ed) v) (lget (strain_of nv nd C gd) v) (IZR nd * (H * U)).
Proof.
  intros Nd Hv HB HD L. unfold strain_of. rewrite !lget_ltab by assumption. rewrite sumf_R.
  pose proof (cn_sum_c (zrange 0 nd) (fun i => omul (B v i) (lget ed i)) (fun i => C v i * lget gd i) (20 + kd) (H * U)) as Q.
  rewrite length_zrange, Z.sub_0_r, INR_IZR_INZ, Z2Nat.id in Q by assumption. apply Q. intros i Hi. apply in_zrange in Hi.
  exact (cn_mul _ _ _ _ _ _ _ _ (HB i) (HD i Hi) L).
Qed.

Lemma cn_rhs nv nd ks (B : Z -> Z -> Z -> flt) (C : Z -> Z -> Z -> R) s t wg wr H S0 : (0 <= nv)%Z ->
  (forall g v i, (0 <= v < nv)%Z -> cn 18 (B g v i) (C g v i) H) -> rl 14 wg wr -> tiny <= H * S0 -> tiny <= H * S0 * wr ->
  forall gs i, (0 <= i < nd)%Z -> (forall g v, In g gs -> (0 <= v < nv)%Z -> cn ks (lget (s g) v) (lget (t g) v) S0) ->
  forall k be br a, (36 + ks <= k)%nat -> cn k (lget be i) (lget br i) a ->
  cn (k + length gs * Z.to_nat nv) (lget (fold_left (fun be g => add_rhs nv nd (B g) (s g) wg be) gs be) i)
     (lget (fold_left (fun be g => add_rhs nv nd (C g) (t g) wr be) gs br) i) (a + INR (length gs) * (IZR nv * (H * S0 * wr))).
Proof.
  intros Nv HB Hw L1 L2 gs i Hi. induction gs as [|g gs IH]; intros Hs k be br a Kk Hb.
  - cbn [length fold_left]. rewrite Rmult_0_l, Rplus_0_r, Nat.mul_0_l, Nat.add_0_r. exact Hb.
  - cbn [fold_left]. change (length (g :: gs)) with (S (length gs)).
    assert (Q : cn (k + Z.to_nat nv) (lget (add_rhs nv nd (B g) (s g) wg be) i) (lget (add_rhs nv nd (C g) (t g) wr br) i) (a + IZR nv * (H * S0 * wr))).
    { unfold add_rhs. rewrite !lget_ltab by assumption.
      pose proof (cn_acc (zrange 0 nv) (fun j => omul (omul (B g j i) (lget (s g) j)) wg) (fun j => C g j i * lget (t g) j * wr) k _ _ _ (H * S0 * wr) Hb) as Q.
      rewrite length_zrange, Z.sub_0_r, INR_IZR_INZ, Z2Nat.id in Q by assumption. apply Q. intros j Hj. apply in_zrange in Hj.
      eapply cn_up; [exact (cn_mul _ _ _ _ _ _ _ _ (cn_mul _ _ _ _ _ _ _ _ (HB g j i Hj) (Hs g j (or_introl eq_refl) Hj) L1) (rl_cn _ _ _ Hw) L2)|]. lia. }
    specialize (IH (fun g' v I => Hs g' v (or_intror I)) (k + Z.to_nat nv)%nat _ _ _ ltac:(lia) Q).
    eapply cn_le; [exact IH| |].
    + lia.
    + rewrite S_INR. lra.
Qed.

Lemma cn_ave nv ks (s : Z -> list flt) t wg wr S0 v : (0 <= v < nv)%Z -> rl 14 wg wr -> tiny <= S0 * wr ->
  forall gs, (forall g, In g gs -> cn ks (lget (s g) v) (lget (t g) v) S0) ->
  forall k be br a, (16 + ks <= k)%nat -> cn k (lget be v) (lget br v) a ->
  cn (k + length gs) (lget (fold_left (fun be g => add_ave nv (s g) wg be) gs be) v)
     (lget (fold_left (fun be g => add_ave nv (t g) wr be) gs br) v) (a + INR (length gs) * (S0 * wr)).
Proof.
  intros Hv Hw L2 gs. induction gs as [|g gs IH]; intros Hs k be br a Kk Hb.
  - cbn [length fold_left]. rewrite Rmult_0_l, Rplus_0_r, Nat.add_0_r. exact Hb.
  - cbn [fold_left]. change (length (g :: gs)) with (S (length gs)).
    assert (Q : cn (S k) (lget (add_ave nv (s g) wg be) v) (lget (add_ave nv (t g) wr br) v) (a + S0 * wr)).
    { unfold add_ave. rewrite !lget_ltab by assumption. apply cn_add; [exact Hb|].
      eapply cn_up; [exact (cn_mul _ _ _ _ _ _ _ _ (Hs g (or_introl eq_refl)) (rl_cn _ _ _ Hw) L2)|]. lia. }
    specialize (IH (fun g' I => Hs g' (or_intror I)) (S k) _ _ _ ltac:(lia) Q).
    eapply cn_le; [exact IH| |].
    + lia.
    + rewrite S_INR. lra.
Qed.
Lemma cn_vec {A} nv (f : A -> list flt) (h : A -> list R) v c : (0 <= v < nv)%Z ->
  forall l k be br a, (forall e, In e l -> cn k (lget (f e) v) (lget (h e) v) c) -> cn k (lget be v) (lget br v) a ->
  cn (k + length l) (lget (fold_left (fun s e => add_vec nv (f e) s) l be) v) (lget (fold_left (fun s e => add_vec nv (h e) s) l br) v) (a + INR (length l) * c).
Proof.
  intros Hv l. induction l as [|e l IH]; intros k be br a Hf Hb.
  - cbn [length fold_left]. rewrite Rmult_0_l, Rplus_0_r, Nat.add_0_r. exact Hb.
  - cbn [fold_left]. change (length (e :: l)) with (S (length l)).
    assert (Q : cn (S k) (lget (add_vec nv (f e) be) v) (lget (add_vec nv (h e) br) v) (a + c)).
    { unfold add_vec. rewrite !lget_ltab by assumption. apply cn_add; [exact Hb|]. apply Hf. left. reflexivity. }
    specialize (IH (S k) _ _ _ (fun e' I => cn_up _ (S k) _ _ _ (Hf e' (or_intror I)) ltac:(lia)) Q).
    eapply cn_le; [exact IH| |].
    + lia.
    + rewrite S_INR. lra.
Qed.
Lemma cn_zeros n k i : (0 <= i < n)%Z -> cn k (lget (zeros n) i) (lget (zeros n) i) 0.
Proof. intro Hi. unfold zeros. rewrite !lget_ltab by assumption. apply cn_zero. lra. Qed.
