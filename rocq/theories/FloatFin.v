(** No overflow: displacements of moderate size give finite stresses in doubles. *)
From Coq Require Import Reals Lra ZifyBool ZifyNat.
From Flocq Require Import BinarySingleNaN.
From Verif Require Import Base Scalar ConvexMin EllSpec EllInit EllAsm CgPure CgProps AssemblyModel AsmPure AsmBnd AsmRun FemGen FemAve FemRhs AsmMat MicroModel NewtonBase Build BinInst FloatSum FloatCg FloatFem FloatBody FloatMat FloatNewton FloatBnd FloatShadow.
Open Scope Z_scope.
Open Scope R_scope.
Notation val := (@B2R 53 1024).

(** ** Finite and at most 2^n *)
Definition bd (n : Z) (x : flt) : Prop := fin x /\ Rabs (val x) <= p2 n.
Lemma bd_le a b x : bd a x -> (a <= b)%Z -> bd b x.
Proof. intros (F & B) L. split; [exact F|]. eapply Rle_trans; [exact B|]. now apply Raux.bpow_le. Qed.
Lemma p2_huge a : (a <= 1023)%Z -> p2 a <= huge.
Proof. intro L. now apply Raux.bpow_le. Qed.
Lemma eta_p2 a : (-1000 <= a)%Z -> eta <= uro * p2 a.
Proof. intro L. rewrite eta_tiny. apply Rmult_le_compat_l; [pose proof uro_pos; lra|]. apply Raux.bpow_le. lia. Qed.
Lemma uro_8 : uro <= / 8.
Proof. rewrite uro_val. lra. Qed.
Lemma p2_S a : p2 (a + 1) = 2 * p2 a.
Proof. rewrite Raux.bpow_plus. change (p2 1) with 2. ring. Qed.
Lemma p2_pos a : 0 < p2 a.
Proof. apply Raux.bpow_gt_0. Qed.
Lemma rounded a x y : (-1000 <= a)%Z -> Rabs y <= p2 a -> Rabs (x - y) <= uro * Rabs y + eta -> Rabs x <= p2 (a + 1).
Proof.
  intros L B E. pose proof (eta_p2 a L) as T. pose proof uro_8 as U. pose proof uro_pos as U0. pose proof (p2_pos a) as P. rewrite p2_S.
  replace x with (x - y + y) by ring. eapply Rle_trans; [apply Rabs_triang|].
  assert (uro * Rabs y <= uro * p2 a) by (apply Rmult_le_compat_l; lra). assert (uro * p2 a <= / 8 * p2 a) by (apply Rmult_le_compat_r; lra). lra.
Qed.
Lemma bd_mul a b x y : bd a x -> bd b y -> (-1000 <= a + b <= 1000)%Z -> bd (a + b + 1) (omul x y).
Proof.
  intros (Fx & Bx) (Fy & By) L.
  assert (B : Rabs (val x * val y) <= p2 (a + b)). { rewrite Rabs_mult, Raux.bpow_plus. apply Rmult_le_compat; try apply Rabs_pos; assumption. }
  assert (F : fin (omul x y)) by (apply mul_fin; [exact Fx|exact Fy|eapply Rle_trans; [exact B|apply p2_huge; lia]]).
  split; [exact F|]. eapply rounded; [|exact B|exact (mul_error _ _ F)]. lia.
Qed.
Lemma bd_div a b x y : bd a x -> fin y -> p2 b <= Rabs (val y) -> (-1000 <= a - b <= 1000)%Z -> bd (a - b + 1) (odiv x y).
Proof.
  intros (Fx & Bx) Fy By L. pose proof (p2_pos b) as Pb. assert (N : val y <> 0) by (intro E; rewrite E, Rabs_R0 in By; lra).
  assert (B : Rabs (val x / val y) <= p2 (a - b)).
  { unfold Rdiv. rewrite Rabs_mult, Rabs_inv. unfold Z.sub. rewrite Raux.bpow_plus, Raux.bpow_opp. apply Rmult_le_compat; [apply Rabs_pos| |exact Bx|].
    - apply Rlt_le, Rinv_0_lt_compat. lra.
    - apply Rinv_le_contravar; assumption. }
  assert (F : fin (odiv x y)) by (apply div_fin; [exact Fx|exact N|eapply Rle_trans; [exact B|apply p2_huge; lia]]).
  split; [exact F|]. eapply rounded; [|exact B|exact (div_error _ _ F Fy)]. lia.
Qed.
Lemma sum_size a x y : Rabs x <= p2 a -> Rabs y <= p2 a -> Rabs (x + y) <= p2 (a + 1).
Proof. intros A B. rewrite p2_S. eapply Rle_trans; [apply Rabs_triang|]. lra. Qed.
Lemma bd_add a x y : bd a x -> bd a y -> (-1000 <= a <= 1000)%Z -> bd (a + 2) (oadd x y).
Proof.
  intros (Fx & Bx) (Fy & By) L. pose proof (sum_size _ _ _ Bx By) as B.
  assert (F : fin (oadd x y)) by (apply add_fin; [exact Fx|exact Fy|eapply Rle_trans; [exact B|apply p2_huge; lia]]).
  split; [exact F|]. replace (a + 2)%Z with (a + 1 + 1)%Z by lia. eapply rounded; [|exact B|]; [lia|]. pose proof (add_error _ _ F). pose proof eta_pos. lra.
Qed.
Lemma bd_opp a x : bd a x -> bd a (oopp x).
Proof. intros (F & B). split; [now apply fin_opp|]. rewrite val_opp, Rabs_Ropp. exact B. Qed.
Lemma bd_sub a x y : bd a x -> bd a y -> (-1000 <= a <= 1000)%Z -> bd (a + 2) (osub x y).
Proof.
  intros (Fx & Bx) (Fy & By) L. assert (By' : Rabs (- val y) <= p2 a) by (now rewrite Rabs_Ropp). pose proof (sum_size _ _ _ Bx By') as B.
  assert (F : fin (osub x y)) by (apply sub_fin; [exact Fx|exact Fy|eapply Rle_trans; [exact B|apply p2_huge; lia]]).
  split; [exact F|]. replace (a + 2)%Z with (a + 1 + 1)%Z by lia. eapply rounded; [|exact B|]; [lia|]. pose proof (sub_error _ _ F). pose proof eta_pos. unfold Rminus in *. lra.
Qed.
Lemma bd_int z a : (Z.abs z <= 2 ^ 53)%Z -> Rabs (IZR z) <= p2 a -> bd a (ofZ z).
Proof. intros H B. destruct (int_exact z H) as (F & E). split; [exact F|]. now rewrite E. Qed.
Lemma bd_zero a : bd a (ofZ 0).
Proof. split; [exact fin_0|]. rewrite val_0, Rabs_R0. apply Rlt_le, p2_pos. Qed.
Lemma cn_bd k x y a n : cn k x y a -> fin x -> (k <= 1000)%nat -> a <= p2 n -> bd (n + 1) x.
Proof.
  intros C F K A. split; [exact F|]. pose proof (cn_pos _ _ _ _ C) as P. destruct C as (B & E). specialize (E F). pose proof (gam_half k K) as G. rewrite p2_S.
  replace (val x) with (val x - y + y) by ring. eapply Rle_trans; [apply Rabs_triang|]. assert (gam k * a <= / 2 * a) by (apply Rmult_le_compat_r; lra). lra.
Qed.

(** ** Sums of m terms of size at most 2^c *)
Definition ac (c : Z) (m : nat) (x : flt) : Prop := fin x /\ Rabs (val x) <= (1 + gam m) * (INR m * p2 c).
Lemma ac_zero c : ac c 0 (ofZ 0).
Proof. split; [exact fin_0|]. rewrite val_0, Rabs_R0. simpl. lra. Qed.
Lemma ac_size c m k : gam m <= / 2 -> INR m <= p2 k -> (1 + gam m) * (INR m * p2 c) <= p2 (c + k + 1).
Proof.
  intros G N. pose proof (gam_pos m) as G0. pose proof (pos_INR m) as M0. pose proof (p2_pos c) as P. rewrite p2_S, Raux.bpow_plus.
  apply Rmult_le_compat; [lra|apply Rmult_le_pos; lra|lra|]. rewrite (Rmult_comm (p2 c)). apply Rmult_le_compat_r; lra.
Qed.
Lemma ac_bd c m k x : ac c m x -> gam m <= / 2 -> INR m <= p2 k -> bd (c + k + 1) x.
Proof. intros (F & B) G N. split; [exact F|]. eapply Rle_trans; [exact B|]. now apply ac_size. Qed.
Lemma ac_add c m x y k : ac c m x -> bd c y -> gam (S m) <= / 2 -> INR (S m) <= p2 k -> (c + k + 1 <= 1000)%Z -> ac c (S m) (oadd x y).
Proof.
  intros (Fx & Bx) (Fy & By) G N L. pose proof uro_pos as U. pose proof (gam_pos m) as G0. pose proof (p2_pos c) as P. pose proof (pos_INR m) as M0.
  assert (S1 : Rabs (val x + val y) <= (1 + gam m) * (INR (S m) * p2 c)).
  { eapply Rle_trans; [apply Rabs_triang|]. rewrite S_INR. assert (0 <= gam m * p2 c) by (apply Rmult_le_pos; lra). lra. }
  assert (Gs : 1 + gam (S m) = (1 + uro) * (1 + gam m)) by (rewrite gam_S; ring).
  assert (S2 : (1 + uro) * ((1 + gam m) * (INR (S m) * p2 c)) = (1 + gam (S m)) * (INR (S m) * p2 c)) by (rewrite Gs; ring).
  assert (P0 : 0 <= (1 + gam m) * (INR (S m) * p2 c)) by (apply Rmult_le_pos; [lra|apply Rmult_le_pos; [apply pos_INR|lra]]).
  assert (S3 : Rabs (val x + val y) <= (1 + gam (S m)) * (INR (S m) * p2 c)).
  { rewrite <- S2. assert (0 <= uro * ((1 + gam m) * (INR (S m) * p2 c))) by (apply Rmult_le_pos; lra). lra. }
  assert (F : fin (oadd x y)). { apply add_fin; [exact Fx|exact Fy|]. eapply Rle_trans; [exact S3|]. eapply Rle_trans; [now apply (ac_size c (S m) k)|]. apply p2_huge. lia. }
  split; [exact F|]. pose proof (add_error _ _ F) as E. rewrite <- S2.
  replace (val (oadd x y)) with (val (oadd x y) - (val x + val y) + (val x + val y)) by ring. eapply Rle_trans; [apply Rabs_triang|].
  assert (uro * Rabs (val x + val y) <= uro * ((1 + gam m) * (INR (S m) * p2 c))) by (apply Rmult_le_compat_l; lra). lra.
Qed.
Lemma ac_fold {A} c k (f : A -> flt) (l : list A) : forall m z, ac c m z -> (forall x, In x l -> bd c (f x)) -> gam (m + length l) <= / 2 -> INR (m + length l) <= p2 k -> (c + k + 1 <= 1000)%Z ->
  ac c (m + length l) (fold_left (fun acc x => oadd acc (f x)) l z).
Proof.
  induction l as [|x l IH]; intros m z Z0 Hf G N L; [cbn [length fold_left]; now rewrite Nat.add_0_r|]. change (length (x :: l)) with (S (length l)) in *. cbn [fold_left].
  replace (m + S (length l))%nat with (S m + length l)%nat in * by lia. apply IH; try assumption; [|intros y Hy; apply Hf; now right].
  apply (ac_add c m z (f x) k Z0 (Hf x (or_introl eq_refl))); [| |exact L].
  - eapply Rle_trans; [|exact G]. apply gam_le. lia.
  - eapply Rle_trans; [|exact N]. apply le_INR. lia.
Qed.
Lemma small_count m k : (m <= 1000)%nat -> (Z.of_nat m <= 2 ^ k)%Z -> (0 <= k)%Z -> gam m <= / 2 /\ INR m <= p2 k.
Proof.
  intros M K P. split; [now apply gam_half|]. rewrite INR_IZR_INZ, <- Raux.IZR_Zpower by exact P. now apply IZR_le.
Qed.
Lemma bd_sum {A} c k (f : A -> flt) (l : list A) : (forall x, In x l -> bd c (f x)) -> (length l <= 1000)%nat -> (Z.of_nat (length l) <= 2 ^ k)%Z -> (0 <= k)%Z -> (c + k + 1 <= 1000)%Z ->
  bd (c + k + 1) (sumf l f).
Proof.
  intros Hf N K P L. destruct (small_count _ k N K P) as (G & B). pose proof (ac_fold c k f l 0 (ofZ 0) (ac_zero c) Hf G B L) as Q. exact (ac_bd _ _ k _ Q G B).
Qed.

(** ** The loops over a cell *)
Lemma rhs_bd nv nd (B : Z -> Z -> Z -> flt) s wg c k : (0 <= nv)%Z -> (c + k + 1 <= 1000)%Z ->
  (forall g v i, (0 <= v < nv)%Z -> bd c (omul (omul (B g v i) (lget (s g) v)) wg)) ->
  forall gs i, (0 <= i < nd)%Z -> forall m be, ac c m (lget be i) -> gam (m + length gs * Z.to_nat nv) <= / 2 -> INR (m + length gs * Z.to_nat nv) <= p2 k ->
  ac c (m + length gs * Z.to_nat nv) (lget (fold_left (fun be g => add_rhs nv nd (B g) (s g) wg be) gs be) i).
Proof.
  intros Nv L Ht gs i Hi. induction gs as [|g gs IH]; intros m be Hb G N; [cbn [length fold_left]; now rewrite Nat.mul_0_l, Nat.add_0_r|].
  change (length (g :: gs)) with (S (length gs)) in *. cbn [fold_left]. replace (m + S (length gs) * Z.to_nat nv)%nat with (m + Z.to_nat nv + length gs * Z.to_nat nv)%nat in * by lia.
  apply IH; [|exact G|exact N]. unfold add_rhs. rewrite lget_ltab by exact Hi. unfold accf.
  pose proof (ac_fold c k (fun j => omul (omul (B g j i) (lget (s g) j)) wg) (zrange 0 nv) m _ Hb) as Q. rewrite length_zrange, Z.sub_0_r in Q. apply Q; [| | |exact L].
  - intros j Hj. apply in_zrange in Hj. now apply Ht.
  - eapply Rle_trans; [|exact G]. apply gam_le. lia.
  - eapply Rle_trans; [|exact N]. apply le_INR. lia.
Qed.
Lemma ave_bd nv (s : Z -> list flt) wg c k v : (0 <= v < nv)%Z -> (c + k + 1 <= 1000)%Z -> (forall g, bd c (omul (lget (s g) v) wg)) ->
  forall gs m be, ac c m (lget be v) -> gam (m + length gs) <= / 2 -> INR (m + length gs) <= p2 k ->
  ac c (m + length gs) (lget (fold_left (fun be g => add_ave nv (s g) wg be) gs be) v).
Proof.
  intros Hv L Ht gs. induction gs as [|g gs IH]; intros m be Hb G N; [cbn [length fold_left]; now rewrite Nat.add_0_r|].
  change (length (g :: gs)) with (S (length gs)) in *. cbn [fold_left]. replace (m + S (length gs))%nat with (S m + length gs)%nat in * by lia.
  apply IH; [|exact G|exact N]. unfold add_ave. rewrite lget_ltab by exact Hv. apply (ac_add c m _ _ k Hb (Ht g)); [| |exact L].
  - eapply Rle_trans; [|exact G]. apply gam_le. lia.
  - eapply Rle_trans; [|exact N]. apply le_INR. lia.
Qed.
Lemma vec_bd {A} nv (f : A -> list flt) c k v : (0 <= v < nv)%Z -> (c + k + 1 <= 1000)%Z ->
  forall l m be, (forall e, In e l -> bd c (lget (f e) v)) -> ac c m (lget be v) -> gam (m + length l) <= / 2 -> INR (m + length l) <= p2 k ->
  ac c (m + length l) (lget (fold_left (fun s e => add_vec nv (f e) s) l be) v).
Proof.
  intros Hv L l. induction l as [|g gs IH]; intros m be Ht Hb G N; [cbn [length fold_left]; now rewrite Nat.add_0_r|].
  change (length (g :: gs)) with (S (length gs)) in *. cbn [fold_left]. replace (m + S (length gs))%nat with (S m + length gs)%nat in * by lia.
  apply IH; [intros e He; apply Ht; now right| |exact G|exact N]. unfold add_vec. rewrite lget_ltab by exact Hv. apply (ac_add c m _ _ k Hb (Ht g (or_introl eq_refl))); [| |exact L].
  - eapply Rle_trans; [|exact G]. apply gam_le. lia.
  - eapply Rle_trans; [|exact N]. apply le_INR. lia.
Qed.
Lemma ac_zeros c n i : (0 <= i < n)%Z -> ac c 0 (lget (zeros n) i).
Proof. intro Hi. unfold zeros. rewrite lget_ltab by exact Hi. apply ac_zero. Qed.

(** ** Shape functions *)
Lemma bd_gpt : bd 1 gpt.
Proof. apply (cn_bd 2 _ _ _ 0 cn_gpt); [vm_compute; reflexivity|lia|change (p2 0) with 1; lra]. Qed.
Lemma bd_xg g c : bd 1 (xg g c).
Proof.
  pose proof bd_gpt as P. pose proof (bd_opp _ _ P) as N. unfold xg.
  destruct c as [|[]|]; repeat match goal with |- context [if ?b then _ else _] => destruct b end; first [exact P|exact N].
Qed.
Lemma bd_plus x : bd 1 x -> bd 3 (oadd (ofZ 1) x).
Proof. intro B. apply (bd_add 1); [|exact B|lia]. apply bd_int; [lia|]. rewrite Rabs_pos_eq by lra. change (p2 1) with 2. lra. Qed.
Lemma bd_minus x : bd 1 x -> bd 3 (osub (ofZ 1) x).
Proof. intro B. apply (bd_sub 1); [|exact B|lia]. apply bd_int; [lia|]. rewrite Rabs_pos_eq by lra. change (p2 1) with 2. lra. Qed.
Definition cell (x : flt) : Prop := fin x /\ p2 (-92) <= Rabs (val x).
Lemma cell_of x d : cellsz x d -> cell x.
Proof.
  intros ((F & P & E) & L & _). split; [exact F|]. pose proof (gam_half 2 ltac:(lia)) as G. change (-92)%Z with (-91 + -1)%Z. rewrite Raux.bpow_plus. change (p2 (-1)) with (/ 2).
  assert (gam 2 * d <= / 2 * d) by (apply Rmult_le_compat_r; lra). apply abs_bound in E. rewrite Rabs_pos_eq; lra.
Qed.
Lemma shp3_bd p q x : bd 3 p -> bd 3 q -> cell x -> bd 100 (odiv (omul (odiv (omul p q) (ofZ 8)) (ofZ 2)) x).
Proof.
  intros P Q (Fx & Lx). pose proof (bd_mul _ _ _ _ P Q ltac:(lia)) as M1. destruct (int_exact 8 ltac:(lia)) as (F8 & E8).
  pose proof (bd_div _ 3 _ (ofZ 8) M1 F8 ltac:(rewrite E8, Rabs_pos_eq by lra; change (p2 3) with 8; lra) ltac:(lia)) as M2.
  assert (B2 : bd 1 (ofZ 2)) by (apply bd_int; [lia|rewrite Rabs_pos_eq by lra; change (p2 1) with 2; lra]).
  pose proof (bd_mul _ _ _ _ M2 B2 ltac:(lia)) as M3. eapply bd_le; [exact (bd_div _ (-92) _ _ M3 Fx Lx ltac:(lia))|lia].
Qed.
Lemma shp2_bd p x : bd 3 p -> cell x -> bd 100 (odiv (omul (odiv p (ofZ 4)) (ofZ 2)) x).
Proof.
  intros P (Fx & Lx). destruct (int_exact 4 ltac:(lia)) as (F8 & E8).
  pose proof (bd_div _ 2 _ (ofZ 4) P F8 ltac:(rewrite E8, Rabs_pos_eq by lra; change (p2 2) with 4; lra) ltac:(lia)) as M2.
  assert (B2 : bd 1 (ofZ 2)) by (apply bd_int; [lia|rewrite Rabs_pos_eq by lra; change (p2 1) with 2; lra]).
  pose proof (bd_mul _ _ _ _ M2 B2 ltac:(lia)) as M3. eapply bd_le; [exact (bd_div _ (-92) _ _ M3 Fx Lx ltac:(lia))|lia].
Qed.
Lemma dsh3_bd x0 x1 x2 dx dy dz n c : bd 1 x0 -> bd 1 x1 -> bd 1 x2 -> cell dx -> cell dy -> cell dz -> bd 100 (dsh3 x0 x1 x2 dx dy dz n c).
Proof.
  intros X0 X1 X2 Dx Dy Dz.
  pose proof (bd_plus _ X0) as A0. pose proof (bd_plus _ X1) as A1. pose proof (bd_plus _ X2) as A2.
  pose proof (bd_minus _ X0) as S0. pose proof (bd_minus _ X1) as S1. pose proof (bd_minus _ X2) as S2.
  pose proof (bd_opp _ _ A0) as NA0. pose proof (bd_opp _ _ A1) as NA1. pose proof (bd_opp _ _ S0) as NS0. pose proof (bd_opp _ _ S1) as NS1.
  unfold dsh3. destruct n as [|n|n]; [|do 3 (try destruct n as [n|n|])|]; (destruct c as [|[]|]); (apply shp3_bd; assumption).
Qed.
Lemma dsh2_bd x0 x1 dx dy n c : bd 1 x0 -> bd 1 x1 -> cell dx -> cell dy -> bd 100 (dsh2 x0 x1 dx dy n c).
Proof.
  intros X0 X1 Dx Dy.
  pose proof (bd_plus _ X0) as A0. pose proof (bd_plus _ X1) as A1. pose proof (bd_minus _ X0) as S0. pose proof (bd_minus _ X1) as S1.
  pose proof (bd_opp _ _ A0) as NA0. pose proof (bd_opp _ _ A1) as NA1. pose proof (bd_opp _ _ S0) as NS0. pose proof (bd_opp _ _ S1) as NS1.
  unfold dsh2. destruct n as [|n|n]; [|do 2 (try destruct n as [n|n|])|]; (destruct c as [|[]|]); (apply shp2_bd; assumption).
Qed.
Lemma B3_bd (V : env flt) g v i : cell (v_dx V) -> cell (v_dy V) -> cell (v_dz V) -> (0 <= v < 6)%Z -> bd 100 (B3 V g v i).
Proof.
  intros Dx Dy Dz Hv. pose proof (fun n c => dsh3_bd _ _ _ _ _ _ n c (bd_xg g 0) (bd_xg g 1) (bd_xg g 2) Dx Dy Dz) as D. unfold B3, bmat3.
  assert (M : (0 <= i mod 3 < 3)%Z) by (apply Z.mod_pos_bound; lia). apply in6 in Hv. apply in3 in M.
  destruct Hv as [-> |[-> |[-> |[-> |[-> | ->]]]]]; destruct M as [-> |[-> | ->]]; first [apply D|apply bd_zero].
Qed.
Lemma B2_bd (V : env flt) g v i : cell (v_dx V) -> cell (v_dy V) -> (0 <= v < 3)%Z -> bd 100 (B2 V g v i).
Proof.
  intros Dx Dy Hv. pose proof (fun n c => dsh2_bd _ _ _ _ n c (bd_xg g 0) (bd_xg g 1) Dx Dy) as D. unfold B2, bmat2.
  assert (M : (0 <= i mod 2 < 2)%Z) by (apply Z.mod_pos_bound; lia). apply in3 in Hv. apply in2 in M.
  destruct Hv as [-> |[-> | ->]]; destruct M as [-> | ->]; first [apply D|apply bd_zero].
Qed.

(** ** Moduli *)
Lemma rl_bd k x y b : rl k x y -> (k <= 1000)%nat -> p2 b <= y -> fin x /\ p2 (b - 1) <= Rabs (val x).
Proof.
  intros (F & P & E) K L. split; [exact F|]. pose proof (gam_half k K) as G. unfold Z.sub. rewrite Raux.bpow_plus. change (p2 (- (1))) with (/ 2).
  assert (gam k * y <= / 2 * y) by (apply Rmult_le_compat_r; lra). apply abs_bound in E. rewrite Rabs_pos_eq; lra.
Qed.
Lemma mat_bd a M : computed a -> fair_mat a M -> bd 101 (m_lambda a) /\ bd 100 (m_mu a) /\ forall i j, bd 102 (ctan2 (m_E a) (m_nu a) i j).
Proof.
  intros C Fm. pose proof (mat_cn a M C Fm) as (Cl & Cm & Cc). destruct C as (t & E & nu & Sy & Ka & ->). destruct (den_big _ _ Fm) as (B1 & B2 & B3). destruct Fm as [FE Fn L H Mu P M0].
  unfold the_mat in *. cbn [m_E m_nu m_lambda m_mu exact_mat] in *.
  pose proof (rl_one_plus nu Fn H) as R1. pose proof (rl_one_minus nu Fn H) as R2. pose proof (pos_p2 _ _ L) as PE.
  set (d := (1 + val nu) * (1 - 2 * val nu)) in *. pose proof (pos_p2 _ _ B1) as Pd.
  assert (R3 : rl 4 (omul (oadd (ofZ 1) nu) (osub (ofZ 1) (omul (ofZ 2) nu))) d).
  { apply (rl_mul 1 1 _ _ _ _ R1 R2); [apply gam_half; lia|apply gam_half; lia|apply (p2_tiny (-190)); [exact B1|lia]|]. eapply Rle_trans; [exact B3|]. apply Raux.bpow_le. lia. }
  assert (R4 : rl 3 (omul (ofZ 2) (oadd (ofZ 1) nu)) (2 * (1 + val nu))).
  { pose proof (p2_mul 0 (-192) 2 _ ltac:(change (p2 0) with 1; lra) B2) as L2.
    apply (rl_mul 0 1 _ _ _ _ (rl_int 2 ltac:(lia)) R1); [apply gam_half; lia|apply gam_half; lia|exact (p2_tiny _ _ L2 ltac:(lia))|].
    apply Rle_trans with (p2 2); [change (p2 2) with 4; lra|apply Raux.bpow_le; lia]. }
  destruct (rl_bd 4 _ _ _ R3 ltac:(lia) B1) as (F3 & L3). destruct (rl_bd 3 _ _ (-192) R4 ltac:(lia) ltac:(lra)) as (F4 & L4).
  assert (BE : bd 102 E). { split; [exact FE|]. rewrite Rabs_pos_eq by lra. assert (Q : val E = val E / (1 + val nu) * (1 + val nu)) by (field; lra). rewrite Q. change 102%Z with (100 + 2)%Z. rewrite Raux.bpow_plus. change (p2 2) with 4.
    apply Rmult_le_compat; [apply Rlt_le, Rdiv_lt_0_compat; lra|lra|lra|lra]. }
  assert (Bn : bd 0 nu) by (split; [exact Fn|]; change (p2 0) with 1; apply Rabs_le; lra).
  pose proof (bd_mul _ _ _ _ Bn BE ltac:(lia)) as N1. pose proof (bd_div _ (-191) _ _ N1 F3 L3 ltac:(lia)) as Dl. pose proof (bd_div _ (-193) _ _ BE F4 L4 ltac:(lia)) as Dm.
  pose proof (bd_div _ (-191) _ _ BE F3 L3 ltac:(lia)) as Dp.
  assert (B1' : bd 0 (ofZ 1)) by (apply bd_int; [lia|rewrite Rabs_pos_eq by lra; change (p2 0) with 1; lra]).
  split; [exact (cn_bd _ _ _ _ 100 Cl (proj1 Dl) ltac:(lia) M0)|]. split.
  { apply (cn_bd _ _ _ _ 99 Cm (proj1 Dm) ltac:(lia)). change 99%Z with (100 + -1)%Z. rewrite Raux.bpow_plus. change (p2 (-1)) with (/ 2). lra. }
  intros i j. apply (cn_bd _ _ _ _ 101 (Cc i j)); [|lia|change 101%Z with (100 + 1)%Z; rewrite p2_S; lra].
  assert (Bf : bd 4 (match i, j with 0%Z, 0%Z => osub (ofZ 1) nu | 0%Z, 1%Z => nu | 1%Z, 0%Z => nu | 1%Z, 1%Z => osub (ofZ 1) nu | 2%Z, 2%Z => odiv (osub (ofZ 1) (omul (ofZ 2) nu)) (ofZ 2) | _, _ => ofZ 0 end)).
  { assert (Q1 : bd 4 nu) by (eapply bd_le; [exact Bn|lia]). assert (Q2 : bd 4 (osub (ofZ 1) nu)) by (eapply bd_le; [exact (bd_sub _ _ _ B1' Bn ltac:(lia))|lia]).
    assert (Q3 : bd 4 (odiv (osub (ofZ 1) (omul (ofZ 2) nu)) (ofZ 2))).
    { assert (B3' : bd 3 (osub (ofZ 1) (omul (ofZ 2) nu))). { eapply (cn_bd _ _ _ _ 2 (rl_cn _ _ _ R2) (proj1 R2) ltac:(lia)). change (p2 2) with 4. lra. }
      destruct (int_exact 2 ltac:(lia)) as (F2 & E2). eapply bd_le; [apply (bd_div _ 1 _ _ B3' F2); [rewrite E2, Rabs_pos_eq by lra; change (p2 1) with 2; lra|lia]|lia]. }
    pose proof (bd_zero 4) as Q0. destruct i as [|[?|[?|?|]|]|?]; destruct j as [|[?|[?|?|]|]|?]; assumption. }
  exact (proj1 (bd_mul _ _ _ _ Bf Dp ltac:(lia))).
Qed.

Lemma gam_count k : gam k <= / 2 -> INR k <= p2 53.
Proof.
  intro G. unfold gam in G. pose proof uro_pos as U. pose proof (poly k uro U) as Q. assert (INR k * uro <= 1) by lra. change (p2 53) with (IZR (2 ^ 53)).
  apply Rmult_le_reg_r with uro; [exact U|]. unfold uro at 2. rewrite Rinv_r; [lra|]. apply not_0_IZR. lia.
Qed.

(** ** Stresses of moderate displacements are finite *)
Section Forward.
Variables (V : env flt) (H M : R) (uf of : Z -> flt).
Hypothesis F : fair V H M.
Local Notation W := (exact_env V).
Hypothesis Bu : forall a, (0 <= a < ndofs V)%Z -> bd 300 (uf a).
Lemma dx_cell : cell (v_dx V).
Proof. exact (cell_of _ _ (tw_dx _ _ _ _ (fair_twin V H M F))). Qed.
Lemma dy_cell : cell (v_dy V).
Proof. exact (cell_of _ _ (tw_dy _ _ _ _ (fair_twin V H M F))). Qed.
Lemma dz_cell : v_dim V = 3%Z -> cell (v_dz V).
Proof. intro D. exact (cell_of _ _ (proj1 (tw_dz _ _ _ _ (fair_twin V H M F) D))). Qed.
Lemma area_bd x n : bd n x -> (-1000 <= n + 121 <= 1000)%Z -> bd (n + 122) (odiv x (area V)).
Proof.
  intros B L. destruct (area_rl V W H M (fair_twin V H M F)) as (Q & La & _). destruct (rl_bd 2 _ _ _ Q ltac:(lia) La) as (Fa & Ba).
  replace (n + 122)%Z with (n - (-120 - 1) + 1)%Z by lia. apply bd_div; [exact B|exact Fa|exact Ba|lia].
Qed.
Lemma strain_bd nv nd (B : Z -> Z -> flt) d v : (0 <= v < nv)%Z -> (0 <= nd <= 32)%Z -> (forall i, bd 100 (B v i)) -> (forall i, (0 <= i < nd)%Z -> bd 300 (d i)) ->
  bd 407 (lget (strain_of nv nd B (ltab nd d)) v).
Proof.
  intros Hv Hn HB Hd. unfold strain_of. rewrite lget_ltab by exact Hv.
  apply (bd_sum 401 5); try lia; try (rewrite length_zrange; lia). intros i Hi. apply in_zrange in Hi. rewrite lget_ltab by lia.
  exact (bd_mul _ _ _ _ (HB i) (Hd i Hi) ltac:(lia)).
Qed.
Section Three.
Hypothesis D : v_dim V = 3%Z.
Lemma wg3_bd : bd 181 (wg3 V).
Proof.
  pose proof (fair_twin V H M F) as TW. destruct (tw_dz _ _ _ _ TW D) as (Dz & _). destruct (wg3_rl V W (tw_dx _ _ _ _ TW) (tw_dy _ _ _ _ TW) Dz) as (Q & _ & U & _).
  apply (cn_bd 14 _ _ _ 180 (rl_cn _ _ _ Q) (proj1 Q)); [lia|lra].
Qed.
Lemma disp3_bd e i : In e (els3 V) -> (0 <= i < 24)%Z -> bd 300 (disp3 V uf e i).
Proof.
  intros He Hi. destruct e as [[ex ey] ez]. apply in_els3 in He. unfold disp3. apply Bu. rewrite (ndofs_eq3 V D).
  pose proof (corner3_range (v_nx V) (v_ny V) (v_nz V) ex ey ez (i / 3)) as R0. pose proof (Z.mod_pos_bound i 3).
  assert (0 <= i / 3 < 8)%Z by (Z.div_mod_to_equations; lia). lia.
Qed.
Lemma sig3_bd e g v : In e (els3 V) -> (0 <= v < 6)%Z -> bd 515 (lget (sig3 V of e g (strain3 V uf e g)) v).
Proof.
  intros He Hv. pose proof (ix3_range V e D He) as Rg. unfold sig3. rewrite (fr_lin _ _ _ F D _ Rg).
  destruct (fr_mat _ _ _ F _ Rg) as (Cm & Fm). destruct (mat_bd _ _ Cm Fm) as (Bl & Bm & _). unfold lin_stress3. rewrite lget_ltab by exact Hv.
  assert (Es : forall j, (0 <= j < 6)%Z -> bd 407 (lget (strain3 V uf e g) j)).
  { intros j Hj. apply strain_bd; [exact Hj|lia| |]; [intro i; exact (B3_bd V g j i dx_cell dy_cell (dz_cell D) Hj)|intros i Hi; now apply disp3_bd]. }
  destruct (v <? 3)%Z.
  - pose proof (bd_add _ _ _ (Es 0%Z ltac:(lia)) (Es 1%Z ltac:(lia)) ltac:(lia)) as T1. pose proof (bd_add _ _ _ T1 (bd_le _ (407 + 2) _ (Es 2%Z ltac:(lia)) ltac:(lia)) ltac:(lia)) as T2.
    pose proof (bd_mul _ _ _ _ Bl T2 ltac:(lia)) as T3. assert (B2 : bd 1 (ofZ 2)) by (apply bd_int; [lia|rewrite Rabs_pos_eq by lra; change (p2 1) with 2; lra]).
    pose proof (bd_mul _ _ _ _ (bd_mul _ _ _ _ B2 Bm ltac:(lia)) (Es v Hv) ltac:(lia)) as T4.
    eapply bd_le; [exact (bd_add _ _ _ T3 (bd_le _ (101 + (407 + 2 + 2) + 1) _ T4 ltac:(lia)) ltac:(lia))|lia].
  - eapply bd_le; [exact (bd_mul _ _ _ _ Bm (Es v Hv) ltac:(lia))|lia].
Qed.
Lemma aux3_bd e v : In e (els3 V) -> (0 <= v < 6)%Z -> bd 701 (lget (aux3 V uf of e) v).
Proof.
  intros He Hv. unfold aux3. destruct (small_count 8 3 ltac:(lia) ltac:(lia) ltac:(lia)) as (G8 & N8).
  pose proof (ave_bd 6 (fun g => sig3 V of e g (strain3 V uf e g)) (wg3 V) 697 3 v Hv ltac:(lia) (fun g => bd_mul _ _ _ _ (sig3_bd e g v He Hv) wg3_bd ltac:(lia)) (zrange 0 8) 0 _ (ac_zeros 697 6 v Hv)) as Q.
  change (0 + length (zrange 0 8))%nat with 8%nat in Q. exact (ac_bd _ _ 3 _ (Q G8 N8) G8 N8).
Qed.
Theorem stress_bd3 v : (0 <= v < 6)%Z -> gam (length (els3 V)) <= / 2 -> bd 877 (lget (ave3 V (aux3 V uf of)) v).
Proof.
  intros Hv G. unfold ave3. rewrite lget_ltab by exact Hv. pose proof (gam_count _ G) as N.
  pose proof (vec_bd 6 (aux3 V uf of) 701 53 v Hv ltac:(lia) (els3 V) 0 _ (fun e He => aux3_bd e v He Hv) (ac_zeros 701 6 v Hv)) as Q. change (0 + length (els3 V))%nat with (length (els3 V)) in Q.
  exact (area_bd _ _ (ac_bd _ _ 53 _ (Q G N) G N) ltac:(lia)).
Qed.
End Three.
Section Two.
Hypothesis D : v_dim V = 2%Z.
Lemma wg2_bd : bd 181 (wg2 V).
Proof.
  pose proof (fair_twin V H M F) as TW. destruct (wg2_rl V W (tw_dx _ _ _ _ TW) (tw_dy _ _ _ _ TW)) as (Q & _ & U & _).
  eapply bd_le; [apply (cn_bd 10 _ _ _ 120 (rl_cn _ _ _ Q) (proj1 Q)); [lia|lra]|lia].
Qed.
Lemma disp2_bd e i : In e (els2 V) -> (0 <= i < 8)%Z -> bd 300 (disp2 V uf e i).
Proof.
  intros He Hi. destruct e as [ex ey]. apply in_els2 in He. unfold disp2. apply Bu. rewrite (ndofs_eq2 V (fr_sane _ _ _ F) D).
  pose proof (corner2_range (v_nx V) (v_ny V) ex ey (i / 2)) as R0. pose proof (Z.mod_pos_bound i 2).
  assert (0 <= i / 2 < 4)%Z by (Z.div_mod_to_equations; lia). lia.
Qed.
Lemma sig2_bd e g v : In e (els2 V) -> (0 <= v < 3)%Z -> bd 515 (lget (sig2 V e (strain2 V uf e g)) v).
Proof.
  intros He Hv. pose proof (ix2_range V e D He) as Rg. unfold sig2, stress2. rewrite lget_ltab by exact Hv.
  destruct (fr_mat _ _ _ F _ Rg) as (Cm & Fm). destruct (mat_bd _ _ Cm Fm) as (_ & _ & Bc).
  assert (Es : forall j, (0 <= j < 3)%Z -> bd 407 (lget (strain2 V uf e g) j)).
  { intros j Hj. apply strain_bd; [exact Hj|lia| |]; [intro i; exact (B2_bd V g j i dx_cell dy_cell Hj)|intros i Hi; now apply disp2_bd]. }
  eapply bd_le; [apply (bd_sum 510 2); try lia; try (rewrite length_zrange; lia)|lia]. intros i Hi. apply in_zrange in Hi. exact (bd_mul _ _ _ _ (Bc v i) (Es i Hi) ltac:(lia)).
Qed.
Lemma aux2_bd e v : In e (els2 V) -> (0 <= v < 3)%Z -> bd 701 (lget (aux2 V uf e) v).
Proof.
  intros He Hv. unfold aux2. destruct (small_count 4 3 ltac:(lia) ltac:(lia) ltac:(lia)) as (G8 & N8).
  pose proof (ave_bd 3 (fun g => sig2 V e (strain2 V uf e g)) (wg2 V) 697 3 v Hv ltac:(lia) (fun g => bd_mul _ _ _ _ (sig2_bd e g v He Hv) wg2_bd ltac:(lia)) (zrange 0 4) 0 _ (ac_zeros 697 3 v Hv)) as Q.
  change (0 + length (zrange 0 4))%nat with 4%nat in Q. exact (ac_bd _ _ 3 _ (Q G8 N8) G8 N8).
Qed.
Theorem stress_bd2 v : (0 <= v < 3)%Z -> gam (length (els2 V)) <= / 2 -> bd 877 (lget (ave2 V (aux2 V uf)) v).
Proof.
  intros Hv G. unfold ave2. rewrite lget_ltab by exact Hv. pose proof (gam_count _ G) as N.
  pose proof (vec_bd 3 (aux2 V uf) 701 53 v Hv ltac:(lia) (els2 V) 0 _ (fun e He => aux2_bd e v He Hv) (ac_zeros 701 3 v Hv)) as Q. change (0 + length (els2 V))%nat with (length (els2 V)) in Q.
  exact (area_bd _ _ (ac_bd _ _ 53 _ (Q G N) G N) ltac:(lia)).
Qed.
End Two.
End Forward.

(** ** Finite residuals have finite displacements behind them *)
Lemma rhs_fin nv nd (B : Z -> Z -> Z -> flt) s wg i v : (0 <= i < nd)%Z -> (0 <= v < nv)%Z ->
  forall gs be, fin (lget (fold_left (fun be g => add_rhs nv nd (B g) (s g) wg be) gs be) i) -> fin (lget be i) /\ forall g, In g gs -> fin (lget (s g) v).
Proof.
  intros Hi Hv gs. induction gs as [|g gs IH]; intros be Q; [split; [exact Q|intros g []]|]. cbn [fold_left] in Q. destruct (IH _ Q) as (Q1 & Q2).
  unfold add_rhs in Q1. rewrite lget_ltab in Q1 by exact Hi. unfold accf in Q1. destruct (fold_fin _ _ _ Q1) as (Q3 & Q4). split; [exact Q3|].
  intros g' [<-|I]; [|now apply Q2]. specialize (Q4 v ltac:(now apply in_zrange)). cbv beta in Q4. exact (proj2 (fin_mul _ _ (proj1 (fin_mul _ _ Q4)))).
Qed.
Lemma delta_fin (W : list (Z * flt)) a x z : fin (fold_left oadd (deltas W a) z) -> In (a, x) W -> fin x.
Proof.
  intros Q I. destruct (fold_fin (deltas W a) (fun x => x) z Q) as (_ & P). apply P. unfold deltas. apply in_map_iff. exists (a, x). split; [reflexivity|].
  apply filter_In. split; [exact I|]. cbn [fst]. apply Z.eqb_refl.
Qed.
Lemma pick_in n e : (3 <= n)%Z -> (0 <= e < n - 1)%Z -> exists a, (0 <= a <= 1)%Z /\ (0 < e + a < n - 1)%Z.
Proof. intros Hn He. destruct (Z.eq_dec e 0) as [->|N]; [exists 1%Z; lia|exists 0%Z; lia]. Qed.
Section Back.
Variables (V : env flt) (H M : R) (uf of : Z -> flt).
Hypothesis F : fair V H M.
Theorem resid_back3 : v_dim V = 3%Z -> (3 <= v_nx V)%Z -> (3 <= v_ny V)%Z -> (3 <= v_nz V)%Z ->
  (forall a, (0 <= a < ndofs V)%Z -> fin (resid V 3 (rhs_all3 V uf of) a)) -> forall a, (0 <= a < ndofs V)%Z -> fin (uf a).
Proof.
  intros D Nx Ny Nz Fr a Ha. destruct (in_a_cell3 V H M uf of F a D Ha) as ([[ex ey] ez] & i & Ie & Hi & <-). pose proof Ie as He. apply in_els3 in He.
  destruct (pick_in (v_nx V) ex Nx ltac:(lia)) as (p & Hp & Ip). destruct (pick_in (v_ny V) ey Ny ltac:(lia)) as (q & Hq & Iq). destruct (pick_in (v_nz V) ez Nz ltac:(lia)) as (r & Hr & Ir).
  destruct (cor_surj p q r Hp Hq Hr) as (n & Hn & Cx & Cy & Cz & _).
  assert (Ec : corner3 (v_nx V) (v_ny V) ex ey ez n = node (v_nx V) (v_ny V) (ex + p) (ey + q) (ez + r)) by (unfold corner3; now rewrite Cx, Cy, Cz).
  assert (R0 : (0 <= corner3 (v_nx V) (v_ny V) ex ey ez n < v_nx V * v_ny V * v_nz V)%Z) by (apply corner3_range; lia).
  set (b := (corner3 (v_nx V) (v_ny V) ex ey ez n * 3)%Z).
  assert (Q : fin (resid V 3 (rhs_all3 V uf of) b)) by (apply Fr; rewrite (ndofs_eq3 V D); unfold b; lia). unfold resid in Q.
  assert (Nb : bndb V (v_nz V) (b / 3) = false).
  { unfold b. rewrite Z.div_mul by lia. rewrite Ec. destruct (bndb V (v_nz V) (node (v_nx V) (v_ny V) (ex + p) (ey + q) (ez + r))) eqn:E; [|reflexivity].
    apply (bndb3_spec V _ _ _ D) in E; [|lia|lia|lia]. unfold bnd3, on_bnd in E. lia. }
  rewrite Nb, fin_opp in Q.
  assert (Ib : In (b, lget (be3 V uf of (ex, ey, ez)) (n * 3)) (rhs_all3 V uf of)).
  { apply in_rhs_all3. exists (ex, ey, ez), (n * 3)%Z. split; [exact Ie|]. split; [lia|]. split; [|reflexivity]. rewrite Z.div_mul, Z_mod_mult by lia. unfold b. lia. }
  pose proof (delta_fin _ _ _ _ Q Ib) as Q1. unfold be3 in Q1. destruct (rhs_fin 6 24 (B3 V) _ _ (n * 3) 0 ltac:(lia) ltac:(lia) _ _ Q1) as (_ & Q2).
  specialize (Q2 0%Z ltac:(apply in_zrange; lia)). cbv beta in Q2. unfold sig3 in Q2. rewrite (fr_lin _ _ _ F D _ (ix3_range V _ D Ie)) in Q2. unfold lin_stress3 in Q2. rewrite lget_ltab in Q2 by lia.
  apply (strain_fin 6 24 (B3 V 0) (disp3 V uf (ex, ey, ez)) 0 ltac:(lia)); [|exact Hi]. change (0 <? 3)%Z with true in Q2. cbv iota in Q2.
  apply fin_add in Q2. exact (proj2 (fin_mul _ _ (proj2 Q2))).
Qed.
Theorem resid_back2 : v_dim V = 2%Z -> (3 <= v_nx V)%Z -> (3 <= v_ny V)%Z ->
  (forall a, (0 <= a < ndofs V)%Z -> fin (resid V 2 (rhs_all2 V uf) a)) -> forall a, (0 <= a < ndofs V)%Z -> fin (uf a).
Proof.
  intros D Nx Ny Fr a Ha. pose proof (fr_sane _ _ _ F) as S. destruct (in_a_cell2 V H M uf uf F a D Ha) as ([ex ey] & i & Ie & Hi & <-). pose proof Ie as He. apply in_els2 in He.
  destruct (pick_in (v_nx V) ex Nx ltac:(lia)) as (p & Hp & Ip). destruct (pick_in (v_ny V) ey Ny ltac:(lia)) as (q & Hq & Iq).
  destruct (cor_surj p q 0 Hp Hq ltac:(lia)) as (n & Hn & Cx & Cy & _ & N4). specialize (N4 eq_refl).
  assert (Ec : corner2 (v_nx V) (v_ny V) ex ey n = node (v_nx V) (v_ny V) (ex + p) (ey + q) 0) by (unfold corner2; now rewrite Cx, Cy).
  assert (R0 : (0 <= corner2 (v_nx V) (v_ny V) ex ey n < v_nx V * v_ny V)%Z) by (apply corner2_range; lia).
  set (b := (corner2 (v_nx V) (v_ny V) ex ey n * 2)%Z).
  assert (Q : fin (resid V 2 (rhs_all2 V uf) b)) by (apply Fr; rewrite (ndofs_eq2 V S D); unfold b; lia). unfold resid in Q.
  assert (Nb : bndb V (v_nz V) (b / 2) = false).
  { unfold b. rewrite Z.div_mul by lia. rewrite Ec. destruct (bndb V (v_nz V) (node (v_nx V) (v_ny V) (ex + p) (ey + q) 0)) eqn:E; [|reflexivity].
    apply (bndb2_spec V _ _ D) in E; [|lia|lia]. unfold bnd2, on_bnd in E. lia. }
  rewrite Nb, fin_opp in Q.
  assert (Ib : In (b, lget (be2 V uf (ex, ey)) (n * 2)) (rhs_all2 V uf)).
  { apply (in_rhs_all2 V uf uf). exists (ex, ey), (n * 2)%Z. split; [exact Ie|]. split; [lia|]. split; [|reflexivity]. rewrite Z.div_mul, Z_mod_mult by lia. unfold b. lia. }
  pose proof (delta_fin _ _ _ _ Q Ib) as Q1. unfold be2 in Q1. destruct (rhs_fin 3 8 (B2 V) _ _ (n * 2) 0 ltac:(lia) ltac:(lia) _ _ Q1) as (_ & Q2).
  specialize (Q2 0%Z ltac:(apply in_zrange; lia)). cbv beta in Q2. unfold sig2, stress2 in Q2. rewrite lget_ltab in Q2 by lia.
  pose proof (sumf_fin _ _ Q2 0%Z ltac:(apply in_zrange; lia)) as Q4. cbv beta in Q4.
  apply (strain_fin 3 8 (B2 V 0) (disp2 V uf (ex, ey)) 0 ltac:(lia)); [|exact Hi]. exact (proj2 (fin_mul _ _ Q4)).
Qed.
End Back.

(** ** Imposed displacements are finite *)
Section Imposed.
Variables (V : env flt) (H M : R) (eps : list flt).
Hypothesis F : fair V H M.
Hypothesis Be : forall v, (0 <= v < 6)%Z -> bd 100 (lget eps v).
Local Notation W := (exact_env V).
Local Notation P := (fun p q => fst p = fst q /\ bd 200 (snd p)).
Lemma coord_bd (x : flt) n i : fair_side x n -> (0 <= i < n)%Z -> bd 93 (omul (ofZ i) (odiv x (ofZ (n - 1)))).
Proof.
  intros Sd Hi. destruct (cell_size x n Sd) as (R1 & _ & U1). destruct Sd as (_ & _ & Hn).
  assert (B1 : bd 31 (ofZ i)). { apply bd_int; [lia|]. rewrite Rabs_pos_eq by (apply (IZR_le 0); lia). change (p2 31) with (IZR (2 ^ 31)). apply IZR_le. lia. }
  exact (bd_mul _ _ _ _ B1 (cn_bd 2 _ _ _ 60 (rl_cn _ _ _ R1) (proj1 R1) ltac:(lia) U1) ltac:(lia)).
Qed.
Lemma side_bd (x : flt) n : fair_side x n -> bd 93 x.
Proof.
  intros (Fx & (B & U) & _). pose proof (pos_p2 _ _ B). split; [exact Fx|]. rewrite Rabs_pos_eq by lra. eapply Rle_trans; [exact U|]. apply Raux.bpow_le. lia.
Qed.
Lemma none_bd : bd 93 (dec 0 1).
Proof. assert (E : (dec 0 1 : flt) = ofZ 0) by (vm_compute; reflexivity). rewrite E. apply bd_zero. Qed.
Lemma whole_bd v x : (0 <= v < 6)%Z -> bd 93 x -> bd 196 (omul (lget eps v) x).
Proof. intros Hv B. eapply bd_le; [exact (bd_mul _ _ _ _ (Be v Hv) B ltac:(lia))|lia]. Qed.
Lemma half_bd v x : (0 <= v < 6)%Z -> bd 93 x -> bd 196 (omul (omul (dec 5 1) (lget eps v)) x).
Proof.
  intros Hv B. assert (B5 : bd 1 (dec 5 1)).
  { apply (cn_bd 2 _ _ _ 0 (cn_dec 5 1 ltac:(lia) ltac:(lia))); [vm_compute; reflexivity|lia|]. change (p2 0) with 1. change (10 ^ 1)%Z with 10%Z. lra. }
  eapply bd_le; [exact (bd_mul _ _ _ _ (bd_mul _ _ _ _ B5 (Be v Hv) ltac:(lia)) B ltac:(lia))|lia].
Qed.
Lemma three_bd x y z : bd 196 x -> bd 196 y -> bd 196 z -> bd 200 (oadd (oadd x y) z).
Proof. intros X Y Z. exact (bd_add _ _ _ (bd_add _ _ _ X Y ltac:(lia)) (bd_le _ (196 + 2) _ Z ltac:(lia)) ltac:(lia)). Qed.
Lemma two_bd x y : bd 196 x -> bd 196 y -> bd 200 (oadd x y).
Proof. intros X Y. eapply bd_le; [exact (bd_add _ _ _ X Y ltac:(lia))|lia]. Qed.
Lemma displ3_bd n x y z (x' y' z' : R) : bd 93 x -> bd 93 y -> bd 93 z -> Forall2 P (displ3 eps n x y z) (displ3 (map val eps) n x' y' z').
Proof.
  intros X Y Z. unfold displ3. cbv zeta. repeat (apply Forall2_cons; [split; [reflexivity|cbn [snd]]|]); try apply Forall2_nil; apply three_bd; (match goal with |- bd 196 (omul (omul _ _) _) => apply half_bd | _ => apply whole_bd end); first [lia|assumption].
Qed.
Lemma displ2_bd n x y (x' y' : R) : bd 93 x -> bd 93 y -> Forall2 P (displ2 eps n x y) (displ2 (map val eps) n x' y').
Proof.
  intros X Y. unfold displ2. repeat (apply Forall2_cons; [split; [reflexivity|cbn [snd]]|]); try apply Forall2_nil; apply two_bd; (match goal with |- bd 196 (omul (omul _ _) _) => apply half_bd | _ => apply whole_bd end); first [lia|assumption].
Qed.
Lemma displ_bd : if (v_dim V =? 2)%Z then Forall2 P (set_displ2_stores V eps) (set_displ2_stores W (map val eps)) else
  v_dim V = 3%Z -> Forall2 P (set_displ3_stores V eps) (set_displ3_stores W (map val eps)).
Proof.
  pose proof (fr_x _ _ _ F) as Fx. pose proof (fr_y _ _ _ F) as Fy.
  assert (Cx : forall i, (0 <= i < v_nx V)%Z -> bd 93 (omul (ofZ i) (v_dx V))) by (intros i Hi; rewrite (fr_dx _ _ _ F); now apply coord_bd).
  assert (Cy : forall i, (0 <= i < v_ny V)%Z -> bd 93 (omul (ofZ i) (v_dy V))) by (intros i Hi; rewrite (fr_dy _ _ _ F); now apply coord_bd).
  pose proof none_bd as C0. pose proof (side_bd _ _ Fx) as Sx. pose proof (side_bd _ _ Fy) as Sy.
  destruct (v_dim V =? 2)%Z eqn:D2.
  - unfold set_displ2_stores. cbn [exact_env v_nx v_ny]. repeat apply Forall2_app; apply f2_flat; intros i Hi; apply in_zrange in Hi; apply displ2_bd; try assumption; try (apply Cx; lia); apply Cy; lia.
  - intro D. pose proof (fr_z _ _ _ F D) as Fz. pose proof (side_bd _ _ Fz) as Sz.
    assert (Cz : forall i, (0 <= i < v_nz V)%Z -> bd 93 (omul (ofZ i) (v_dz V))) by (intros i Hi; rewrite (fr_dz _ _ _ F D); now apply coord_bd).
    unfold set_displ3_stores. cbn [exact_env v_nx v_ny v_nz].
    repeat apply Forall2_app; apply f2_flat; intros i Hi; apply in_zrange in Hi; apply f2_flat; intros j Hj; apply in_zrange in Hj; apply displ3_bd; try assumption;
      first [apply Cx; lia|apply Cy; lia|apply Cz; lia].
Qed.
Theorem imposed_bd u u0 a : set_displ V eps u = Ok u0 -> (0 <= a < ndofs V)%Z -> bnddof V a -> bd 200 (oval u0 a).
Proof.
  intros E Ha Hb. pose proof (fr_sane _ _ _ F) as S. pose proof (exact_sane V S) as SW. pose proof (exact_geom V H M F) as GW. pose proof displ_bd as C.
  unfold set_displ in E. destruct (dim_cases V S) as [D|D]; rewrite D in *; cbn [Z.eqb Pos.eqb] in *.
  - destruct (dof2_split V a S D Ha) as (i & j & c & Hi & Hj & Hc & -> & Hbb). apply Hbb in Hb.
    set (y := affine2 (lget (map val eps) 0) (lget (map val eps) 1) (lget (map val eps) 2) (IZR i * v_dx W) (IZR j * v_dy W) c).
    set (x := fun_arr (ndofs W) (fun _ => y + 1)). pose proof (fun_arr_rep (ndofs W) (fun _ => y + 1)) as Rx. fold x in Rx.
    destruct (set_displ2_ok W (map val eps) x SW GW D) as (v & Ev & _ & Hv). { unfold x. cbn [fun_arr alen]. exact (ndofs_eq2 W SW D). }
    unfold set_displ in Ev. change (v_dim W) with (v_dim V) in Ev. rewrite D in Ev. cbn [Z.eqb Pos.eqb] in Ev.
    destruct (stores_f2 (fun p _ => bd 200 p) _ _ C _ _ _ _ E Ev (node (v_nx V) (v_ny V) i j 0 * 2 + c)) as [(_ & Q)|(p & q & Ep & _ & B)]; [|unfold oval; now rewrite Ep].
    exfalso. destruct (Hv i j c Hi Hj Hc) as (Q1 & _). specialize (Q1 Hb). change (v_nx W) with (v_nx V) in Q1. change (v_ny W) with (v_ny V) in Q1. rewrite Q1 in Q.
    rewrite (proj2 Rx _ Ha) in Q. fold y in Q. injection Q as Q. lra.
  - destruct (dof3_split V a S D Ha) as (i & j & k & c & Hi & Hj & Hk & Hc & -> & Hbb). apply Hbb in Hb. specialize (C eq_refl).
    set (y := affine3 (lget (map val eps) 0) (lget (map val eps) 1) (lget (map val eps) 2) (lget (map val eps) 3) (lget (map val eps) 4) (lget (map val eps) 5) (IZR i * v_dx W) (IZR j * v_dy W) (IZR k * v_dz W) c).
    set (x := fun_arr (ndofs W) (fun _ => y + 1)). pose proof (fun_arr_rep (ndofs W) (fun _ => y + 1)) as Rx. fold x in Rx.
    destruct (set_displ3_ok W (map val eps) x SW GW D) as (v & Ev & _ & Hv). { unfold x. cbn [fun_arr alen]. exact (ndofs_eq3 W D). }
    unfold set_displ in Ev. change (v_dim W) with (v_dim V) in Ev. rewrite D in Ev. cbn [Z.eqb Pos.eqb] in Ev.
    destruct (stores_f2 (fun p _ => bd 200 p) _ _ C _ _ _ _ E Ev (node (v_nx V) (v_ny V) i j k * 3 + c)) as [(_ & Q)|(p & q & Ep & _ & B)]; [|unfold oval; now rewrite Ep].
    exfalso. destruct (Hv i j k c Hi Hj Hk Hc) as (Q1 & _). specialize (Q1 Hb). change (v_nx W) with (v_nx V) in Q1. change (v_ny W) with (v_ny V) in Q1. rewrite Q1 in Q.
    rewrite (proj2 Rx _ Ha) in Q. fold y in Q. injection Q as Q. lra.
Qed.
End Imposed.

(** ** Accepted displacements are finite *)
Lemma zero_sum (l : list Z) (r : Z -> flt) : (forall i, In i l -> r i = oopp (dec 0 1)) -> sumf l (fun i => omul (r i) (r i)) = ofZ 0.
Proof.
  assert (E : oadd (ofZ 0) (omul (oopp (dec 0 1)) (oopp (dec 0 1))) = (ofZ 0 : flt)) by (vm_compute; reflexivity). unfold sumf.
  induction l as [|x l IH]; intro Q; [reflexivity|]. cbn [fold_left]. rewrite (Q x (or_introl eq_refl)), E. apply IH. intros i Hi. apply Q. now right.
Qed.
Lemma zero_norm n (r : Z -> flt) : (forall i, (0 <= i < n)%Z -> r i = oopp (dec 0 1)) -> oltb (norm2 n r) nr_tol = true.
Proof.
  intro Q. unfold norm2. rewrite zero_sum; [vm_compute; reflexivity|]. intros i Hi. apply in_zrange in Hi. now apply Q.
Qed.
(** grids with an inner node *)
Definition has_inner (V : env flt) : Prop := (3 <= v_nx V)%Z /\ (3 <= v_ny V)%Z /\ (v_dim V = 3%Z -> (3 <= v_nz V)%Z).
Lemma inner_or V : sane V -> has_inner V \/ forall a, (0 <= a < ndofs V)%Z -> bnddof V a.
Proof.
  intro S. pose proof (sa_nx V S) as Hx. pose proof (sa_ny V S) as Hy. unfold has_inner. destruct (dim_cases V S) as [D|D].
  - destruct (Z_le_gt_dec 3 (v_nx V)) as [A|A]; [destruct (Z_le_gt_dec 3 (v_ny V)) as [B|B]; [left; split; [exact A|split; [exact B|]]; intro; lia|]|];
      right; intros a Ha; destruct (dof2_split V a S D Ha) as (i & j & c & Hi & Hj & Hc & _ & Q); apply Q; unfold bnd2, on_bnd; lia.
  - pose proof (sane_nz V S D) as Hz.
    destruct (Z_le_gt_dec 3 (v_nx V)) as [A|A]; [destruct (Z_le_gt_dec 3 (v_ny V)) as [B|B]; [destruct (Z_le_gt_dec 3 (v_nz V)) as [C|C]; [left; auto|]|]|];
      right; intros a Ha; destruct (dof3_split V a S D Ha) as (i & j & k & c & Hi & Hj & Hk & Hc & _ & Q); apply Q; unfold bnd3, on_bnd; lia.
Qed.
Lemma body_flat V w w' nl er brk : sane V -> wok V w -> (forall a, (0 <= a < ndofs V)%Z -> bnddof V a) -> newton_body V w = Ok (w', nl, er, brk) ->
  brk = true /\ oltb er nr_tol = true /\ fin er /\ w_u w' = w_u w.
Proof.
  intros S K B E. destruct K as [U Ldu Lb Mm O L]. destruct (rhs_ok V _ _ _ _ S U O L Lb) as (b & nl2 & vn & er2 & Er & Fb & Lv & _ & _).
  destruct (rhs_bnd V _ _ _ _ _ _ _ _ S U O L Lb Er) as (En & Zb). assert (T : oltb er2 nr_tol = true) by (rewrite En; apply zero_norm; intros i Hi; apply Zb; auto).
  unfold newton_body in E. rewrite Er in E. cbn [bind] in E. rewrite T in E. injection E as <- <- <- <-. cbn [w_u]. split; [reflexivity|]. split; [exact T|]. split; [|reflexivity]. rewrite En in T |- *. exact (less_fin _ _ T tol_fin).
Qed.
Lemma flat_newton V fuel pk w w' nl its er : sane V -> wok V w -> (forall a, (0 <= a < ndofs V)%Z -> bnddof V a) -> newton fuel pk V w = Ok (w', nl, its, er) ->
  oltb er nr_tol = true /\ fin er /\ w_u w' = w_u w.
Proof.
  intros S K B E. pose proof (newton_ok V pk fuel w S K) as Q. rewrite E in Q. destruct Q as (_ & _ & _ & _ & _ & n & w0 & brk & Ps & _ & K0 & _ & Eb & _).
  destruct Ps as [w|n w w1 nl1 er1 w2 E1 P1].
  - destruct (body_flat V w w' nl er brk S K B Eb) as (_ & Q). exact Q.
  - destruct (body_flat V w w1 nl1 er1 false S K B E1) as (C & _). discriminate.
Qed.
Theorem accepted_fin V H M fuel pk eps (w w' : work flt) nl it er s : fair V H M -> wok V w -> (forall v, (0 <= v < 6)%Z -> bd 100 (lget eps v)) ->
  respond fuel pk V eps w = Ok (w', nl, it, er, s) -> oltb er nr_tol = true -> gam (S (Z.to_nat (ndofs V))) <= / 2 -> all_fin V (w_u w') /\ fin er.
Proof.
  intros F K Be E T G. pose proof (fr_sane _ _ _ F) as S. destruct (respond_split _ _ _ _ _ _ _ _ _ _ E) as (u0 & w1 & vn & Eu & En & _ & ->). cbn [set_vnew w_u].
  destruct (displ_ok V eps (w_u w) S (wk_u _ _ K)) as (u2 & Eu2 & Fu0). rewrite Eu in Eu2. injection Eu2 as <-.
  assert (K1 : wok V (set_u w u0)) by (destruct K; constructor; assumption).
  destruct (inner_or V S) as [(Nx & Ny & Nz)|B].
  - pose proof (newton_ok V pk fuel (set_u w u0) S K1) as Q. rewrite En in Q. destruct Q as (_ & _ & _ & _ & _ & n & w0 & brk & _ & _ & K0 & _ & Eb & _).
    destruct K0 as [U Ldu Lb Mm O L]. destruct (rhs_ok V _ _ _ _ S U O L Lb) as (b & nl2 & vn2 & er2 & Er & _).
    unfold newton_body in Eb. rewrite Er in Eb. cbn [bind] in Eb. pose proof (full_oval _ _ U) as RU.
    assert (Ee : er2 = er /\ (oltb er2 nr_tol = true -> w_u w1 = w_u w0)).
    { destruct (oltb er2 nr_tol) eqn:T2; [injection Eb as <- <- <- <-; auto|]. destruct (assembly_mat _ _ _ _ _) in Eb; cbn [bind] in Eb; [|discriminate].
      destruct (run_stores _ _) in Eb; cbn [bind] in Eb; [|discriminate]. destruct (solve _ _ _ _) in Eb; cbn [bind] in Eb; [|discriminate].
      destruct (upd_for _ _ _) in Eb; cbn [bind] in Eb; [|discriminate]. injection Eb as _ _ -> _. split; [reflexivity|discriminate]. }
    destruct Ee as (-> & Uw). rewrite (Uw T). unfold all_fin. clear Uw Eb.
    destruct (dim_cases V S) as [D|D]; (split; [|rewrite (proj1 (rhs_bnd V _ _ _ _ _ _ _ _ S U O L Lb Er)) in T |- *; exact (less_fin _ _ T tol_fin)]).
    + apply (resid_back2 V H M (oval (w_u w0)) (oval (w_u w0)) F D Nx Ny). rewrite (ndofs_eq2 V S D) in *.
      destruct (rhs2_ok V (oval (w_u w0)) (oval (w_vold w0)) S (w_u w0) (w_vold w0) (w_vnew w0) (w_b w0) D RU Lb) as (b2 & E2 & _). rewrite Er in E2. injection E2 as _ _ _ E2. rewrite E2 in T.
      exact (proj1 (norm_entry _ _ G (less_fin _ _ T tol_fin))).
    + apply (resid_back3 V H M (oval (w_u w0)) (oval (w_vold w0)) F D Nx Ny (Nz D)). rewrite (ndofs_eq3 V D) in *. rewrite nvars_eq in L.
      destruct (rhs3_ok V (oval (w_u w0)) (oval (w_vold w0)) S (w_u w0) (w_vold w0) (w_vnew w0) (w_b w0) D RU (has_old_ok _ _ O) L Lb) as (b2 & vn3 & E2 & _). rewrite Er in E2. injection E2 as _ _ _ E2. rewrite E2 in T.
      exact (proj1 (norm_entry _ _ G (less_fin _ _ T tol_fin))).
  - destruct (flat_newton V fuel pk _ _ _ _ _ S K1 B En) as (_ & Fe & ->). cbn [set_u w_u]. split; [|exact Fe]. intros a Ha. exact (proj1 (imposed_bd V H M eps F Be _ _ a Eu Ha (B a Ha))).
Qed.
