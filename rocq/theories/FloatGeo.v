(** The classification of the cells in IEEE doubles. *)
From Coq Require Import Reals Lra ZifyBool.
From Flocq Require Import BinarySingleNaN.
From Verif Require Import Base Scalar MonoBody ConvexMin BinInst FloatSum FloatCg EllSpec EllModel AssemblyModel AsmPure MicroModel NewtonBase ApiBase ApiRun ApiHist Build ApiSpec ApiCases Classify.
Open Scope Z_scope.
Open Scope R_scope.

(** [near] for numbers known to be finite *)
Definition nf (k : nat) (x : flt) (y a : R) : Prop := fin x /\ near k x y a.
Definition lim : R := Raux.bpow Zaux.radix2 1021.
Lemma lim_huge : huge = 4 * lim.
Proof. unfold huge, lim. change 4 with (Raux.bpow Zaux.radix2 2). rewrite <- Raux.bpow_plus. reflexivity. Qed.
Lemma gam_one : forall k, (k <= 20)%nat -> gam k <= / 10000.
Proof.
  intros k K. eapply Rle_trans; [apply (gam_le k 20 K)|]. eapply Rle_trans; [apply gam_small|].
  - replace (INR 20) with 20 by (simpl; ring). rewrite uro_val. lra.
  - replace (INR 20) with 20 by (simpl; ring). rewrite uro_val. lra.
Qed.
Lemma nf_size : forall k x y a, (k <= 20)%nat -> nf k x y a -> Rabs (val x) <= 2 * a.
Proof.
  intros k x y a K [_ N]. pose proof (near_size _ _ _ _ N) as H. pose proof (near_pos _ _ _ _ N) as P. pose proof (gam_one k K) as G.
  assert (gam k * a <= 1 * a) by (apply Rmult_le_compat_r; lra). lra.
Qed.
Lemma nf_le : forall k k' x y a b, nf k x y a -> (k <= k')%nat -> a <= b -> nf k' x y b.
Proof. intros k k' x y a b [F N] H K. split; [exact F|]. exact (near_le _ _ _ _ _ _ N H K). Qed.
Lemma nf_val : forall x : flt, fin x -> nf 0 x (val x) (Rabs (val x)).
Proof. intros x F. split; [exact F|apply near_val]. Qed.
Lemma nf_int : forall z, (0 <= z <= 2 ^ 53)%Z -> nf 0 (ofZ z) (IZR z) (IZR z).
Proof.
  intros z H. destruct (int_exact z ltac:(lia)) as [F E]. split; [exact F|]. pose proof (near_int z ltac:(lia)) as N.
  rewrite Rabs_pos_eq in N by (apply IZR_le; lia). exact N.
Qed.
Lemma nf_add : forall k x1 y1 a1 x2 y2 a2, (k <= 20)%nat -> nf k x1 y1 a1 -> nf k x2 y2 a2 -> a1 + a2 <= lim ->
  nf (S k) (oadd x1 x2) (y1 + y2) (a1 + a2).
Proof.
  intros k x1 y1 a1 x2 y2 a2 K N1 N2 L. pose proof (nf_size _ _ _ _ K N1). pose proof (nf_size _ _ _ _ K N2).
  pose proof (near_pos _ _ _ _ (proj2 N1)). pose proof (near_pos _ _ _ _ (proj2 N2)).
  assert (F : fin (oadd x1 x2)).
  { apply add_fin; [apply N1|apply N2|]. rewrite lim_huge. eapply Rle_trans; [apply Rabs_triang|]. lra. }
  split; [exact F|]. apply near_add; [apply N1|apply N2|exact F].
Qed.
Lemma nf_sub : forall k x1 y1 a1 x2 y2 a2, (k <= 20)%nat -> nf k x1 y1 a1 -> nf k x2 y2 a2 -> a1 + a2 <= lim ->
  nf (S k) (osub x1 x2) (y1 - y2) (a1 + a2).
Proof.
  intros k x1 y1 a1 x2 y2 a2 K N1 N2 L. pose proof (nf_size _ _ _ _ K N1). pose proof (nf_size _ _ _ _ K N2).
  pose proof (near_pos _ _ _ _ (proj2 N1)). pose proof (near_pos _ _ _ _ (proj2 N2)).
  assert (F : fin (osub x1 x2)).
  { apply sub_fin; [apply N1|apply N2|]. rewrite lim_huge. unfold Rminus. eapply Rle_trans; [apply Rabs_triang|]. rewrite Rabs_Ropp. lra. }
  split; [exact F|]. apply near_sub; [apply N1|apply N2|exact F].
Qed.
Lemma nf_mul : forall k1 k2 x1 y1 a1 x2 y2 a2, (k1 <= 20)%nat -> (k2 <= 20)%nat -> nf k1 x1 y1 a1 -> nf k2 x2 y2 a2 -> a1 * a2 <= lim ->
  nf (S (k1 + k2)) (omul x1 x2) (y1 * y2) (a1 * a2 + tiny).
Proof.
  intros k1 k2 x1 y1 a1 x2 y2 a2 K1 K2 N1 N2 L. pose proof (nf_size _ _ _ _ K1 N1). pose proof (nf_size _ _ _ _ K2 N2).
  assert (F : fin (omul x1 x2)).
  { apply mul_fin; [apply N1|apply N2|]. rewrite lim_huge, Rabs_mult.
    apply Rle_trans with ((2 * a1) * (2 * a2)); [apply Rmult_le_compat; try apply Rabs_pos; assumption|lra]. }
  split; [exact F|]. apply near_mul; [apply N1|apply N2|exact F].
Qed.
Lemma nf_divz : forall k x y a z, (k <= 20)%nat -> nf k x y a -> (1 <= z <= 2 ^ 53)%Z -> a <= lim ->
  nf (S k) (odiv x (ofZ z)) (y / IZR z) (a / IZR z + tiny).
Proof.
  intros k x y a z K N Z L. destruct (int_exact z ltac:(lia)) as [Fz Ez]. pose proof (nf_size _ _ _ _ K N) as Sz.
  assert (P : 1 <= IZR z) by (apply IZR_le; lia). pose proof (near_pos _ _ _ _ (proj2 N)) as A0.
  assert (F : fin (odiv x (ofZ z))).
  { apply div_fin; [apply N|rewrite Ez; lra|]. rewrite Ez. unfold Rdiv. rewrite Rabs_mult, Rabs_inv, (Rabs_pos_eq (IZR z)) by lra.
    apply Rle_trans with (Rabs (val x) * 1).
    - apply Rmult_le_compat_l; [apply Rabs_pos|]. rewrite <- Rinv_1. apply Rinv_le_contravar; lra.
    - rewrite lim_huge. lra. }
  split; [exact F|]. pose proof (near_div k x y a (ofZ z) (proj2 N) Fz F) as Q. rewrite Ez, (Rabs_pos_eq (IZR z)) in Q by lra. exact Q.
Qed.

(** the sizes the theorems allow: from 2^-400 to 2^400 *)
Definition big : R := Raux.bpow Zaux.radix2 400.
Definition small : R := Raux.bpow Zaux.radix2 (-400).
Definition ordinary (x : flt) : Prop := fin x /\ small <= val x <= big.
Lemma big_lim : 1000 * (big * big) <= lim.
Proof.
  apply Rle_trans with (Raux.bpow Zaux.radix2 10 * (big * big)).
  - apply Rmult_le_compat_r; [apply Rmult_le_pos; left; apply Raux.bpow_gt_0|]. simpl. lra.
  - unfold big, lim. rewrite <- !Raux.bpow_plus. apply Raux.bpow_le. lia.
Qed.
Lemma one_big : 1 <= big.
Proof. change 1 with (Raux.bpow Zaux.radix2 0). apply Raux.bpow_le. lia. Qed.
Lemma small_pos : 0 < small. Proof. apply Raux.bpow_gt_0. Qed.
Lemma tiny_small : 8 * (IZR (2 ^ 53) * IZR (2 ^ 53)) * tiny <= small * small.
Proof.
  change (IZR (2 ^ 53)) with (Raux.bpow Zaux.radix2 53). change 8 with (Raux.bpow Zaux.radix2 3).
  unfold tiny, small. rewrite <- !Raux.bpow_plus. apply Raux.bpow_le. lia.
Qed.
Lemma small_one : small <= 1.
Proof. change 1 with (Raux.bpow Zaux.radix2 0). apply Raux.bpow_le. lia. Qed.

(** the middle of a cell as the code computes it *)
Definition mid_f (l : flt) (n i : Z) : flt :=
  oadd (omul (ofZ i) (odiv l (ofZ (n - 1)))) (odiv (odiv l (ofZ (n - 1))) (ofZ 2)).
Lemma mid_near : forall (l : flt) n i, ordinary l -> (2 <= n <= 2 ^ 53)%Z -> (0 <= i < n - 1)%Z ->
  nf 3 (mid_f l n i) (mid (val l) n i) ((1 + uro) * mid (val l) n i) /\ 0 < mid (val l) n i <= val l.
Proof.
  intros l n i (Fl & L1 & L2) Hn Hi. pose proof small_pos as S0. pose proof small_one as S1. pose proof big_lim as BL. pose proof one_big as B1.
  pose proof tiny_pos as T0. pose proof tiny_small as TS. pose proof uro_pos as U0. pose proof uro_small as U1.
  assert (BB : big <= big * big) by (rewrite <- (Rmult_1_r big) at 1; apply Rmult_le_compat_l; lra).
  assert (N1 : 1 <= IZR (n - 1)) by (apply IZR_le; lia).
  assert (N2 : IZR (n - 1) <= IZR (2 ^ 53)) by (apply IZR_le; lia).
  assert (I1 : 0 <= IZR i) by (apply IZR_le; lia).
  assert (I2 : IZR i + 1 <= IZR (n - 1)) by (rewrite <- (plus_IZR i 1); apply IZR_le; lia).
  set (D := val l / IZR (n - 1)).
  assert (Dn : D * IZR (n - 1) = val l) by (unfold D; field; lra).
  assert (D0 : 0 < D) by (apply Rdiv_lt_0_compat; lra).
  assert (D1 : D <= val l) by (rewrite <- Dn; rewrite <- (Rmult_1_r D) at 1; apply Rmult_le_compat_l; lra).
  assert (Md : mid (val l) n i = IZR i * D + D / 2) by (unfold mid, D; field; lra).
  assert (iD : IZR i * D + D <= val l) by (rewrite <- Dn; nra).
  set (M := IZR (2 ^ 53)) in *. assert (UM : uro * M = 1) by (unfold uro, M; apply Rinv_l; apply not_0_IZR; lia).
  assert (M0 : 0 < M) by (apply IZR_lt; lia).
  assert (TD : 8 * tiny <= uro * D).
  { assert (Q : small <= D * M) by (apply Rle_trans with (D * IZR (n - 1)); [lra|apply Rmult_le_compat_l; lra]).
    assert (Q1 : small * small <= small) by (rewrite <- (Rmult_1_r small) at 3; apply Rmult_le_compat_l; lra).
    assert (Q2 : 8 * tiny * M <= D) by (apply Rmult_le_reg_r with M; lra).
    replace (8 * tiny) with (uro * (8 * tiny * M)) by (transitivity (8 * tiny * (uro * M)); [ring|rewrite UM; ring]).
    apply Rmult_le_compat_l; lra. }
  assert (T8 : tiny <= D) by (assert (uro * D <= 1 * D) by (apply Rmult_le_compat_r; lra); lra).
  assert (Ti : tiny * IZR i <= D * IZR i) by (apply Rmult_le_compat_r; assumption).
  split; [|rewrite Md; split; [assert (0 <= IZR i * D) by (apply Rmult_le_pos; lra); lra|lra]].
  assert (A0 : nf 1 (odiv l (ofZ (n - 1))) D (D + tiny)).
  { pose proof (nf_divz 0 l (val l) (Rabs (val l)) (n - 1) ltac:(lia) (nf_val l Fl)) as H. rewrite Rabs_pos_eq in H by lra.
    apply H; [lia|lra]. }
  assert (A1 : nf 2 (omul (ofZ i) (odiv l (ofZ (n - 1)))) (IZR i * D) (IZR i * (D + tiny) + tiny)).
  { apply (nf_mul 0 1); [lia|lia|apply nf_int; lia|exact A0|lra]. }
  assert (A2 : nf 2 (odiv (odiv l (ofZ (n - 1))) (ofZ 2)) (D / 2) ((D + tiny) / 2 + tiny)).
  { apply nf_divz; [lia|exact A0|lia|lra]. }
  rewrite Md. eapply nf_le; [apply nf_add; [|exact A1|exact A2|]; [lia|lra]|lia|].
  assert (Q : IZR i * (8 * tiny) <= IZR i * (uro * D)) by (apply Rmult_le_compat_l; assumption).
  assert (0 <= IZR i * tiny) by (apply Rmult_le_pos; lra). assert (0 <= uro * D) by lra. assert (0 <= IZR i * (uro * D)) by lra. lra.
Qed.

(** the comparison of approximations *)
Lemma compare_near : forall k1 k2 (x1 x2 : flt) y1 y2 a1 a2, nf k1 x1 y1 a1 -> nf k2 x2 y2 a2 ->
  gam k1 * a1 + gam k2 * a2 < Rabs (y1 - y2) -> (oltb x1 x2 = true <-> y1 < y2).
Proof.
  intros k1 k2 x1 x2 y1 y2 a1 a2 [F1 [N1 _]] [F2 [N2 _]] H. rewrite (lt_val x1 x2 F1 F2).
  apply abs_bound in N1. apply abs_bound in N2. unfold Rabs in H. destruct (Rcase_abs (y1 - y2)); split; intro; lra.
Qed.

Lemma gam3 : gam 3 * (1 + uro) <= 4 * uro.
Proof. unfold gam. pose proof uro_pos. pose proof uro_small. nra. Qed.

(** a layer *)
Lemma layer_exact : forall (l w : flt) n i, ordinary l -> fin w -> (2 <= n <= 2 ^ 53)%Z -> (0 <= i < n - 1)%Z ->
  4 * uro * mid (val l) n i < Rabs (mid (val l) n i - val w) -> (oltb (mid_f l n i) w = true <-> mid (val l) n i < val w).
Proof.
  intros l w n i O Fw Hn Hi H. destruct (mid_near l n i O Hn Hi) as [N P].
  apply (compare_near _ _ _ _ _ _ _ _ N (nf_val w Fw)). rewrite gam_0.
  pose proof gam3. assert (gam 3 * (1 + uro) * mid (val l) n i <= 4 * uro * mid (val l) n i) by (apply Rmult_le_compat_r; lra). lra.
Qed.

(** the distance from the middle of the cell to the middle of the box along one axis, squared *)
Lemma square_near : forall (l : flt) n i, ordinary l -> (2 <= n <= 2 ^ 53)%Z -> (0 <= i < n - 1)%Z ->
  let e := osub (odiv l (ofZ 2)) (mid_f l n i) in
  nf 9 (omul e e) ((mid (val l) n i - val l / 2) * (mid (val l) n i - val l / 2)) (4 * (val l * val l)).
Proof.
  intros l n i O Hn Hi e. destruct (mid_near l n i O Hn Hi) as [N P]. destruct O as (Fl & L1 & L2).
  pose proof small_pos as S0. pose proof small_one as S1. pose proof big_lim as BL. pose proof one_big as B1.
  pose proof tiny_pos as T0. pose proof tiny_small as TS. pose proof uro_pos as U0. pose proof uro_small as U1.
  assert (BB : big <= big * big) by (rewrite <- (Rmult_1_r big) at 1; apply Rmult_le_compat_l; lra).
  assert (Q1 : small * small <= small) by (rewrite <- (Rmult_1_r small) at 3; apply Rmult_le_compat_l; lra).
  assert (M1 : 1000 <= IZR (2 ^ 53)) by (apply IZR_le; lia).
  assert (TT : 1000 * tiny <= small * small).
  { eapply Rle_trans; [|exact TS]. apply Rmult_le_compat_r; [lra|]. nra. }
  set (L := val l) in *. set (c := mid L n i) in *.
  assert (A1 : nf 1 (odiv l (ofZ 2)) (L / 2) (L / 2 + tiny)).
  { pose proof (nf_divz 0 l (val l) (Rabs (val l)) 2 ltac:(lia) (nf_val l Fl)) as H. rewrite Rabs_pos_eq in H by (fold L; lra).
    apply H; [lia|fold L; lra]. }
  assert (uc : uro * c <= / 1000 * L).
  { apply Rmult_le_compat; lra. }
  assert (A2 : nf 4 e (L / 2 - c) (16 / 10 * L)).
  { unfold e. eapply nf_le; [apply (nf_sub 3); [lia|apply (nf_le 1 3 _ _ _ _ A1); [lia|apply Rle_refl]|exact N|]|lia|]; lra. }
  replace ((c - L / 2) * (c - L / 2)) with ((L / 2 - c) * (L / 2 - c)) by ring.
  assert (LL : L * L <= big * big) by (apply Rmult_le_compat; lra).
  assert (SL : small * small <= L * L) by (apply Rmult_le_compat; lra).
  eapply nf_le; [apply (nf_mul 4 4); [lia|lia|exact A2|exact A2|]|lia|]; lra.
Qed.
Lemma gam12 : gam 12 <= 15 * uro.
Proof.
  eapply Rle_trans; [apply gam_small|]; replace (INR 12) with 12 by (simpl; ring); pose proof uro_small; pose proof uro_pos; lra.
Qed.

Lemma width_near : forall w : flt, fin w -> Rabs (val w) <= big -> nf 1 (omul w w) (val w * val w) (val w * val w + tiny).
Proof.
  intros w F B. pose proof big_lim as BL. pose proof one_big as B1.
  assert (Rabs (val w) * Rabs (val w) <= big * big) by (apply Rmult_le_compat; try apply Rabs_pos; assumption).
  pose proof (nf_mul 0 0 w _ _ w _ _ ltac:(lia) ltac:(lia) (nf_val w F) (nf_val w F)) as N.
  rewrite <- Rabs_mult in N. rewrite (Rabs_pos_eq (val w * val w)) in N by apply Rle_0_sqr. apply N.
  rewrite <- Rabs_mult, (Rabs_pos_eq (val w * val w)) in H by apply Rle_0_sqr.
  pose proof (Rmult_le_compat_l big 1 big ltac:(lra) ltac:(lra)). nra.
Qed.

Lemma squares : forall l : flt, ordinary l -> 0 < val l /\ val l * val l <= big * big /\ 1000 * tiny <= val l * val l.
Proof.
  intros l (F & L1 & L2). pose proof small_pos as S0. pose proof tiny_small as TS. pose proof tiny_pos as T0.
  split; [lra|]. split; [apply Rmult_le_compat; lra|].
  apply Rle_trans with (small * small); [|apply Rmult_le_compat; lra]. eapply Rle_trans; [|exact TS].
  assert (M1 : 1000 <= IZR (2 ^ 53)) by (apply IZR_le; lia). apply Rmult_le_compat_r; [lra|]. nra.
Qed.

Lemma disc_exact : forall (lx ly w : flt) nx ny ex ey, ordinary lx -> ordinary ly -> fin w -> Rabs (val w) <= big ->
  (2 <= nx <= 2 ^ 53)%Z -> (2 <= ny <= 2 ^ 53)%Z -> (0 <= ex < nx - 1)%Z -> (0 <= ey < ny - 1)%Z ->
  let d := (mid (val lx) nx ex - val lx / 2) * (mid (val lx) nx ex - val lx / 2) + (mid (val ly) ny ey - val ly / 2) * (mid (val ly) ny ey - val ly / 2) in
  64 * uro * (val lx * val lx + val ly * val ly) + 2 * uro * (val w * val w) < Rabs (d - val w * val w) ->
  let a := osub (odiv lx (ofZ 2)) (mid_f lx nx ex) in let b := osub (odiv ly (ofZ 2)) (mid_f ly ny ey) in
  (oltb (oadd (omul a a) (omul b b)) (omul w w) = true <-> d < val w * val w).
Proof.
  intros lx ly w nx ny ex ey Ox Oy Fw Bw Hnx Hny Hx Hy d H a b.
  pose proof (square_near lx nx ex Ox Hnx Hx) as Nx. pose proof (square_near ly ny ey Oy Hny Hy) as Ny. cbv zeta in Nx, Ny. fold a in Nx. fold b in Ny.
  destruct (squares _ Ox) as (X1 & X2 & X3). destruct (squares _ Oy) as (Y1 & Y2 & Y3). pose proof big_lim as BL. pose proof uro_pos as U.
  pose proof gam12 as G. pose proof tiny_pos as T0.
  apply (compare_near 12 1 _ _ _ _ (4 * (val lx * val lx) + 4 * (val ly * val ly)) (val w * val w + tiny)).
  - eapply nf_le; [apply (nf_add 9); [lia|exact Nx|exact Ny|]|lia|]; lra.
  - apply width_near; assumption.
  - eapply Rle_lt_trans; [|exact H]. rewrite gam_1.
    assert (gam 12 * (4 * (val lx * val lx) + 4 * (val ly * val ly)) <= 15 * uro * (4 * (val lx * val lx) + 4 * (val ly * val ly))) by (apply Rmult_le_compat_r; lra).
    assert (uro * tiny <= uro * (val lx * val lx)) by (apply Rmult_le_compat_l; lra).
    assert (0 <= uro * tiny) by (apply Rmult_le_pos; lra).
    assert (0 <= uro * (val ly * val ly)) by (apply Rmult_le_pos; lra). pose proof (Rle_0_sqr (val w)) as W0. unfold Rsqr in W0.
    assert (0 <= uro * (val w * val w)) by (apply Rmult_le_pos; lra). lra.
Qed.
Lemma ball_exact : forall (lx ly lz w : flt) nx ny nz ex ey ez, ordinary lx -> ordinary ly -> ordinary lz -> fin w -> Rabs (val w) <= big ->
  (2 <= nx <= 2 ^ 53)%Z -> (2 <= ny <= 2 ^ 53)%Z -> (2 <= nz <= 2 ^ 53)%Z -> (0 <= ex < nx - 1)%Z -> (0 <= ey < ny - 1)%Z -> (0 <= ez < nz - 1)%Z ->
  let d := (mid (val lx) nx ex - val lx / 2) * (mid (val lx) nx ex - val lx / 2) + (mid (val ly) ny ey - val ly / 2) * (mid (val ly) ny ey - val ly / 2) +
    (mid (val lz) nz ez - val lz / 2) * (mid (val lz) nz ez - val lz / 2) in
  64 * uro * (val lx * val lx + val ly * val ly + val lz * val lz) + 2 * uro * (val w * val w) < Rabs (d - val w * val w) ->
  let a := osub (odiv lx (ofZ 2)) (mid_f lx nx ex) in let b := osub (odiv ly (ofZ 2)) (mid_f ly ny ey) in let c := osub (odiv lz (ofZ 2)) (mid_f lz nz ez) in
  (oltb (oadd (oadd (omul a a) (omul b b)) (omul c c)) (omul w w) = true <-> d < val w * val w).
Proof.
  intros lx ly lz w nx ny nz ex ey ez Ox Oy Oz Fw Bw Hnx Hny Hnz Hx Hy Hz d H a b c.
  pose proof (square_near lx nx ex Ox Hnx Hx) as Nx. pose proof (square_near ly ny ey Oy Hny Hy) as Ny. pose proof (square_near lz nz ez Oz Hnz Hz) as Nz.
  cbv zeta in Nx, Ny, Nz. fold a in Nx. fold b in Ny. fold c in Nz.
  destruct (squares _ Ox) as (X1 & X2 & X3). destruct (squares _ Oy) as (Y1 & Y2 & Y3). destruct (squares _ Oz) as (Z1 & Z2 & Z3).
  pose proof big_lim as BL. pose proof uro_pos as U. pose proof gam12 as G. pose proof tiny_pos as T0.
  apply (compare_near 12 1 _ _ _ _ (4 * (val lx * val lx) + 4 * (val ly * val ly) + 4 * (val lz * val lz)) (val w * val w + tiny)).
  - eapply nf_le; [apply (nf_add 10); [lia|apply (nf_add 9); [lia|exact Nx|exact Ny|]|eapply nf_le; [exact Nz|lia|apply Rle_refl]|]|lia|]; lra.
  - apply width_near; assumption.
  - eapply Rle_lt_trans; [|exact H]. rewrite gam_1.
    assert (gam 12 * (4 * (val lx * val lx) + 4 * (val ly * val ly) + 4 * (val lz * val lz)) <= 15 * uro * (4 * (val lx * val lx) + 4 * (val ly * val ly) + 4 * (val lz * val lz)))
      by (apply Rmult_le_compat_r; lra).
    assert (uro * tiny <= uro * (val lx * val lx)) by (apply Rmult_le_compat_l; lra).
    assert (0 <= uro * tiny) by (apply Rmult_le_pos; lra).
    assert (0 <= uro * (val ly * val ly)) by (apply Rmult_le_pos; lra). assert (0 <= uro * (val lz * val lz)) by (apply Rmult_le_pos; lra).
    pose proof (Rle_0_sqr (val w)) as W0. unfold Rsqr in W0.
    assert (0 <= uro * (val w * val w)) by (apply Rmult_le_pos; lra). lra.
Qed.

(** the class of a cell from the comparison *)
Lemma class_of : forall (a b : flt) (P : Prop), (oltb a b = true <-> P) -> P \/ ~ P ->
  (Some (if oltb a b then 1%Z else 0%Z) = Some 1%Z <-> P) /\ (Some (if oltb a b then 1%Z else 0%Z) = Some 0%Z <-> ~ P).
Proof.
  intros a b P H D. destruct (oltb a b).
  - split; split; intro X; try reflexivity; try discriminate; tauto.
  - assert (~ P) by (intro p; apply H in p; discriminate). split; split; intro X; try reflexivity; try discriminate; tauto.
Qed.

Section Geo.
Variables (fuel : nat) (orc : Z -> peek) (j : junk flt) (mtype : Z) (mp : list flt) (mt : list Z) (ps : list flt) (o : obj flt).
Let lx := val (lget mp 0). Let ly := val (lget mp 1). Let lz := val (lget mp 2). Let w := val (lget mp 3).
Theorem cells2_double nx ny nz ex ey : construct fuel orc j 2 [nx; ny; nz] mtype mp mt ps = Ok o ->
  ordinary (lget mp 0) -> ordinary (lget mp 1) -> fin (lget mp 3) -> Rabs w <= big -> (nx <= 2 ^ 53)%Z -> (ny <= 2 ^ 53)%Z ->
  (0 <= ex < nx - 1)%Z -> (0 <= ey < ny - 1)%Z ->
  let x := mid lx nx ex in let y := mid ly ny ey in
  let d := (x - lx / 2) * (x - lx / 2) + (y - ly / 2) * (y - ly / 2) in
  (if (mtype =? 0)%Z then 64 * uro * (lx * lx + ly * ly) + 2 * uro * (w * w) < Rabs (d - w * w) else 4 * uro * y < Rabs (y - w)) ->
  let inside := if (mtype =? 0)%Z then d < w * w else y < w in
  (aget (v_etype (o_env o)) (ey * (nx - 1) + ex) = Some 1%Z <-> inside) /\ (aget (v_etype (o_env o)) (ey * (nx - 1) + ex) = Some 0%Z <-> ~ inside).
Proof.
  intros H Ox Oy Fw Bw Nx Ny Hx Hy x y d M inside. destruct (construct_built _ _ _ _ _ _ _ _ _ _ H) as (_ & Ty & B).
  pose proof (bt_nx _ _ _ _ _ B) as Ex. pose proof (bt_ny _ _ _ _ _ B) as Ey.
  change (znth [nx; ny; nz] 0) with nx in Ex. change (znth [nx; ny; nz] 1) with ny in Ey.
  pose proof (bt_types2 _ _ _ _ _ B eq_refl ex ey) as Bt. rewrite Ex, Ey in Bt. rewrite Bt by lia.
  unfold class2, elem_type2D. rewrite (bt_type _ _ _ _ _ B), (bt_dx _ _ _ _ _ B), (bt_dy _ _ _ _ _ B), (bt_width _ _ _ _ _ B), Ex, Ey, (bt_lx _ _ _ _ _ B), (bt_ly _ _ _ _ _ B).
  unfold inside. destruct (Z.eqb_spec mtype 0) as [E0|N]; [|replace (mtype =? 1)%Z with true by lia].
  - apply class_of; [|apply lt_dec2]. apply disc_exact; try assumption; lia.
  - apply class_of; [|apply lt_dec2]. apply layer_exact; try assumption; lia.
Qed.
Theorem cells3_double nx ny nz ex ey ez : construct fuel orc j 3 [nx; ny; nz] mtype mp mt ps = Ok o ->
  ordinary (lget mp 0) -> ordinary (lget mp 1) -> ordinary (lget mp 2) -> fin (lget mp 3) -> Rabs w <= big ->
  (nx <= 2 ^ 53)%Z -> (ny <= 2 ^ 53)%Z -> (nz <= 2 ^ 53)%Z ->
  (0 <= ex < nx - 1)%Z -> (0 <= ey < ny - 1)%Z -> (0 <= ez < nz - 1)%Z ->
  let x := mid lx nx ex in let y := mid ly ny ey in let z := mid lz nz ez in
  let d := (x - lx / 2) * (x - lx / 2) + (y - ly / 2) * (y - ly / 2) + (z - lz / 2) * (z - lz / 2) in
  (if (mtype =? 0)%Z then 64 * uro * (lx * lx + ly * ly + lz * lz) + 2 * uro * (w * w) < Rabs (d - w * w) else 4 * uro * y < Rabs (y - w)) ->
  let inside := if (mtype =? 0)%Z then d < w * w else y < w in
  let t := aget (v_etype (o_env o)) (ez * (nx - 1) * (ny - 1) + ey * (nx - 1) + ex) in
  (t = Some 1%Z <-> inside) /\ (t = Some 0%Z <-> ~ inside).
Proof.
  intros H Ox Oy Oz Fw Bw Nx Ny Nz Hx Hy Hz x y z d M inside t. destruct (construct_built _ _ _ _ _ _ _ _ _ _ H) as (_ & Ty & B).
  pose proof (bt_nx _ _ _ _ _ B) as Ex. pose proof (bt_ny _ _ _ _ _ B) as Ey. pose proof (bt_nz _ _ _ _ _ B) as Ez.
  change (znth [nx; ny; nz] 0) with nx in Ex. change (znth [nx; ny; nz] 1) with ny in Ey. change (v_nz (o_env o) = nz) in Ez.
  pose proof (bt_types3 _ _ _ _ _ B eq_refl ex ey ez) as Bt. rewrite Ex, Ey, Ez in Bt. unfold t. rewrite Bt by lia. clear t.
  unfold class3, elem_type3D. rewrite (bt_type _ _ _ _ _ B), (bt_dx _ _ _ _ _ B), (bt_dy _ _ _ _ _ B), (bt_dz _ _ _ _ _ B), (bt_width _ _ _ _ _ B), Ex, Ey, Ez, (bt_lx _ _ _ _ _ B), (bt_ly _ _ _ _ _ B), (bt_lz _ _ _ _ _ B) by lia.
  unfold inside. destruct (Z.eqb_spec mtype 0) as [E0|N]; [|replace (mtype =? 1)%Z with true by lia].
  - apply class_of; [|apply lt_dec2]. apply ball_exact; try assumption; lia.
  - apply class_of; [|apply lt_dec2]. apply layer_exact; try assumption; lia.
Qed.
End Geo.

(** ** The disc of radius 1/5 in the unit square of 5 x 5 cells is not symmetric in doubles *)
Definition fifth : list flt := [ofZ 1; ofZ 1; ofZ 1; odiv (ofZ 1) (ofZ 5); ofZ 0].
Lemma broken_mirror : forall c, (c = 1 \/ c = 3)%Z ->
  let a := osub (odiv (lget fifth 0) (ofZ 2)) (mid_f (lget fifth 0) 6 c) in let b := osub (odiv (lget fifth 1) (ofZ 2)) (mid_f (lget fifth 1) 6 2) in
  oltb (oadd (omul a a) (omul b b)) (omul (lget fifth 3) (lget fifth 3)) = (c =? 1)%Z /\
  oltb (oadd (oadd (omul a a) (omul b b)) (omul b b)) (omul (lget fifth 3) (lget fifth 3)) = (c =? 1)%Z.
Proof. intros c [-> | ->]; vm_compute; split; reflexivity. Qed.
Theorem mirror_lost : forall fuel (j : junk flt) t0 t1 (ps : list flt), (40 <= fuel)%nat -> mat_type_ok t0 -> mat_type_ok t1 -> (14 <= length ps)%nat -> total_junk j ->
  (exists o, construct fuel (fun _ => counting) j 2 [6; 6; 1]%Z 0 fifth [t0; t1] ps = Ok o /\
    let t ex ey := aget (v_etype (o_env o)) (ey * (6 - 1) + ex)%Z in t 1%Z 2%Z = Some 1%Z /\ t 3%Z 2%Z = Some 0%Z) /\
  exists o, construct fuel (fun _ => counting) j 3 [6; 6; 6]%Z 0 fifth [t0; t1] ps = Ok o /\
    let t ex ey ez := aget (v_etype (o_env o)) (ez * (6 - 1) * (6 - 1) + ey * (6 - 1) + ex)%Z in t 1%Z 2%Z 2%Z = Some 1%Z /\ t 3%Z 2%Z 2%Z = Some 0%Z.
Proof.
  intros fuel j t0 t1 ps Hf M0 M1 Hp J.
  assert (A2 : valid_args 2 6 6 1 0 fifth [t0; t1] ps).
  { constructor; [left; reflexivity|lia|lia|left; reflexivity|simpl; lia|exists t0, t1, []; split; [reflexivity|split; assumption]|exact Hp]. }
  assert (A3 : valid_args 3 6 6 6 0 fifth [t0; t1] ps).
  { constructor; [right; split; [reflexivity|lia]|lia|lia|left; reflexivity|simpl; lia|exists t0, t1, []; split; [reflexivity|split; assumption]|exact Hp]. }
  pose proof (construct_ok fuel (fun _ => counting) j _ _ _ _ _ _ _ _ A2 J) as C2.
  pose proof (construct_ok fuel (fun _ => counting) j _ _ _ _ _ _ _ _ A3 J) as C3.
  destruct (construct fuel (fun _ => counting) j 2 [6; 6; 1]%Z 0 fifth [t0; t1] ps) as [o2|e2]; [|destruct C2 as (i & C2); elim (counting_good _ _ Hf C2)].
  destruct (construct fuel (fun _ => counting) j 3 [6; 6; 6]%Z 0 fifth [t0; t1] ps) as [o3|e3]; [|destruct C3 as (i & C3); elim (counting_good _ _ Hf C3)].
  destruct C2 as (_ & (tol2 & _ & E2) & _). destruct C3 as (_ & (tol3 & _ & E3) & _).
  destruct (broken_mirror 1 ltac:(left; reflexivity)) as (P1 & P2). destruct (broken_mirror 3 ltac:(right; reflexivity)) as (Q1 & Q2).
  split; [exists o2|exists o3]; (split; [reflexivity|]).
  - pose proof (eo_etype2 _ _ _ _ _ _ _ _ _ _ E2 eq_refl) as Et. cbv beta zeta. rewrite !Et by lia.
    unfold class2, elem_type2D. rewrite (eo_type _ _ _ _ _ _ _ _ _ _ E2), (eo_dx _ _ _ _ _ _ _ _ _ _ E2), (eo_dy _ _ _ _ _ _ _ _ _ _ E2), (eo_width _ _ _ _ _ _ _ _ _ _ E2), (eo_lx _ _ _ _ _ _ _ _ _ _ E2), (eo_ly _ _ _ _ _ _ _ _ _ _ E2).
    change (0 =? 0)%Z with true. cbv iota. unfold mid_f in P1, Q1. rewrite P1, Q1. split; reflexivity.
  - pose proof (eo_etype3 _ _ _ _ _ _ _ _ _ _ E3 eq_refl) as Et. cbv beta zeta. rewrite !Et by lia.
    unfold class3, elem_type3D. rewrite (eo_type _ _ _ _ _ _ _ _ _ _ E3), (eo_dx _ _ _ _ _ _ _ _ _ _ E3), (eo_dy _ _ _ _ _ _ _ _ _ _ E3), (eo_dz _ _ _ _ _ _ _ _ _ _ E3), (eo_width _ _ _ _ _ _ _ _ _ _ E3), (eo_nz _ _ _ _ _ _ _ _ _ _ E3), (eo_lx _ _ _ _ _ _ _ _ _ _ E3), (eo_ly _ _ _ _ _ _ _ _ _ _ E3), (eo_lz _ _ _ _ _ _ _ _ _ _ E3).
    change (0 =? 0)%Z with true. change (3 =? 2)%Z with false. cbv iota. unfold mid_f in P2, Q2. change (lget fifth 2) with (lget fifth 1). rewrite P2, Q2. split; reflexivity.
Qed.
