(** Conjugate gradients over the reals: residual invariant, conjugacy, energy
    decrease, finite termination. *)
From Coq Require Import Reals Lra ZifyNat.
From Verif Require Import Base Scalar EllModel EllAsm CgPure LinDep.
Open Scope R_scope.

(** exact reals where a division by zero returns an arbitrary value: a theorem
    comparing two such instances shows that no division by zero matters *)
Definition Rdivj (g : R -> R) (x y : R) : R := if Req_EM_T y 0 then g x else x / y.
Definition ROpsJ (g : R -> R) : Ops R := {|
  ofZ := IZR; oadd := Rplus; osub := Rminus; omul := Rmult; odiv := Rdivj g;
  oopp := Ropp; osqrt := sqrt; oabs := Rabs; oltb := Rltb |}.

Lemma Rdivj_nz g x y : y <> 0 -> Rdivj g x y = x / y.
Proof. intros. unfold Rdivj. now destruct (Req_EM_T y 0). Qed.

Definition vdot (n : Z) (a b : Z -> R) : R := rsum (zrange 0 n) (fun i => a i * b i).

Lemma dotf_R g n a b : @dotf R (ROpsJ g) n a b = vdot n a b.
Proof. exact (sumf_R (zrange 0 n) (fun i => a i * b i)). Qed.

Section Vdot.
Variable n : Z.
Lemma vdot_ext a b a' b' : (forall i, (0 <= i < n)%Z -> a i = a' i) ->
  (forall i, (0 <= i < n)%Z -> b i = b' i) -> vdot n a b = vdot n a' b'.
Proof. intros H1 H2. apply rsum_ext. intros i Hi. apply in_zrange in Hi. now rewrite H1, H2. Qed.
Lemma vdot_comm a b : vdot n a b = vdot n b a.
Proof. apply rsum_ext. intros; lra. Qed.
Lemma vdot_lin a b c x : vdot n (fun i => a i + c * b i) x = vdot n a x + c * vdot n b x.
Proof. unfold vdot. rewrite <- rsum_scal, <- rsum_plus. apply rsum_ext. intros; lra. Qed.
Lemma vdot_sub a b c x : vdot n (fun i => a i - c * b i) x = vdot n a x - c * vdot n b x.
Proof. unfold vdot. rewrite <- rsum_scal, <- rsum_minus. apply rsum_ext. intros; lra. Qed.
Lemma vdot_nonneg a : 0 <= vdot n a a.
Proof. apply rsum_nonneg. intros. nra. Qed.
Lemma vdot_zero a : vdot n a a = 0 -> forall i, (0 <= i < n)%Z -> a i = 0.
Proof.
  intros H i Hi. assert (a i * a i = 0).
  { apply (rsum_nonneg_zero (zrange 0 n) (fun i => a i * a i)); [intros; nra|exact H|now apply in_zrange]. }
  nra.
Qed.
Lemma vdot_z_l a b : (forall i, (0 <= i < n)%Z -> a i = 0) -> vdot n a b = 0.
Proof. intros H. apply rsum_zero. intros i Hi. apply in_zrange in Hi. rewrite H by assumption. lra. Qed.
End Vdot.

Section Cg.
Variables (n : Z) (A : (Z -> R) -> Z -> R) (kf b : Z -> R) (g : R -> R).
Variable free : Z -> Prop.
Hypothesis Hn : (0 <= n)%Z.
Hypothesis Alin : forall x y c i, (0 <= i < n)%Z ->
  A (fun j => x j + c * y j) i = A x i + c * A y i.
Hypothesis Aext : forall x y, (forall i, (0 <= i < n)%Z -> x i = y i) ->
  forall i, (0 <= i < n)%Z -> A x i = A y i.

Definition inV (x : Z -> R) : Prop := forall i, (0 <= i < n)%Z -> ~ free i -> x i = 0.

Variable s0 : cgst (T:=R).
Hypothesis R0 : forall i, (0 <= i < n)%Z -> sr s0 i = A (sx s0) i - b i.

Let sq := @cgseq R (ROpsJ g) n A kf s0.
Let x k := sx (sq k).
Let r k := sr (sq k).
Let z k := @cgz R (ROpsJ g) kf (sq k).
Let rho k := @cgrho R (ROpsJ g) n kf (sq k).
Let p k := @cgp R (ROpsJ g) n kf (Nat.eqb k 0) (sq k).
Let al k := @cgd R (ROpsJ g) n A kf (Nat.eqb k 0) (sq k).

Lemma z_eq k i : z k i = kf i * r k i. Proof. reflexivity. Qed.
Lemma rho_eq k : rho k = vdot n (r k) (z k). Proof. apply dotf_R. Qed.
Lemma p_0 i : p 0 i = z 0 i. Proof. reflexivity. Qed.
Lemma p_S k i : p (S k) i = z (S k) i + Rdivj g (rho (S k)) (rho k) * p k i. Proof. reflexivity. Qed.
Lemma al_eq k : al k = Rdivj g (rho k) (vdot n (p k) (A (p k))).
Proof. unfold al, cgd. cbn [odiv ROpsJ]. now rewrite dotf_R. Qed.
Lemma x_S k i : x (S k) i = x k i - al k * p k i. Proof. reflexivity. Qed.
Lemma r_S k i : r (S k) i = r k i - al k * A (p k) i. Proof. reflexivity. Qed.
Lemma norm_eq k : @cgnorm R (ROpsJ g) n (sq k) = sqrt (vdot n (r k) (r k)).
Proof. unfold cgnorm. cbn [osqrt ROpsJ]. now rewrite dotf_R. Qed.

Lemma A_sub v w c i : (0 <= i < n)%Z -> A (fun j => v j - c * w j) i = A v i - c * A w i.
Proof.
  intros Hi. rewrite (Aext _ (fun j => v j + (- c) * w j)) by (intros; lra || assumption).
  rewrite Alin by exact Hi. lra.
Qed.

(** the recurrence residual is the true residual *)
Lemma residual k : forall i, (0 <= i < n)%Z -> r k i = A (x k) i - b i.
Proof.
  induction k; intros i Hi; [now apply R0|].
  rewrite r_S, IHk by exact Hi. 
  rewrite (Aext (x (S k)) (fun j => x k j - al k * p k j)) by (intros; reflexivity || assumption).
  rewrite A_sub by exact Hi. lra.
Qed.

(** ** Constrained rows *)
Section Constrained.
Hypothesis AV : forall v, inV v -> inV (A v).
Hypothesis r0V : inV (r 0).

Lemma V_r_p k : inV (r k) /\ inV (p k).
Proof.
  induction k as [|k (Hr & Hp)].
  - split; [exact r0V|]. intros i Hi F. rewrite p_0, z_eq. rewrite (r0V i Hi F). lra.
  - assert (Hr' : inV (r (S k))).
    { intros i Hi F. rewrite r_S, (Hr i Hi F), (AV _ Hp i Hi F). lra. }
    split; [exact Hr'|]. intros i Hi F. rewrite p_S, z_eq, (Hr' i Hi F), (Hp i Hi F). lra.
Qed.

Lemma V_x k : forall i, (0 <= i < n)%Z -> ~ free i -> x k i = x 0 i.
Proof.
  induction k; intros i Hi F; [reflexivity|]. rewrite x_S, IHk by assumption.
  rewrite (proj2 (V_r_p k) i Hi F). lra.
Qed.

(** ** Symmetric positive definite on the free dofs *)
Hypothesis Asym : forall v w, inV v -> inV w -> vdot n v (A w) = vdot n w (A v).
Hypothesis Apos : forall v, inV v -> (exists i, (0 <= i < n)%Z /\ v i <> 0) -> 0 < vdot n v (A v).
Hypothesis kpos : forall i, (0 <= i < n)%Z -> free i -> 0 < kf i.
Hypothesis free_dec : forall i, free i \/ ~ free i.

Definition nz (k : nat) : Prop := exists i, (0 <= i < n)%Z /\ r k i <> 0.

Lemma rho_pos k : nz k -> 0 < rho k.
Proof.
  intros (i & Hi & N). rewrite rho_eq. unfold vdot.
  assert (H : forall j, In j (zrange 0 n) -> 0 <= r k j * z k j).
  { intros j Hj. apply in_zrange in Hj. rewrite z_eq. destruct (free_dec j) as [F|F].
    - pose proof (kpos j Hj F). assert (0 <= r k j * r k j) by nra. nra.
    - rewrite (proj1 (V_r_p k) j Hj F). lra. }
  destruct (Rle_lt_or_eq_dec _ _ (rsum_nonneg _ _ H)) as [|E]; [assumption|].
  exfalso. pose proof (rsum_nonneg_zero _ _ H (eq_sym E) i (proj2 (in_zrange _ _ _) Hi)) as Q.
  simpl in Q. rewrite z_eq in Q. destruct (free_dec i) as [F|F].
  - pose proof (kpos i Hi F). assert (0 < r k i * r k i) by nra. nra.
  - apply N. now apply (proj1 (V_r_p k)).
Qed.

Lemma zdot_sym i j : vdot n (z i) (r j) = vdot n (r i) (z j).
Proof. apply rsum_ext. intros. rewrite !z_eq. lra. Qed.

Record Pk (k : nat) : Prop := {
  P1 : 0 < rho k;
  P2 : forall j, (j < k)%nat -> vdot n (r k) (p j) = 0;
  P3 : forall j, (j < k)%nat -> vdot n (r k) (z j) = 0;
  P4 : forall j, (j < k)%nat -> vdot n (p k) (A (p j)) = 0;
  P5 : vdot n (r k) (p k) = rho k;
  P6 : 0 < vdot n (p k) (A (p k)) }.

Lemma P6_of k : vdot n (r k) (p k) = rho k -> 0 < rho k -> 0 < vdot n (p k) (A (p k)).
Proof.
  intros E H. apply Apos; [apply V_r_p|].
  destruct (Z_lt_le_dec 0 n) as [Hn0|Hn0].
  - destruct (Classical_Prop.classic (exists i, (0 <= i < n)%Z /\ p k i <> 0)) as [|N]; [assumption|].
    exfalso. assert (vdot n (r k) (p k) = 0); [|lra]. rewrite vdot_comm. apply vdot_z_l.
    intros i Hi. destruct (Req_dec (p k i) 0); [assumption|]. exfalso. apply N. eauto.
  - exfalso. revert E. unfold vdot. rewrite zrange_empty by lia. simpl. lra.
Qed.

Lemma al_pos k : 0 < rho k -> 0 < vdot n (p k) (A (p k)) ->
  al k = rho k / vdot n (p k) (A (p k)) /\ 0 < al k.
Proof.
  intros H1 H2. rewrite al_eq, Rdivj_nz by lra. split; [reflexivity|].
  apply Rmult_lt_0_compat; [assumption|]. now apply Rinv_0_lt_compat.
Qed.

Lemma Pk_all k : (forall j, (j <= k)%nat -> nz j) -> Pk k.
Proof.
  induction k as [k IH] using (well_founded_induction Wf_nat.lt_wf). intros Hz.
  destruct k as [|k].
  - assert (H1 : 0 < rho 0) by (apply rho_pos, Hz; lia).
    assert (H5 : vdot n (r 0) (p 0) = rho 0) by (rewrite rho_eq; apply vdot_ext; intros; auto).
    constructor; try (intros; lia); try assumption. now apply P6_of.
  - assert (IHj : forall j, (j <= k)%nat -> Pk j) by (intros; apply IH; [lia|]; intros; apply Hz; lia).
    destruct (IHj k ltac:(lia)) as [K1 K2 K3 K4 K5 K6].
    destruct (al_pos k K1 K6) as (Ea & Ha).
    assert (H1 : 0 < rho (S k)) by (apply rho_pos, Hz; lia).
    assert (H2 : forall j, (j < S k)%nat -> vdot n (r (S k)) (p j) = 0).
    { intros j Hj. 
      assert (E : vdot n (r (S k)) (p j) = vdot n (r k) (p j) - al k * vdot n (A (p k)) (p j)).
      { rewrite <- vdot_sub. apply vdot_ext; intros; [apply r_S|reflexivity]. }
      rewrite E. rewrite (vdot_comm n (A (p k))).
      destruct (Nat.eq_dec j k) as [->|].
      - rewrite K5, Ea. field. lra.
      - rewrite K2 by lia. rewrite Asym by apply V_r_p. rewrite K4 by lia. lra. }
    assert (H3 : forall j, (j < S k)%nat -> vdot n (r (S k)) (z j) = 0).
    { intros j Hj. destruct j as [|j].
      - rewrite <- (H2 0%nat) by lia. apply vdot_ext; intros; auto.
      - rewrite (vdot_ext n _ (z (S j)) (r (S k)) (fun i => p (S j) i - Rdivj g (rho (S j)) (rho j) * p j i));
          [|reflexivity|intros; rewrite p_S; lra].
        rewrite vdot_comm, vdot_sub, !(vdot_comm n (p _)), !H2 by lia. lra. }
    assert (Ep : forall w, vdot n (p (S k)) w = vdot n (z (S k)) w + rho (S k) / rho k * vdot n (p k) w).
    { intros w. rewrite <- vdot_lin. apply vdot_ext; [|reflexivity]. intros. rewrite p_S, Rdivj_nz by lra. reflexivity. }
    assert (H5 : vdot n (r (S k)) (p (S k)) = rho (S k)).
    { rewrite vdot_comm, Ep, (vdot_comm n (p k)), H2 by lia. rewrite rho_eq, (vdot_comm n (z _)). lra. }
    constructor; try assumption; [|now apply P6_of].
    intros j Hj. rewrite Ep.
    destruct (IHj j ltac:(lia)) as [J1 _ _ _ _ J6]. destruct (al_pos j J1 J6) as (Eaj & Haj).
    assert (EA : al j * vdot n (z (S k)) (A (p j)) = vdot n (r (S k)) (z j) - vdot n (r (S k)) (z (S j))).
    { rewrite <- !zdot_sym. rewrite !(vdot_comm n (z (S k))). rewrite <- (Rplus_0_l (al j * _)).
      rewrite (vdot_ext n (r (S j)) (z (S k)) (fun i => r j i - al j * A (p j) i) (z (S k))) by (intros; apply r_S || reflexivity).
      rewrite vdot_sub. lra. }
    destruct (Nat.eq_dec j k) as [->|].
    + rewrite H3, <- rho_eq in EA by lia.
      apply Rmult_eq_reg_l with (al k); [|lra]. rewrite Rmult_0_r, Rmult_plus_distr_l, EA, Ea. field. lra.
    + rewrite !H3 in EA by lia.
      assert (vdot n (z (S k)) (A (p j)) = 0) as -> by (apply Rmult_eq_reg_l with (al j); lra).
      rewrite K4 by lia. lra.
Qed.

(** ** Energy *)
Definition energy (v : Z -> R) : R := / 2 * vdot n v (A v) - vdot n b v.

Hypothesis bV : inV b.
Hypothesis x0V : inV (x 0).

Lemma xV k : inV (x k).
Proof. intros i Hi F. rewrite V_x by assumption. now apply x0V. Qed.

Lemma energy_step k : (forall j, (j <= k)%nat -> nz j) ->
  energy (x (S k)) = energy (x k) - rho k * rho k / (2 * vdot n (p k) (A (p k))).
Proof.
  intros Hz. destruct (Pk_all k Hz) as [K1 K2 K3 K4 K5 K6]. destruct (al_pos k K1 K6) as (Ea & Ha).
  unfold energy.
  assert (E1 : vdot n (x (S k)) (A (x (S k))) =
     vdot n (x k) (A (x k)) - 2 * al k * vdot n (p k) (A (x k)) + al k * al k * vdot n (p k) (A (p k))).
  { rewrite (vdot_ext n (x (S k)) (A (x (S k))) (fun i => x k i - al k * p k i) (fun i => A (x k) i - al k * A (p k) i)).
    - rewrite vdot_sub, !(vdot_comm n _ (fun i => _ - _)), !vdot_sub.
      rewrite !(vdot_comm n (A _)). rewrite (Asym (x k) (p k)) by (apply xV || apply V_r_p). lra.
    - intros; apply x_S.
    - intros i Hi. rewrite (Aext (x (S k)) (fun j => x k j - al k * p k j)) by (intros; apply x_S || assumption).
      now apply A_sub. }
  assert (E2 : vdot n b (x (S k)) = vdot n b (x k) - al k * vdot n b (p k)).
  { rewrite (vdot_comm n b (x (S k))), (vdot_ext n (x (S k)) b (fun i => x k i - al k * p k i) b) by (intros; apply x_S || reflexivity).
    rewrite vdot_sub, !(vdot_comm n b). lra. }
  assert (E3 : vdot n (p k) (A (x k)) - vdot n b (p k) = rho k).
  { rewrite <- K5, (vdot_comm n (r k)), (vdot_comm n b). unfold vdot. rewrite <- rsum_minus. apply rsum_ext.
    intros i Hi. apply in_zrange in Hi. rewrite residual by exact Hi. lra. }
  rewrite E1, E2. replace (vdot n (p k) (A (x k))) with (rho k + vdot n b (p k)) by lra.
  rewrite Ea. field. lra.
Qed.

Lemma energy_decr k : (forall j, (j <= k)%nat -> nz j) -> energy (x (S k)) < energy (x k).
Proof.
  intros Hz. rewrite energy_step by exact Hz. destruct (Pk_all k Hz) as [K1 _ _ _ _ K6].
  assert (0 < rho k * rho k / (2 * vdot n (p k) (A (p k)))); [|lra].
  apply Rdiv_lt_0_compat; nra.
Qed.

(** ** Finite termination *)
Lemma lcomb_dot cs vs w : length cs = length vs ->
  rsum (zrange 0 n) (fun i => lcomb cs vs (Z.to_nat i) * w i) =
  fold_right Rplus 0 (map (fun cv => fst cv * rsum (zrange 0 n) (fun i => snd cv (Z.to_nat i) * w i)) (combine cs vs)).
Proof.
  revert vs; induction cs as [|c cs IH]; intros [|v vs] L; simpl in *; try discriminate.
  - apply rsum_zero. intros; lra.
  - rewrite <- IH by lia. rewrite <- rsum_scal, <- rsum_plus. apply rsum_ext. intros; lra.
Qed.

Theorem finite_termination : exists k, (k <= Z.to_nat n)%nat /\ ~ nz k.
Proof.
  destruct (Classical_Prop.classic (exists k, (k <= Z.to_nat n)%nat /\ ~ nz k)) as [|N]; [assumption|].
  exfalso. assert (Hz : forall k, (k <= Z.to_nat n)%nat -> nz k).
  { intros k Hk. destruct (Classical_Prop.classic (nz k)); [assumption|]. exfalso. eauto. }
  set (vs := map (fun k (i : nat) => r k (Z.of_nat i)) (seq 0 (S (Z.to_nat n)))).
  destruct (too_many_dep (Z.to_nat n) vs) as (cs & Lc & (c & Hc & Nc) & Z).
  { unfold vs. now rewrite map_length, seq_length. }
  destruct (In_nth cs c 0 Hc) as (m & Hm & Em).
  assert (Lv : length vs = S (Z.to_nat n)) by (unfold vs; now rewrite map_length, seq_length).
  assert (Q : rsum (zrange 0 n) (fun i => lcomb cs vs (Z.to_nat i) * z m i) = 0).
  { apply rsum_zero. intros i Hi. apply in_zrange in Hi. rewrite Z by lia. lra. }
  rewrite lcomb_dot in Q by exact Lc.
  assert (D : forall k, (k <= Z.to_nat n)%nat ->
     rsum (zrange 0 n) (fun i => r k (Z.of_nat (Z.to_nat i)) * z m i) = if Nat.eqb k m then rho m else 0).
  { intros k Hk. transitivity (vdot n (r k) (z m)).
    - apply rsum_ext. intros i Hi. apply in_zrange in Hi. now rewrite Z2Nat.id by lia.
    - destruct (Nat.eqb_spec k m) as [->|Ne]; [symmetry; apply rho_eq|].
      destruct (Nat.lt_ge_cases m k).
      + apply (P3 k (Pk_all k ltac:(intros; apply Hz; lia))). assumption.
      + rewrite <- zdot_sym, vdot_comm. apply (P3 m (Pk_all m ltac:(intros; apply Hz; lia))). lia. }
  assert (G : forall a l cs', length cs' = length l -> (forall k, In k l -> (k <= Z.to_nat n)%nat) -> NoDup l ->
    fold_right Rplus 0 (map (fun cv => fst cv * rsum (zrange 0 n) (fun i => snd cv (Z.to_nat i) * z m i))
       (combine cs' (map (fun k (i : nat) => r k (Z.of_nat i)) l)))
    = fold_right Rplus 0 (map (fun ck => fst ck * if Nat.eqb (snd ck) m then rho m else 0) (combine cs' l)) + 0 * a).
  { intros a. induction l as [|k l IHl]; intros [|c' cs'] L Hl ND; simpl in *; try discriminate; [lra|].
    rewrite (IHl cs') by (auto; now inversion ND). rewrite D by auto. lra. }
  unfold vs in Q. rewrite (G 0) in Q.
  2: { rewrite seq_length. congruence. }
  2: { intros k Hk. apply in_seq in Hk. lia. }
  2: { apply seq_NoDup. }
  assert (F : forall l cs' s, length cs' = length l -> l = seq s (length l) ->
    fold_right Rplus 0 (map (fun ck => fst ck * if Nat.eqb (snd ck) m then rho m else 0) (combine cs' l))
    = if andb (Nat.leb s m) (Nat.ltb m (s + length l)) then nth (m - s) cs' 0 * rho m else 0).
  { induction l as [|k l IHl]; intros [|c' cs'] s L El; simpl in *; try discriminate.
    - destruct (Nat.leb_spec s m), (Nat.ltb_spec m (s + 0)); simpl; lra || lia.
    - injection El as -> El. rewrite (IHl cs' (S s)) by (lia || assumption).
      destruct (Nat.eqb_spec s m) as [->|].
      + rewrite Nat.sub_diag. replace (Nat.leb (S m) m) with false by (symmetry; apply Nat.leb_gt; lia).
        replace (Nat.leb m m) with true by (symmetry; apply Nat.leb_le; lia).
        replace (Nat.ltb m (m + S (length l))) with true by (symmetry; apply Nat.ltb_lt; lia). simpl. lra.
      + replace (s + S (length l))%nat with (S s + length l)%nat by lia.
        destruct (Nat.leb_spec (S s) m).
        * replace (Nat.leb s m) with true by (symmetry; apply Nat.leb_le; lia).
          destruct (Nat.ltb m (S s + length l)); simpl; [|lra].
          replace (m - s)%nat with (S (m - S s)) by lia. lra.
        * replace (Nat.leb s m) with false by (symmetry; apply Nat.leb_gt; lia). simpl. lra. }
  rewrite (F _ _ 0%nat) in Q by (rewrite ?seq_length; congruence).
  rewrite seq_length in Q. replace (Nat.leb 0 m) with true in Q by reflexivity.
  replace (Nat.ltb m (0 + S (Z.to_nat n))) with true in Q by (symmetry; apply Nat.ltb_lt; lia).
  simpl andb in Q. cbv iota in Q. rewrite Nat.sub_0_r, Em in Q.
  pose proof (rho_pos m (Hz m ltac:(lia))). nra.
Qed.
End Constrained.
End Cg.
