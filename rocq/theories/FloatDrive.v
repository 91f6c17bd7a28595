(** The strains of the test programs in doubles, C102. *)
From Coq Require Import Reals Lra.
From Flocq Require Import BinarySingleNaN.
From Verif Require Import Base Scalar BinInst FloatSum FloatCg DriverProps DriverMore.
Open Scope Z_scope.
Open Scope R_scope.

Lemma huge_one : 1 <= huge.
Proof. unfold huge. change 1 with (Raux.bpow Zaux.radix2 0). apply Raux.bpow_le. lia. Qed.
Lemma huge_size : IZR (2 ^ 60) <= huge.
Proof. unfold huge. change (2 ^ 60)%Z with (Zaux.radix_val Zaux.radix2 ^ 60)%Z. rewrite (Raux.IZR_Zpower Zaux.radix2 60) by lia. apply Raux.bpow_le. lia. Qed.
(** the double nearest to one hundredth *)
Definition cent : flt := odiv (ofZ 1) (ofZ 100).
Lemma cent_fin : fin cent.
Proof. vm_compute. reflexivity. Qed.
Lemma cent_near : near 1 cent (1 / 100) (1 / 100 + tiny).
Proof.
  pose proof (int_exact 100 ltac:(lia)) as [F E]. pose proof (near_div 0 (ofZ 1) 1 (Rabs 1) (ofZ 100) (near_int 1 ltac:(lia)) F cent_fin) as H.
  rewrite E in H. rewrite (Rabs_pos_eq 1), (Rabs_pos_eq 100) in H by lra. exact H.
Qed.
Lemma level_S {T} `{Ops T} k : level (S k) = if up (Z.of_nat k) then oadd (level k) (odiv (ofZ 1) (ofZ 100)) else osub (level k) (odiv (ofZ 1) (ofZ 100)).
Proof. reflexivity. Qed.
Lemma tiny_one : tiny <= / 100.
Proof. unfold tiny. apply Rle_trans with (Raux.bpow Zaux.radix2 (-7)); [apply Raux.bpow_le; lia|]. cbn. lra. Qed.

Lemma level_double : forall k, (Z.of_nat k <= 2 ^ 31)%Z ->
  fin (level k) /\ near (S k) (level k) (level k : R) (INR k * (1 / 100 + tiny)).
Proof.
  induction k as [|k IH]; intro K.
  - split; [exact fin_0|]. cbn [level ofZ ROps]. split; [rewrite val_0|]; cbn [INR]; rewrite ?Rminus_diag_eq by reflexivity; rewrite Rabs_R0; lra.
  - destruct IH as [F N]; [lia|]. pose proof tiny_pos as TP. pose proof tiny_one as TO.
    assert (G : gam (S k) <= 1).
    { assert (B : INR (S k) * uro <= / 10).
      { rewrite INR_IZR_INZ. apply Rle_trans with (IZR (2 ^ 31) * uro); [apply Rmult_le_compat_r; [left; exact uro_pos|apply IZR_le; exact K]|].
        rewrite uro_val. lra. }
      pose proof (gam_small (S k) B). lra. }
    assert (V : Rabs (val (level k)) <= INR k).
    { pose proof (near_size _ _ _ _ N) as V. pose proof (pos_INR k). apply Rle_trans with (1 := V).
      apply Rle_trans with (2 * (INR k * (1 / 100 + tiny))).
      - apply Rmult_le_compat_r; [apply Rmult_le_pos; lra|lra].
      - replace (2 * (INR k * (1 / 100 + tiny))) with (INR k * (2 * (1 / 100 + tiny))) by ring. rewrite <- (Rmult_1_r (INR k)) at 2. apply Rmult_le_compat_l; lra. }
    assert (C : Rabs (val cent) <= 1).
    { pose proof (near_size _ _ _ _ cent_near) as C. rewrite gam_1, uro_val in C. lra. }
    assert (KB : INR k + 1 <= huge).
    { rewrite <- S_INR, INR_IZR_INZ. apply Rle_trans with (IZR (2 ^ 60)); [apply IZR_le; lia|exact huge_size]. }
    assert (N1 : near (S k) cent (1 / 100) (1 / 100 + tiny)) by (apply (near_le 1 (S k) _ _ _ _ cent_near); [lia|lra]).
    rewrite (level_S (T := R)), (level_S (T := flt)). change (@odiv R ROps (ofZ 1) (ofZ 100)) with (1 / 100).
    change (@odiv flt B64 (ofZ 1) (ofZ 100)) with cent. rewrite S_INR, Rmult_plus_distr_r, Rmult_1_l.
    destruct (up (Z.of_nat k)).
    + assert (Q : fin (oadd (level k) cent)).
      { apply add_fin; [exact F|exact cent_fin|]. eapply Rle_trans; [apply Rabs_triang|]. lra. }
      split; [exact Q|]. exact (near_add _ _ _ _ _ _ _ N N1 Q).
    + assert (Q : fin (osub (level k) cent)).
      { apply sub_fin; [exact F|exact cent_fin|]. eapply Rle_trans; [apply Rabs_triang|]. rewrite Rabs_Ropp. lra. }
      split; [exact Q|]. exact (near_sub _ _ _ _ _ _ _ N N1 Q).
Qed.

(** after k steps of the programs the strain is the exact one up to (k+1) roundings *)
Theorem strain_double : forall dir k i, (0 <= dir < 6)%Z -> (0 <= i < 6)%Z -> (Z.of_nat k <= 2 ^ 31)%Z ->
  exists x : flt, nth_error (strain dir k) (Z.to_nat i) = Some x /\ fin x /\
    Rabs (val x - (if Z.eqb i dir then IZR (hundredths (Z.of_nat k)) / 100 else 0)) <= 12 / 10 * INR (S k) * uro * (INR k * (1 / 100 + tiny)).
Proof.
  intros dir k i D I K. exists (if Z.eqb i dir then level k else ofZ 0). split; [|].
  { unfold strain. rewrite map_nth_error with (d := i); [reflexivity|].
    clear - I. unfold zrange. assert (J : (i = 0 \/ i = 1 \/ i = 2 \/ i = 3 \/ i = 4 \/ i = 5)%Z) by lia.
    destruct J as [ -> |[ -> |[ -> |[ -> |[ -> | -> ]]]]]; reflexivity. }
  pose proof tiny_pos. pose proof uro_pos. pose proof (pos_INR k). pose proof (pos_INR (S k)).
  destruct (Z.eqb i dir).
  - destruct (level_double k K) as [F [N _]]. split; [exact F|]. rewrite <- level_value. apply Rle_trans with (1 := N).
    apply Rmult_le_compat_r; [apply Rmult_le_pos; lra|]. rewrite Rmult_assoc. apply gam_small.
    rewrite INR_IZR_INZ. apply Rle_trans with (IZR (2 ^ 31 + 1) * uro); [apply Rmult_le_compat_r; [lra|apply IZR_le; lia]|].
    rewrite uro_val. change (2 ^ 31 + 1)%Z with 2147483649%Z. lra.
  - split; [exact fin_0|]. rewrite val_0, Rminus_diag_eq by reflexivity. rewrite Rabs_R0. repeat apply Rmult_le_pos; lra.
Qed.

(** after 60 steps the exact strain is 0 again, but that of the program is not *)
Lemma sixty_back : hundredths 60 = 0%Z /\ (level 60 : R) = 0 /\ exists s m e B, (level 60 : flt) = B754_finite s m e B /\ val (level 60) < 0.
Proof.
  split; [reflexivity|]. split; [rewrite level_value; change (hundredths (Z.of_nat 60)) with 0%Z; lra|].
  assert (E : B2SF (level 60 : flt) = SpecFloat.S754_finite true 5066549580791808 (-107)) by (vm_compute; reflexivity).
  destruct (level 60) as [ | | | s m e B]; try discriminate E. injection E as -> -> ->.
  exists true, 5066549580791808%positive, (-107)%Z, B. split; [reflexivity|]. cbn [B2R].
  apply (Float_prop.F2R_lt_0 Zaux.radix2). reflexivity.
Qed.
