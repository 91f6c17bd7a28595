(** The exact body of an object in doubles: the same grid, the same class of every cell, and the sizes
    and material constants computed from the same inputs without rounding. *)
From Coq Require Import Reals Lra ZifyBool ZifyNat.
From Flocq Require Import BinarySingleNaN.
From Verif Require Import Base Scalar MonoBody ConvexMin EllSpec Grid AssemblyModel AsmPure AsmBnd AsmRun AsmSpec AsmPoint FemGen FemPd MicroModel Build Tangent KornProps BinInst FloatSum FloatCg FloatFem FloatBody.
Open Scope Z_scope.
Open Scope R_scope.
Notation val := (@B2R 53 1024).

(** the constants of a material, src/micro.cpp:90-98, without rounding *)
Definition exact_mat (m : material flt) : material R :=
  let E := val (m_E m) in let nu := val (m_nu m) in
  mkMat E nu (E / (3 * (1 - 2 * nu))) (E / (2 * (1 + nu))) (nu * E / ((1 + nu) * (1 - 2 * nu))) (val (m_Ka m)) (val (m_Sy m)) (m_plast m) (m_damage m).
Definition exact_env (V : env flt) : env R :=
  mkEnv (v_dim V) (v_nx V) (v_ny V) (v_nz V) (val (v_lx V)) (val (v_ly V)) (val (v_lz V))
    (val (v_lx V) / IZR (v_nx V - 1)) (val (v_ly V) / IZR (v_ny V - 1)) (val (v_lz V) / IZR (v_nz V - 1))
    (val (v_width V)) (val (v_inv_tol V)) (v_type V) (map exact_mat (v_mats V)) (v_etype V).

Lemma exact_at V e : sane V -> mat_at (exact_env V) e = exact_mat (mat_at V e).
Proof.
  intro S. unfold mat_at, exact_env. cbn [v_mats v_etype]. rewrite nth_error_map. set (k := match aget (v_etype V) e with Some 0%Z => 0%nat | _ => 1%nat end).
  destruct (sa_mats V S k) as (m & b & E & _). { unfold k. destruct (aget (v_etype V) e) as [[]|]; lia. } rewrite E. reflexivity.
Qed.
Lemma exact_sane V : sane V -> sane (exact_env V).
Proof.
  intros [A B C D E F]. constructor; try assumption. intros k Hk. destruct (E k Hk) as (m & b & Em & Eb). exists (exact_mat m), b.
  cbn [exact_env v_mats]. rewrite nth_error_map, Em. split; [reflexivity|exact Eb].
Qed.

(** ** Material constants *)
Record fair_mat (a : material flt) (M : R) : Prop := {
  fm_E : fin (m_E a); fm_nu : fin (m_nu a); fm_lo : p2 (-90) <= val (m_E a); fm_r : -1 < val (m_nu a) < 1 / 2;
  fm_mu : val (m_E a) / (1 + val (m_nu a)) <= M; fm_P : val (m_E a) / ((1 + val (m_nu a)) * (1 - 2 * val (m_nu a))) <= M; fm_M : M <= p2 100 }.
Definition computed (a : material flt) : Prop := exists t E nu Sy Ka, a = the_mat t E nu Sy Ka.
Lemma rl_one : rl 0 (ofZ 1) 1.
Proof. exact (rl_int 1 ltac:(lia)). Qed.
Lemma rl_exact (x : flt) : fin x -> 0 < val x -> rl 0 x (val x).
Proof. intros F P. split; [exact F|]. split; [exact P|]. rewrite Rminus_diag_eq, Rabs_R0, gam_0 by reflexivity. lra. Qed.
Lemma rl_one_plus (nu : flt) : fin nu -> -1 < val nu < 1 / 2 -> rl 1 (oadd (ofZ 1) nu) (1 + val nu).
Proof.
  intros F H. destruct (int_exact 1 ltac:(lia)) as [F1 E1].
  assert (FF : fin (oadd (ofZ 1) nu)). { apply add_fin; [exact F1|exact F|]. rewrite E1. apply Rle_trans with 2; [rewrite Rabs_pos_eq; lra|]. change 2 with (p2 1). apply Raux.bpow_le. lia. }
  split; [exact FF|]. split; [lra|]. pose proof (add_error _ _ FF) as Q. rewrite E1 in Q. rewrite gam_1. rewrite (Rabs_pos_eq (1 + val nu)) in Q by lra. exact Q.
Qed.
Lemma rl_one_minus (nu : flt) : fin nu -> -1 < val nu < 1 / 2 -> rl 1 (osub (ofZ 1) (omul (ofZ 2) nu)) (1 - 2 * val nu).
Proof.
  intros F H. destruct (int_exact 1 ltac:(lia)) as [F1 E1]. destruct (int_exact 2 ltac:(lia)) as [F2 E2].
  assert (FM : fin (omul (ofZ 2) nu)). { apply mul_fin; [exact F2|exact F|]. rewrite E2. apply Rle_trans with 2; [apply Rabs_le; lra|]. change 2 with (p2 1). apply Raux.bpow_le. lia. }
  pose proof (mul_2 nu FM) as Em.
  assert (FF : fin (osub (ofZ 1) (omul (ofZ 2) nu))). { apply sub_fin; [exact F1|exact FM|]. rewrite E1, Em. apply Rle_trans with 4; [apply Rabs_le; lra|]. change 4 with (p2 2). apply Raux.bpow_le. lia. }
  split; [exact FF|]. split; [lra|]. pose proof (sub_error _ _ FF) as Q. rewrite E1, Em in Q. rewrite gam_1. rewrite (Rabs_pos_eq (1 - 2 * val nu)) in Q by lra. exact Q.
Qed.
Lemma den_big a M : fair_mat a M -> let nu := val (m_nu a) in p2 (-190) <= (1 + nu) * (1 - 2 * nu) /\ p2 (-192) <= 1 + nu /\ (1 + nu) * (1 - 2 * nu) <= p2 2.
Proof.
  intros [_ _ L H _ P M0] nu. set (E := val (m_E a)) in *. fold nu in H, P. set (d := (1 + nu) * (1 - 2 * nu)) in *.
  assert (Pd : 0 < d) by (apply Rmult_lt_0_compat; lra). pose proof (Raux.bpow_gt_0 Zaux.radix2 (-90)) as P90. pose proof (Raux.bpow_gt_0 Zaux.radix2 100) as P100.
  assert (B : p2 (-190) <= d).
  { change (-190)%Z with (-90 - 100)%Z. eapply Rle_trans; [apply (p2_div (-90) 100 E (p2 100) L P100); lra|].
    apply Rmult_le_reg_r with (p2 100); [exact P100|]. unfold Rdiv. rewrite Rmult_assoc, Rinv_l, Rmult_1_r by lra.
    apply Rmult_le_reg_r with (/ d); [apply Rinv_0_lt_compat; exact Pd|]. rewrite (Rmult_comm d), Rmult_assoc, Rinv_r, Rmult_1_r by lra. change (E * / d) with (E / d). lra. }
  split; [exact B|]. split.
  - assert (d <= 4 * (1 + nu)) by (unfold d; rewrite Rmult_comm; apply Rmult_le_compat_r; lra). replace (p2 (-192)) with (p2 (-190) / 4); [lra|]. change (-192)%Z with (-190 + -2)%Z. rewrite Raux.bpow_plus. change (p2 (-2)) with (/ 4). lra.
  - change (p2 2) with 4. assert (E1 : d = 1 - nu - 2 * (nu * nu)) by (unfold d; ring). pose proof (Rle_0_sqr nu) as Q. unfold Rsqr in Q. lra.
Qed.
Lemma mat_cn a M : computed a -> fair_mat a M -> matc M a (exact_mat a).
Proof.
  intros (t & E & nu & Sy & Ka & ->) Fm. destruct (den_big _ _ Fm) as (B1 & B2 & B3). destruct Fm as [FE Fn L H Mu P M0]. unfold the_mat in *. cbn [m_E m_nu] in *.
  pose proof (rl_one_plus nu Fn H) as R1. pose proof (rl_one_minus nu Fn H) as R2. pose proof (pos_p2 _ _ L) as PE.
  set (d := (1 + val nu) * (1 - 2 * val nu)) in *. pose proof (pos_p2 _ _ B1) as Pd.
  assert (R3 : rl 4 (omul (oadd (ofZ 1) nu) (osub (ofZ 1) (omul (ofZ 2) nu))) d).
  { apply (rl_mul 1 1 _ _ _ _ R1 R2); [apply gam_half; lia|apply gam_half; lia|apply (p2_tiny (-190)); [exact B1|lia]|]. eapply Rle_trans; [exact B3|]. apply Raux.bpow_le. lia. }
  assert (PP : p2 (-92) <= val E / d) by exact (p2_div (-90) 2 _ _ L Pd B3).
  assert (Cn : cn 0 nu (val nu) 1) by (apply cn_val, Rabs_le; lra).
  assert (CE : cn 0 E (val E) (val E)) by (apply cn_val; rewrite Rabs_pos_eq; lra).
  assert (CP : cn 10 (odiv E (omul (oadd (ofZ 1) nu) (osub (ofZ 1) (omul (ofZ 2) nu)))) (val E / d) M).
  { eapply cn_le; [exact (cn_div 0 4 _ _ _ _ _ CE R3 (gam_half 4 ltac:(lia)) (p2_tiny _ _ PP ltac:(lia)))|lia|exact P]. }
  assert (MP : p2 (-92) <= M) by lra. pose proof (pos_p2 _ _ MP) as M1.
  split; [|split].
  - cbn [m_lambda exact_mat]. fold d.
    assert (T1 : tiny <= 1 * val E) by (rewrite Rmult_1_l; exact (p2_tiny _ _ L ltac:(lia))).
    pose proof (cn_mul 0 0 _ _ _ _ _ _ Cn CE T1) as N. rewrite Rmult_1_l in N.
    eapply cn_le; [exact (cn_div 2 4 _ _ _ _ _ N R3 (gam_half 4 ltac:(lia)) (p2_tiny _ _ PP ltac:(lia)))|lia|exact P].
  - cbn [m_mu exact_mat]. pose proof (p2_mul 0 (-192) 2 _ ltac:(change (p2 0) with 1; lra) B2) as L2.
    assert (R4 : rl 3 (omul (ofZ 2) (oadd (ofZ 1) nu)) (2 * (1 + val nu))).
    { apply (rl_mul 0 1 _ _ _ _ (rl_int 2 ltac:(lia)) R1); [apply gam_half; lia|apply gam_half; lia|exact (p2_tiny _ _ L2 ltac:(lia))|].
      apply Rle_trans with (p2 2); [change (p2 2) with 4; lra|apply Raux.bpow_le; lia]. }
    assert (L3 : p2 (-92) <= val E / (2 * (1 + val nu))) by (apply (p2_div (-90) 2); [exact L|lra|change (p2 2) with 4; lra]).
    eapply cn_le; [exact (cn_div 0 3 _ _ _ _ _ CE R4 (gam_half 3 ltac:(lia)) (p2_tiny _ _ L3 ltac:(lia)))|lia|].
    replace (val E / (2 * (1 + val nu))) with (val E / (1 + val nu) / 2) by (field; lra). lra.
  - intros i j. cbn [m_E m_nu exact_mat]. unfold ctan2. fold d.
    set (f := match i, j with 0%Z, 0%Z => osub (ofZ 1) nu | 0%Z, 1%Z => nu | 1%Z, 0%Z => nu | 1%Z, 1%Z => osub (ofZ 1) nu | 2%Z, 2%Z => odiv (osub (ofZ 1) (omul (ofZ 2) nu)) (ofZ 2) | _, _ => ofZ 0 end).
    set (h := match i, j with 0%Z, 0%Z => 1 - val nu | 0%Z, 1%Z => val nu | 1%Z, 0%Z => val nu | 1%Z, 1%Z => 1 - val nu | 2%Z, 2%Z => (1 - 2 * val nu) / 2 | _, _ => 0 end).
    assert (Q : cn 3 f h 2).
    { assert (Q0 : cn 3 (ofZ 0) 0 2) by (apply cn_zero; lra). assert (Q1 : cn 3 nu (val nu) 2) by (eapply cn_le; [exact Cn|lia|lra]).
      assert (Q2 : cn 3 (osub (ofZ 1) nu) (1 - val nu) 2) by (eapply cn_le; [exact (cn_sub 0 _ _ _ _ _ _ (cn_one 0) Cn)|lia|lra]).
      assert (Q3 : cn 3 (odiv (osub (ofZ 1) (omul (ofZ 2) nu)) (ofZ 2)) ((1 - 2 * val nu) / 2) 2).
      { assert (C3 : cn 1 (osub (ofZ 1) (omul (ofZ 2) nu)) (1 - 2 * val nu) 3) by (eapply cn_le; [exact (rl_cn _ _ _ R2)|lia|lra]).
        eapply cn_le; [exact (cn_div 1 0 _ _ _ _ _ C3 (rl_int 2 ltac:(lia)) (gam_half 0 ltac:(lia)) (p2_tiny 0 (3 / 2) ltac:(change (p2 0) with 1; lra) ltac:(lia)))|lia|lra]. }
      unfold f, h. destruct i as [|[?|[?|?|]|]|?]; destruct j as [|[?|[?|?|]|]|?]; assumption. }
    eapply cn_le; [exact (cn_mul 3 10 _ _ _ _ _ _ Q CP (p2_tiny (0 + -92) _ (p2_mul 0 (-92) 2 M ltac:(change (p2 0) with 1; lra) MP) ltac:(lia)))|lia|lra].
Qed.

(** ** Sizes *)
Definition fair_side (x : flt) (n : Z) : Prop := fin x /\ p2 (-60) <= val x <= p2 60 /\ (2 <= n <= 2 ^ 31)%Z.
Lemma cell_size (x : flt) n : fair_side x n -> cellsz (odiv x (ofZ (n - 1))) (val x / IZR (n - 1)).
Proof.
  intros (F & (L & U) & Hn). assert (N1 : 1 <= IZR (n - 1)) by (apply (IZR_le 1); lia). assert (N2 : IZR (n - 1) <= p2 31) by (change (p2 31) with (IZR (2 ^ 31)); apply IZR_le; lia).
  pose proof (pos_p2 _ _ L) as P. assert (N0 : 0 < IZR (n - 1)) by lra. pose proof (p2_div (-60) 31 _ _ L N0 N2) as D. pose proof (pos_p2 _ _ D) as PD.
  assert (U2 : val x / IZR (n - 1) <= p2 60). { apply Rle_trans with (val x); [|exact U]. unfold Rdiv. rewrite <- (Rmult_1_r (val x)) at 2. apply Rmult_le_compat_l; [lra|]. rewrite <- Rinv_1. apply Rinv_le_contravar; lra. }
  split; [|split; [exact D|exact U2]].
  assert (CE : cn 0 x (val x) (val x)) by (apply cn_val; rewrite Rabs_pos_eq; lra).
  destruct (cn_div 0 0 _ _ _ _ _ CE (rl_int (n - 1) ltac:(lia)) (gam_half 0 ltac:(lia)) (p2_tiny _ _ D ltac:(lia))) as [_ Q].
  split; [|split; [exact PD|]].
  - destruct (int_exact (n - 1) ltac:(lia)) as [_ E]. apply div_fin; [exact F|rewrite E; lra|]. rewrite E, Rabs_pos_eq by lra. eapply Rle_trans; [exact U2|]. apply Raux.bpow_le. lia.
  - apply Q. destruct (int_exact (n - 1) ltac:(lia)) as [_ E]. apply div_fin; [exact F|rewrite E; lra|]. rewrite E, Rabs_pos_eq by lra. eapply Rle_trans; [exact U2|]. apply Raux.bpow_le. lia.
Qed.

(** what the rounding analysis needs of an object: sizes from 2^-60 to 2^60, at most 2^31 nodes a side, at most H cells per
    unit length, moduli at most M <= 2^100 and Young's moduli at least 2^-90 *)
Record fair (V : env flt) (H M : R) : Prop := {
  fr_sane : sane V; fr_x : fair_side (v_lx V) (v_nx V); fr_y : fair_side (v_ly V) (v_ny V); fr_z : v_dim V = 3%Z -> fair_side (v_lz V) (v_nz V);
  fr_dx : v_dx V = odiv (v_lx V) (ofZ (v_nx V - 1)); fr_dy : v_dy V = odiv (v_ly V) (ofZ (v_ny V - 1)); fr_dz : v_dim V = 3%Z -> v_dz V = odiv (v_lz V) (ofZ (v_nz V - 1));
  fr_hx : IZR (v_nx V - 1) / val (v_lx V) <= H; fr_hy : IZR (v_ny V - 1) / val (v_ly V) <= H; fr_hz : v_dim V = 3%Z -> IZR (v_nz V - 1) / val (v_lz V) <= H;
  fr_mat : forall e, (0 <= e < ncells V)%Z -> computed (mat_at V e) /\ fair_mat (mat_at V e) M;
  fr_lin : v_dim V = 3%Z -> linear V }.
Lemma inv_div a b : a <> 0 -> b <> 0 -> / (a / b) = b / a.
Proof. intros. field. auto. Qed.
Theorem fair_twin V H M : fair V H M -> twin V (exact_env V) H M.
Proof.
  intros F. pose proof (fr_sane _ _ _ F) as S.
  assert (Nz : forall x n, fair_side x n -> 0 < val x /\ IZR (n - 1) <> 0). { intros x n (_ & (L & _) & Hn). split; [exact (pos_p2 _ _ L)|]. pose proof (IZR_le 1 (n - 1) ltac:(lia)). lra. }
  assert (Hm : p2 (-92) <= M).
  { destruct (fr_mat _ _ _ F 0%Z) as [_ Q].
    - pose proof (sa_nx V S). pose proof (sa_ny V S). unfold ncells, nelem. destruct (sa_dim V S) as [[-> ->]|[-> ?]]; cbn [Z.eqb Pos.eqb]; (split; [lia|]); repeat apply Z.mul_pos_pos; lia.
    - destruct (den_big _ _ Q) as (B1 & B2 & B3). destruct Q as [_ _ L _ _ P _]. eapply Rle_trans; [exact (p2_div (-90) 2 _ _ L (pos_p2 _ _ B1) B3)|exact P]. }
  constructor; try reflexivity.
  - intros e He. rewrite (exact_at V e S). destruct (fr_mat _ _ _ F e He). now apply mat_cn.
  - intros D e He. rewrite (exact_at V e S). cbn [m_plast exact_mat]. pose proof (fr_lin _ _ _ F D e He) as Q. unfold plastic_at in Q.
    destruct (sa_mats V S (match aget (v_etype V) e with Some 0%Z => 0%nat | _ => 1%nat end)) as (m & b & E & Eb). { destruct (aget (v_etype V) e) as [[]|]; lia. }
    assert (Em : mat_at V e = m) by (unfold mat_at; now rewrite E). rewrite Em in *. rewrite Eb in *. subst b. auto.
  - rewrite (fr_dx _ _ _ F). exact (cell_size _ _ (fr_x _ _ _ F)).
  - rewrite (fr_dy _ _ _ F). exact (cell_size _ _ (fr_y _ _ _ F)).
  - destruct (Nz _ _ (fr_x _ _ _ F)). cbn [exact_env v_dx]. rewrite inv_div by lra. exact (fr_hx _ _ _ F).
  - destruct (Nz _ _ (fr_y _ _ _ F)). cbn [exact_env v_dy]. rewrite inv_div by lra. exact (fr_hy _ _ _ F).
  - intro D. rewrite (fr_dz _ _ _ F D). pose proof (fr_z _ _ _ F D) as Z3. split; [exact (cell_size _ _ Z3)|]. destruct (Nz _ _ Z3). cbn [exact_env v_dz]. rewrite inv_div by lra. exact (fr_hz _ _ _ F D).
  - destruct (fr_x _ _ _ F) as (A & (B & _) & _). exact (rl_exact _ A (pos_p2 _ _ B)).
  - destruct (fr_y _ _ _ F) as (A & (B & _) & _). exact (rl_exact _ A (pos_p2 _ _ B)).
  - destruct (fr_x _ _ _ F) as (_ & B & _). exact B.
  - destruct (fr_y _ _ _ F) as (_ & B & _). exact B.
  - eapply p2_le; [exact Hm|lia].
Qed.
Lemma exact_geom V H M : fair V H M -> geom (exact_env V).
Proof.
  intros F. assert (Nz : forall x n, fair_side x n -> 0 < val x /\ 0 < IZR (n - 1)). { intros x n (_ & (L & _) & Hn). split; [exact (pos_p2 _ _ L)|]. apply (IZR_lt 0). lia. }
  destruct (Nz _ _ (fr_x _ _ _ F)). destruct (Nz _ _ (fr_y _ _ _ F)).
  constructor; cbn [exact_env v_lx v_ly v_lz v_nx v_ny v_nz v_dx v_dy v_dz v_dim]; try (apply Rdiv_lt_0_compat; assumption); try (field; lra).
  - intro D. destruct (Nz _ _ (fr_z _ _ _ F D)). field. lra.
  - intro D. destruct (Nz _ _ (fr_z _ _ _ F D)). apply Rdiv_lt_0_compat; assumption.
Qed.
Lemma exact_adm V H M : fair V H M -> adm (exact_env V).
Proof.
  intros F e He. rewrite (exact_at V e (fr_sane _ _ _ F)). destruct (fr_mat _ _ _ F e He) as [_ [_ _ L R0 _ _ _]]. pose proof (pos_p2 _ _ L). constructor; cbn [m_E m_nu m_k m_mu m_lambda exact_mat]; try lra; reflexivity.
Qed.
Lemma exact_linear V : sane V -> linear V -> linear (exact_env V).
Proof. intros S L e He. pose proof (L e He) as Q. unfold plastic_at in *. rewrite (exact_at V e S). exact Q. Qed.
