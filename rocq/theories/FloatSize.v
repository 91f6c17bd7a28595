(** Computed displacements and stresses of an accepted solve are finite doubles. *)
From Coq Require Import Reals Lra ZifyBool ZifyNat.
From Flocq Require Import BinarySingleNaN.
From Verif Require Import Base Scalar MonoBody ConvexMin EllSpec EllInit EllAsm EllFinal Grid CgPure CgProps AssemblyModel AsmPure AsmBnd AsmRun AsmSpec AsmProps AsmEquil FemGen FemAve FemRhs FemEquil AsmMat FemPd
  MicroModel NewtonBase KornProps BinInst FloatSum FloatCg FloatFem FloatBody FloatMat FloatNewton FloatBnd FloatShadow FloatAnswer FloatFin.
Open Scope Z_scope.
Open Scope R_scope.
Notation val := (@B2R 53 1024).

Lemma tol_val : val (nr_tol : flt) <= / 64.
Proof.
  destruct (cn_dec 1 5 ltac:(lia) ltac:(lia)) as (_ & Q). specialize (Q tol_fin). pose proof (gam_half 2 ltac:(lia)) as G. change (10 ^ 5)%Z with 100000%Z in Q. apply abs_bound in Q. unfold nr_tol. lra.
Qed.
Lemma root_tiny n : INR n <= p2 53 -> sqrt (INR n * tiny) <= / 64.
Proof.
  intro N. rewrite <- (sqrt_square (/ 64)) by lra. apply sqrt_le_1_alt. apply Rle_trans with (p2 53 * tiny).
  - apply Rmult_le_compat_r; [unfold tiny; apply Raux.bpow_ge_0|exact N].
  - unfold tiny. rewrite <- Raux.bpow_plus. apply Rle_trans with (p2 (-12)); [apply Raux.bpow_le; lia|]. change (p2 (-12)) with (/ 4096). lra.
Qed.
Lemma nb_small n (er : flt) : gam (S (Z.to_nat n)) <= / 2 -> fin er -> oltb er nr_tol = true -> norm_bound n er <= 1.
Proof.
  intros G Fe T. apply (proj1 (lt_val _ _ Fe tol_fin)) in T. pose proof tol_val as Tv. pose proof (gam_pos (S (Z.to_nat n))) as G0.
  assert (R1 : sqrt (INR (Z.to_nat n) * tiny) <= / 64). { apply root_tiny. apply gam_count. eapply Rle_trans; [|exact G]. apply gam_le. lia. }
  assert (Et : eta <= / 64). { unfold eta. apply Rle_trans with (p2 (-6)); [apply Raux.bpow_le; lia|]. change (p2 (-6)) with (/ 64). lra. } pose proof eta_pos.
  unfold norm_bound. assert (Q : (1 + 4 * gam (S (Z.to_nat n))) * (val er + eta) <= 3 * (/ 32)).
  { destruct (Rle_dec 0 (val er + eta)) as [P|P]; [apply Rmult_le_compat; lra|]. assert (0 <= (1 + 4 * gam (S (Z.to_nat n))) * - (val er + eta)) by (apply Rmult_le_pos; lra). lra. }
  lra.
Qed.
(** the condition on the accuracy bounds the number of cells and the contrast of the moduli *)
Lemma contrast c lx H q n : 1 <= c -> 0 <= q -> (1 <= n)%nat -> c * (lx * lx) * (H * H) * q * (sqrt (INR n) * gam 165) <= / 2 -> lx * lx * (H * H) * q <= p2 53.
Proof.
  intros C Q N T. assert (Sq : 1 <= sqrt (INR n)) by (rewrite <- sqrt_1 at 1; apply sqrt_le_1_alt; apply (le_INR 1); exact N).
  assert (Gm : uro <= gam 165). { apply Rle_trans with (gam 1); [|apply gam_le; lia]. unfold gam. simpl. lra. } pose proof uro_pos as U.
  assert (P : 0 <= lx * lx * (H * H) * q) by (apply Rmult_le_pos; [apply Rmult_le_pos; [apply Rle_0_sqr|apply Rle_0_sqr]|exact Q]). set (X := lx * lx * (H * H) * q) in *.
  assert (E : c * (lx * lx) * (H * H) * q * (sqrt (INR n) * gam 165) = c * X * (sqrt (INR n) * gam 165)) by (unfold X; ring). rewrite E in T.
  assert (1 * X <= c * X) by (apply Rmult_le_compat_r; lra). assert (1 * uro <= sqrt (INR n) * gam 165) by (apply Rmult_le_compat; lra).
  assert (Y : X * uro <= c * X * (sqrt (INR n) * gam 165)) by (apply Rmult_le_compat; lra).
  apply Rmult_le_reg_r with uro; [exact U|]. change (p2 53) with (IZR (2 ^ 53)). unfold uro at 2. rewrite Rinv_r; [lra|]. apply not_0_IZR. lia.
Qed.
Lemma root_p2 x : x <= p2 112 -> sqrt x <= p2 56.
Proof. intro L. rewrite <- (sqrt_square (p2 56)) by apply Raux.bpow_ge_0. apply sqrt_le_1_alt. rewrite <- Raux.bpow_plus. exact L. Qed.
Lemma mid_num lx em q c k : 0 < lx <= p2 60 -> 0 <= em <= p2 100 -> 0 <= q <= p2 53 -> 0 <= c <= p2 53 -> 0 <= k <= p2 6 -> lx * em * sqrt (k * c * q) <= p2 216.
Proof.
  intros Lx Em Q C K. change 216%Z with (60 + 100 + 56)%Z. rewrite !Raux.bpow_plus. apply Rmult_le_compat; [apply Rmult_le_pos; lra|apply sqrt_pos|apply Rmult_le_compat; lra|].
  apply root_p2. change 112%Z with (6 + 53 + 53)%Z. rewrite !Raux.bpow_plus. apply Rmult_le_compat; [apply Rmult_le_pos; lra|lra|apply Rmult_le_compat; lra|lra].
Qed.
Lemma last_num lx H M m dx dy dz : 0 < m -> p2 (-92) <= M -> p2 (-91) <= dz -> 0 < dx -> 0 < dy -> 1 <= H * dx -> 1 <= H * dy -> lx * lx * (H * H) * (M / m) <= p2 53 ->
  lx * lx / (m * (dx * dy * dz)) <= p2 236.
Proof.
  intros Pm HM Hz Px Py X Y Q. pose proof (pos_p2 _ _ HM) as PM. pose proof (pos_p2 _ _ Hz) as Pz. assert (Hn : H <> 0) by (intro; subst; lra).
  replace (lx * lx / (m * (dx * dy * dz))) with (lx * lx * (H * H) * (M / m) * / ((H * dx) * (H * dy) * (M * dz))) by (field; repeat split; lra).
  assert (Z1 : p2 (-183) <= (H * dx) * (H * dy) * (M * dz)).
  { change (-183)%Z with (0 + 0 + (-92 + -91))%Z. apply p2_mul; [apply p2_mul; change (p2 0) with 1; lra|apply p2_mul; assumption]. }
  change 236%Z with (53 + 183)%Z. rewrite Raux.bpow_plus. apply Rmult_le_compat.
  - apply Rmult_le_pos; [apply Rmult_le_pos; apply Rle_0_sqr|left; apply Rdiv_lt_0_compat; lra].
  - left. apply Rinv_0_lt_compat. exact (pos_p2 _ _ Z1).
  - exact Q.
  - rewrite <- (Rinv_inv (p2 183)), <- Raux.bpow_opp. apply Rinv_le_contravar; [apply Raux.bpow_gt_0|exact Z1].
Qed.
Lemma size_num a b c nb : a <= p2 160 -> b <= p2 216 -> 0 <= c <= 10 * p2 236 -> 0 <= nb <= 1 -> 2 * (2 * a + b + c * nb) <= p2 300.
Proof.
  intros A B C N. assert (c * nb <= 10 * p2 236 * 1) by (apply Rmult_le_compat; lra).
  assert (p2 160 <= p2 236) by (apply Raux.bpow_le; lia). assert (p2 216 <= p2 236) by (apply Raux.bpow_le; lia).
  assert (p2 300 = p2 64 * p2 236) by (rewrite <- Raux.bpow_plus; reflexivity). assert (64 <= p2 64) by (change (p2 64) with 18446744073709551616; lra).
  pose proof (Raux.bpow_gt_0 Zaux.radix2 236). assert (64 * p2 236 <= p2 64 * p2 236) by (apply Rmult_le_compat_r; lra). lra.
Qed.
Lemma side_num (x : flt) n H : fair_side x n -> IZR (n - 1) / val x <= H -> 0 < val x <= p2 60 /\ 1 <= H * (val x / IZR (n - 1)) /\ p2 (-91) <= val x / IZR (n - 1).
Proof.
  intros Sd Hx. pose proof (cell_size x n Sd) as (_ & L & _). destruct Sd as (_ & (B & U) & Hn). pose proof (pos_p2 _ _ B) as P.
  assert (N1 : 0 < IZR (n - 1)) by (apply (IZR_lt 0); lia). split; [lra|]. split; [|exact L].
  replace 1 with (IZR (n - 1) / val x * (val x / IZR (n - 1))) at 1 by (field; lra). apply Rmult_le_compat_r; [left; now apply Rdiv_lt_0_compat|exact Hx].
Qed.
Lemma moduli_low V H M : fair V H M -> p2 (-92) <= M.
Proof.
  intro F. pose proof (fr_sane _ _ _ F) as S. destruct (fr_mat _ _ _ F 0%Z) as [_ Q].
  - pose proof (sa_nx V S). pose proof (sa_ny V S). unfold ncells, nelem. destruct (sa_dim V S) as [[-> ->]|[-> ?]]; cbn [Z.eqb Pos.eqb]; (split; [lia|]); repeat apply Z.mul_pos_pos; lia.
  - destruct (den_big _ _ Q) as (B1 & B2 & B3). destruct Q as [_ _ L _ _ P _]. eapply Rle_trans; [exact (p2_div (-90) 2 _ _ L (pos_p2 _ _ B1) B3)|exact P].
Qed.
Lemma count_num c n : (0 <= c <= n)%Z -> gam (S (Z.to_nat n)) <= / 2 -> 0 <= IZR c <= p2 53.
Proof.
  intros C G. split; [apply (IZR_le 0); lia|]. eapply Rle_trans; [|apply (gam_count (S (Z.to_nat n)) G)]. rewrite INR_IZR_INZ. apply IZR_le. lia.
Qed.
Lemma cells_dofs3 a b c : (2 <= a)%Z -> (2 <= b)%Z -> (2 <= c)%Z -> (0 <= (a - 1) * (b - 1) * (c - 1) <= a * b * c * 3)%Z.
Proof.
  intros A B C. assert (0 <= (a - 1) * (b - 1) <= a * b)%Z by (split; [apply Z.mul_nonneg_nonneg; lia|apply Z.mul_le_mono_nonneg; lia]).
  assert (0 <= (a - 1) * (b - 1) * (c - 1))%Z by (apply Z.mul_nonneg_nonneg; lia). assert ((a - 1) * (b - 1) * (c - 1) <= a * b * c)%Z by (apply Z.mul_le_mono_nonneg; lia). lia.
Qed.
Lemma cells_dofs2 a b : (2 <= a)%Z -> (2 <= b)%Z -> (0 <= (a - 1) * (b - 1) <= a * b * 2)%Z.
Proof.
  intros A B. assert (0 <= (a - 1) * (b - 1) <= a * b)%Z by (split; [apply Z.mul_nonneg_nonneg; lia|apply Z.mul_le_mono_nonneg; lia]). lia.
Qed.

Section Small.
Variables (V : env flt) (H M em m nb : R).
Hypothesis F : fair V H M.
Hypothesis Em : 0 <= em <= p2 100.
Hypothesis Pm : 0 < m.
Hypothesis Nb : 0 <= nb <= 1.
Hypothesis G : gam (S (Z.to_nat (ndofs V))) <= / 2.
Lemma ratio_pos : 0 <= M / m.
Proof. left. apply Rdiv_lt_0_compat; [exact (pos_p2 _ _ (moduli_low V H M F))|exact Pm]. Qed.
Lemma ratio_small : val (v_lx V) * val (v_lx V) * (H * H) * (M / m) <= p2 53 -> 0 <= M / m <= p2 53.
Proof.
  intro Q. split; [exact ratio_pos|]. eapply Rle_trans; [|exact Q]. destruct (fr_x _ _ _ F) as (_ & (B & _) & Hn). pose proof (pos_p2 _ _ B) as P. pose proof (fr_hx _ _ _ F) as Hx.
  assert (N1 : 1 <= IZR (v_nx V - 1)) by (apply (IZR_le 1); lia). assert (A : 1 <= val (v_lx V) * H).
  { apply Rle_trans with (val (v_lx V) * (IZR (v_nx V - 1) / val (v_lx V))); [|apply Rmult_le_compat_l; lra]. replace (val (v_lx V) * (IZR (v_nx V - 1) / val (v_lx V))) with (IZR (v_nx V - 1)) by (field; lra). exact N1. }
  replace (val (v_lx V) * val (v_lx V) * (H * H) * (M / m)) with ((val (v_lx V) * H) * (val (v_lx V) * H) * (M / m)) by ring. rewrite <- (Rmult_1_l (M / m)) at 1. apply Rmult_le_compat_r; [exact ratio_pos|].
  rewrite <- (Rmult_1_l 1). apply Rmult_le_compat; lra.
Qed.
Lemma size_small3 : v_dim V = 3%Z -> theta3 V H M m <= / 2 -> size3 V M (p2 60) em m nb <= p2 300.
Proof.
  intros D T. pose proof (fr_sane _ _ _ F) as S. pose proof (sa_nx V S) as Nx. pose proof (sa_ny V S) as Ny. pose proof (sane_nz V S D) as Nz. rewrite (ndofs_eq3 V D) in *.
  destruct (side_num _ _ _ (fr_x _ _ _ F) (fr_hx _ _ _ F)) as (Lx & Xx & Bx). destruct (side_num _ _ _ (fr_y _ _ _ F) (fr_hy _ _ _ F)) as (_ & Xy & By). destruct (side_num _ _ _ (fr_z _ _ _ F D) (fr_hz _ _ _ F D)) as (_ & _ & Bz).
  unfold theta3 in T. rewrite (ndofs_eq3 V D) in T. assert (N1 : (1 <= Z.to_nat (v_nx V * v_ny V * v_nz V * 3))%nat) by (assert (0 < v_nx V * v_ny V * v_nz V)%Z by (repeat apply Z.mul_pos_pos; lia); lia). assert (C1 : 1 <= 46080) by lra. pose proof (contrast 46080 _ _ _ _ C1 ratio_pos N1 T) as Q.
  pose proof (ratio_small Q) as Rm. unfold size3. cbv zeta. cbn [exact_env v_lx v_nx v_ny v_nz v_dx v_dy v_dz].
  set (lx := val (v_lx V)) in *. set (dx := lx / IZR (v_nx V - 1)) in *. set (dy := val (v_ly V) / IZR (v_ny V - 1)) in *. set (dz := val (v_lz V) / IZR (v_nz V - 1)) in *.
  pose proof (count_num _ _ (cells_dofs3 _ _ _ Nx Ny Nz) G) as C. set (cells := IZR ((v_nx V - 1) * (v_ny V - 1) * (v_nz V - 1))) in *.
  pose proof (last_num lx H M m dx dy dz Pm (moduli_low V H M F) Bz (pos_p2 _ _ Bx) (pos_p2 _ _ By) Xx Xy Q) as Ln.
  replace (45 * (cells * M) / m) with (45 * cells * (M / m)) by (field; lra). replace (10 * (lx * lx) / (m * (dx * dy * dz)) * nb) with (10 * (lx * lx / (m * (dx * dy * dz))) * nb) by (unfold Rdiv; ring).
  apply size_num; [|apply mid_num; try assumption|split; [|lra]|exact Nb].
  - change 160%Z with (100 + 60)%Z. rewrite Raux.bpow_plus. apply Rmult_le_compat_r; [apply Raux.bpow_ge_0|lra].
  - change (p2 6) with 64. lra.
  - apply Rmult_le_pos; [lra|]. left. apply Rdiv_lt_0_compat; [apply Rmult_lt_0_compat; lra|]. apply Rmult_lt_0_compat; [exact Pm|]. apply pos3; [exact (pos_p2 _ _ Bx)|exact (pos_p2 _ _ By)|exact (pos_p2 _ _ Bz)].
Qed.
Lemma size_small2 : v_dim V = 2%Z -> theta2 V H M m <= / 2 -> size2 V M (p2 60) em m nb <= p2 300.
Proof.
  intros D T. pose proof (fr_sane _ _ _ F) as S. pose proof (sa_nx V S) as Nx. pose proof (sa_ny V S) as Ny. rewrite (ndofs_eq2 V S D) in *.
  destruct (side_num _ _ _ (fr_x _ _ _ F) (fr_hx _ _ _ F)) as (Lx & Xx & Bx). destruct (side_num _ _ _ (fr_y _ _ _ F) (fr_hy _ _ _ F)) as (_ & Xy & By).
  unfold theta2 in T. rewrite (ndofs_eq2 V S D) in T. assert (N1 : (1 <= Z.to_nat (v_nx V * v_ny V * 2))%nat) by (assert (0 < v_nx V * v_ny V)%Z by (repeat apply Z.mul_pos_pos; lia); lia). assert (C1 : 1 <= 4608) by lra. pose proof (contrast 4608 _ _ _ _ C1 ratio_pos N1 T) as Q.
  pose proof (ratio_small Q) as Rm. unfold size2. cbv zeta. cbn [exact_env v_lx v_nx v_ny v_nz v_dx v_dy v_dz].
  set (lx := val (v_lx V)) in *. set (dx := lx / IZR (v_nx V - 1)) in *. set (dy := val (v_ly V) / IZR (v_ny V - 1)) in *.
  pose proof (count_num _ _ (cells_dofs2 _ _ Nx Ny) G) as C. set (cells := IZR ((v_nx V - 1) * (v_ny V - 1))) in *.
  assert (B1 : p2 (-91) <= 1) by (apply Rle_trans with (p2 0); [apply Raux.bpow_le; lia|change (p2 0) with 1; lra]).
  pose proof (last_num lx H M m dx dy 1 Pm (moduli_low V H M F) B1 (pos_p2 _ _ Bx) (pos_p2 _ _ By) Xx Xy Q) as Ln. rewrite Rmult_1_r in Ln.
  replace (10 * (cells * M) / m) with (10 * cells * (M / m)) by (field; lra). replace (4 * (lx * lx) / (m * (dx * dy)) * nb) with (4 * (lx * lx / (m * (dx * dy))) * nb) by (unfold Rdiv; ring).
  assert (P0 : 0 <= lx * lx / (m * (dx * dy))).
  { left. apply Rdiv_lt_0_compat; [apply Rmult_lt_0_compat; lra|]. apply Rmult_lt_0_compat; [exact Pm|]. apply Rmult_lt_0_compat; [exact (pos_p2 _ _ Bx)|exact (pos_p2 _ _ By)]. }
  apply size_num; [|apply mid_num; try assumption|split; lra|exact Nb].
  - change 160%Z with (100 + 60)%Z. rewrite Raux.bpow_plus. apply Rmult_le_compat_r; [apply Raux.bpow_ge_0|lra].
  - change (p2 6) with 64. lra.
Qed.
End Small.
(** an accepted solve leaves finite displacements, and its average stress is finite *)
Lemma bd_of (eps : list flt) em : em <= p2 100 -> (forall v, (0 <= v < 6)%Z -> fin (lget eps v)) -> (forall v, (0 <= v < 6)%Z -> Rabs (val (lget eps v)) <= em) ->
  forall v, (0 <= v < 6)%Z -> bd 100 (lget eps v).
Proof. intros E A B v Hv. split; [now apply A|]. specialize (B v Hv). lra. Qed.
Lemma gam12 : 0 <= gam 12.
Proof. apply gam_pos. Qed.
Theorem finite_stress3 V H M em m (eps : list flt) fuel pk (w w' : work flt) nl it er s : fair V H M -> v_dim V = 3%Z -> p2 (-40) <= em <= p2 100 ->
  (forall v, (0 <= v < 6)%Z -> fin (lget eps v)) -> (forall v, (0 <= v < 6)%Z -> Rabs (val (lget eps v)) <= em) -> 0 < m -> 0 <= M -> stiff3 (exact_env V) m M ->
  gam (S (Z.to_nat (ndofs V))) <= / 2 -> theta3 V H M m + gam 12 <= / 2 -> wok V w -> respond fuel pk V eps w = Ok (w', nl, it, er, s) -> oltb er nr_tol = true ->
  all_fin V (w_u w') /\ forall v, (0 <= v < 6)%Z -> bd 877 (lget s v).
Proof.
  intros F D Em Fe He Hm HM Hs G Th K E T. pose proof (fr_sane _ _ _ F) as S. destruct (accepted_fin V H M fuel pk eps w w' nl it er s F K (bd_of eps em (proj2 Em) Fe He) E T G) as (AF & Fr). split; [exact AF|]. intros v Hv.
  pose proof (proj2 (proj1 (proj2 (fr_x _ _ _ F)))) as Lx. pose proof (proj2 (proj1 (proj2 (fr_y _ _ _ F)))) as Ly. pose proof (proj2 (proj1 (proj2 (fr_z _ _ _ F D)))) as Lz.
  assert (Sz : forall a, (0 <= a < ndofs V)%Z -> bd 300 (oval (w_u w') a)).
  { intros a Ha. split; [now apply AF|]. eapply Rle_trans.
    - exact (size_bound3 V H M (p2 60) em m eps F D Lx Ly Lz (proj1 Em) He Hm HM Hs G Th fuel pk w w' nl it er s K E T AF a Ha).
    - pose proof (Raux.bpow_gt_0 Zaux.radix2 (-40)). pose proof gam12. apply (size_small3 V H M em m _ F); [lra|exact Hm| |exact G|exact D|lra]. split; [|now apply nb_small].
      set (U0 := Rabs (size3 V M (p2 60) em m (norm_bound (ndofs V) er)) + 2 * (em * p2 60)). assert (HU : 2 * (em * p2 60) <= U0) by (unfold U0; pose proof (Rabs_pos (size3 V M (p2 60) em m (norm_bound (ndofs V) er))); lra).
      assert (Bu : forall a, (0 <= a < ndofs V)%Z -> Rabs (val (oval (w_u w') a)) <= U0).
      { intros b Hb. eapply Rle_trans; [exact (size_bound3 V H M (p2 60) em m eps F D Lx Ly Lz (proj1 Em) He Hm HM Hs G Th fuel pk w w' nl it er s K E T AF b Hb)|]. unfold U0. pose proof (Rle_abs (size3 V M (p2 60) em m (norm_bound (ndofs V) er))).
        assert (0 <= em * p2 60) by (apply Rmult_le_pos; [lra|apply Raux.bpow_ge_0]). lra. }
      destruct (shadow3 V H M (p2 60) em U0 eps F Lx Ly (fun _ => Lz) (proj1 Em) He HU fuel pk w w' nl it er s D K E T G AF Bu) as (q1 & q2 & q3 & q4 & q5 & _ & Q & _). exact Q. }
  destruct (respond_split _ _ _ _ _ _ _ _ _ _ E) as (u0 & w1 & vn & Eu & En & Es & ->). cbn [set_vnew w_u] in Sz.
  destruct (displ_ok V eps (w_u w) S (wk_u _ _ K)) as (u2 & Eu2 & Fu0). rewrite Eu in Eu2. injection Eu2 as <-.
  assert (K1 : wok V (set_u w u0)) by (destruct K; constructor; assumption).
  pose proof (newton_ok V pk fuel (set_u w u0) S K1) as NO. rewrite En in NO. destruct NO as (_ & K2 & _).
  pose proof (full_oval _ _ (wk_u _ _ K2)) as Ru. rewrite (ndofs_eq3 V D) in Ru.
  pose proof (wk_new _ _ K2) as Ln. rewrite nvars_eq in Ln.
  destruct (ave_stress3_ok V _ _ S (w_u w1) (w_vold w1) (w_vnew w1) D Ru (has_old_ok _ _ (wk_old _ _ K2)) Ln) as (vn2 & Es2 & _).
  rewrite Es in Es2. injection Es2 as Es2 _. rewrite Es2. apply (stress_bd3 V H M); try assumption.
  eapply Rle_trans; [|exact G]. apply gam_le. apply INR_le. rewrite (cells_len3 V (exact_env V)) by first [exact (exact_sane V S)|exact D|reflexivity]. rewrite (ndofs_eq3 V D), INR_IZR_INZ. apply IZR_le. cbn [exact_env v_nx v_ny v_nz].
  pose proof (cells_dofs3 _ _ _ (sa_nx V S) (sa_ny V S) (sane_nz V S D)). lia.
Qed.
Theorem finite_stress2 V H M em m (eps : list flt) fuel pk (w w' : work flt) nl it er s : fair V H M -> v_dim V = 2%Z -> p2 (-40) <= em <= p2 100 ->
  (forall v, (0 <= v < 6)%Z -> fin (lget eps v)) -> (forall v, (0 <= v < 6)%Z -> Rabs (val (lget eps v)) <= em) -> 0 < m -> 0 <= M -> stiff2 (exact_env V) m M ->
  gam (S (Z.to_nat (ndofs V))) <= / 2 -> theta2 V H M m + gam 12 <= / 2 -> wok V w -> respond fuel pk V eps w = Ok (w', nl, it, er, s) -> oltb er nr_tol = true ->
  all_fin V (w_u w') /\ forall v, (0 <= v < 3)%Z -> bd 877 (lget s v).
Proof.
  intros F D Em Fe He Hm HM Hs G Th K E T. pose proof (fr_sane _ _ _ F) as S. destruct (accepted_fin V H M fuel pk eps w w' nl it er s F K (bd_of eps em (proj2 Em) Fe He) E T G) as (AF & Fr). split; [exact AF|]. intros v Hv.
  pose proof (proj2 (proj1 (proj2 (fr_x _ _ _ F)))) as Lx. pose proof (proj2 (proj1 (proj2 (fr_y _ _ _ F)))) as Ly.
  assert (Sz : forall a, (0 <= a < ndofs V)%Z -> bd 300 (oval (w_u w') a)).
  { intros a Ha. split; [now apply AF|]. eapply Rle_trans.
    - exact (size_bound2 V H M (p2 60) em m eps F D Lx Ly (proj1 Em) He Hm HM Hs G Th fuel pk w w' nl it er s K E T AF a Ha).
    - pose proof (Raux.bpow_gt_0 Zaux.radix2 (-40)). pose proof gam12. apply (size_small2 V H M em m _ F); [lra|exact Hm| |exact G|exact D|lra]. split; [|now apply nb_small].
      set (U0 := Rabs (size2 V M (p2 60) em m (norm_bound (ndofs V) er)) + 2 * (em * p2 60)). assert (HU : 2 * (em * p2 60) <= U0) by (unfold U0; pose proof (Rabs_pos (size2 V M (p2 60) em m (norm_bound (ndofs V) er))); lra).
      assert (Bu : forall a, (0 <= a < ndofs V)%Z -> Rabs (val (oval (w_u w') a)) <= U0).
      { intros b Hb. eapply Rle_trans; [exact (size_bound2 V H M (p2 60) em m eps F D Lx Ly (proj1 Em) He Hm HM Hs G Th fuel pk w w' nl it er s K E T AF b Hb)|]. unfold U0. pose proof (Rle_abs (size2 V M (p2 60) em m (norm_bound (ndofs V) er))).
        assert (0 <= em * p2 60) by (apply Rmult_le_pos; [lra|apply Raux.bpow_ge_0]). lra. }
      destruct (shadow2 V H M (p2 60) em U0 eps F Lx Ly (Lz0 V (p2 60) D) (proj1 Em) He HU fuel pk w w' nl it er s D K E T G AF Bu) as (q1 & q2 & q3 & q4 & _ & Q & _). exact Q. }
  destruct (respond_split _ _ _ _ _ _ _ _ _ _ E) as (u0 & w1 & vn & Eu & En & Es & ->). cbn [set_vnew w_u] in Sz.
  destruct (displ_ok V eps (w_u w) S (wk_u _ _ K)) as (u2 & Eu2 & Fu0). rewrite Eu in Eu2. injection Eu2 as <-.
  assert (K1 : wok V (set_u w u0)) by (destruct K; constructor; assumption).
  pose proof (newton_ok V pk fuel (set_u w u0) S K1) as NO. rewrite En in NO. destruct NO as (_ & K2 & _).
  pose proof (full_oval _ _ (wk_u _ _ K2)) as Ru. rewrite (ndofs_eq2 V S D) in Ru.
  pose proof (ave_stress2_ok V _ S (w_u w1) (w_vold w1) (w_vnew w1) D Ru) as Es2.
  rewrite Es in Es2. injection Es2 as Es2 _. rewrite Es2. apply (stress_bd2 V H M _ (oval (w_u w1))); try assumption.
  eapply Rle_trans; [|exact G]. apply gam_le. apply INR_le. rewrite (cells_len2 V (exact_env V)) by first [exact (exact_sane V S)|reflexivity]. rewrite (ndofs_eq2 V S D), INR_IZR_INZ. apply IZR_le. cbn [exact_env v_nx v_ny v_nz].
  pose proof (cells_dofs2 _ _ (sa_nx V S) (sa_ny V S)). lia.
Qed.
