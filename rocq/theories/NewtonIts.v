(** The iteration counter of newton_raphson: what is reported, and when the loop reads past it. *)
From Coq Require Import Reals Lra ZifyBool.
From Verif Require Import Base Scalar EllSpec EllInit EllModel EllFinal EllProps Grid CgPure CgFinal CgProps AssemblyModel AsmPure AsmBnd AsmRun FemGen FemAve AsmMat FemMat FemMat2 FemDef FemPd FemRhs FemEquil
  AsmEx AsmSpec AsmProps AsmEquil AsmPoint AsmCases MicroModel NewtonBase ApiBase ApiSpec ApiCases NewtonReal.

Open Scope Z_scope.
Section G.
Context {T : Type} `{OT : Ops T}.
(** every arithmetic: the reported count is 0, and the loop is limited only by the ints that
    happen to lie behind it; n is the number of passes that solved and went on *)
Lemma its_stray V fuel pk w w' nl its er : sane V -> wok V w -> newton fuel pk V w = Ok (w', nl, its, er) ->
  its = 0 /\ exists n w0 brk, passes V n w w0 /\ newton_body V w0 = Ok (w', nl, er, brk) /\ forall j, 1 <= j <= Z.of_nat n -> exists i, pk j = Ok i /\ i < 40.
Proof.
  intros S K E. pose proof (loop_ok V pk fuel S 0 w K ltac:(lia)) as H. unfold newton in E. rewrite E in H.
  destruct H as (I & _ & _ & _ & _ & n & w0 & brk & P & G & _ & _ & B & _). split; [exact I|]. exists n, w0, brk. split; [exact P|]. split; [exact B|].
  intros j Hj. exact (G j ltac:(lia)).
Qed.
(** with the intended counter: at most 40 passes, no failure *)
Lemma its_intended V fuel w : sane V -> wok V w -> (40 <= fuel)%nat ->
  exists w' nl er n w0 brk, newton fuel counting V w = Ok (w', nl, 0, er) /\ passes V n w w0 /\ newton_body V w0 = Ok (w', nl, er, brk) /\ (n <= 39)%nat.
Proof.
  intros S K Hf. pose proof (loop_ok V counting fuel S 0 w K ltac:(lia)) as H. unfold newton.
  destruct (newton_loop fuel counting V 0 0 w) as [(((w', nl), its), er)|e].
  - destruct H as (-> & _ & _ & _ & _ & n & w0 & brk & P & G & _ & _ & B & _). exists w', nl, er, n, w0, brk. split; [reflexivity|]. split; [exact P|]. split; [exact B|].
    destruct (Nat.le_gt_cases n 39) as [L|L]; [exact L|]. destruct (G 40 ltac:(lia)) as (i & [= <-] & Hi). unfold nr_its in Hi. lia.
  - elim (counting_good fuel e Hf). destruct H as [(-> & H)|(k & Hk & H)]; [left|right; exists k; split; [lia|exact H]].
    split; [reflexivity|]. intros j Hj. apply H. lia.
Qed.
(** with no int behind the counter the loop fails as soon as the first pass does not converge *)
Lemma its_strict V fuel w w1 nl er : newton_body V w = Ok (w1, nl, er, false) -> (1 <= fuel)%nat -> newton fuel strict V w = Err BadPtr.
Proof. intros E Hf. destruct fuel as [|fuel]; [lia|]. unfold newton. cbn [newton_loop]. rewrite E. reflexivity. Qed.
(** as long as the ints behind stay below 40 and the residual does not, it never stops *)
Lemma its_forever V pk w fuel : (forall j, 1 <= j -> exists i, pk j = Ok i /\ i < 40) ->
  (forall n w0, passes V n w w0 -> exists w1 nl er, newton_body V w0 = Ok (w1, nl, er, false) /\ oltb nr_tol er = true) ->
  newton fuel pk V w = Err Fuel.
Proof.
  intros Hp. unfold newton. assert (X : forall k w, 0 <= k -> (forall n w0, passes V n w w0 -> exists w1 nl er, newton_body V w0 = Ok (w1, nl, er, false) /\ oltb nr_tol er = true) ->
    newton_loop fuel pk V 0 k w = Err Fuel); [|apply X; lia].
  induction fuel as [|fuel IH]; intros k v Hk H; cbn [newton_loop]; [reflexivity|].
  destruct (H 0%nat v (P0 V v)) as (w1 & nl & er & E & L). rewrite E. cbn [bind]. destruct (Z.eqb_spec (k + 1) 0); [lia|].
  destruct (Hp (k + 1) ltac:(lia)) as (i & -> & Hi). cbn [bind]. rewrite L. replace (i <? nr_its) with true by (unfold nr_its; lia). cbn [andb].
  apply IH; [lia|]. intros n0 w0 P. exact (H (S n0) w0 (PS V n0 v w1 nl er w0 E P)).
Qed.
End G.

Open Scope R_scope.
Lemma balance2_scal V c uf r : balance2 V (fun i => c * uf i) r = c * balance2 V uf r.
Proof.
  unfold balance2. destruct bndb; [ring|]. unfold force2.
  assert (E : mforce (els2 V) 8 3 (zrange 0 4) (addr2 V) (B2 V) (wg2 V) (gs2 V (fun i => c * uf i)) r = c * mforce (els2 V) 8 3 (zrange 0 4) (addr2 V) (B2 V) (wg2 V) (gs2 V uf) r).
  2:{ rewrite E. ring. }
  unfold mforce. rewrite <- rsum_scal. apply rsum_ext. intros e _. rewrite <- rsum_scal. apply rsum_ext. intros i _.
  destruct (_ =? _)%Z; [|ring]. unfold mbe. rewrite <- rsum_scal. apply rsum_ext. intros g _. rewrite <- rsum_scal. apply rsum_ext. intros v Hv. apply in_zrange in Hv.
  rewrite !gs2_tsig by lia. replace (tsig2 V (fun i0 => c * uf i0) e g v) with (c * tsig2 V uf e g v); [ring|].
  unfold tsig2. rewrite <- rsum_scal. apply rsum_ext. intros k _. unfold str2. rewrite mstrain_scal. ring.
Qed.
(** a field that vanishes on the boundary *)
Definition bump_field (V : env R) (c : R) (r : Z) : R := if bndb V (v_nz V) (r / v_dim V) then 0 else c.
Definition free2 (V : env R) : Prop := exists r, (0 <= r < ndofs V)%Z /\ ~ bdof V r.
Definition nrm2 V (uf : Z -> R) : R := sqrt (rsum (zrange 0 (ndofs V)) (fun r => balance2 V uf r * balance2 V uf r)).
Lemma nrm2_scal V c uf : 0 <= c -> nrm2 V (fun i => c * uf i) = c * nrm2 V uf.
Proof.
  intros Hc. unfold nrm2. rewrite (rsum_ext _ _ (fun r => c * c * (balance2 V uf r * balance2 V uf r))) by (intros r _; rewrite balance2_scal; ring).
  rewrite rsum_scal, sqrt_mult_alt by (apply Rmult_le_pos; exact Hc). now rewrite sqrt_square.
Qed.
Lemma zero_affine2 V u : body2 V -> rep u (ndofs V) (val u) -> (forall r, (0 <= r < ndofs V)%Z -> bdof V r -> val u r = 0) -> affine_bnd2 V [0; 0; 0] u.
Proof.
  intros (S & G & D) U H i j Hn Hf x y.
  assert (X : forall c, (0 <= c < 2)%Z -> aget u (dof2 V i j c) = Some 0).
  { intros c Hc. pose proof (dof2_range V i j c S Hn Hc D) as Hr. rewrite (proj2 U _ Hr). f_equal. apply H; [exact Hr|]. now apply bnd_dof2. }
  split; rewrite X by lia; f_equal; change (lget [0; 0; 0] 0) with 0; change (lget [0; 0; 0] 1) with 0; change (lget [0; 0; 0] 2) with 0; unfold Rdiv; ring.
Qed.
Lemma free_nrm V : body2 V -> adm V -> free2 V -> 0 < nrm2 V (bump_field V 1).
Proof.
  intros BD A (r0 & Hr0 & N0). pose proof BD as (S & G & D).
  destruct (Rle_lt_or_eq_dec 0 (nrm2 V (bump_field V 1))) as [H|H]; [apply sqrt_pos|exact H|exfalso].
  set (z := fun_arr (nvars V) (fun _ : Z => 0)). set (b0 := fun_arr (ndofs V) (fun _ : Z => 0)). pose proof (fun_arr_rep (ndofs V) (fun _ : Z => 0)) as Rb0. fold b0 in Rb0.
  assert (St : forall uf, nrm2 V uf = 0 -> (forall r, (0 <= r < ndofs V)%Z -> bdof V r -> uf r = 0) -> exists b' s, state2 V [0; 0; 0] (fun_arr (ndofs V) uf) b' 0 s).
  { intros uf Hn Hb. pose proof (fun_arr_rep (ndofs V) uf) as U. set (u := fun_arr (ndofs V) uf) in *.
    destruct (residual2 V uf u z z b0 S D U (proj1 Rb0)) as (b' & n & E & _ & En). unfold nrm2 in Hn. rewrite Hn in En. subst n.
    destruct (ave_stress2 V u uf z z S G D U) as (s & Es & _).
    assert (Uv : forall r, (0 <= r < ndofs V)%Z -> val u r = uf r) by (intros r Hr; exact (rep_val _ _ _ _ U Hr)).
    exists b', s, z, z, b0, false, z, z. split; [now apply rep_full in U|]. split; [apply Rb0|]. split; [|split; [exact E|exact Es]].
    apply zero_affine2; [exact BD|apply full_rep; now apply rep_full in U|]. intros r Hr B. rewrite Uv by exact Hr. now apply Hb. }
  destruct (St (bump_field V 1) (eq_sym H)) as (b1 & s1 & S1); [intros r _ B; unfold bump_field, bdof in *; now rewrite B|].
  assert (Nz : nrm2 V (fun _ => 0) = 0).
  { transitivity (nrm2 V (fun i => 0 * 0)); [unfold nrm2; f_equal; apply rsum_ext; intros r _; replace (fun _ : Z => 0 * 0) with (fun _ : Z => 0) by (now rewrite Rmult_0_l); reflexivity|].
    rewrite (nrm2_scal V 0 (fun _ => 0)) by lra. ring. }
  destruct (St (fun _ => 0) Nz ltac:(reflexivity)) as (b2 & s2 & S2).
  destruct (equilibrium2 V [0; 0; 0] BD A) as (_ & Un & _). destruct (Un _ _ _ _ _ _ S1 S2) as (Eq & _). specialize (Eq r0 Hr0).
  rewrite (proj2 (fun_arr_rep (ndofs V) (bump_field V 1)) r0 Hr0), (proj2 (fun_arr_rep (ndofs V) (fun _ => 0)) r0 Hr0) in Eq. injection Eq as Eq.
  unfold bump_field in Eq. destruct (bndb V (v_nz V) (r0 / v_dim V)) eqn:B; [now elim N0|lra].
Qed.
(** every body with an interior node has a start on which the first pass does not converge *)
Theorem stray_read2 V : body2 V -> adm V -> free2 V -> exists w, wok V w /\
  (forall fuel, (1 <= fuel)%nat -> newton fuel strict V w = Err BadPtr) /\
  (forall fuel pk w' nl its er, newton fuel pk V w = Ok (w', nl, its, er) -> its = 0%Z /\ exists w1, passes V 1 w w1) /\
  (forall fuel, (40 <= fuel)%nat -> exists r, newton fuel counting V w = Ok r) /\
  exists w1 nl, newton_body V w = Ok (w1, nl, 1, false).
Proof.
  intros BD A F. pose proof BD as (S & G & D). pose proof (free_nrm V BD A F) as P. set (q := nrm2 V (bump_field V 1)) in *.
  destruct (matrix2_inhabited (T := R) 2 (v_nx V) (v_ny V)) as (m & M); try (destruct S; lia).
  set (uf := fun i => / q * bump_field V 1 i). pose proof (fun_arr_rep (ndofs V) uf) as U. set (u := fun_arr (ndofs V) uf) in *.
  set (z := fun_arr (ndofs V) (fun _ : Z => 0)). pose proof (fun_arr_rep (ndofs V) (fun _ : Z => 0)) as Rz. fold z in Rz.
  set (v := fun_arr (nvars V) (fun _ : Z => 0)). pose proof (fun_arr_rep (nvars V) (fun _ : Z => 0)) as Rv. fold v in Rv.
  set (w := mkWork u z z m v v).
  assert (K : wok V w).
  { constructor; cbn [w w_u w_du w_b w_A w_vold w_vnew]; [now apply rep_full in U|apply Rz|apply Rz| | |apply Rv].
    - unfold is_mat. rewrite D. exact M.
    - intros e g i He Hg Hi _. exists 0. apply (proj2 Rv). rewrite nvars_eq. unfold intvar_ix. lia. }
  destruct (pass_real V w S G K) as (b & nl & vn & er & E & _ & _ & _ & H2). cbn [w w_u w_vold w_vnew w_b] in E.
  destruct (residual2 V uf u v v z S D U (proj1 Rz)) as (b' & n & E' & _ & En). rewrite E in E'. injection E' as _ _ _ ->.
  change (n = nrm2 V uf) in En. unfold uf in En. rewrite nrm2_scal in En by (apply Rlt_le, Rinv_0_lt_compat; exact P). fold q in En. rewrite Rinv_l in En by lra.
  destruct (H2 ltac:(lra)) as (A' & vn' & d0 & du & u' & _ & _ & _ & _ & _ & _ & Nb).
  exists w. split; [exact K|]. split; [|split; [|split]].
  - intros fuel Hf. exact (its_strict V fuel w _ _ _ Nb Hf).
  - intros fuel pk w' nl' its er' En'. split; [apply (its_stray V fuel pk w w' nl' its er' S K En')|]. eexists. econstructor; [exact Nb|constructor].
  - intros fuel Hf. destruct (its_intended V fuel w S K Hf) as (w' & nl' & er' & _ & _ & _ & En' & _). eauto.
  - rewrite En in Nb. eauto.
Qed.
Lemma blend2_free : free2 blend2.
Proof. exists 10%Z. split; [cbn; lia|]. unfold bdof. cbn. discriminate. Qed.
