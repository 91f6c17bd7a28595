(** Statements about the CG entry points of ell.cpp. *)
From Coq Require Import Reals Lra ZifyBool ZifyNat.
From Verif Require Import Base Scalar EllModel EllSpec EllInit EllAsm EllOp EllFinal CgPure LinDep CgTheory.
Open Scope R_scope.

(** the three ways the solvers are entered *)
Inductive cgfun := CG2D | CGstruct2 | CGstruct3.
Definition slots (f : cgfun) : Z := match f with CGstruct3 => 27 | _ => 9 end.
Definition dslot (f : cgfun) : Z := match f with CGstruct3 => 13 | _ => 4 end.
Definition nodes (f : cgfun) (nx ny nz : Z) : Z :=
  match f with CGstruct3 => nx * ny * nz | _ => nx * ny end.
Definition run_cg {T} {OT : Ops T} (f : cgfun) (sv : solver T) (m : ell T) (nF nx ny nz : Z) (b x : arr T) :=
  match f with
  | CG2D => ell_solve_cgpd_2D sv m nF nx ny b x
  | CGstruct2 => ell_solve_cgpd_struct sv m nF 2 (nx * ny) b x
  | CGstruct3 => ell_solve_cgpd_struct sv m nF 3 (nx * ny * nz) b x
  end.

Lemma run_cgpd {T} {OT : Ops T} f sv (m : ell T) nF nx ny nz b x :
  run_cg f sv m nF nx ny nz b x = cgpd (dslot f) sv m nF (nodes f nx ny nz) b x.
Proof. destruct f; reflexivity. Qed.
Lemma slots_nonneg f : (0 <= slots f)%Z.
Proof. destruct f; simpl; lia. Qed.
Lemma dslot_range f : (0 <= dslot f < slots f)%Z.
Proof. destruct f; simpl; lia. Qed.

(** entry r of the matrix-vector product *)
Definition mul (m : ell R) (x : Z -> R) (r : Z) : R :=
  rsum (zrange 0 (e_nrow m)) (fun c => dense m r c * x c).

Lemma mul_mvf (m : ell R) S nF nn x r : wf_ell m S nF nn -> (0 <= S)%Z -> (0 <= r < nn * nF)%Z ->
  @mvf R ROps (S * nF) (colsf m) (getR (e_vals m)) x r = mul m x r.
Proof.
  intros W HS Hr. unfold mul, mvf, dense. rewrite sumf_R, (wf_nrow _ _ _ _ W), (wf_nnz _ _ _ _ W).
  rewrite (rsum_ext (zrange 0 (nn * nF)) _ (fun c => rsum (zrange 0 (S * nF)) (fun q =>
     (if (colsf m (r * (S * nF) + q) =? c)%Z then getR (e_vals m) (r * (S * nF) + q) else 0) * x c)))
    by (intros; now rewrite <- rsum_scal_r).
  rewrite rsum_swap. apply rsum_ext. intros q Hq. apply in_zrange in Hq. symmetry.
  destruct (wf_cols _ _ _ _ W) as (cf & (_ & C1) & C2).
  pose proof (wf_nF _ _ _ _ W) as HF.
  assert (Ha : (0 <= r * (S * nF) + q < S * nF * (nn * nF))%Z) by nia.
  assert (Ec : colsf m (r * (S * nF) + q) = cf (r * (S * nF) + q)%Z) by (unfold colsf; now rewrite C1).
  rewrite (rsum_single _ _ (colsf m (r * (S * nF) + q))).
  - now rewrite Z.eqb_refl.
  - apply NoDup_zrange.
  - apply in_zrange. rewrite Ec. auto.
  - intros c _ N. replace (colsf m (r * (S * nF) + q) =? c)%Z with false by lia. lra.
Qed.

Lemma wf_reps {T} {OT : Ops T} (m : ell T) S nF nn : wf_ell m S nF nn ->
  rep (e_cols m) (S * nF * (nn * nF)) (colsf m).
Proof.
  intros W. destruct (wf_cols _ _ _ _ W) as (cf & (L & C1) & C2). split; [exact L|].
  intros i Hi. unfold colsf. now rewrite C1.
Qed.
Lemma wf_repv (m : ell R) S nF nn : wf_ell m S nF nn ->
  rep (e_vals m) (S * nF * (nn * nF)) (getR (e_vals m)).
Proof.
  intros W. destruct (wf_vals _ _ _ _ W) as (vf & L & C1). split; [exact L|].
  intros i Hi. unfold getR. now rewrite C1.
Qed.

(** ** Facts common to all runs at R *)
Section RunR.
Variables (g : R -> R) (f : cgfun) (m : ell R) (nF nx ny nz : Z) (b x : arr R) (bf xf : Z -> R).
Let N := (nodes f nx ny nz * nF)%Z.
Let nnz := (slots f * nF)%Z.
Hypothesis W : wf_ell m (slots f) nF (nodes f nx ny nz).
Hypothesis B : rep b N bf.
Hypothesis X : rep x N xf.

Definition runA := @mvf R (ROpsJ g) nnz (colsf m) (getR (e_vals m)).
Definition runK (i : Z) := Rdivj g 1 (getR (e_vals m) (diag_ix (slots f) (dslot f) nF i)).
Definition runS0 := @cg_init R (ROpsJ g) nnz (colsf m) (getR (e_vals m)) bf xf.
Definition runSq := @cgseq R (ROpsJ g) N runA runK runS0.

Lemma runA_mul v i : (0 <= i < N)%Z -> runA v i = mul m v i.
Proof using W. intros Hi. exact (mul_mvf m (slots f) nF (nodes f nx ny nz) v i W (slots_nonneg f) Hi). Qed.

Lemma run_result sv : exists x' er its,
  @run_cg R (ROpsJ g) f sv m nF nx ny nz b x = Ok (mkSolver (s_max_its sv) its (s_min_tol sv) er, x') /\
  exists j' : nat, its = Z.of_nat j' /\ rep x' N (sx (runSq j')) /\
    (forall i, (i < j')%nat -> s_min_tol sv <= sqrt (vdot N (sr (runSq i)) (sr (runSq i)))) /\
    ((sqrt (vdot N (sr (runSq j')) (sr (runSq j'))) < s_min_tol sv /\
      er = sqrt (vdot N (sr (runSq j')) (sr (runSq j'))) /\ (j' = 0%nat \/ (Z.of_nat j' < s_max_its sv)%Z)) \/
     (j' <> 0%nat /\ Z.of_nat j' = Z.max 1 (s_max_its sv) /\
      er = sqrt (vdot N (sr (runSq (j' - 1))) (sr (runSq (j' - 1)))))).
Proof.
  rewrite (@run_cgpd R (ROpsJ g)).
  destruct (@cgpd_ok R (ROpsJ g) m (slots f) (dslot f) nF (nodes f nx ny nz) (colsf m) (getR (e_vals m)) sv b x bf xf
    W (dslot_range f) (@wf_reps R (ROpsJ g) _ _ _ _ W) (wf_repv _ _ _ _ W) B X)
    as (x' & er & its & E & (j' & _ & Ei & Rx & Hno & Hc)).
  - exists x', er, its. split; [exact E|]. exists j'. split; [exact Ei|]. split; [exact Rx|].
    assert (NE : forall i, @cgnorm R (ROpsJ g) N (runSq i) = sqrt (vdot N (sr (runSq i)) (sr (runSq i)))).
    { intros i. apply norm_eq. }
    split.
    + intros i Hi. rewrite <- NE. apply Rltb_false. apply (Hno i). lia.
    + destruct Hc as [(C1 & C2 & C3)|(C0 & C1 & C2)]; [left|right].
      * rewrite <- !NE. split; [now apply Rltb_true|]. split; [exact C2|lia].
      * rewrite <- !NE. split; [exact C0|]. split; [lia|exact C2].
Qed.

Lemma runA_lin v w c i : (0 <= i < N)%Z -> runA (fun j => v j + c * w j) i = runA v i + c * runA w i.
Proof using W.
  intros Hi. rewrite !runA_mul by exact Hi. unfold mul. rewrite <- rsum_scal, <- rsum_plus.
  apply rsum_ext. intros; lra.
Qed.
Lemma runA_ext v w : (forall i, (0 <= i < N)%Z -> v i = w i) -> forall i, (0 <= i < N)%Z -> runA v i = runA w i.
Proof using W.
  intros H i Hi. rewrite !runA_mul by exact Hi. unfold mul. rewrite (wf_nrow _ _ _ _ W).
  apply rsum_ext. intros c Hc. apply in_zrange in Hc. now rewrite H.
Qed.

Lemma run_residual k i : (0 <= i < N)%Z -> sr (runSq k) i = mul m (sx (runSq k)) i - bf i.
Proof using W.
  intros Hi. rewrite <- runA_mul by exact Hi.
  apply (residual N runA runK bf g runA_lin runA_ext runS0); [|exact Hi].
  intros j Hj. reflexivity.
Qed.

Definition resid (v : Z -> R) : R := sqrt (rsum (zrange 0 N) (fun i => (mul m v i - bf i) * (mul m v i - bf i))).
Lemma run_resid k : sqrt (vdot N (sr (runSq k)) (sr (runSq k))) = resid (sx (runSq k)).
Proof using W. unfold resid, vdot. f_equal. apply rsum_ext. intros i Hi. apply in_zrange in Hi. now rewrite run_residual. Qed.
End RunR.

(** residual norm |A v - b| *)
Definition residual_norm (m : ell R) (bf v : Z -> R) : R :=
  sqrt (rsum (zrange 0 (e_nrow m)) (fun i => (mul m v i - bf i) * (mul m v i - bf i))).

Definition g0 : R -> R := fun x => x / 0.
Lemma Rdivj_g0 x y : Rdivj g0 x y = x / y.
Proof. unfold Rdivj, g0. destruct (Req_EM_T y 0) as [->|]; reflexivity. Qed.

(** the exact reals of Coq are one choice of g *)
Lemma ROps_J : ROps = ROpsJ g0.
Proof.
  unfold ROps, ROpsJ. f_equal.
  apply FunctionalExtensionality.functional_extensionality. intros x.
  apply FunctionalExtensionality.functional_extensionality. intros y. symmetry. apply Rdivj_g0.
Qed.

Section Final.
Variables (f : cgfun) (m : ell R) (nF nx ny nz : Z) (b x : arr R) (bf xf : Z -> R).
Let N := (nodes f nx ny nz * nF)%Z.
Hypothesis W : wf_ell m (slots f) nF (nodes f nx ny nz).
Hypothesis B : rep b N bf.
Hypothesis X : rep x N xf.

Lemma resid_norm v : resid f m nF nx ny nz bf v = residual_norm m bf v.
Proof. unfold resid, residual_norm. now rewrite (wf_nrow _ _ _ _ W). Qed.

Lemma cg_truth sv : exists sv' x' xf', run_cg f sv m nF nx ny nz b x = Ok (sv', x') /\ rep x' N xf' /\
  ((s_its sv' < s_max_its sv)%Z -> s_err sv' < s_min_tol sv /\ s_err sv' = residual_norm m bf xf').
Proof.
  rewrite ROps_J. destruct (run_result g0 f m nF nx ny nz b x bf xf W B X sv) as (x' & er & its & E & j & Ei & Rx & _ & C).
  eexists _, x', _. split; [exact E|]. split; [exact Rx|]. cbn [s_its s_err]. intros Hm.
  destruct C as [(C1 & C2 & _)|(C0 & C1 & _)]; [|lia].
  rewrite <- resid_norm, <- (run_resid g0) by assumption. lra.
Qed.

(** on exhaustion: the reported error belongs to the iterate before the last *)
Lemma cg_exhausted sv : exists sv' x' xf' xp, run_cg f sv m nF nx ny nz b x = Ok (sv', x') /\ rep x' N xf' /\
  ((s_its sv' < s_max_its sv)%Z \/ s_err sv' = residual_norm m bf xp /\ s_min_tol sv <= s_err sv' \/
   s_its sv' = 0%Z /\ s_err sv' = residual_norm m bf xf').
Proof.
  rewrite ROps_J. destruct (run_result g0 f m nF nx ny nz b x bf xf W B X sv) as (x' & er & its & E & j & Ei & Rx & Hno & C).
  eexists _, x', _, (sx (runSq g0 f m nF nx ny nz bf xf (j - 1))). split; [exact E|]. split; [exact Rx|]. cbn [s_its s_err].
  destruct C as [(C1 & C2 & [C3|C3])|(C0 & C1 & C2)].
  - right; right. split; [lia|]. rewrite <- resid_norm, <- (run_resid g0) by assumption. exact C2.
  - left. lia.
  - right; left. rewrite <- resid_norm, <- (run_resid g0) by assumption. split; [exact C2|].
    rewrite C2. apply Hno. lia.
Qed.

(** constrained rows *)
Definition ident_row_at (r : Z) : Prop :=
  forall c, (0 <= c < N)%Z -> dense m r c = if (r =? c)%Z then 1 else 0.

Lemma mul_ident r v : (0 <= r < N)%Z -> ident_row_at r -> mul m v r = v r.
Proof.
  intros Hr I. unfold mul. rewrite (wf_nrow _ _ _ _ W). fold N.
  rewrite (rsum_single _ _ r); [|apply NoDup_zrange|now apply in_zrange|].
  - rewrite I, Z.eqb_refl by exact Hr. lra.
  - intros c Hc Ne. apply in_zrange in Hc. rewrite I by exact Hc. replace (r =? c)%Z with false by lia. lra.
Qed.

Section Free.
Variable free : Z -> Prop.
Hypothesis I : forall r, (0 <= r < N)%Z -> ~ free r -> ident_row_at r /\ bf r = 0 /\ xf r = 0.

Lemma run_AV g v : inV N free v -> inV N free (runA g f m nF v).
Proof.
  intros H i Hi F. rewrite (runA_mul g f m nF nx ny nz W) by exact Hi.
  rewrite mul_ident by (assumption || now apply I). now apply H.
Qed.
Lemma run_r0V g : inV N free (sr (runSq g f m nF nx ny nz bf xf 0)).
Proof.
  intros i Hi F. rewrite run_residual by assumption. destruct (I i Hi F) as (I1 & I2 & I3).
  rewrite mul_ident by assumption. cbn. rewrite I2, I3. lra.
Qed.
Lemma run_x0V g : inV N free (sx (runSq g f m nF nx ny nz bf xf 0)).
Proof. intros i Hi F. now apply I. Qed.
Lemma run_xV g k : inV N free (sx (runSq g f m nF nx ny nz bf xf k)).
Proof.
  intros i Hi F.
  etransitivity; [exact (V_x N (runA g f m nF) (runK g f m nF) g free (runS0 g f m nF bf xf) (run_AV g) (run_r0V g) k i Hi F)|].
  now apply I.
Qed.

Lemma cg_constrained sv : exists sv' x' xf', run_cg f sv m nF nx ny nz b x = Ok (sv', x') /\ rep x' N xf' /\
  forall r, (0 <= r < N)%Z -> ~ free r -> xf' r = 0.
Proof.
  rewrite ROps_J. destruct (run_result g0 f m nF nx ny nz b x bf xf W B X sv) as (x' & er & its & E & j & Ei & Rx & _ & C).
  eexists _, x', _. split; [exact E|]. split; [exact Rx|]. intros r Hr F. now apply run_xV.
Qed.

(** ** SPD *)
Hypothesis Sy : forall r c, (0 <= r < N)%Z -> (0 <= c < N)%Z -> free r -> free c -> dense m r c = dense m c r.
Hypothesis Pd : forall v, (forall r, (0 <= r < N)%Z -> ~ free r -> v r = 0) ->
  (exists r, (0 <= r < N)%Z /\ v r <> 0) -> 0 < rsum (zrange 0 N) (fun r => v r * mul m v r).
Hypothesis Dg : forall r, (0 <= r < N)%Z -> free r -> 0 < getR (e_vals m) (diag_ix (slots f) (dslot f) nF r).

Definition cg_energy (v : Z -> R) : R :=
  / 2 * rsum (zrange 0 N) (fun r => v r * mul m v r) - rsum (zrange 0 N) (fun r => bf r * v r).

Lemma energy_cg g v : energy N (runA g f m nF) bf v = cg_energy v.
Proof.
  unfold energy, cg_energy, vdot. do 2 f_equal. apply rsum_ext. intros i Hi. apply in_zrange in Hi.
  now rewrite (runA_mul g f m nF nx ny nz W).
Qed.

Lemma fdec r : free r \/ ~ free r. Proof. apply Classical_Prop.classic. Qed.

Lemma run_sym g v w : inV N free v -> inV N free w ->
  vdot N v (runA g f m nF w) = vdot N w (runA g f m nF v).
Proof.
  intros Hv Hw.
  assert (E : forall v w, vdot N v (runA g f m nF w) = rsum (zrange 0 N) (fun r => rsum (zrange 0 N) (fun c => v r * (dense m r c * w c)))).
  { intros a c. apply rsum_ext. intros r Hr. apply in_zrange in Hr. rewrite (runA_mul g f m nF nx ny nz W) by exact Hr.
    unfold mul. rewrite (wf_nrow _ _ _ _ W). now rewrite <- rsum_scal. }
  rewrite !E, rsum_swap. apply rsum_ext. intros c Hc. apply in_zrange in Hc.
  apply rsum_ext. intros r Hr. apply in_zrange in Hr.
  destruct (fdec r) as [Fr|Fr]; [destruct (fdec c) as [Fc|Fc]|].
  - rewrite (Sy r c) by assumption. lra.
  - rewrite (Hw c Hc Fc). lra.
  - rewrite (Hv r Hr Fr). lra.
Qed.

Lemma run_pos g v : inV N free v -> (exists i, (0 <= i < N)%Z /\ v i <> 0) -> 0 < vdot N v (runA g f m nF v).
Proof.
  intros Hv Hn. unfold vdot. rewrite (rsum_ext _ _ (fun r => v r * mul m v r)).
  - now apply Pd.
  - intros r Hr. apply in_zrange in Hr. now rewrite (runA_mul g f m nF nx ny nz W).
Qed.

Lemma run_kpos g i : (0 <= i < N)%Z -> free i -> 0 < runK g f m nF i.
Proof.
  intros Hi F. unfold runK. pose proof (Dg i Hi F). rewrite Rdivj_nz by lra.
  apply Rdiv_lt_0_compat; lra.
Qed.

Lemma N_nonneg : (0 <= N)%Z.
Proof. destruct W. unfold N. nia. Qed.

Definition rnz g k := CgTheory.nz N (runA g f m nF) (runK g f m nF) g (runS0 g f m nF bf xf) k.
Lemma nz_of_norm g k t : 0 < t -> t <= sqrt (vdot N (sr (runSq g f m nF nx ny nz bf xf k)) (sr (runSq g f m nF nx ny nz bf xf k))) -> rnz g k.
Proof.
  intros Ht Hk. destruct (Classical_Prop.classic (rnz g k)) as [|Nz]; [assumption|]. exfalso.
  assert (E : vdot N (sr (runSq g f m nF nx ny nz bf xf k)) (sr (runSq g f m nF nx ny nz bf xf k)) = 0).
  { apply vdot_z_l. intros i Hi. destruct (Req_dec (sr (runSq g f m nF nx ny nz bf xf k) i) 0); [assumption|].
    exfalso. apply Nz. exists i. auto. }
  rewrite E, sqrt_0 in Hk. lra.
Qed.

Lemma run_Pk g k : (forall j, (j <= k)%nat -> rnz g j) ->
  Pk N (runA g f m nF) (runK g f m nF) g (runS0 g f m nF bf xf) k.
Proof.
  intros H. apply (Pk_all N (runA g f m nF) (runK g f m nF) bf g free
    (runA_lin g f m nF nx ny nz W) (runA_ext g f m nF nx ny nz W) (runS0 g f m nF bf xf)
    (fun i Hi => eq_refl) (run_AV g) (run_r0V g) (run_sym g) (run_pos g) (run_kpos g) fdec k H).
Qed.

(** one more iteration lowers the energy *)
Lemma run_energy g k : (forall j, (j <= k)%nat -> rnz g j) ->
  cg_energy (sx (runSq g f m nF nx ny nz bf xf (S k))) < cg_energy (sx (runSq g f m nF nx ny nz bf xf k)).
Proof.
  intros H. rewrite <- !(energy_cg g).
  exact (energy_decr N (runA g f m nF) (runK g f m nF) bf g free
    (runA_lin g f m nF nx ny nz W) (runA_ext g f m nF nx ny nz W) (runS0 g f m nF bf xf)
    (fun i Hi => eq_refl) (run_AV g) (run_r0V g) (run_sym g) (run_pos g) (run_kpos g) fdec (run_x0V g) k H).
Qed.

Lemma bV : inV N free bf.
Proof. intros i Hi F. now apply I. Qed.

Lemma run_finite g : exists k, (k <= Z.to_nat N)%nat /\ ~ rnz g k.
Proof.
  exact (finite_termination N (runA g f m nF) (runK g f m nF) bf g free
    (runA_lin g f m nF nx ny nz W) (runA_ext g f m nF nx ny nz W) (runS0 g f m nF bf xf)
    (fun i Hi => eq_refl) (run_AV g) (run_r0V g) (run_sym g) (run_pos g) (run_kpos g) fdec bV).
Qed.

Lemma cg_finite sv : 0 < s_min_tol sv -> (N < s_max_its sv)%Z ->
  exists sv' x' xf', run_cg f sv m nF nx ny nz b x = Ok (sv', x') /\ rep x' N xf' /\
    (s_its sv' <= N)%Z /\ s_err sv' < s_min_tol sv /\ residual_norm m bf xf' < s_min_tol sv.
Proof.
  intros Ht Hm. pose proof N_nonneg as HN.
  rewrite ROps_J. destruct (run_result g0 f m nF nx ny nz b x bf xf W B X sv) as (x' & er & its & E & j & Ei & Rx & Hno & C).
  destruct (run_finite g0) as (k & Hk & Nz).
  assert (Hj : (j <= k)%nat).
  { destruct (Nat.le_gt_cases j k) as [|L]; [assumption|]. exfalso. apply Nz.
    apply (nz_of_norm g0 k (s_min_tol sv) Ht). now apply Hno. }
  eexists _, x', _. split; [exact E|]. split; [exact Rx|]. cbn [s_its s_err].
  split; [lia|].
  destruct C as [(C1 & C2 & _)|(C0 & C1 & _)]; [|lia].
  rewrite <- resid_norm, <- (run_resid g0) by assumption. lra.
Qed.

(** energies along the run, read off calls with smaller budgets *)
Lemma cg_monotone sv : 0 < s_min_tol sv ->
  exists sv' x' xf', run_cg f sv m nF nx ny nz b x = Ok (sv', x') /\ rep x' N xf' /\
    (s_its sv' = 0%Z \/ cg_energy xf' < cg_energy xf) /\
    forall k, (1 <= k < s_its sv')%Z ->
      exists svk xk xfk, run_cg f (mkSolver k (s_its sv) (s_min_tol sv) (s_err sv)) m nF nx ny nz b x = Ok (svk, xk) /\
        rep xk N xfk /\ s_its svk = k /\ cg_energy xf' < cg_energy xfk.
Proof.
  intros Ht. rewrite ROps_J.
  destruct (run_result g0 f m nF nx ny nz b x bf xf W B X sv) as (x' & er & its & E & j & Ei & Rx & Hno & C).
  assert (Hnz : forall i, (i < j)%nat -> rnz g0 i).
  { intros i Hi. apply (nz_of_norm g0 i (s_min_tol sv) Ht). now apply Hno. }
  assert (Hen : forall d i, (i + S d <= j)%nat -> cg_energy (sx (runSq g0 f m nF nx ny nz bf xf (i + S d))) < cg_energy (sx (runSq g0 f m nF nx ny nz bf xf i))).
  { induction d as [|d IH]; intros i Hi.
    - rewrite Nat.add_1_r. apply run_energy. intros; apply Hnz; lia.
    - rewrite <- Nat.add_succ_comm. eapply Rlt_trans; [apply IH; lia|]. apply run_energy. intros; apply Hnz; lia. }
  eexists _, x', _. split; [exact E|]. split; [exact Rx|]. cbn [s_its].
  split.
  - destruct j as [|j]; [left; lia|right]. exact (Hen j 0%nat (Nat.le_refl _)).
  - intros k Hk.
    destruct (run_result g0 f m nF nx ny nz b x bf xf W B X (mkSolver k (s_its sv) (s_min_tol sv) (s_err sv)))
      as (x2 & er2 & its2 & E2 & j2 & Ei2 & Rx2 & Hno2 & C2).
    cbn [s_min_tol s_max_its] in *.
    assert (Ej : Z.of_nat j2 = k).
    { destruct C2 as [(D1 & D2 & D3)|(D0 & D1 & D2)]; [|lia].
      exfalso. assert (L : (j2 < j)%nat) by lia. specialize (Hno j2 L). lra. }
    eexists _, x2, _. split; [exact E2|]. split; [exact Rx2|]. cbn [s_its]. split; [lia|].
    replace j with (j2 + S (j - j2 - 1))%nat by lia. apply Hen. lia.
Qed.
End Free.
End Final.

(** ** Two runs side by side *)
Definition strel (n : Z) (s t : cgst (T:=R)) : Prop :=
  (forall i, (0 <= i < n)%Z -> sx s i = sx t i /\ sr s i = sr t i /\ sp s i = sp t i) /\ srho s = srho t.

Lemma step_rel n A1 A2 k1 k2 g1 g2 fst s t : strel n s t ->
  (forall i, (0 <= i < n)%Z -> k1 i * sr s i = k2 i * sr s i) ->
  (forall p, (forall i, (0 <= i < n)%Z -> p i = @cgp R (ROpsJ g1) n k1 fst s i) ->
     forall i, (0 <= i < n)%Z -> A1 (@cgp R (ROpsJ g1) n k1 fst s) i = A2 p i) ->
  (fst = false -> forall c, Rdivj g1 c (srho s) = Rdivj g2 c (srho s)) ->
  (forall c, Rdivj g1 c (vdot n (@cgp R (ROpsJ g1) n k1 fst s) (A1 (@cgp R (ROpsJ g1) n k1 fst s))) =
             Rdivj g2 c (vdot n (@cgp R (ROpsJ g1) n k1 fst s) (A1 (@cgp R (ROpsJ g1) n k1 fst s)))) ->
  strel n (@cgstep R (ROpsJ g1) n A1 k1 fst s) (@cgstep R (ROpsJ g2) n A2 k2 fst t).
Proof.
  intros (Hst & Hrho) Hk HA D1 D2.
  assert (Ez : forall i, (0 <= i < n)%Z -> @cgz R (ROpsJ g1) k1 s i = @cgz R (ROpsJ g2) k2 t i).
  { intros i Hi. unfold cgz. cbn. rewrite Hk by exact Hi. destruct (Hst i Hi) as (_ & -> & _). reflexivity. }
  assert (Er : @cgrho R (ROpsJ g1) n k1 s = @cgrho R (ROpsJ g2) n k2 t).
  { unfold cgrho. rewrite !dotf_R. apply vdot_ext; [|exact Ez]. intros i Hi. apply Hst, Hi. }
  assert (Ep : forall i, (0 <= i < n)%Z -> @cgp R (ROpsJ g2) n k2 fst t i = @cgp R (ROpsJ g1) n k1 fst s i).
  { intros i Hi. unfold cgp. destruct fst; [now rewrite Ez|]. cbn [oadd omul odiv ROpsJ]. rewrite Ez, Er, Hrho by exact Hi.
    rewrite <- Hrho, D1 by reflexivity. destruct (Hst i Hi) as (_ & _ & ->). reflexivity. }
  assert (EA : forall i, (0 <= i < n)%Z -> A1 (@cgp R (ROpsJ g1) n k1 fst s) i = A2 (@cgp R (ROpsJ g2) n k2 fst t) i).
  { intros i Hi. apply HA; [exact Ep|exact Hi]. }
  assert (Ed : @cgd R (ROpsJ g1) n A1 k1 fst s = @cgd R (ROpsJ g2) n A2 k2 fst t).
  { unfold cgd. rewrite !dotf_R. cbn [odiv ROpsJ]. rewrite Er, D2. f_equal. apply vdot_ext; [|exact EA].
    intros i Hi. symmetry. now apply Ep. }
  split; [|exact Er].
  intros i Hi. unfold cgstep. cbn [sx sr sp]. rewrite Ed, EA, <- Ep by exact Hi.
  destruct (Hst i Hi) as (-> & -> & _). auto.
Qed.

Lemma strel_norm n s t : strel n s t -> vdot n (sr s) (sr s) = vdot n (sr t) (sr t).
Proof. intros (H & _). apply vdot_ext; intros i Hi; now apply H. Qed.
