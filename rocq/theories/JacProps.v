(** The 2D relaxation solver (C18). *)
From Coq Require Import Reals Lra ZifyBool ZifyNat.
From Verif Require Import Base Scalar EllModel EllSpec EllInit EllAsm EllOp EllFinal CgPure CgTheory CgFinal CgProps.
Open Scope Z_scope.

Section Jac.
Context {T : Type} `{OT : Ops T}.
Variables (m : ell T) (n nnz : Z) (cf : Z -> Z) (vf kf bf : Z -> T) (k b : arr T).
Hypothesis M : ell_rep m n nnz cf vf.
Hypothesis K : rep k n kf.
Hypothesis B : rep b n bf.

Lemma jac_row_ok x xf i : rep x n xf -> 0 <= i < n -> forall js aux,
  (forall j, In j js -> 0 <= j < nnz) -> exists r, jac_row m x i js aux = Ok r.
Proof.
  intros X Hi. induction js as [|j js IH]; intros aux Hj; [eexists; reflexivity|].
  assert (Hq : 0 <= i * nnz + j < nnz * n) by (specialize (Hj j (or_introl eq_refl)); nia).
  cbn [jac_row]. rewrite (er_nnz _ _ _ _ _ M).
  rewrite (rep_rd _ _ _ _ (er_cols _ _ _ _ _ M)) by exact Hq. cbn [bind].
  destruct (cf (i * nnz + j) =? -1); [eexists; reflexivity|].
  destruct (cf (i * nnz + j) =? i); [apply IH; intros; apply Hj; now right|].
  rewrite (rep_rd _ _ _ _ (er_vals _ _ _ _ _ M)) by exact Hq. cbn [bind].
  rewrite (rep_rd _ _ _ _ X) by (apply (er_cf _ _ _ _ _ M); exact Hq). cbn [bind].
  apply IH; intros; apply Hj; now right.
Qed.

Lemma jac_sweep_ok x xf : rep x n xf -> exists x' xf', jac_sweep m k b x = Ok x' /\ rep x' n xf'.
Proof.
  intros X. unfold jac_sweep, upd_for. rewrite (er_nrow _ _ _ _ _ M).
  match goal with |- context [foldM ?F _ x] =>
    destruct (foldM_inv F (fun _ a => exists af, rep a n af) (zrange 0 n) x) as (x' & E & af & Ra) end.
  - eauto.
  - intros pre i post a Ez (af & Ra).
    assert (Hi : 0 <= i < n) by (apply in_zrange; rewrite Ez; apply in_or_app; right; now left).
    destruct (jac_row_ok a af i Ra Hi (zrange 0 (e_nnz m)) (ofZ 0)) as (r & Er).
    { intros j Hj. apply in_zrange in Hj. now rewrite (er_nnz _ _ _ _ _ M) in Hj. }
    rewrite Er. cbn [bind]. rewrite (rep_rd _ _ _ _ K), (rep_rd _ _ _ _ B) by exact Hi. cbn [bind].
    destruct (wr_ok a i (omul (kf i) (oadd (omul (ofZ (-1)) r) (bf i)))) as (a' & Ew & La & Ga); [rewrite (proj1 Ra); exact Hi|].
    exists a'. split; [exact Ew|]. exists (fun j => if j =? i then omul (kf i) (oadd (omul (ofZ (-1)) r) (bf i)) else af j).
    split; [rewrite La; apply Ra|]. intros j Hj. rewrite Ga. destruct (j =? i); [reflexivity|]. now apply Ra.
  - eauto.
Qed.

Lemma jac_stop tol max fuel x e er its : max <= its -> jac_loop m k b tol max fuel x e er its = Ok (x, er, its).
Proof. intros H. destruct fuel; unfold jac_loop; replace (its <? max) with false by lia; reflexivity. Qed.

Lemma jac_loop_ok tol max : forall fuel x xf e er its, rep x n xf -> alen e = n -> 0 <= its ->
  (Z.to_nat (max - its) <= fuel)%nat ->
  exists x' xf' er' its', jac_loop m k b tol max fuel x e er its = Ok (x', er', its') /\ rep x' n xf' /\
    (its < max -> its <= its' <= max /\ exists ev, er' = Some ev /\
       ev = osqrt (sumf (zrange 0 n) (fun i => omul (osub (mvf nnz cf vf xf' i) (bf i)) (osub (mvf nnz cf vf xf' i) (bf i)))) /\
       (its' < max -> oltb ev tol = true) /\ (its' = max -> oltb ev tol = false)) /\
    (max <= its -> x' = x /\ er' = er /\ its' = its).
Proof.
  induction fuel as [|fuel IH]; intros x xf e er its X L H0 Hf; unfold jac_loop; fold jac_loop.
  - replace (its <? max) with false by lia. exists x, xf, er, its. split; [reflexivity|]. split; [exact X|].
    split; [lia|auto].
  - destruct (its <? max) eqn:El.
    2:{ exists x, xf, er, its. split; [reflexivity|]. split; [exact X|]. split; [lia|auto]. }
    rewrite (er_nrow _ _ _ _ _ M).
    destruct (jac_sweep_ok x xf X) as (x1 & xf1 & E1 & X1). rewrite E1. cbn [bind].
    destruct (mvp_ok m n nnz cf vf x1 xf1 e M X1 L) as (e1 & E2 & R2). rewrite E2. cbn [bind].
    destruct (upd_for_rep n (fun e i => a <- rd e i ;; c <- rd b i ;; Ok (osub a c)) e1
      (fun i => osub (mvf nnz cf vf xf1 i) (bf i))) as (e2 & E3 & R3).
    { apply R2. }
    { intros a' i Hi _ Ea. rewrite (rep_rd _ _ _ _ B) by exact Hi.
      replace (rd a' i) with (Ok (mvf nnz cf vf xf1 i)); [reflexivity|].
      symmetry. apply rd_aget. rewrite Ea. now apply R2. }
    rewrite E3. cbn [bind]. rewrite (dotM_ok n e2 e2 _ _ R3 R3). cbn [bind].
    destruct (oltb (osqrt (dotf n (fun i => osub (mvf nnz cf vf xf1 i) (bf i)) (fun i => osub (mvf nnz cf vf xf1 i) (bf i)))) tol) eqn:Et.
    + exists x1, xf1. eexists _, its. split; [reflexivity|]. split; [exact X1|]. split; [|lia]. intros _.
      split; [lia|]. eexists. split; [reflexivity|]. split; [reflexivity|]. split; [auto|lia].
    + destruct (Z.lt_ge_cases (its + 1) max) as [Lt|Ge].
      * destruct (IH x1 xf1 e2 (Some (osqrt (dotf n (fun i => osub (mvf nnz cf vf xf1 i) (bf i)) (fun i => osub (mvf nnz cf vf xf1 i) (bf i))))) (its + 1))
          as (x' & xf' & er' & its' & E & X' & C1 & C2); try assumption; try lia; [apply R3|].
        exists x', xf', er', its'. split; [exact E|]. split; [exact X'|]. split; [|lia]. intros _.
        destruct (C1 Lt) as (R & ev & -> & H1 & H2 & H3). split; [lia|]. exists ev. auto.
      * exists x1, xf1. eexists _, (its + 1). split; [apply jac_stop; lia|]. split; [exact X1|]. split; [|lia]. intros _.
        split; [lia|]. eexists. split; [reflexivity|]. split; [reflexivity|]. split; [lia|auto].
Qed.
End Jac.

Open Scope R_scope.
Lemma jacobi_truth sv (m : ell R) nF nx ny b x bf xf :
  wf_ell m 9 nF (nx * ny) -> rep b (nx * ny * nF) bf -> rep x (nx * ny * nF) xf -> (1 <= s_max_its sv)%Z ->
  exists sv' x' xf', ell_solve_jacobi_2D sv m nF nx ny b x = Ok (sv', x') /\ rep x' (nx * ny * nF) xf' /\
    (0 <= s_its sv' <= s_max_its sv)%Z /\ s_err sv' = residual_norm m bf xf' /\
    ((s_its sv' < s_max_its sv)%Z <-> s_err sv' < s_min_tol sv).
Proof.
  intros W B X Hm. unfold ell_solve_jacobi_2D. rewrite (wf_nrow _ _ _ _ W).
  pose proof (wf_reps _ _ _ _ W) as C. pose proof (wf_repv _ _ _ _ W) as V.
  assert (HN : (0 <= nx * ny * nF)%Z) by (destruct W; nia).
  destruct (inv_diag_ok m 9 4 nF (nx * ny) _ (malloc (nx * ny * nF)) W ltac:(lia) V eq_refl) as (k & Ek & Rk).
  rewrite Ek. cbn [bind].
  assert (M : ell_rep m (nx * ny * nF) (9 * nF) (colsf m) (getR (e_vals m))).
  { constructor; try (apply W); try assumption. intros a Ha. destruct (wf_cols _ _ _ _ W) as (cf & (_ & G) & H).
    unfold colsf. rewrite G by exact Ha. auto. }
  destruct (jac_loop_ok m _ _ _ _ _ bf k b M Rk B (s_min_tol sv) (s_max_its sv) (Z.to_nat (s_max_its sv)) x xf
     (malloc (nx * ny * nF)) None 0 X eq_refl) as (x' & xf' & er' & its' & E & X' & H1 & _); try lia.
  rewrite E. cbn [bind]. destruct H1 as (R & ev & -> & Ev & T1 & T2); [lia|]. cbn [bind of_option].
  eexists _, x', xf'. split; [reflexivity|]. split; [exact X'|]. cbn [s_its s_err].
  split; [exact R|]. split.
  - rewrite Ev. unfold residual_norm. rewrite (wf_nrow _ _ _ _ W), sumf_R. cbn [osqrt omul osub ROps]. f_equal. apply rsum_ext.
    intros i Hi. apply in_zrange in Hi. now rewrite (mul_mvf m 9 nF (nx * ny) xf' i W ltac:(lia) Hi).
  - split; intros H.
    + apply Rltb_true. now apply T1.
    + destruct (Z.eq_dec its' (s_max_its sv)) as [Eq|]; [|lia]. specialize (T2 Eq). apply Rltb_false in T2. lra.
Qed.

(** with a budget of zero or less the uninitialised err is stored *)
Lemma jacobi_uninit {T} {OT : Ops T} sv (m : ell T) nF nx ny b x : (1 <= nF)%Z ->
  wf_ell m 9 nF (nx * ny) -> (s_max_its sv <= 0)%Z -> ell_solve_jacobi_2D sv m nF nx ny b x = Err Uninit.
Proof.
  intros HF W Hm. unfold ell_solve_jacobi_2D. rewrite (wf_nrow _ _ _ _ W).
  destruct (wf_vals _ _ _ _ W) as (vf & V).
  destruct (inv_diag_ok m 9 4 nF (nx * ny) _ (malloc (nx * ny * nF)) W ltac:(lia) V eq_refl) as (k & Ek & Rk).
  rewrite Ek. cbn [bind]. rewrite jac_stop by lia. reflexivity.
Qed.
