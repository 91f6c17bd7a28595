(** Final forms of the CG statements (C11-C17). *)
From Coq Require Import Reals Lra ZifyBool ZifyNat FMapPositive.
From Verif Require Import Base Scalar EllModel EllSpec EllInit EllAsm EllOp EllFinal EllProps CgPure LinDep CgTheory CgFinal.
Open Scope R_scope.

(** ** Matrices built by the code are well formed *)
Lemma matrix3_wf nF nx ny nz (m : ell R) vf : (1 <= nF)%Z -> (2 <= nx)%Z -> (2 <= ny)%Z -> (2 <= nz)%Z ->
  matrix3 nF nx ny nz m -> rep (e_vals m) ((27 * nF) * (nx * ny * nz * nF)) vf ->
  wf_ell m 27 nF (nx * ny * nz).
Proof.
  intros HF Hx Hy Hz M V. pose proof (matrix3_struct _ _ _ _ _ Hx Hy Hz HF M) as S.
  destruct (struct3_rep m nF nx ny nz vf Hx Hy Hz HF S V).
  constructor; try assumption; try nia.
  - exists (colsf m). split; [assumption|]. intros a Ha. now apply er_cf.
  - eauto.
Qed.
Lemma matrix2_wf nF nx ny (m : ell R) vf : (1 <= nF)%Z -> (2 <= nx)%Z -> (2 <= ny)%Z ->
  matrix2 nF nx ny m -> rep (e_vals m) ((9 * nF) * (nx * ny * nF)) vf ->
  wf_ell m 9 nF (nx * ny).
Proof.
  intros HF Hx Hy M V. pose proof (matrix2_struct _ _ _ _ Hx Hy HF M) as S.
  destruct (struct2_rep m nF nx ny vf Hx Hy HF S V).
  constructor; try assumption; try nia.
  - exists (colsf m). split; [assumption|]. intros a Ha. now apply er_cf.
  - eauto.
Qed.

(** ** C12 *)
Lemma cg_budget {T} {OT : Ops T} f sv (m : ell T) nF nx ny nz b x bf xf :
  wf_ell m (slots f) nF (nodes f nx ny nz) ->
  rep b (nodes f nx ny nz * nF) bf -> rep x (nodes f nx ny nz * nF) xf ->
  exists sv' x' xf', run_cg f sv m nF nx ny nz b x = Ok (sv', x') /\ rep x' (nodes f nx ny nz * nF) xf' /\
    (s_max_its sv' = s_max_its sv /\ s_min_tol sv' = s_min_tol sv) /\
    (0 <= s_its sv' <= Z.max 1 (s_max_its sv))%Z /\
    (s_its sv' = 0%Z -> forall i, (0 <= i < nodes f nx ny nz * nF)%Z -> xf' i = xf i) /\
    (1 <= s_its sv' ->
       exists sv2 x2, run_cg f (mkSolver (s_its sv') (s_its sv) (s_min_tol sv) (s_err sv)) m nF nx ny nz b x = Ok (sv2, x2) /\
         rep x2 (nodes f nx ny nz * nF) xf' /\ s_its sv2 = s_its sv')%Z.
Proof.
  intros W B X. rewrite run_cgpd.
  destruct (wf_vals _ _ _ _ W) as (vf & V).
  destruct (cgpd_ok m (slots f) (dslot f) nF (nodes f nx ny nz) (colsf m) vf sv b x bf xf
    W (dslot_range f) (wf_reps _ _ _ _ W) V B X) as (x' & er & its & E & j & _ & Ei & Rx & Hno & C).
  eexists _, x', _. split; [exact E|]. split; [exact Rx|]. cbn [s_its s_max_its s_min_tol].
  split; [auto|]. split; [lia|]. split.
  - intros E0 i Hi. replace j with 0%nat by lia. reflexivity.
  - intros H1.
    set (sv0 := mkSolver its (s_its sv) (s_min_tol sv) (s_err sv)).
    destruct (cgpd_ok m (slots f) (dslot f) nF (nodes f nx ny nz) (colsf m) vf sv0 b x bf xf
      W (dslot_range f) (wf_reps _ _ _ _ W) V B X) as (x2 & er2 & its2 & E2 & j2 & _ & Ei2 & Rx2 & Hno2 & C2).
    assert (Ej : j2 = j).
    { cbn [s_max_its s_min_tol sv0] in *. destruct C2 as [(D1 & D2 & D3)|(D0 & D1 & D2)]; [|lia].
      assert (L : (j2 < j)%nat) by lia. rewrite Hno in D1 by lia. discriminate. }
    rewrite run_cgpd. eexists _, x2. split; [exact E2|]. subst j2. split; [exact Rx2|]. cbn [s_its]. lia.
Qed.

(** ** Two runs *)
Section Two.
Variables (g1 g2 : R -> R) (f : cgfun) (m1 m2 : ell R) (nF nx ny nz : Z) (b x : arr R) (bf xf : Z -> R).
Let N := (nodes f nx ny nz * nF)%Z.
Hypothesis W1 : wf_ell m1 (slots f) nF (nodes f nx ny nz).
Hypothesis W2 : wf_ell m2 (slots f) nF (nodes f nx ny nz).
Hypothesis B : rep b N bf.
Hypothesis X : rep x N xf.
Let sq1 := runSq g1 f m1 nF nx ny nz bf xf.
Let sq2 := runSq g2 f m2 nF nx ny nz bf xf.

Lemma two_runs sv :
  (forall i, (forall j, (j < i)%nat -> s_min_tol sv <= sqrt (vdot N (sr (sq1 j)) (sr (sq1 j)))) -> strel N (sq1 i) (sq2 i)) ->
  exists sv' x1 x2 xf', @run_cg R (ROpsJ g1) f sv m1 nF nx ny nz b x = Ok (sv', x1) /\
    @run_cg R (ROpsJ g2) f sv m2 nF nx ny nz b x = Ok (sv', x2) /\ rep x1 N xf' /\ rep x2 N xf'.
Proof.
  intros Hrel.
  destruct (run_result g1 f m1 nF nx ny nz b x bf xf W1 B X sv) as (x1 & er1 & its1 & E1 & j1 & Ei1 & Rx1 & Hno1 & C1).
  destruct (run_result g2 f m2 nF nx ny nz b x bf xf W2 B X sv) as (x2 & er2 & its2 & E2 & j2 & Ei2 & Rx2 & Hno2 & C2).
  fold N sq1 in Rx1, Hno1, C1. fold N sq2 in Rx2, Hno2, C2.
  assert (Hr : forall i, (i <= j1)%nat -> strel N (sq1 i) (sq2 i)).
  { intros i Hi. apply Hrel. intros j Hj. apply Hno1. lia. }
  assert (Ej : j1 = j2).
  { destruct (Nat.lt_trichotomy j1 j2) as [L|[L|L]]; [exfalso|exact L|exfalso].
    - specialize (Hno2 j1 L). rewrite <- (strel_norm _ _ _ (Hr j1 (Nat.le_refl _))) in Hno2.
      destruct C1 as [(C1 & _)|(_ & C1 & _)]; [lra|lia].
    - specialize (Hno1 j2 L). rewrite (strel_norm _ _ _ (Hr j2 ltac:(lia))) in Hno1.
      destruct C2 as [(C2 & _)|(_ & C2 & _)]; [lra|lia]. }
  subst j2.
  assert (Ee : er1 = er2).
  { destruct C1 as [(C1 & -> & H1)|(C0 & C1 & ->)]; destruct C2 as [(C2 & -> & H2)|(D0 & C2 & ->)].
    - f_equal. apply strel_norm, Hr. lia.
    - exfalso. lia.
    - exfalso. lia.
    - f_equal. apply strel_norm, Hr. lia. }
  subst er2 its1 its2.
  exists (mkSolver (s_max_its sv) (Z.of_nat j1) (s_min_tol sv) er1), x1, x2, (sx (sq1 j1)).
  split; [exact E1|]. split; [exact E2|]. split; [exact Rx1|].
  destruct Rx2 as (L & G). split; [exact L|]. intros i Hi. rewrite G by exact Hi. f_equal.
  destruct (Hr j1 (Nat.le_refl _)) as (H & _). symmetry. now apply H.
Qed.
End Two.

(** C15: columns of constrained dofs do not matter *)
Lemma cg_columns f sv (m1 m2 : ell R) nF nx ny nz b x bf xf free :
  let N := (nodes f nx ny nz * nF)%Z in
  wf_ell m1 (slots f) nF (nodes f nx ny nz) -> wf_ell m2 (slots f) nF (nodes f nx ny nz) ->
  rep b N bf -> rep x N xf ->
  (forall r, (0 <= r < N)%Z -> ~ free r -> bf r = 0 /\ xf r = 0 /\
     (forall c, (0 <= c < N)%Z -> dense m1 r c = if (r =? c)%Z then 1 else 0) /\
     (forall c, (0 <= c < N)%Z -> dense m2 r c = if (r =? c)%Z then 1 else 0)) ->
  (forall r, (0 <= r < N)%Z -> free r ->
     (forall c, (0 <= c < N)%Z -> free c -> dense m1 r c = dense m2 r c) /\
     getR (e_vals m1) (diag_ix (slots f) (dslot f) nF r) = getR (e_vals m2) (diag_ix (slots f) (dslot f) nF r)) ->
  exists sv' x1 x2 xf', run_cg f sv m1 nF nx ny nz b x = Ok (sv', x1) /\
    run_cg f sv m2 nF nx ny nz b x = Ok (sv', x2) /\ rep x1 N xf' /\ rep x2 N xf'.
Proof.
  intros N W1 W2 B X I A. rewrite ROps_J.
  apply (two_runs g0 g0 f m1 m2 nF nx ny nz b x bf xf W1 W2 B X sv). intros i _. fold N.
  assert (I1 : forall r, (0 <= r < N)%Z -> ~ free r -> ident_row_at f m1 nF nx ny nz r /\ bf r = 0 /\ xf r = 0).
  { intros r Hr F. destruct (I r Hr F) as (? & ? & J & _). split; [exact J|auto]. }
  assert (MM : forall v w, inV N free v -> (forall c, (0 <= c < N)%Z -> w c = v c) -> forall r, (0 <= r < N)%Z -> mul m1 v r = mul m2 w r).
  { intros v w Hv Hw r Hr. destruct (fdec free r) as [F|F].
    - unfold mul. rewrite (wf_nrow _ _ _ _ W1), (wf_nrow _ _ _ _ W2). apply rsum_ext. intros c Hc. apply in_zrange in Hc.
      rewrite Hw by exact Hc. destruct (fdec free c) as [G|G].
      + now rewrite (proj1 (A r Hr F) c Hc G).
      + rewrite (Hv c Hc G). lra.
    - destruct (I r Hr F) as (_ & _ & J1 & J2).
      rewrite (mul_ident f m1 nF nx ny nz W1 r v Hr J1), (mul_ident f m2 nF nx ny nz W2 r w Hr J2). symmetry. now apply Hw. }
  induction i as [|i IH].
  - split; [|reflexivity]. intros i Hi. split; [reflexivity|]. split; [|reflexivity].
    rewrite !run_residual by assumption. f_equal. apply MM; auto. apply (run_x0V f m1 nF nx ny nz bf xf free I1 g0).
  - cbn [runSq cgseq].
    pose proof (V_r_p N (runA g0 f m1 nF) (runK g0 f m1 nF) g0 free (runS0 g0 f m1 nF bf xf)
      (run_AV f m1 nF nx ny nz bf xf W1 free I1 g0) (run_r0V f m1 nF nx ny nz bf xf W1 free I1 g0) i) as (Vr & Vp).
    apply step_rel; [exact IH| | |auto|auto].
    + intros r Hr. destruct (fdec free r) as [F|F].
      * unfold runK. now rewrite (proj2 (A r Hr F)).
      * assert (E0 : sr (runSq g0 f m1 nF nx ny nz bf xf i) r = 0) by exact (Vr r Hr F).
        match goal with |- _ * ?t = _ => assert (E1 : t = 0) by exact E0; rewrite E1 end. lra.
    + intros p Hp r Hr. rewrite (runA_mul g0 f m1 nF nx ny nz W1), (runA_mul g0 f m2 nF nx ny nz W2) by exact Hr.
      apply MM; [exact Vp|exact Hp|exact Hr].
Qed.

(** C16: nothing depends on the value of a division by zero *)
Lemma cg_no_div0 f sv (m : ell R) nF nx ny nz b x bf xf free g1 g2 :
  let N := (nodes f nx ny nz * nF)%Z in
  wf_ell m (slots f) nF (nodes f nx ny nz) -> rep b N bf -> rep x N xf ->
  (forall r, (0 <= r < N)%Z -> ~ free r -> ident_row_at f m nF nx ny nz r /\ bf r = 0 /\ xf r = 0) ->
  (forall r c, (0 <= r < N)%Z -> (0 <= c < N)%Z -> free r -> free c -> dense m r c = dense m c r) ->
  (forall v, (forall r, (0 <= r < N)%Z -> ~ free r -> v r = 0) ->
     (exists r, (0 <= r < N)%Z /\ v r <> 0) -> 0 < rsum (zrange 0 N) (fun r => v r * mul m v r)) ->
  (forall r, (0 <= r < N)%Z -> getR (e_vals m) (diag_ix (slots f) (dslot f) nF r) <> 0 /\
     (free r -> 0 < getR (e_vals m) (diag_ix (slots f) (dslot f) nF r))) ->
  0 < s_min_tol sv ->
  exists sv' x1 x2 xf', @run_cg R (ROpsJ g1) f sv m nF nx ny nz b x = Ok (sv', x1) /\
    @run_cg R (ROpsJ g2) f sv m nF nx ny nz b x = Ok (sv', x2) /\ rep x1 N xf' /\ rep x2 N xf'.
Proof.
  intros N W B X I Sy Pd Dg Ht.
  apply (two_runs g1 g2 f m m nF nx ny nz b x bf xf W W B X sv). fold N.
  induction i as [|i IH]; intros Hn.
  - split; [|reflexivity]. intros r Hr. split; [reflexivity|]. split; [|reflexivity].
    now rewrite !run_residual by assumption.
  - assert (Dg' : forall r, (0 <= r < N)%Z -> free r -> 0 < getR (e_vals m) (diag_ix (slots f) (dslot f) nF r))
      by (intros; now apply Dg).
    assert (Nz : forall j, (j <= i)%nat -> rnz f m nF nx ny nz bf xf g1 j).
    { intros j Hj. apply (nz_of_norm f m nF nx ny nz bf xf g1 j (s_min_tol sv) Ht). apply Hn. lia. }
    cbn [runSq cgseq].
    destruct (run_Pk f m nF nx ny nz bf xf W free I Sy Pd Dg' g1 i Nz) as [K1 _ _ _ _ K6].
    assert (K1' : forall j, (S j = i)%nat -> 0 < @cgrho R (ROpsJ g1) N (runK g1 f m nF) (runSq g1 f m nF nx ny nz bf xf j)).
    { intros j Ej. destruct (run_Pk f m nF nx ny nz bf xf W free I Sy Pd Dg' g1 j) as [K _ _ _ _ _]; [|exact K].
      intros l Hl. apply Nz. lia. }
    apply step_rel.
    + apply IH. intros j Hj. apply Hn. lia.
    + intros r Hr. f_equal. unfold runK. rewrite !Rdivj_nz by apply Dg, Hr. reflexivity.
    + intros p Hp r Hr. rewrite !(runA_mul _ f m nF nx ny nz W) by exact Hr.
      rewrite <- !(runA_mul g2 f m nF nx ny nz W) by exact Hr.
      apply (runA_ext g2 f m nF nx ny nz W); [|exact Hr]. intros j Hj. symmetry. now apply Hp.
    + intros Ef c. destruct i as [|i]; [discriminate|].
      cbn [cgseq cgstep srho]. specialize (K1' i eq_refl). unfold runSq in K1'. fold N in K1'.
      rewrite !Rdivj_nz by (apply Rgt_not_eq; exact K1'). reflexivity.
    + intros c. rewrite !Rdivj_nz by (apply Rgt_not_eq; exact K6). reflexivity.
Qed.

(** ** Witnesses: diagonal matrices on the code's own structure *)
Definition fun_arr {T} (n : Z) (h : Z -> T) : arr T :=
  mkArr n (fold_left (fun a i => PositiveMap.add (key i) (h i) a) (zrange 0 n) (PositiveMap.empty T)).
Lemma fun_arr_rep {T} n (h : Z -> T) : rep (fun_arr n h) n h.
Proof.
  split; [reflexivity|]. intros i Hi. unfold aget.
  replace (inb _ _) with true by (symmetry; apply inb_spec; exact Hi). unfold fun_arr. cbn [acells].
  assert (G : forall l c, NoDup l -> (forall j, In j l -> (0 <= j)%Z) -> (In i l \/ PositiveMap.find (key i) c = Some (h i) /\ ~ In i l) ->
     PositiveMap.find (key i) (fold_left (fun a i => PositiveMap.add (key i) (h i) a) l c) = Some (h i)).
  { induction l as [|a l IH]; intros c ND P [H|(H & NI)]; simpl; [destruct H|exact H| |].
    - inversion ND; subst. destruct H as [->|H]; apply IH; auto; try (intros; apply P; now right).
      right. split; [apply PositiveMap.gss|assumption].
    - inversion ND; subst. apply IH; auto; try (intros; apply P; now right). right. split.
      + rewrite PositiveMap.gso; [exact H|]. intros E. apply NI. left.
        assert (0 <= a)%Z by (apply P; now left). unfold key in E. lia.
      + intros Q. apply NI. now right. }
  apply G; [apply NoDup_zrange|intros j Hj; apply in_zrange in Hj; lia|]. left. now apply in_zrange.
Qed.

Definition fmatrix (f : cgfun) (nF nx ny nz : Z) (m : ell R) : Prop :=
  match f with CGstruct3 => (2 <= nz)%Z /\ matrix3 nF nx ny nz m | _ => matrix2 nF nx ny m end.

Lemma fmatrix_diag f nF nx ny nz m r : (1 <= nF)%Z -> (2 <= nx)%Z -> (2 <= ny)%Z ->
  fmatrix f nF nx ny nz m -> (0 <= r < nodes f nx ny nz * nF)%Z ->
  colsf m (diag_ix (slots f) (dslot f) nF r) = r.
Proof.
  intros HF Hx Hy M Hr.
  assert (Hd : (0 <= r mod nF < nF)%Z) by (apply Z.mod_pos_bound; lia).
  assert (Er : (r = r / nF * nF + r mod nF)%Z) by (rewrite Z.mul_comm; apply Z.div_mod; lia).
  assert (Hn : (0 <= r / nF < nodes f nx ny nz)%Z) by nia.
  assert (H2 : matrix2 nF nx ny m -> (0 <= r / nF < nx * ny)%Z -> colsf m (diag_ix 9 4 nF r) = r).
  { intros M2 Hn2. pose proof (matrix2_struct _ _ _ _ Hx Hy HF M2) as S.
    destruct (node2_surj nx ny (r / nF)) as (i & j & Hi & Hj & En); try lia.
    unfold diag_ix. rewrite Er at 1. rewrite <- En.
    change (((node nx ny i j 0 * nF + r mod nF) * (9 * nF) + (4 * nF + r mod nF)))%Z with (cell 9 nF (node nx ny i j 0) (r mod nF) 4 (r mod nF)).
    rewrite (struct2_colsf_in _ nF nx ny) by (assumption || lia).
    unfold col2_code. replace (4 =? 7)%Z with false by reflexivity. rewrite andb_false_r, nbr2_self by assumption.
    cbn [col_of]. rewrite En. lia. }
  destruct f; cbn [slots dslot fmatrix nodes] in *; [apply H2; assumption|apply H2; assumption|].
  destruct M as (Hz & M). pose proof (matrix3_struct _ _ _ _ _ Hx Hy Hz HF M) as S.
  destruct (node_surj nx ny nz (r / nF)) as (i & j & k & Hi & Hj & Hk & En); try lia.
  unfold diag_ix. rewrite Er at 1. rewrite <- En.
  change (((node nx ny i j k * nF + r mod nF) * (27 * nF) + (13 * nF + r mod nF)))%Z with (cell 27 nF (node nx ny i j k) (r mod nF) 13 (r mod nF)).
  rewrite (struct3_colsf _ nF nx ny nz) by (assumption || lia). rewrite nbr3_self by assumption.
  cbn [col_of]. rewrite En. lia.
Qed.

(** the identity matrix *)
Lemma ident_exists f nF nx ny nz : (1 <= nF)%Z -> (2 <= nx)%Z -> (2 <= ny)%Z -> (2 <= nz)%Z ->
  exists m : ell R, fmatrix f nF nx ny nz m /\ wf_ell m (slots f) nF (nodes f nx ny nz) /\
    (forall r c, (0 <= r < nodes f nx ny nz * nF)%Z -> dense m r c = if (r =? c)%Z then 1 else 0) /\
    (forall r, (0 <= r < nodes f nx ny nz * nF)%Z -> getR (e_vals m) (diag_ix (slots f) (dslot f) nF r) = 1).
Proof.
  intros HF Hx Hy Hz.
  set (nnz := (slots f * nF)%Z). set (N := (nodes f nx ny nz * nF)%Z).
  set (h := fun a : Z => if (a =? diag_ix (slots f) (dslot f) nF (a / nnz))%Z then 1 else 0).
  assert (HS : (9 <= slots f)%Z) by (destruct f; simpl; lia).
  pose proof (dslot_range f) as HD.
  assert (HN : (0 <= N)%Z) by (unfold N; destruct f; simpl; nia).
  assert (Ex : exists m, fmatrix f nF nx ny nz m /\ e_vals m = fun_arr (nnz * N) h /\ wf_ell m (slots f) nF (nodes f nx ny nz)).
  { destruct f.
    - destruct (init_2D_ok (T:=R) nF nx ny) as (m0 & E & _ & _ & _ & _ & V & _); try assumption.
      assert (M : matrix2 nF nx ny (set_vals m0 (fun_arr (nnz * N) h))) by (exists m0, (fun_arr (nnz * N) h); split; [exact E|split; [rewrite V; reflexivity|reflexivity]]).
      eexists. split; [exact M|]. split; [reflexivity|]. eapply (matrix2_wf nF nx ny); try assumption. apply fun_arr_rep.
    - destruct (init_2D_ok (T:=R) nF nx ny) as (m0 & E & _ & _ & _ & _ & V & _); try assumption.
      assert (M : matrix2 nF nx ny (set_vals m0 (fun_arr (nnz * N) h))) by (exists m0, (fun_arr (nnz * N) h); split; [exact E|split; [rewrite V; reflexivity|reflexivity]]).
      eexists. split; [exact M|]. split; [reflexivity|]. eapply (matrix2_wf nF nx ny); try assumption. apply fun_arr_rep.
    - destruct (init_3D_ok (T:=R) nF nx ny nz) as (m0 & E & _ & _ & _ & _ & V & _); try assumption.
      assert (M : matrix3 nF nx ny nz (set_vals m0 (fun_arr (nnz * N) h))) by (exists m0, (fun_arr (nnz * N) h); split; [exact E|split; [rewrite V; reflexivity|reflexivity]]).
      eexists. split; [split; [exact Hz|exact M]|]. split; [reflexivity|]. eapply (matrix3_wf nF nx ny nz); try assumption. apply fun_arr_rep. }
  destruct Ex as (m & M & Ev & W). exists m. split; [exact M|]. split; [exact W|].
  assert (G : forall r q, (0 <= r < N)%Z -> (0 <= q < nnz)%Z -> getR (e_vals m) (r * nnz + q) =
     if (q =? dslot f * nF + r mod nF)%Z then 1 else 0).
  { intros r q Hr Hq. unfold getR. rewrite Ev. rewrite (proj2 (fun_arr_rep (nnz * N) h)) by nia.
    unfold h. replace ((r * nnz + q) / nnz)%Z with r by (rewrite Z.div_add_l, Z.div_small by lia; lia).
    unfold diag_ix. fold nnz. destruct (Z.eqb_spec q (dslot f * nF + r mod nF)).
    - subst q. now rewrite Z.eqb_refl.
    - replace (_ =? _)%Z with false by lia. reflexivity. }
  assert (Hq0 : forall r, (0 <= dslot f * nF + r mod nF < nnz)%Z).
  { intros r. pose proof (Z.mod_pos_bound r nF). unfold nnz. nia. }
  split.
  - intros r c Hr. unfold dense. rewrite (wf_nnz _ _ _ _ W). fold nnz.
    rewrite (rsum_single _ _ (dslot f * nF + r mod nF)%Z); [|apply NoDup_zrange|now apply in_zrange|].
    + rewrite G by (assumption || apply Hq0). rewrite Z.eqb_refl.
      change (r * nnz + (dslot f * nF + r mod nF))%Z with (diag_ix (slots f) (dslot f) nF r).
      now rewrite (fmatrix_diag f nF nx ny nz m r).
    + intros q Hq Ne. apply in_zrange in Hq. rewrite G by assumption.
      replace (q =? _)%Z with false by lia. now destruct (_ =? c)%Z.
  - intros r Hr. change (diag_ix (slots f) (dslot f) nF r) with (r * nnz + (dslot f * nF + r mod nF))%Z.
    rewrite G by (assumption || apply Hq0). now rewrite Z.eqb_refl.
Qed.

Lemma sqrt_zero_sum (l : list Z) : sqrt (rsum l (fun _ => 0)) = 0.
Proof. rewrite rsum_zero by reflexivity. apply sqrt_0. Qed.

(** C13 and C12 refuted: one iteration on the identity matrix is exact, yet the
    reported error is that of the start vector; budget 0 performs one iteration *)
Lemma cg_stale f nF nx ny nz : (1 <= nF)%Z -> (2 <= nx)%Z -> (2 <= ny)%Z -> (2 <= nz)%Z ->
  exists m, fmatrix f nF nx ny nz m /\ wf_ell m (slots f) nF (nodes f nx ny nz) /\
    forall b x bf sv, rep b (nodes f nx ny nz * nF) bf -> rep x (nodes f nx ny nz * nF) (fun _ => 0) ->
      (s_max_its sv <= 1)%Z -> 0 < s_min_tol sv -> s_min_tol sv <= residual_norm m bf (fun _ => 0) ->
      exists sv' x' xf', run_cg f sv m nF nx ny nz b x = Ok (sv', x') /\ rep x' (nodes f nx ny nz * nF) xf' /\
        s_its sv' = 1%Z /\ s_err sv' = residual_norm m bf (fun _ => 0) /\ residual_norm m bf xf' = 0 /\
        s_err sv' <> residual_norm m bf xf'.
Proof.
  intros HF Hx Hy Hz. destruct (ident_exists f nF nx ny nz HF Hx Hy Hz) as (m & M & W & Dn & Dg).
  exists m. split; [exact M|]. split; [exact W|]. intros b x bf sv B X Hm Ht Hb.
  set (N := (nodes f nx ny nz * nF)%Z) in *.
  assert (Mu : forall v r, (0 <= r < N)%Z -> mul m v r = v r).
  { intros v r Hr. apply (mul_ident f m nF nx ny nz W r v Hr). intros c Hc. now apply Dn. }
  rewrite ROps_J.
  destruct (run_result g0 f m nF nx ny nz b x bf _ W B X sv) as (x' & er & its & E & j & Ei & Rx & Hno & C).
  assert (Ej : j = 1%nat).
  { destruct C as [(C1 & C2 & C3)|(C0 & C1 & C2)]; [|lia].
    exfalso. assert (j = 0)%nat as -> by lia. rewrite (run_resid g0 f m nF nx ny nz bf (fun _ => 0) W), (resid_norm f m nF nx ny nz bf W) in C1.
    cbn [sx runSq cgseq runS0 cg_init] in C1. lra. }
  subst j. destruct C as [(C1 & C2 & [C3|C3])|(C0 & C1 & C2)]; try lia.
  set (s0 := runSq g0 f m nF nx ny nz bf (fun _ => 0) 0) in *.
  set (K := runK g0 f m nF). set (A := runA g0 f m nF).
  assert (Er : forall r, (0 <= r < N)%Z -> sr s0 r = - bf r).
  { intros r Hr. unfold s0. rewrite run_residual by assumption. rewrite Mu by exact Hr. cbn. lra. }
  assert (Ek : forall r, (0 <= r < N)%Z -> K r = 1).
  { intros r Hr. unfold K, runK. rewrite Dg by exact Hr. rewrite Rdivj_nz by lra. field. }
  set (pp := @cgp R (ROpsJ g0) N K true s0).
  assert (Ep : forall r, (0 <= r < N)%Z -> pp r = - bf r).
  { intros r Hr. unfold pp, cgp, cgz. cbn [omul ROpsJ]. rewrite Ek, Er by exact Hr. lra. }
  assert (EA : forall r, (0 <= r < N)%Z -> A pp r = - bf r).
  { intros r Hr. unfold A. rewrite (runA_mul g0 f m nF nx ny nz W) by exact Hr. rewrite Mu by exact Hr. now apply Ep. }
  assert (Hpos : vdot N (fun r => - bf r) (fun r => - bf r) <> 0).
  { intros E0. assert (residual_norm m bf (fun _ => 0) = 0); [|lra].
    unfold residual_norm. rewrite (wf_nrow _ _ _ _ W). fold N. transitivity (sqrt (vdot N (fun r => - bf r) (fun r => - bf r))); [|rewrite E0; apply sqrt_0]. f_equal.
    apply rsum_ext. intros r Hr. apply in_zrange in Hr. rewrite Mu by exact Hr. cbn beta. ring. }
  assert (Ed : @cgd R (ROpsJ g0) N A K true s0 = 1).
  { unfold cgd. cbn [odiv ROpsJ]. unfold cgrho. rewrite !dotf_R. fold pp.
    rewrite (vdot_ext N (sr s0) _ (fun r => - bf r) (fun r => - bf r)), (vdot_ext N pp (A pp) (fun r => - bf r) (fun r => - bf r)); auto.
    - rewrite Rdivj_nz by exact Hpos. now field.
  }
  assert (Ex : forall r, (0 <= r < N)%Z -> sx (runSq g0 f m nF nx ny nz bf (fun _ => 0) 1) r = bf r).
  { intros r Hr. change (0 - @cgd R (ROpsJ g0) N A K true s0 * pp r = bf r). rewrite Ed, Ep by exact Hr. lra. }
  assert (E0 : residual_norm m bf (sx (runSq g0 f m nF nx ny nz bf (fun _ => 0) 1)) = 0).
  { unfold residual_norm. rewrite (wf_nrow _ _ _ _ W). fold N.
    transitivity (sqrt (rsum (zrange 0 N) (fun _ => 0))); [f_equal|apply sqrt_zero_sum]. apply rsum_ext. intros r Hr. apply in_zrange in Hr.
    rewrite Mu, Ex by exact Hr. lra. }
  assert (Ee : er = residual_norm m bf (fun _ => 0)).
  { rewrite C2. cbn [Nat.sub]. rewrite (run_resid g0 f m nF nx ny nz bf (fun _ => 0) W), (resid_norm f m nF nx ny nz bf W). reflexivity. }
  eexists _, x', _. split; [exact E|]. split; [exact Rx|]. cbn [s_its s_err].
  split; [lia|]. split; [exact Ee|]. split; [exact E0|]. rewrite E0, Ee. lra.
Qed.

Lemma fmatrix_wf f nF nx ny nz m vf : (1 <= nF)%Z -> (2 <= nx)%Z -> (2 <= ny)%Z ->
  fmatrix f nF nx ny nz m -> rep (e_vals m) ((slots f * nF) * (nodes f nx ny nz * nF)) vf ->
  wf_ell m (slots f) nF (nodes f nx ny nz).
Proof.
  intros HF Hx Hy M V. destruct f; cbn [slots nodes fmatrix] in *.
  - now apply (matrix2_wf nF nx ny m vf).
  - now apply (matrix2_wf nF nx ny m vf).
  - destruct M. now apply (matrix3_wf nF nx ny nz m vf).
Qed.

Lemma ones_norm f nF nx ny nz m : wf_ell m (slots f) nF (nodes f nx ny nz) -> (0 < nodes f nx ny nz * nF)%Z ->
  0 < residual_norm m (fun _ => 1) (fun _ => 0).
Proof.
  intros W H. unfold residual_norm. rewrite (wf_nrow _ _ _ _ W).
  rewrite (rsum_ext _ _ (fun _ => 1)).
  - rewrite rsum_const, length_zrange. apply sqrt_lt_R0. rewrite Rmult_1_r. apply lt_0_INR. lia.
  - intros i _. unfold mul. rewrite rsum_zero; [ring|]. intros; ring.
Qed.

Lemma cg_budget_refuted f nF nx ny nz :
  (1 <= nF)%Z -> (2 <= nx)%Z -> (2 <= ny)%Z -> (2 <= nz)%Z -> forall budget, (budget <= 0)%Z ->
  exists m b x sv sv' x', wf_ell m (slots f) nF (nodes f nx ny nz) /\ s_max_its sv = budget /\
    run_cg f sv m nF nx ny nz b x = Ok (sv', x') /\ s_its sv' = 1%Z.
Proof.
  intros HF Hx Hy Hz bu Hb. destruct (cg_stale f nF nx ny nz HF Hx Hy Hz) as (m & _ & W & H).
  set (N := (nodes f nx ny nz * nF)%Z) in *.
  assert (Hn : (0 < N)%Z) by (unfold N; destruct f; simpl; nia).
  pose proof (ones_norm f nF nx ny nz m W Hn) as P.
  destruct (H (fun_arr N (fun _ => 1)) (fun_arr N (fun _ => 0)) _ (mkSolver bu 0 (residual_norm m (fun _ => 1) (fun _ => 0)) 0) (fun_arr_rep _ _) (fun_arr_rep _ _))
    as (sv' & x' & xf' & E & _ & E1 & _); cbn [s_max_its s_min_tol]; try lia; try lra.
  exists m. eexists _, _, _, sv', x'. split; [exact W|]. split; [|split; [exact E|exact E1]]. reflexivity.
Qed.

Lemma cg_err_partial f m nF nx ny nz b x bf xf :
  wf_ell m (slots f) nF (nodes f nx ny nz) ->
  rep b (nodes f nx ny nz * nF) bf -> rep x (nodes f nx ny nz * nF) xf ->
  forall sv, exists sv' x' xf', run_cg f sv m nF nx ny nz b x = Ok (sv', x') /\
    rep x' (nodes f nx ny nz * nF) xf' /\
    (s_err sv' = residual_norm m bf xf' /\ s_err sv' < s_min_tol sv \/
     s_min_tol sv <= s_err sv' /\ s_its sv' = Z.max 1 (s_max_its sv) /\
     (s_its sv' = 1%Z /\ s_err sv' = residual_norm m bf xf \/
      exists sv2 x2 xf2, run_cg f (mkSolver (s_its sv' - 1) (s_its sv) (s_min_tol sv) (s_err sv)) m nF nx ny nz b x = Ok (sv2, x2) /\
        rep x2 (nodes f nx ny nz * nF) xf2 /\ s_err sv' = residual_norm m bf xf2)).
Proof.
  intros W B X sv. rewrite ROps_J.
  destruct (run_result g0 f m nF nx ny nz b x bf xf W B X sv) as (x' & er & its & E & j & Ei & Rx & Hno & C).
  assert (RN : forall i, sqrt (vdot (nodes f nx ny nz * nF) (sr (runSq g0 f m nF nx ny nz bf xf i)) (sr (runSq g0 f m nF nx ny nz bf xf i)))
     = residual_norm m bf (sx (runSq g0 f m nF nx ny nz bf xf i))).
  { intros i. now rewrite (run_resid g0 f m nF nx ny nz bf xf W), (resid_norm f m nF nx ny nz bf W). }
  eexists _, x', _. split; [exact E|]. split; [exact Rx|]. cbn [s_its s_err].
  destruct C as [(C1 & C2 & C3)|(C0 & C1 & C2)]; [left|right].
  - rewrite <- RN. lra.
  - split; [rewrite C2; apply Hno; lia|]. split; [lia|].
    destruct (Nat.eq_dec j 1) as [->|N1]; [left|right].
    + split; [lia|]. now rewrite C2, RN.
    + destruct (run_result g0 f m nF nx ny nz b x bf xf W B X (mkSolver (its - 1) (s_its sv) (s_min_tol sv) (s_err sv)))
        as (x2 & er2 & its2 & E2 & j2 & Ei2 & Rx2 & Hno2 & D).
      cbn [s_min_tol s_max_its] in *.
      assert (Ej : j2 = (j - 1)%nat).
      { destruct D as [(D1 & D2 & D3)|(D0 & D1 & D2)]; [|lia].
        exfalso. assert (L : (j2 < j)%nat) by lia. specialize (Hno j2 L). lra. }
      eexists _, x2, _. split; [exact E2|]. split; [exact Rx2|]. rewrite C2, RN, Ej. reflexivity.
Qed.

Lemma cg_case : exists m, wf_ell m (slots CG2D) 2 (nodes CG2D 4 4 1) /\
  exists b x bf xf, rep b (nodes CG2D 4 4 1 * 2) bf /\ rep x (nodes CG2D 4 4 1 * 2) xf /\
    residual_norm m bf xf <> 0.
Proof.
  destruct (ident_exists CG2D 2 4 4 2) as (m & _ & W & _); try lia. exists m. split; [exact W|].
  pose proof (ones_norm CG2D 2 4 4 1 m W ltac:(simpl; lia)).
  exists (fun_arr (nodes CG2D 4 4 1 * 2) (fun _ => 1)), (fun_arr (nodes CG2D 4 4 1 * 2) (fun _ => 0)), (fun _ => 1), (fun _ => 0).
  split; [apply fun_arr_rep|]. split; [apply fun_arr_rep|]. lra.
Qed.

(** identity rows everywhere, dof 0 constrained *)
Lemma spd_case f nF nx ny nz : (1 <= nF)%Z -> (3 <= nx)%Z -> (3 <= ny)%Z -> (3 <= nz)%Z ->
  exists (m : ell R) (free : Z -> Prop), let N := (nodes f nx ny nz * nF)%Z in
  fmatrix f nF nx ny nz m /\ wf_ell m (slots f) nF (nodes f nx ny nz) /\
  (exists r, (0 <= r < N)%Z /\ free r) /\ (exists r, (0 <= r < N)%Z /\ ~ free r) /\
  (forall r, (0 <= r < N)%Z -> ~ free r ->
     (forall c, (0 <= c < N)%Z -> dense m r c = if (r =? c)%Z then 1 else 0)) /\
  (forall r c, (0 <= r < N)%Z -> (0 <= c < N)%Z -> free r -> free c -> dense m r c = dense m c r) /\
  (forall v, (forall r, (0 <= r < N)%Z -> ~ free r -> v r = 0) ->
     (exists r, (0 <= r < N)%Z /\ v r <> 0) -> 0 < rsum (zrange 0 N) (fun r => v r * mul m v r)) /\
  (forall r, (0 <= r < N)%Z -> 0 < getR (e_vals m) (diag_ix (slots f) (dslot f) nF r)).
Proof.
  intros HF Hx Hy Hz. destruct (ident_exists f nF nx ny nz) as (m & M & W & D & G); try lia.
  exists m, (fun r => r <> 0%Z). cbn zeta. set (N := (nodes f nx ny nz * nF)%Z) in *.
  assert (Hn : (2 <= N)%Z) by (unfold N; destruct f; simpl; nia).
  split; [exact M|]. split; [exact W|]. split; [exists 1%Z; lia|]. split; [exists 0%Z; lia|].
  split; [intros; now apply D|]. split.
  { intros r c Hr Hc _ _. rewrite !D by assumption. now rewrite Z.eqb_sym. }
  split; [|intros r Hr; rewrite G by exact Hr; lra].
  intros v _ (r0 & Hr0 & Hv).
  rewrite (rsum_ext _ _ (fun r => v r * v r)).
  2:{ intros r Hr. apply in_zrange in Hr. f_equal. apply (mul_ident f m nF nx ny nz W r v Hr). intros c Hc. now apply D. }
  destruct (Rle_lt_or_eq_dec 0 (rsum (zrange 0 N) (fun r => v r * v r))) as [|E]; [|assumption|].
  - apply rsum_nonneg. intros; nra.
  - exfalso. symmetry in E. assert (v r0 * v r0 = 0); [|nra].
    apply (rsum_nonneg_zero (zrange 0 N) (fun r => v r * v r)); [intros; nra|exact E|now apply in_zrange].
Qed.
