(** A value absorbed by no operation and below nothing, in any arithmetic: how it spreads
    through strain, stress, averages, residual and the solver.  At [F64] it is the NaN. *)
From Coq Require Import ZifyBool ZifyNat.
From Verif Require Import Base Scalar EllSpec EllInit EllModel EllAsm EllOp EllFinal Grid CgPure CgFinal CgProps AssemblyModel AsmPure AsmBnd
  AsmRun MicroModel NewtonBase.
Open Scope Z_scope.

Record nan_like {T} {OT : Ops T} (N : T -> Prop) : Prop := {
  nan_add_l : forall x y, N x -> N (oadd x y); nan_add_r : forall x y, N y -> N (oadd x y);
  nan_sub_l : forall x y, N x -> N (osub x y); nan_sub_r : forall x y, N y -> N (osub x y);
  nan_mul_l : forall x y, N x -> N (omul x y); nan_mul_r : forall x y, N y -> N (omul x y);
  nan_div_l : forall x y, N x -> N (odiv x y); nan_div_r : forall x y, N y -> N (odiv x y);
  nan_opp : forall x, N x -> N (oopp x); nan_sqrt : forall x, N x -> N (osqrt x); nan_abs : forall x, N x -> N (oabs x);
  nan_lt_l : forall x y, N x -> oltb x y = false; nan_lt_r : forall x y, N y -> oltb x y = false }.

Section Nan.
Context {T : Type} `{OT : Ops T}.
Variable N : T -> Prop.
Hypothesis HN : nan_like N.
Implicit Types (V : env T) (w : work T).

Local Ltac nan := first [assumption | (apply (nan_add_l N HN); nan) | (apply (nan_sub_l N HN); nan) | (apply (nan_mul_l N HN); nan) |
  (apply (nan_div_l N HN); nan) | (apply (nan_add_r N HN); nan) | (apply (nan_sub_r N HN); nan) |
  (apply (nan_mul_r N HN); nan) | (apply (nan_div_r N HN); nan) | (apply (nan_opp N HN); nan) | (apply (nan_sqrt N HN); nan) |
  (apply (nan_abs N HN); nan) | solve [auto]].

(** ** Sums *)
Lemma fold_add_start {A} (l : list A) f z : N z -> N (fold_left (fun acc x => oadd acc (f x)) l z).
Proof. revert z. induction l as [|a l IH]; intros z H; cbn [fold_left]; [exact H|]. apply IH. nan. Qed.
Lemma fold_add_in {A} (l : list A) (f : A -> T) z x : In x l -> N (f x) -> N (fold_left (fun acc x => oadd acc (f x)) l z).
Proof.
  revert z. induction l as [|a l IH]; intros z H Hx; [destruct H|]. cbn [fold_left]. destruct H as [->|H].
  - apply fold_add_start. nan.
  - now apply IH.
Qed.
Lemma sumf_nan {A} (l : list A) f x : In x l -> N (f x) -> N (sumf l f).
Proof. apply fold_add_in. Qed.
Lemma deltas_nan l z x : In x l -> N x -> N (fold_left oadd l z).
Proof. exact (fold_add_in l (fun x => x) z x). Qed.

(** all the entries of a list *)
Definition alln (n : Z) (l : list T) : Prop := forall v, 0 <= v < n -> N (lget l v).

(** a fold of componentwise additions *)
Lemma fold_vec {A} (n : Z) (add : list T -> A -> list T) (s : A -> list T) (l : list A) z :
  (forall z a v, 0 <= v < n -> N (lget z v) -> N (lget (add z a) v)) ->
  (forall z a v, 0 <= v < n -> alln n (s a) -> N (lget (add z a) v)) ->
  (exists a, In a l /\ alln n (s a)) -> alln n (fold_left add l z).
Proof.
  intros K C (a & Ha & Hs).
  assert (P : forall l z, alln n z -> alln n (fold_left add l z)).
  { clear - K. induction l as [|b l IH]; intros z H; [exact H|]. cbn [fold_left]. apply IH. intros v Hv. apply K; auto. }
  revert z. induction l as [|b l IH]; intros z; [destruct Ha|]. cbn [fold_left]. destruct Ha as [->|Ha].
  - apply P. intros v Hv. now apply C.
  - now apply IH.
Qed.

(** ** Strain and stress *)
Lemma strain2_nan V uf e g i : 0 <= i < 8 -> N (disp2 V uf e i) -> alln 3 (strain2 V uf e g).
Proof.
  intros Hi H v Hv. unfold strain2, strain_of. rewrite lget_ltab by lia.
  apply (sumf_nan _ _ i); [now apply in_zrange|]. rewrite lget_ltab by lia. nan.
Qed.
Lemma strain3_nan V uf e g i : 0 <= i < 24 -> N (disp3 V uf e i) -> alln 6 (strain3 V uf e g).
Proof.
  intros Hi H v Hv. unfold strain3, strain_of. rewrite lget_ltab by lia.
  apply (sumf_nan _ _ i); [now apply in_zrange|]. rewrite lget_ltab by lia. nan.
Qed.
Lemma sig2_nan V e eps : alln 3 eps -> alln 3 (sig2 V e eps).
Proof.
  intros H v Hv. unfold sig2, stress2. rewrite lget_ltab by lia. apply (sumf_nan _ _ 0); [now apply in_zrange|].
  apply (nan_mul_r N HN). apply H. lia.
Qed.
Lemma dev_nan t : alln 6 t -> alln 6 (dev t).
Proof. intros H v Hv. unfold dev. rewrite lget_ltab by lia. specialize (H v Hv). destruct (v <? 3); nan. Qed.
Lemma step_nan m eps ep al : alln 6 eps -> ps_nl (plastic_step m eps ep al) = false /\ alln 6 (ps_stress (plastic_step m eps ep al)).
Proof.
  intros H. pose proof (dev_nan _ H) as Hd. unfold plastic_step.
  set (s := ltab 6 (fun i => if i <? 3 then _ else _)).
  assert (Hs : alln 6 s).
  { intros v Hv. unfold s. rewrite lget_ltab by lia. specialize (Hd v Hv). destruct (v <? 3); nan. }
  set (nrm := osqrt _). assert (Hn : N nrm) by (specialize (Hs 0 ltac:(lia)); unfold nrm; nan).
  set (f := osub nrm _). assert (Hf : N f) by (unfold f; nan).
  cbn [ps_nl ps_stress]. rewrite (nan_lt_r N HN (ofZ 0) f Hf). split; [reflexivity|].
  intros v Hv. rewrite lget_ltab by lia. specialize (Hs v Hv). destruct (v <? 3); nan.
Qed.
Lemma sig3_nan V of e g eps : alln 6 eps -> alln 6 (sig3 V of e g eps).
Proof.
  intros H. unfold sig3. destruct plastic_at; [now apply step_nan|]. intros v Hv. unfold lin_stress3. rewrite lget_ltab by lia.
  specialize (H v Hv). destruct (v <? 3); nan.
Qed.

(** ** Averages and residuals of a cell with such a displacement *)
Lemma aux2_nan V uf e i : 0 <= i < 8 -> N (disp2 V uf e i) -> alln 3 (aux2 V uf e).
Proof.
  intros Hi H. unfold aux2. apply (fold_vec 3 _ (fun g => sig2 V e (strain2 V uf e g))).
  - intros z a v Hv Hz. unfold add_ave. rewrite lget_ltab by lia. nan.
  - intros z a v Hv Hz. unfold add_ave. rewrite lget_ltab by lia. specialize (Hz v Hv). nan.
  - exists 0. split; [now apply in_zrange|]. apply sig2_nan. now apply (strain2_nan V uf e 0 i).
Qed.
Lemma aux3_nan V uf of e i : 0 <= i < 24 -> N (disp3 V uf e i) -> alln 6 (aux3 V uf of e).
Proof.
  intros Hi H. unfold aux3. apply (fold_vec 6 _ (fun g => sig3 V of e g (strain3 V uf e g))).
  - intros z a v Hv Hz. unfold add_ave. rewrite lget_ltab by lia. nan.
  - intros z a v Hv Hz. unfold add_ave. rewrite lget_ltab by lia. specialize (Hz v Hv). nan.
  - exists 0. split; [now apply in_zrange|]. apply sig3_nan. now apply (strain3_nan V uf e 0 i).
Qed.
Lemma ave2_nan V a : (exists e, In e (els2 V) /\ alln 3 (a e)) -> alln 3 (ave2 V a).
Proof.
  intros H v Hv. unfold ave2. rewrite lget_ltab by lia. apply (nan_div_l N HN).
  apply (fold_vec 3 (fun s e => add_vec 3 (a e) s) a); try exact H; try exact Hv; intros z b u Hu Hz; unfold add_vec; rewrite lget_ltab by lia;
    [nan|]. specialize (Hz u Hu). nan.
Qed.
Lemma ave3_nan V a : (exists e, In e (els3 V) /\ alln 6 (a e)) -> alln 6 (ave3 V a).
Proof.
  intros H v Hv. unfold ave3. rewrite lget_ltab by lia. apply (nan_div_l N HN).
  apply (fold_vec 6 (fun s e => add_vec 6 (a e) s) a); try exact H; try exact Hv; intros z b u Hu Hz; unfold add_vec; rewrite lget_ltab by lia;
    [nan|]. specialize (Hz u Hu). nan.
Qed.
Lemma be2_nan V uf e i : 0 <= i < 8 -> N (disp2 V uf e i) -> alln 8 (be2 V uf e).
Proof.
  intros Hi H. unfold be2. apply (fold_vec 8 _ (fun g => ltab 8 (fun _ => lget (sig2 V e (strain2 V uf e g)) 0))).
  - intros z a v Hv Hz. unfold add_rhs. rewrite lget_ltab by lia. apply fold_add_start. exact Hz.
  - intros z a v Hv Hz. unfold add_rhs. rewrite lget_ltab by lia. apply (fold_add_in _ _ _ 0); [now apply in_zrange|].
    specialize (Hz v Hv). rewrite lget_ltab in Hz by lia. nan.
  - exists 0. split; [now apply in_zrange|]. intros v Hv. rewrite lget_ltab by lia. apply sig2_nan; [|lia]. now apply (strain2_nan V uf e 0 i).
Qed.
Lemma be3_nan V uf of e i : 0 <= i < 24 -> N (disp3 V uf e i) -> alln 24 (be3 V uf of e).
Proof.
  intros Hi H. unfold be3. apply (fold_vec 24 _ (fun g => ltab 24 (fun _ => lget (sig3 V of e g (strain3 V uf e g)) 0))).
  - intros z a v Hv Hz. unfold add_rhs. rewrite lget_ltab by lia. apply fold_add_start. exact Hz.
  - intros z a v Hv Hz. unfold add_rhs. rewrite lget_ltab by lia. apply (fold_add_in _ _ _ 0); [now apply in_zrange|].
    specialize (Hz v Hv). rewrite lget_ltab in Hz by lia. nan.
  - exists 0. split; [now apply in_zrange|]. intros v Hv. rewrite lget_ltab by lia. apply sig3_nan; [|lia]. now apply (strain3_nan V uf e 0 i).
Qed.

(** ** Every degree of freedom belongs to a cell *)
Lemma dof_cell2 V uf a : sane V -> v_dim V = 2 -> 0 <= a < ndofs V -> exists e i, In e (els2 V) /\ 0 <= i < 8 /\ disp2 V uf e i = uf a.
Proof.
  intros S D Ha. rewrite (ndofs_eq2 V S D) in Ha. pose proof (sa_nx V S) as Hx. pose proof (sa_ny V S) as Hy.
  destruct (dof2_cases a _ Ha) as (Hn & Hc & Ea).
  destruct (node_surj (v_nx V) (v_ny V) 1 (a / 2)) as (i & j & k & Hi & Hj & Hk & En); try lia. assert (k = 0) by lia. subst k.
  set (ex := Z.min i (v_nx V - 2)). set (ey := Z.min j (v_ny V - 2)).
  set (cx := i - ex). set (cy := j - ey). assert (Cx : cx = 0 \/ cx = 1) by lia. assert (Cy : cy = 0 \/ cy = 1) by lia.
  assert (Q : exists k, 0 <= k < 4 /\ cor_x k = cx /\ cor_y k = cy).
  { destruct Cx as [-> | ->], Cy as [-> | ->]; [exists 0|exists 3|exists 1|exists 2]; repeat split; lia. }
  destruct Q as (k & Hk' & Kx & Ky). exists (ex, ey), (k * 2 + a mod 2). split; [apply in_els2; lia|]. split; [lia|].
  unfold disp2. f_equal. replace ((k * 2 + a mod 2) / 2) with k by (clear - Hc; Z.div_mod_to_equations; lia).
  replace ((k * 2 + a mod 2) mod 2) with (a mod 2) by (clear - Hc; Z.div_mod_to_equations; lia).
  unfold corner2. rewrite Kx, Ky. replace (ex + cx) with i by lia. replace (ey + cy) with j by lia. lia.
Qed.
Lemma dof_cell3 V uf a : sane V -> v_dim V = 3 -> 0 <= a < ndofs V -> exists e i, In e (els3 V) /\ 0 <= i < 24 /\ disp3 V uf e i = uf a.
Proof.
  intros S D Ha. rewrite (ndofs_eq3 V D) in Ha. pose proof (sa_nx V S) as Hx. pose proof (sa_ny V S) as Hy. pose proof (sane_nz V S D) as Hz.
  destruct (dof3_cases a _ Ha) as (Hn & Hc & Ea).
  destruct (node_surj (v_nx V) (v_ny V) (v_nz V) (a / 3)) as (i & j & k & Hi & Hj & Hk & En); try lia.
  set (ex := Z.min i (v_nx V - 2)). set (ey := Z.min j (v_ny V - 2)). set (ez := Z.min k (v_nz V - 2)).
  set (cx := i - ex). set (cy := j - ey). set (cz := k - ez).
  assert (Cx : cx = 0 \/ cx = 1) by lia. assert (Cy : cy = 0 \/ cy = 1) by lia. assert (Cz : cz = 0 \/ cz = 1) by lia.
  assert (Q : exists k, 0 <= k < 8 /\ cor_x k = cx /\ cor_y k = cy /\ cor_z k = cz).
  { destruct Cx as [-> | ->], Cy as [-> | ->], Cz as [-> | ->]; [exists 0|exists 4|exists 3|exists 7|exists 1|exists 5|exists 2|exists 6]; repeat split; lia. }
  destruct Q as (q & Hq & Kx & Ky & Kz). exists (ex, ey, ez), (q * 3 + a mod 3). split; [apply in_els3; lia|]. split; [lia|].
  unfold disp3. f_equal. replace ((q * 3 + a mod 3) / 3) with q by (clear - Hc; Z.div_mod_to_equations; lia).
  replace ((q * 3 + a mod 3) mod 3) with (a mod 3) by (clear - Hc; Z.div_mod_to_equations; lia).
  unfold corner3. rewrite Kx, Ky, Kz. replace (ex + cx) with i by lia. replace (ey + cy) with j by lia. replace (ez + cz) with k by lia. lia.
Qed.

(** ** The average stress *)
Lemma ave_stress_nan V u vold vnew s vn : sane V -> full u (ndofs V) -> has_old V vold -> alen vnew = nvars V ->
  calc_ave_stress V u vold vnew = Ok (s, vn) -> (exists a, 0 <= a < ndofs V /\ N (oval u a)) -> alln (nvoi V) s.
Proof.
  intros S U O L E (a & Ha & Hn). pose proof (full_oval _ _ U) as RU. unfold nvoi. destruct (dim_cases V S) as [D|D].
  - destruct (dof_cell2 V (oval u) a S D Ha) as (e & i & He & Hi & Ei). rewrite (ndofs_eq2 V S D) in RU.
    rewrite (ave_stress2_ok V _ S u vold vnew D RU) in E. injection E as <- _. rewrite D. cbn [Z.eqb Pos.eqb].
    apply ave2_nan. exists e. split; [exact He|]. apply (aux2_nan V _ e i Hi). now rewrite Ei.
  - destruct (dof_cell3 V (oval u) a S D Ha) as (e & i & He & Hi & Ei). rewrite (ndofs_eq3 V D) in RU. rewrite nvars_eq in L.
    destruct (ave_stress3_ok V _ _ S u vold vnew D RU (has_old_ok _ _ O) L) as (vn' & E' & _). rewrite E' in E. injection E as <- _.
    rewrite D. cbn [Z.eqb Pos.eqb]. apply ave3_nan. exists e. split; [exact He|]. apply (aux3_nan V _ _ e i Hi). now rewrite Ei.
Qed.

(** ** The solver *)
Lemma solve_nan V A b du : sane V -> full_mat V A -> full b (ndofs V) -> full du (ndofs V) ->
  (exists a, 0 <= a < ndofs V /\ N (oval b a)) ->
  exists du', solve V A b du = Ok du' /\ full du' (ndofs V) /\ forall a, 0 <= a < ndofs V -> N (oval du' a).
Proof.
  intros S (M & F) B X (a0 & Ha0 & Hn). pose proof (sa_nx V S) as Hx. pose proof (sa_ny V S) as Hy.
  assert (G : forall f nF nx ny nz, wf_ell A (slots f) nF (nodes f nx ny nz) -> ndofs V = nodes f nx ny nz * nF ->
    exists sv x, run_cg f (mkSolver cg_its 0 cg_tol (ofZ 0)) A nF nx ny nz b du = Ok (sv, x) /\ full x (ndofs V) /\
      forall a, 0 <= a < ndofs V -> N (oval x a)).
  { intros f nF nx ny nz W En. rewrite run_cgpd. pose proof (full_oval _ _ B) as RB. pose proof (full_oval _ _ X) as RX. rewrite En in *.
    destruct (wf_vals _ _ _ _ W) as (vf & Vv).
    destruct (cgpd_ok A (slots f) (dslot f) nF (nodes f nx ny nz) (colsf A) vf (mkSolver cg_its 0 cg_tol (ofZ 0)) b du (oval b) (oval du)
      W (dslot_range f) (wf_reps _ _ _ _ W) Vv RB RX) as (x' & er & its & E & j & _ & Ei & Rx & Hno & C).
    cbn [s_max_its s_min_tol] in *. eexists _, x'. split; [exact E|]. split; [eapply rep_full; exact Rx|].
    set (s0 := cg_init _ _ _ _ _) in *. set (sq := cgseq _ _ _ s0) in *.
    assert (R0 : N (sr s0 a0)) by (unfold s0, cg_init; cbn [sr]; nan).
    assert (D0 : N (cgnorm (nodes f nx ny nz * nF) s0)).
    { unfold cgnorm, dotf. apply (nan_sqrt N HN). apply (sumf_nan _ _ a0); [now apply in_zrange|]. nan. }
    assert (Hj : j <> 0%nat).
    { intros ->. destruct C as [(C & _)|(C & _)]; [|congruence]. change (sq 0%nat) with s0 in C. rewrite (nan_lt_l N HN _ _ D0) in C. discriminate. }
    assert (Q : forall k i, N (sx (sq (Datatypes.S k)) i)).
    { induction k as [|k IH]; intros i.
      - unfold sq. cbn [cgseq Nat.eqb]. unfold cgstep. cbn [sx]. apply (nan_sub_r N HN), (nan_mul_l N HN). unfold cgd. apply (nan_div_l N HN).
        unfold cgrho, dotf. apply (sumf_nan _ _ a0); [now apply in_zrange|]. nan.
      - change (sq (Datatypes.S (Datatypes.S k))) with (cgstep (nodes f nx ny nz * nF) (mvf (slots f * nF) (colsf A) vf)
          (fun i => odiv (ofZ 1) (vf (diag_ix (slots f) (dslot f) nF i))) (Nat.eqb (Datatypes.S k) 0) (sq (Datatypes.S k))).
        unfold cgstep. cbn [sx]. apply (nan_sub_l N HN). apply IH. }
    intros a Ha. unfold oval. rewrite (proj2 Rx a Ha). destruct j as [|j]; [congruence|]. apply Q. }
  unfold solve, is_mat in *. destruct (dim_cases V S) as [D|D]; rewrite D in *; cbn [Z.eqb Pos.eqb] in *.
  - destruct (G CG2D 2 (v_nx V) (v_ny V) 1) as (sv & x & E & Fx & Nx).
    + apply matrix2_wfg; try assumption. lia.
    + rewrite (ndofs_eq2 V S D). reflexivity.
    + cbn [run_cg] in E. rewrite E. cbn [bind snd]. exists x. auto.
  - pose proof (sane_nz V S D) as Hz. destruct (G CGstruct3 3 (v_nx V) (v_ny V) (v_nz V)) as (sv & x & E & Fx & Nx).
    + apply matrix3_wfg; try assumption. lia.
    + rewrite (ndofs_eq3 V D). reflexivity.
    + cbn [run_cg] in E. unfold nn. rewrite E. cbn [bind snd]. exists x. auto.
Qed.
End Nan.
