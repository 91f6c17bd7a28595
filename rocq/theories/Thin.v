(** Grids two nodes thick in some direction have no interior node: the residual is zero
    for every strain, the Newton loop stops at its first test, and the response is the
    average over the cells of the material law at the macroscopic strain. *)
From Coq Require Import Reals Lra ZifyBool.
From Verif Require Import Base Scalar EllSpec EllInit EllModel EllFinal EllProps Grid CgPure CgFinal CgProps AssemblyModel AsmPure AsmBnd AsmRun
  FemGen FemAve AsmMat FemMat FemMat2 FemDef FemPd FemRhs FemEquil AsmSpec AsmProps AsmEquil MicroModel NewtonBase NewtonReal.
Open Scope Z_scope.
Open Scope R_scope.

Definition thin3 (V : env R) : Prop := (v_nx V = 2 \/ v_ny V = 2 \/ v_nz V = 2)%Z.
Definition e6 (eps : list R) : list R := ltab 6 (lget eps).

Lemma thin_face V i j k : thin3 V -> is_node3 V i j k -> on_face3 V i j k.
Proof. unfold thin3, is_node3, on_face3. lia. Qed.
Lemma thin_bdof V r : sane V -> v_dim V = 3%Z -> thin3 V -> (0 <= r < ndofs V)%Z -> bdof V r.
Proof.
  intros S D H Hr. rewrite (ndofs3 V D) in Hr. destruct (dof3_surj V S D r Hr) as (i & j & k & c & Hi & Hj & Hk & Hc & -> & Hbb).
  apply Hbb. apply on_face. apply thin_face; [exact H|unfold is_node3; tauto].
Qed.
Lemma thin_strain V eps u u' e g : body3 V -> thin3 V -> full u (ndofs V) -> set_displ V eps u = Ok u' -> In e (els3 V) ->
  strain3 V (val u') e g = e6 eps.
Proof.
  intros B H F E He. pose proof B as (S & G & D). destruct e as ((ex, ey), ez). apply in_els3 in He.
  destruct (displ3_spec V eps u B (full_alen _ _ F)) as (u2 & E2 & _ & A & _). rewrite E in E2. injection E2 as <-.
  destruct (displ_ok V eps u S F) as (u2 & E2 & F'). rewrite E in E2. injection E2 as <-.
  destruct (affine_strain3 V (fun _ => 0) (fun c d => lget eps (if (c =? d)%Z then c else if (c + d =? 1)%Z then 3 else if (c + d =? 2)%Z then 4 else 5)%Z / (if (c =? d)%Z then 1 else 2)) u' ex ey ez g B F' He) as (l & El & L0 & L1 & L2 & L3 & L4 & L5).
  { intros n c Hn Hc. assert (N : is_node3 V (ex + cor_x n) (ey + cor_y n) (ez + cor_z n)).
    { unfold is_node3. unfold cor_x, cor_y, cor_z. destruct He as (H1 & H2 & H3).
      assert (X : forall b : bool, (0 <= (if b then 1 else 0) <= 1)%Z) by (intros []; lia).
      repeat match goal with |- context [if ?b then _ else _] => pose proof (X b); generalize dependent (if b then 1 else 0)%Z; intros end. lia. }
    destruct (A _ _ _ N (thin_face _ _ _ _ H N)) as (A0 & A1 & A2). unfold cdof3.
    pattern c. apply case3; [exact Hc|rewrite A0|rewrite A1|rewrite A2]; cbn [Z.eqb Pos.eqb Z.add Pos.add]; f_equal; field. }
  rewrite (strain3_ok V (val u') u' ex ey ez g) in El.
  2:{ rewrite <- (ndofs3 V D). now apply full_rep. }
  2:{ now apply in_els3. }
  injection El as El. cbn [Z.eqb Pos.eqb Z.add Pos.add] in *.
  unfold e6. assert (Q : strain3 V (val u') (ex, ey, ez) g = ltab 6 (lget (strain3 V (val u') (ex, ey, ez) g))).
  { unfold strain3 at 1, strain_of. apply ltab_ext. intros v Hv. unfold strain3, strain_of. now rewrite lget_ltab. }
  rewrite Q. apply ltab_ext. intros v Hv. rewrite El. pattern v. apply case6; [exact Hv|..].
  - rewrite L0. field.
  - rewrite L1. field.
  - rewrite L2. field.
  - rewrite L3. field.
  - rewrite L4. field.
  - rewrite L5. field.
Qed.

Lemma existsb_ext_in {A} (f h : A -> bool) l : (forall x, In x l -> f x = h x) -> existsb f l = existsb h l.
Proof. induction l as [|x l IH]; intros H; [reflexivity|]. cbn. rewrite H by now left. rewrite IH; [reflexivity|]. intros; apply H; now right. Qed.
(** the response of a thin grid, for any oracle *)
Definition thin_flag V (vold : arr R) eps : bool := existsb (fun e => nl3 V (val vold) e 7 (e6 eps)) (els3 V).
Definition thin_stress V (vold : arr R) eps v : R :=
  rsum (els3 V) (fun e => rsum (zrange 0 8) (fun g => lget (sig3 V (val vold) e g (e6 eps)) v * wg3 V)) / (v_lx V * v_ly V).
Theorem thin_respond V fuel pk eps w : body3 V -> thin3 V -> wok V w ->
  exists w' s, respond (S fuel) pk V eps w = Ok (w', thin_flag V (w_vold w) eps, 0%Z, 0, s) /\
    w_vold w' = w_vold w /\ wok V w' /\ (full (w_vnew w) (nvars V) -> full (w_vnew w') (nvars V)) /\
    (forall v, (0 <= v < 6)%Z -> lget s v = thin_stress V (w_vold w) eps v) /\
    forall e g i, In e (els3 V) -> (0 <= g < 8)%Z -> (0 <= i < 7)%Z ->
      aget (w_vnew w') (intvar_ix (ix3 V e) g i) = if plastic_at V (ix3 V e) then Some (newv V (val (w_vold w)) e g (e6 eps) i)
        else aget (w_vnew w) (intvar_ix (ix3 V e) g i).
Proof.
  intros B H K. pose proof B as (S & G & D). unfold respond.
  destruct (displ_ok V eps (w_u w) S (wk_u _ _ K)) as (u & Eu & Fu). rewrite Eu. cbn [bind].
  assert (K1 : wok V (set_u w u)) by (destruct K; constructor; assumption).
  pose proof (fun e g He => thin_strain V eps (w_u w) u e g B H (wk_u _ _ K) Eu He) as X.
  destruct (rhs_zero V (set_u w u) S G K1) as (b' & nl & vn & er & Er & Fb & Ln & Zb).
  pose proof (wok_vars3 V _ D K1) as W1.
  pose proof (full_rep _ _ Fu) as RU. rewrite (ndofs3 V D) in RU. pose proof (wk_b V _ K1) as Lb. rewrite (ndofs3 V D) in Lb.
  destruct (rhs3_ok V (val u) (val (w_vold w)) S u (w_vold w) (w_vnew w) (w_b w) D RU (vars_old _ _ _ W1) (proj2 W1) Lb) as (b2 & vn2 & E2 & R2 & Es).
  cbn [set_u w_u w_vold w_vnew w_b] in Er. rewrite Er in E2. injection E2 as <- -> <- He0.
  change (er = norm2 (v_nx V * v_ny V * v_nz V * 3) (resid V 3 (rhs_all3 V (val u) (val (w_vold w))))) in He0.
  assert (Nz : norm2 (v_nx V * v_ny V * v_nz V * 3) (resid V 3 (rhs_all3 V (val u) (val (w_vold w)))) = 0).
  { rewrite norm2_R. rewrite rsum_zero; [apply sqrt_0|]. intros r Hr. apply in_zrange in Hr. rewrite <- (ndofs3 V D) in Hr.
    assert (Q : val b' r = resid V 3 (rhs_all3 V (val u) (val (w_vold w))) r) by (rewrite <- (ndofs3 V D) in R2; exact (rep_val b' (ndofs V) _ r R2 Hr)).
    rewrite <- Q, Zb; [ring|exact Hr|now apply thin_bdof]. }
  rewrite Nz in He0. subst er.
  unfold newton. cbn [newton_loop]. unfold newton_body. cbn [set_u w_u w_vold w_vnew w_b]. rewrite Er. cbn [bind].
  replace (oltb 0 (nr_tol (T:=R))) with true by (symmetry; apply nr_tol_lt; lra). cbn [bind w_u w_vold w_vnew].
  destruct (ave_stress3_ok V (val u) (val (w_vold w)) S u (w_vold w) vn D RU (vars_old _ _ _ W1)) as (vn3 & E3 & Es3); [rewrite Ln; apply nvars_eq|].
  rewrite E3. cbn [bind fst snd].
  eexists _, _. split; [f_equal; f_equal; f_equal; f_equal; f_equal|].
  - unfold thin_flag. apply existsb_ext_in. intros e He. now rewrite X.
  - cbn [w_vold w_vnew set_vnew]. split; [reflexivity|]. split; [|split; [|split]].
    + destruct K1 as [A1 A2 A3 A4 A5 A6]. constructor; cbn; try assumption; [exact (full_alen _ _ Fb)|]. rewrite (run_stores_alen _ _ _ Es3). exact Ln.
    + intros F. eapply run_stores_full; [|exact Es3]. eapply run_stores_full; [|exact Es]. exact F.
    + intros v Hv. unfold aux3. rewrite (ave3_R V (fun c g => sig3 V (val (w_vold w)) c g (strain3 V (val u) c g))) by exact Hv.
      unfold thin_stress. f_equal. apply rsum_ext. intros e He. apply rsum_ext. intros g _. now rewrite X.
    + intros e g i He Hg Hi.
      destruct (visit_ok V (val u) (val (w_vold w)) (w_vnew w) D (proj2 W1)) as (va & Ea & La & Ga). rewrite Es in Ea. injection Ea as <-.
      destruct (visit_ok V (val u) (val (w_vold w)) vn D La) as (vb & Eb & _ & Gb). rewrite Es3 in Eb. injection Eb as <-.
      rewrite (Gb e g i He Hg Hi), (Ga e g i He Hg Hi). destruct plastic_at; [|reflexivity]. now rewrite X.
Qed.
