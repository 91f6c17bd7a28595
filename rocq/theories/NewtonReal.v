(** The Newton loop in exact arithmetic: prescribed displacements stay, a small reported
    error is the residual norm of the returned field, one solve suffices for linear bodies. *)
From Coq Require Import Reals Lra ZifyBool.
From Verif Require Import Base Scalar EllSpec EllModel EllFinal EllProps Grid CgPure CgFinal CgProps AssemblyModel AsmPure AsmBnd AsmRun
  FemGen FemAve AsmMat FemMat FemMat2 FemDef FemPd FemRhs FemEquil AsmSpec AsmProps AsmEquil MicroModel NewtonBase.
Open Scope Z_scope.
Open Scope R_scope.

Lemma wok_vars3 V w : v_dim V = 3%Z -> wok V w -> vars_ok V (w_vold w) (w_vnew w).
Proof. intros D K. split; [|rewrite (wk_new V w K); apply nvars_eq]. intros e g i He Hg Hi P. destruct (wk_old V w K e g i He Hg Hi P) as (x & E). exists x. exact E. Qed.
Lemma wok_full V w : wok V w -> full (w_u w) (ndofs V).
Proof. intros K. exact (wk_u V w K). Qed.

(** the assembled matrix has identity rows at prescribed degrees of freedom *)
Lemma mat_ident V w : sane V -> wok V w -> forall vn, alen vn = nvars V ->
  exists A' vn', assembly_mat V (w_u w) (w_vold w) vn (w_A w) = Ok (A', vn') /\
  (if (v_dim V =? 2)%Z then wf_ell A' 9 2 (v_nx V * v_ny V) else wf_ell A' 27 3 (v_nx V * v_ny V * v_nz V)) /\
  (forall r c, (0 <= r < ndofs V)%Z -> (0 <= c < ndofs V)%Z -> bdof V r -> dense A' r c = if (r =? c)%Z then 1 else 0).
Proof.
  intros S K vn L. destruct (dim_cases V S) as [D|D]; rewrite D; cbn [Z.eqb Pos.eqb].
  - pose proof (wk_A V w K) as M. unfold is_mat in M. rewrite D in M. cbn [Z.eqb Pos.eqb] in M.
    destruct (mat2_mul V S D (w_u w) (w_vold w) vn (w_A w) M) as (A' & E & _ & W & I & _). eauto 6.
  - pose proof (wk_A V w K) as M. unfold is_mat in M. rewrite D in M. cbn [Z.eqb Pos.eqb] in M.
    pose proof (full_oval _ _ (wk_u V w K)) as U. rewrite (ndofs3 V D) in U. rewrite nvars_eq in L.
    destruct (mat3_mul V S D _ _ (w_u w) (w_vold w) vn (w_A w) U (has_old_ok _ _ (wk_old V w K)) L M) as (A' & vn' & E & _ & W & _ & _ & I & _). eauto 6.
Qed.
(** the residual vanishes there *)
Lemma rhs_zero V w : sane V -> geom V -> wok V w ->
  exists b' nl vn er, assembly_rhs V (w_u w) (w_vold w) (w_vnew w) (w_b w) = Ok (b', nl, vn, er) /\ full b' (ndofs V) /\
  alen vn = nvars V /\ forall r, (0 <= r < ndofs V)%Z -> bdof V r -> val b' r = 0.
Proof.
  intros S G K. destruct (rhs_ok V _ _ _ _ S (wk_u V w K) (wk_old V w K) (wk_new V w K) (wk_b V w K)) as (b' & nl & vn & er & E & F & Ln & _).
  exists b', nl, vn, er. split; [exact E|]. split; [exact F|]. split; [exact Ln|]. intros r Hr B. destruct (dim_cases V S) as [D|D].
  - destruct (residual_spec2 V (w_u w) (w_vold w) (w_vnew w) (w_b w) (conj S (conj G D)) (wk_u V w K) (wk_b V w K)) as (b2 & n0 & be & sig & Eb & _ & _ & Hb & _).
    rewrite E in Eb. injection Eb as <- _ _ _. rewrite (ndofs2 V S D) in Hr.
    destruct (dof2_surj V S D r Hr) as (i & j & c & Hi & Hj & Hc & -> & Hbb). rewrite <- dof2_node. apply Hb; [unfold is_node2; tauto|exact Hc|]. apply on_edge. now apply Hbb.
  - destruct (residual_spec3 V (w_u w) (w_vold w) (w_vnew w) (w_b w) (conj S (conj G D)) (wk_u V w K) (wok_vars3 V w D K) (wk_b V w K)) as (b2 & nl2 & v0 & n0 & be & sig & Eb & _ & _ & Hb & _).
    rewrite E in Eb. injection Eb as <- _ _ _. rewrite (ndofs3 V D) in Hr.
    destruct (dof3_surj V S D r Hr) as (i & j & k & c & Hi & Hj & Hk & Hc & -> & Hbb). rewrite <- dof3_node. apply Hb; [unfold is_node3; tauto|exact Hc|]. apply on_face. now apply Hbb.
Qed.
(** so the solver's update is zero there *)
Lemma solve_zero V A b du : sane V -> full_mat V A ->
  (if (v_dim V =? 2)%Z then wf_ell A 9 2 (v_nx V * v_ny V) else wf_ell A 27 3 (v_nx V * v_ny V * v_nz V)) ->
  (forall r c, (0 <= r < ndofs V)%Z -> (0 <= c < ndofs V)%Z -> bdof V r -> dense A r c = if (r =? c)%Z then 1 else 0) ->
  full b (ndofs V) -> (forall r, (0 <= r < ndofs V)%Z -> bdof V r -> val b r = 0) -> rep du (ndofs V) (fun _ => 0) ->
  exists du', solve V A b du = Ok du' /\ full du' (ndofs V) /\ forall r, (0 <= r < ndofs V)%Z -> bdof V r -> val du' r = 0.
Proof.
  intros S FM W I Fb Zb Rd. pose proof (full_rep _ _ Fb) as Rb.
  destruct (solve_ok V A b du S FM Fb) as (du' & E & F); [eapply rep_full; exact Rd|].
  exists du'. split; [exact E|]. split; [exact F|]. intros r Hr B. unfold solve in E.
  destruct (dim_cases V S) as [D|D]; rewrite D in *; cbn [Z.eqb Pos.eqb] in *.
  - rewrite (ndofs2 V S D) in *.
    destruct (cg_constrained CG2D A 2 (v_nx V) (v_ny V) 1 b du (val b) (fun _ => 0) W Rb Rd (fdof V)) with (sv := mkSolver cg_its 0%Z (cg_tol (T:=R)) (ofZ 0)) as (sv2 & du2 & xf2 & Er2 & Rx2 & Z2).
    + intros q Hq Nf. apply not_fdof in Nf. split; [|split; [now apply Zb|reflexivity]]. intros c Hc. now apply I.
    + cbn [run_cg] in Er2. rewrite Er2 in E. cbn [bind snd] in E. injection E as <-. rewrite (rep_val du2 (v_nx V * v_ny V * 2) xf2 r Rx2 Hr).
      apply Z2; [exact Hr|]. unfold fdof. tauto.
  - rewrite (ndofs3 V D) in *.
    destruct (cg_constrained CGstruct3 A 3 (v_nx V) (v_ny V) (v_nz V) b du (val b) (fun _ => 0) W Rb Rd (fdof V)) with (sv := mkSolver cg_its 0%Z (cg_tol (T:=R)) (ofZ 0)) as (sv2 & du2 & xf2 & Er2 & Rx2 & Z2).
    + intros q Hq Nf. apply not_fdof in Nf. split; [|split; [now apply Zb|reflexivity]]. intros c Hc. now apply I.
    + cbn [run_cg] in Er2. unfold nn in E. rewrite Er2 in E. cbn [bind snd] in E. injection E as <-. rewrite (rep_val du2 (v_nx V * v_ny V * v_nz V * 3) xf2 r Rx2 Hr).
      apply Z2; [exact Hr|]. unfold fdof. tauto.
Qed.

(** one pass *)
Lemma nr_tol_R : nr_tol (T:=R) = 1 / 100000.
Proof. unfold nr_tol, dec. cbn. lra. Qed.
Lemma nr_tol_lt er : oltb er (nr_tol (T:=R)) = true <-> er < 1 / 100000.
Proof. rewrite <- nr_tol_R. exact (Rltb_true er nr_tol). Qed.

Lemma pass_real V w : sane V -> geom V -> wok V w ->
  exists b nl vn er, assembly_rhs V (w_u w) (w_vold w) (w_vnew w) (w_b w) = Ok (b, nl, vn, er) /\ full b (ndofs V) /\ alen vn = nvars V /\
  (er < 1 / 100000 -> newton_body V w = Ok (mkWork (w_u w) (w_du w) b (w_A w) (w_vold w) vn, nl, er, true)) /\
  (~ er < 1 / 100000 -> exists A' vn' d0 du u', assembly_mat V (w_u w) (w_vold w) vn (w_A w) = Ok (A', vn') /\
     rep d0 (ndofs V) (fun _ => 0) /\ solve V A' b d0 = Ok du /\ full du (ndofs V) /\
     (forall r, (0 <= r < ndofs V)%Z -> bdof V r -> val du r = 0) /\ rep u' (ndofs V) (fun i => val (w_u w) i + val du i) /\
     newton_body V w = Ok (mkWork u' du b A' (w_vold w) vn', nl, er, false)).
Proof.
  intros S G K. destruct (rhs_zero V w S G K) as (b & nl & vn & er & E & Fb & Ln & Zb). exists b, nl, vn, er.
  split; [exact E|]. split; [exact Fb|]. split; [exact Ln|]. split; intros H; unfold newton_body; rewrite E; cbn [bind].
  - apply nr_tol_lt in H. now rewrite H.
  - replace (oltb er (nr_tol (T:=R))) with false by (symmetry; apply Bool.not_true_is_false; intros X; apply H; now apply nr_tol_lt).
    destruct (mat_ident V w S K vn Ln) as (A' & vn' & Em & Wf & I).
    destruct (mat_ok V (w_u w) (w_vold w) vn (w_A w) S (wk_u V w K) (wk_old V w K) Ln (wk_A V w K)) as (A2 & vn2 & Em2 & FA & _).
    rewrite Em in Em2. injection Em2 as <- <-. rewrite Em. cbn [bind fst snd].
    destruct (zero_all (oval (w_u w)) (oval (w_u w)) (ndofs V) (w_du w) (ndofs_pos V S) (wk_du V w K)) as (d0 & E0 & R0). rewrite E0. cbn [bind].
    assert (R0' : rep d0 (ndofs V) (fun _ => 0)).
    { split; [apply R0|]. intros i Hi. rewrite (proj2 R0 i Hi). f_equal. unfold dec. cbn. lra. }
    destruct (solve_zero V A' b d0 S FA Wf I Fb Zb R0') as (du & Es & Fd & Zd). rewrite Es. cbn [bind].
    destruct (sum_full (ndofs V) (w_u w) du (wk_u V w K) Fd) as (u' & Eu & Fu & Gu). rewrite Eu. cbn [bind].
    exists A', vn', d0, du, u'. split; [reflexivity|]. split; [exact R0'|]. split; [exact Es|]. split; [exact Fd|]. split; [exact Zd|]. split; [|reflexivity].
    split; [apply Fu|]. intros i Hi. exact (Gu i Hi).
Qed.

(** prescribed values survive any number of passes *)
Definition same_bnd V (u u' : arr R) : Prop := forall r, (0 <= r < ndofs V)%Z -> bdof V r -> aget u' r = aget u r.
Lemma pass_bnd V w w' nl er brk : sane V -> geom V -> wok V w -> newton_body V w = Ok (w', nl, er, brk) -> same_bnd V (w_u w) (w_u w').
Proof.
  intros S G K E. destruct (pass_real V w S G K) as (b & nl2 & vn & er2 & _ & _ & _ & H1 & H2).
  destruct (Rlt_dec er2 (1 / 100000)) as [H|H].
  - rewrite (H1 H) in E. injection E as <- _ _ _. intros r _ _. reflexivity.
  - destruct (H2 H) as (A' & vn' & d0 & du & u' & _ & _ & _ & _ & Zd & Ru & E2). rewrite E2 in E. injection E as <- _ _ _.
    intros r Hr B. cbn [w_u]. rewrite (proj2 Ru r Hr), (Zd r Hr B), Rplus_0_r. destruct (proj2 (wk_u V w K) r Hr) as (x & Ex). unfold val. now rewrite Ex.
Qed.
Lemma passes_bnd V n w w' : sane V -> geom V -> wok V w -> passes V n w w' -> same_bnd V (w_u w) (w_u w').
Proof.
  intros S G K P. revert K. induction P as [w|n w w1 nl er w2 E P IH]; intros K; [intros r _ _; reflexivity|].
  destruct (body_ok V w S K) as (w1' & nl' & er' & brk & E' & K1 & _). rewrite E in E'. injection E' as <- <- <- <-.
  intros r Hr B. rewrite (IH K1 r Hr B). exact (pass_bnd V w w1 nl er false S G K E r Hr B).
Qed.
Lemma newton_real V fuel pk w w' nl its er : sane V -> geom V -> wok V w -> newton fuel pk V w = Ok (w', nl, its, er) ->
  same_bnd V (w_u w) (w_u w') /\ w_vold w' = w_vold w /\ wok V w' /\ its = 0%Z /\
  exists n w0, passes V n w w0 /\ wok V w0 /\ w_vold w0 = w_vold w /\
    (er < 1 / 100000 -> w_u w' = w_u w0 /\ assembly_rhs V (w_u w') (w_vold w) (w_vnew w0) (w_b w0) = Ok (w_b w', nl, w_vnew w', er)) /\
    (~ er < 1 / 100000 -> exists vn, assembly_rhs V (w_u w0) (w_vold w) (w_vnew w0) (w_b w0) = Ok (w_b w', nl, vn, er)).
Proof.
  intros S G K E. pose proof (newton_ok V pk fuel w S K) as H. rewrite E in H.
  destruct H as (I & K' & O' & _ & _ & n & w0 & brk & P & _ & K0 & O0 & Eb & _).
  assert (Bd : same_bnd V (w_u w) (w_u w')).
  { intros r Hr B. rewrite (pass_bnd V w0 w' nl er brk S G K0 Eb r Hr B). exact (passes_bnd V n w w0 S G K P r Hr B). }
  split; [exact Bd|]. split; [exact O'|]. split; [exact K'|]. split; [exact I|]. exists n, w0. split; [exact P|]. split; [exact K0|]. split; [exact O0|].
  destruct (pass_real V w0 S G K0) as (b & nl2 & vn & er2 & Er & _ & _ & H1 & H2). rewrite O0 in Er.
  destruct (Rlt_dec er2 (1 / 100000)) as [H|H].
  - rewrite (H1 H) in Eb. injection Eb as <- <- <- <-. split; intros H'; [|contradiction]. cbn. auto.
  - destruct (H2 H) as (A' & vn' & d0 & du & u' & _ & _ & _ & _ & _ & _ & E2). rewrite E2 in Eb. injection Eb as <- <- <- <-. split; intros H'; [contradiction|].
    cbn. eauto.
Qed.

(** ** Linear bodies *)
Lemma lin_visit V uf of : linear V -> v_dim V = 3%Z -> visit V uf of = [].
Proof.
  intros L D. destruct (visit V uf of) as [|(j, x) l] eqn:E; [reflexivity|].
  assert (H : In (j, x) (visit V uf of)) by (rewrite E; now left). apply in_visit in H. destruct H as (e & g & i & He & _ & _ & P & _).
  rewrite (L _ (ix3_range V e D He)) in P. discriminate.
Qed.
Lemma lin_rhs V u vold vnew b b' nl vn er : sane V -> v_dim V = 3%Z -> linear V -> full u (ndofs V) -> vars_ok V vold vnew -> alen b = ndofs V ->
  assembly_rhs V u vold vnew b = Ok (b', nl, vn, er) -> vn = vnew /\ nl = false.
Proof.
  intros S D L U W Lb E. pose proof (full_rep _ _ U) as RU. rewrite (ndofs3 V D) in RU, Lb.
  destruct (rhs3_ok V (val u) (val vold) S u vold vnew b D RU (vars_old _ _ _ W) (proj2 W) Lb) as (b2 & vn2 & E2 & _ & Es).
  rewrite E in E2. injection E2 as _ -> <- _. rewrite (lin_visit V _ _ L D) in Es. cbn in Es. split; [congruence|].
  apply Bool.not_true_is_false. intros X. apply existsb_exists in X. destruct X as (e & He & X). unfold nl3 in X.
  rewrite (L _ (ix3_range V e D He)) in X. discriminate.
Qed.
Definition lin_body V : Prop := sane V /\ geom V /\ adm V /\ (v_dim V = 3%Z -> linear V).
Lemma bnd_zero3 V du : sane V -> v_dim V = 3%Z -> full du (ndofs V) -> (forall r, (0 <= r < ndofs V)%Z -> bdof V r -> val du r = 0) -> zero_bnd_field3 V du.
Proof.
  intros S D F H i j k c Hn Hf Hc. pose proof (dof3_range V i j k c Hn Hc D) as Hr. destruct (proj2 F _ Hr) as (x & Ex). rewrite Ex. f_equal.
  specialize (H _ Hr). unfold val in H. rewrite Ex in H. apply H. now apply bnd_dof3.
Qed.
Lemma bnd_zero2 V du : sane V -> v_dim V = 2%Z -> full du (ndofs V) -> (forall r, (0 <= r < ndofs V)%Z -> bdof V r -> val du r = 0) -> zero_bnd_field2 V du.
Proof.
  intros S D F H i j c Hn Hf Hc. pose proof (dof2_range V i j c S Hn Hc D) as Hr. destruct (proj2 F _ Hr) as (x & Ex). rewrite Ex. f_equal.
  specialize (H _ Hr). unfold val in H. rewrite Ex in H. apply H. now apply bnd_dof2.
Qed.
Lemma cg_tol_R : cg_tol (T:=R) = 1 / 100000000.
Proof. unfold cg_tol, dec. cbn. lra. Qed.
Lemma lin_next V w w1 nl er : lin_body V -> wok V w -> (ndofs V < 2000)%Z -> newton_body V w = Ok (w1, nl, er, false) ->
  nl = false /\ exists b' vn' n1, assembly_rhs V (w_u w1) (w_vold w1) (w_vnew w1) (w_b w1) = Ok (b', false, vn', n1) /\ n1 < 1 / 100000000.
Proof.
  intros (S & G & A0 & L) K Hn E. destruct (pass_real V w S G K) as (b & nl2 & vn & er2 & Er & Fb & Ln & H1 & H2).
  destruct (Rlt_dec er2 (1 / 100000)) as [H|H]; [rewrite (H1 H) in E; discriminate|].
  destruct (H2 H) as (A' & vn' & d0 & du & u' & Em & R0 & Es & Fd & Zd & Ru & E2). rewrite E2 in E. injection E as <- <- <-. cbn [w_u w_vold w_vnew w_b].
  assert (Ht : 0 < s_min_tol (mkSolver cg_its 0%Z (cg_tol (T:=R)) (ofZ 0))) by (cbn [s_min_tol]; rewrite cg_tol_R; lra).
  destruct (dim_cases V S) as [D|D].
  - pose proof (wk_A V w K) as M. unfold is_mat in M. rewrite D in M. cbn [Z.eqb Pos.eqb] in M.
    destruct (newton_solve2 V (w_u w) (w_vold w) (w_vnew w) (w_b w) d0 (w_A w) (mkSolver cg_its 0%Z (cg_tol (T:=R)) (ofZ 0)) (conj S (conj G D)) A0 (wk_u V w K) M (wk_b V w K) R0 Ht Hn)
      as (A2 & b2 & n0 & sv' & du2 & X1 & X2 & X3 & _ & _ & _ & _ & X4).
    rewrite Er in X1. injection X1 as <- -> -> <-. rewrite Em in X2. injection X2 as <- ->. unfold solve in Es. rewrite D in Es. cbn [Z.eqb Pos.eqb] in Es.
    rewrite X3 in Es. cbn [bind snd] in Es. injection Es as <-. split; [reflexivity|].
    destruct (newton_exact2 V (w_u w) du2 u' (w_vold w) (w_vnew w) (w_b w) b (w_A w) (conj S (conj G D)) A0 M (wk_u V w K) Fd (bnd_zero2 V du2 S D Fd Zd) Ru (wk_b V w K) (proj1 Fb))
      as (A3 & b3 & b' & n3 & n1 & Y1 & Y2 & Y3 & _ & Y4).
    rewrite Em in Y1. injection Y1 as <-. rewrite Er in Y2. injection Y2 as <- _. exists b', (w_vnew w), n1. split; [exact Y3|]. rewrite Y4. cbn [s_min_tol] in X4. rewrite cg_tol_R in X4. exact X4.
  - pose proof (wk_A V w K) as M. unfold is_mat in M. rewrite D in M. cbn [Z.eqb Pos.eqb] in M. pose proof (wok_vars3 V w D K) as W. specialize (L D).
    destruct (lin_rhs V _ _ _ _ _ _ _ _ S D L (wk_u V w K) W (wk_b V w K) Er) as (-> & ->).
    destruct (newton_solve3 V (w_u w) (w_vold w) (w_vnew w) (w_b w) d0 (w_A w) (mkSolver cg_its 0%Z (cg_tol (T:=R)) (ofZ 0)) (conj S (conj G D)) L A0 (wk_u V w K) W M (wk_b V w K) R0 Ht Hn)
      as (A2 & b2 & nl2 & v0 & n0 & sv' & du2 & X1 & X2 & X3 & _ & _ & _ & _ & X4).
    rewrite Er in X1. injection X1 as <- <- <- <-. rewrite Em in X2. injection X2 as <- ->. unfold solve in Es. rewrite D in Es. cbn [Z.eqb Pos.eqb] in Es. unfold nn in Es.
    rewrite X3 in Es. cbn [bind snd] in Es. injection Es as <-. split; [reflexivity|].
    destruct (newton_exact3 V (w_u w) du2 u' (w_vold w) (w_vnew w) (w_b w) b (w_A w) (conj S (conj G D)) L A0 M (wk_u V w K) Fd (bnd_zero3 V du2 S D Fd Zd) Ru W (wk_b V w K) (proj1 Fb))
      as (A3 & b3 & b' & v0 & v1 & nl0 & nl1 & n3 & n1 & Y1 & Y2 & Y3 & _ & Y4).
    rewrite Em in Y1. injection Y1 as <-. rewrite Er in Y2. injection Y2 as <- _ _.
    assert (Fu : full u' (ndofs V)) by (eapply rep_full; exact Ru).
    destruct (lin_rhs V _ _ _ _ _ _ _ _ S D L Fu W (proj1 Fb) Y3) as (-> & ->).
    exists b', (w_vnew w), n1. split; [exact Y3|]. rewrite Y4. cbn [s_min_tol] in X4. rewrite cg_tol_R in X4. exact X4.
Qed.

(** the field is equilibrated: its residual is below the tolerance *)
Definition equilibrated V (w : work R) (t : R) : Prop :=
  exists vn b b' nl vn' n, alen vn = nvars V /\ alen b = ndofs V /\ assembly_rhs V (w_u w) (w_vold w) vn b = Ok (b', nl, vn', n) /\ n < t.
Lemma linear_newton V fuel pk w i : lin_body V -> wok V w -> (ndofs V < 2000)%Z -> (2 <= fuel)%nat -> pk 1%Z = Ok i -> (i < 40)%Z ->
  exists w' er n w0, newton fuel pk V w = Ok (w', false, 0%Z, er) /\ er <= 1 / 100000 /\ equilibrated V w' (1 / 100000) /\
    (n <= 1)%nat /\ passes V n w w0 /\ w_u w' = w_u w0.
Proof.
  intros LB K Hn Hf Ep Hi. pose proof LB as (S & G & A0 & L). destruct fuel as [|[|fuel]]; [lia|lia|].
  unfold newton. cbn [newton_loop].
  destruct (pass_real V w S G K) as (b & nl & vn & er & Er & Fb & Ln & H1 & H2).
  destruct (Rlt_dec er (1 / 100000)) as [H|H].
  - rewrite (H1 H). cbn [bind]. 
    assert (En : nl = false).
    { destruct (dim_cases V S) as [D|D].
      - destruct (rhs_ok V _ _ _ _ S (wk_u V w K) (wk_old V w K) (wk_new V w K) (wk_b V w K)) as (b2 & nl2 & vn2 & er2 & E2 & _ & _ & _ & D2).
        rewrite Er in E2. injection E2 as <- <- <- <-. exact (proj1 (D2 D)).
      - exact (proj2 (lin_rhs V _ _ _ _ _ _ _ _ S D (L D) (wk_u V w K) (wok_vars3 V w D K) (wk_b V w K) Er)). }
    subst nl. eexists _, er, 0%nat, w. split; [reflexivity|]. split; [lra|]. split; [|split; [lia|split; [constructor|reflexivity]]].
    exists (w_vnew w), (w_b w), b, false, vn, er. split; [exact (wk_new V w K)|]. split; [exact (wk_b V w K)|]. split; [exact Er|exact H].
  - destruct (H2 H) as (A' & vn' & d0 & du & u' & _ & _ & _ & _ & _ & _ & Eb). rewrite Eb. cbn [bind].
    set (w1 := mkWork u' du b A' (w_vold w) vn') in *.
    destruct (body_ok V w S K) as (w1' & nl' & er' & brk & E' & K1 & _). rewrite Eb in E'. injection E' as <- <- <- <-.
    destruct (lin_next V w w1 nl er LB K Hn Eb) as (-> & b1 & vn1 & n1 & E1 & Hn1).
    change (0 + 1)%Z with 1%Z. cbn [Z.eqb]. rewrite Ep. cbn [bind].
    assert (EQ : equilibrated V w1 (1 / 100000)).
    { exists (w_vnew w1), (w_b w1), b1, false, vn1, n1. split; [exact (wk_new V w1 K1)|]. split; [exact (wk_b V w1 K1)|]. split; [exact E1|lra]. }
    replace (i <? nr_its)%Z with true by (unfold nr_its; lia). cbn [andb].
    destruct (oltb (nr_tol (T:=R)) er) eqn:Et.
    + destruct (pass_real V w1 S G K1) as (b2 & nl2 & vn2 & er2 & Er2 & _ & _ & H3 & _).
      rewrite E1 in Er2. injection Er2 as <- <- <- <-. rewrite H3 by lra. cbn [bind].
      eexists _, n1, 1%nat, w1. split; [reflexivity|]. split; [lra|]. split; [exact EQ|]. split; [lia|]. split; [|reflexivity].
      econstructor; [exact Eb|constructor].
    + exists w1, er, 1%nat, w1. split; [reflexivity|]. split; [change (Rltb nr_tol er = false) in Et; apply Rltb_false in Et; rewrite nr_tol_R in Et; exact Et|].
      split; [exact EQ|]. split; [lia|]. split; [|reflexivity]. econstructor; [exact Eb|constructor].
Qed.
