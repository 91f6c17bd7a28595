(** NaN-like values through the Newton loop, a homogenisation and the life of an object. *)
From Coq Require Import ZifyBool ZifyNat.
From Verif Require Import Base Scalar EllSpec EllInit EllModel EllAsm EllOp EllFinal Grid CgPure CgFinal CgProps AssemblyModel AsmPure AsmBnd
  AsmRun MicroModel OutputModel NewtonBase ApiBase ApiRun ApiHist Build NanBase Untouched.
Open Scope Z_scope.

Lemma f2_impl {A B} (P Q : A -> B -> Prop) l l' : (forall x y, P x y -> Q x y) -> Forall2 P l l' -> Forall2 Q l l'.
Proof. intros H F. induction F; constructor; auto. Qed.

(** degrees of freedom of the nodes inside the cell *)
Definition inner_dof (dim nx ny nz a : Z) : Prop :=
  exists i j k c, 0 < i < nx - 1 /\ 0 < j < ny - 1 /\ (if dim =? 2 then k = 0 else 0 < k < nz - 1) /\ 0 <= c < dim /\
    a = node nx ny i j k * dim + c.

Section Nan.
Context {T : Type} `{OT : Ops T}.
Variable N : T -> Prop.
Hypothesis HN : nan_like N.
Implicit Types (V : env T) (w : work T) (g : gp T) (o : obj T).
Notation alln := (alln N).

Definition inner V a : Prop := inner_dof (v_dim V) (v_nx V) (v_ny V) (v_nz V) a.
Lemma inner_range V a : sane V -> inner V a -> 0 <= a < ndofs V.
Proof.
  intros S (i & j & k & c & Hi & Hj & Hk & Hc & ->). destruct (dim_cases V S) as [D|D]; rewrite D in *; cbn [Z.eqb Pos.eqb] in Hk.
  - rewrite (ndofs_eq2 V S D). subst k. pose proof (node_range (v_nx V) (v_ny V) 1 i j 0 ltac:(lia) ltac:(lia) ltac:(lia)). lia.
  - rewrite (ndofs_eq3 V D). pose proof (node_range (v_nx V) (v_ny V) (v_nz V) i j k ltac:(lia) ltac:(lia) ltac:(lia)). lia.
Qed.

(** ** The prescribed displacements *)
Lemma displ_keeps V eps u u' a : sane V -> set_displ V eps u = Ok u' -> inner V a -> aget u' a = aget u a.
Proof.
  intros S E (i & j & k & c & Hi & Hj & Hk & Hc & ->). pose proof (sa_nx V S) as Hx. pose proof (sa_ny V S) as Hy.
  unfold set_displ in E. destruct (dim_cases V S) as [D|D]; rewrite D in *; cbn [Z.eqb Pos.eqb] in *.
  - subst k. refine (stores_miss _ _ _ _ E _). intros b v Hb Q. unfold set_displ2_stores in Hb. unfaces Hb;
      apply in_displ2 in Hb; destruct Hb as (c' & Hc' & Eb); rewrite Q in Eb; apply dof_inj in Eb; try assumption; destruct Eb as (Eb & _).
    + change q with (0 + q) in Eb. replace (0 + q) with (node (v_nx V) (v_ny V) q 0 0) in Eb by (unfold node; ring).
      apply node_inj in Eb; lia.
    + replace (q + (v_ny V - 1) * v_nx V) with (node (v_nx V) (v_ny V) q (v_ny V - 1) 0) in Eb by (unfold node; ring). apply node_inj in Eb; lia.
    + replace ((q + 1) * v_nx V) with (node (v_nx V) (v_ny V) 0 (q + 1) 0) in Eb by (unfold node; ring). apply node_inj in Eb; lia.
    + replace ((q + 2) * v_nx V - 1) with (node (v_nx V) (v_ny V) (v_nx V - 1) (q + 1) 0) in Eb by (unfold node; ring). apply node_inj in Eb; lia.
  - pose proof (sane_nz V S D) as Hz. refine (stores_miss _ _ _ _ E _). intros b v Hb Q. unfold set_displ3_stores in Hb. unfaces Hb;
      apply in_displ3 in Hb; destruct Hb as (c' & Hc' & Eb); rewrite Q in Eb; apply dof_inj in Eb; try assumption; destruct Eb as (Eb & _);
      rewrite nod_index_node in Eb; apply node_inj in Eb; lia.
Qed.

Local Ltac nan := first [assumption | (apply (nan_add_l N HN); nan) | (apply (nan_mul_l N HN); nan) |
  (apply (nan_add_r N HN); nan) | (apply (nan_mul_r N HN); nan)].

(** the node at the origin moves by a NaN *)
Lemma displ_nan V eps u u' k : sane V -> set_displ V eps u = Ok u' -> 0 <= k < nvoi V -> N (lget eps k) ->
  exists c, 0 <= c < v_dim V /\ N (oval u' c).
Proof.
  intros S E Hk Hn. pose proof (sa_nx V S) as Hx. pose proof (sa_ny V S) as Hy. unfold nvoi in Hk.
  assert (X : forall ws c, run_stores ws u = Ok u' -> (exists v, In (c, v) ws) -> (forall v, In (c, v) ws -> N v) -> N (oval u' c)).
  { intros ws c Ew (v & Hv) Hall. apply run_stores_inv in Ew. destruct Ew as (_ & _ & G). unfold oval. rewrite G.
    destruct (last_write ws c) as [x|] eqn:L; [apply Hall; now apply last_write_in in L|].
    exfalso. exact (last_write_none_inv _ _ _ L Hv). }
  unfold set_displ in E. destruct (dim_cases V S) as [D|D]; rewrite D in *; cbn [Z.eqb Pos.eqb] in *.
  - assert (Q : forall n x y b v, In (b, v) (displ2 eps n x y) -> (k = 0 \/ k = 2 -> b mod 2 = 0 -> N v) /\ (k = 1 \/ k = 2 -> b mod 2 = 1 -> N v)).
    { intros n x y b v Hb. unfold displ2 in Hb. cbn [In] in Hb. destruct Hb as [[= <- <-]|[[= <- <-]|[]]].
      - split; [intros [->| ->] _; nan|]. intros _ H. rewrite Z_mod_mult in H. lia.
      - split; [intros _ H; rewrite Z.add_comm, Z_mod_plus_full in H; cbn in H; lia|]. intros [->| ->] _; nan. }
    assert (P : forall c, 0 <= c < 2 -> (c = 0 /\ (k = 0 \/ k = 2) \/ c = 1 /\ k = 1) -> N (oval u' c)).
    { intros c Hc Hck. apply (X _ c E).
      - unfold set_displ2_stores. assert (In0 : In 0 (zrange 0 (v_nx V))) by (apply in_zrange; lia).
        destruct Hck as [(-> & _)|(-> & _)]; eexists; (apply in_or_app; left; apply in_flat_map; exists 0; split; [exact In0|]; unfold displ2; cbn [In]); [left|right; left]; reflexivity.
      - intros v Hv. unfold set_displ2_stores in Hv. unfaces Hv; apply Q in Hv; destruct Hv as (Q1 & Q2);
          (destruct Hck as [(-> & Hk')|(-> & ->)]; [apply Q1; [exact Hk'|reflexivity]|apply Q2; [now left|reflexivity]]). }
    assert (Ck : k = 0 \/ k = 1 \/ k = 2) by lia. destruct Ck as [->|[->| ->]].
    + exists 0. split; [lia|]. apply P; lia.
    + exists 1. split; [lia|]. apply P; lia.
    + exists 0. split; [lia|]. apply P; lia.
  - pose proof (sane_nz V S D) as Hz.
    assert (Q : forall n x y z b v, In (b, v) (displ3 eps n x y z) ->
      (k = 0 \/ k = 3 \/ k = 4 -> b mod 3 = 0 -> N v) /\ (k = 3 \/ k = 1 \/ k = 5 -> b mod 3 = 1 -> N v) /\ (k = 4 \/ k = 5 \/ k = 2 -> b mod 3 = 2 -> N v)).
    { intros n x y z b v Hb. unfold displ3 in Hb. cbn [In] in Hb. destruct Hb as [[= <- <-]|[[= <- <-]|[[= <- <-]|[]]]].
      - split; [intros [->|[->| ->]] _; nan|]. split; intros _ H; rewrite Z_mod_mult in H; lia.
      - split; [intros _ H; rewrite Z.add_comm, Z_mod_plus_full in H; cbn in H; lia|]. split; [intros [->|[->| ->]] _; nan|].
        intros _ H; rewrite Z.add_comm, Z_mod_plus_full in H; cbn in H; lia.
      - split; [intros _ H; rewrite Z.add_comm, Z_mod_plus_full in H; cbn in H; lia|].
        split; [intros _ H; rewrite Z.add_comm, Z_mod_plus_full in H; cbn in H; lia|]. intros [->|[->| ->]] _; nan. }
    assert (P : forall c, (c = 0 /\ (k = 0 \/ k = 3 \/ k = 4) \/ c = 1 /\ (k = 1 \/ k = 5) \/ c = 2 /\ k = 2) -> N (oval u' c)).
    { intros c Hck. apply (X _ c E).
      - unfold set_displ3_stores. assert (In0 : In 0 (zrange 0 (v_nx V))) by (apply in_zrange; lia). assert (In1 : In 0 (zrange 0 (v_ny V))) by (apply in_zrange; lia).
        destruct Hck as [(-> & _)|[(-> & _)|(-> & _)]]; eexists; (apply in_or_app; left; apply in_flat_map; exists 0; split; [exact In0|];
          apply in_flat_map; exists 0; split; [exact In1|]; unfold displ3; cbn [In]; rewrite nod_index_node; unfold node); [left|right; left|right; right; left]; f_equal; ring.
      - intros v Hv. unfold set_displ3_stores in Hv. unfaces Hv; apply Q in Hv; destruct Hv as (Q1 & Q2 & Q3);
          (destruct Hck as [(-> & Hk')|[(-> & Hk')|(-> & ->)]]; [apply Q1; [exact Hk'|reflexivity]|apply Q2; [tauto|reflexivity]|apply Q3; [tauto|reflexivity]]). }
    assert (Ck : k = 0 \/ k = 1 \/ k = 2 \/ k = 3 \/ k = 4 \/ k = 5) by lia. destruct Ck as [->|[->|[->|[->|[->| ->]]]]];
      [exists 0|exists 1|exists 2|exists 0|exists 0|exists 1]; (split; [lia|]; apply P; clear; tauto).
Qed.

(** ** The Newton loop *)
Lemma oval_get (a b : arr T) i : aget a i = aget b i -> oval a i = oval b i.
Proof. unfold oval. now intros ->. Qed.
Lemma add_loop_nan n (u du u' : arr T) a : full u n -> full du n ->
  upd_for n (fun u i => x <- rd u i ;; y <- rd du i ;; Ok (oadd x y)) u = Ok u' -> 0 <= a < n -> oval u' a = oadd (oval u a) (oval du a).
Proof. intros U X E Ha. destruct (sum_full n u du U X) as (u2 & E2 & _ & G). rewrite E in E2. injection E2 as ->. unfold oval at 1. now rewrite G. Qed.

Lemma body_nan V w w' nl er brk a : sane V -> wok V w -> newton_body V w = Ok (w', nl, er, brk) ->
  0 <= a < ndofs V -> N (oval (w_u w) a) -> N (oval (w_u w') a).
Proof.
  intros S K E Ha Hn. destruct K as [U Ldu Lb A O L]. unfold newton_body in E.
  destruct (rhs_ok V _ _ _ _ S U O L Lb) as (b & nl0 & vn & er0 & E0 & Fb & Lv & _). rewrite E0 in E. cbn [bind] in E.
  destruct (oltb er0 nr_tol); [injection E as <- _ _ _; exact Hn|].
  destruct (mat_ok V (w_u w) (w_vold w) vn (w_A w) S U O Lv A) as (A' & vn' & Em & FA & _). rewrite Em in E. cbn [bind fst snd] in E.
  destruct (zero_all (oval (w_u w)) (oval (w_u w)) (ndofs V) (w_du w) (ndofs_pos V S) Ldu) as (d0 & Ed0 & R0). rewrite Ed0 in E. cbn [bind] in E.
  destruct (solve_ok V A' b d0 S FA Fb (rep_full _ _ _ R0)) as (d & Ed & Fd). rewrite Ed in E. cbn [bind] in E.
  apply bind_ok in E. destruct E as (u' & Eu & E). injection E as <- _ _ _. cbn [w_u]. rewrite (add_loop_nan _ _ _ _ a U Fd Eu Ha).
  now apply (nan_add_l N HN).
Qed.
Lemma loop_nan V pk fuel a : sane V -> 0 <= a < ndofs V -> forall c k w r, wok V w -> newton_loop fuel pk V c k w = Ok r ->
  N (oval (w_u w) a) -> N (oval (w_u (fst (fst (fst r)))) a).
Proof.
  intros S Ha. induction fuel as [|fuel IH]; intros c k w r K E Hn; cbn [newton_loop] in E; [discriminate|].
  destruct (body_ok V w S K) as (w1 & nl & er & brk & E1 & K1 & _). rewrite E1 in E. cbn [bind] in E.
  pose proof (body_nan V w w1 nl er brk a S K E1 Ha Hn) as H1. destruct brk; [injection E as <-; exact H1|].
  apply bind_ok in E. destruct E as (i & _ & E). destruct (_ && _)%bool; [|injection E as <-; exact H1]. exact (IH _ _ _ _ K1 E H1).
Qed.

(** a NaN at the origin reaches every displacement in one pass, if there is a node inside *)
Lemma resid_nan d W a x V : In (a, x) W -> N x -> bndb V (v_nz V) (a / d) = false -> N (resid V d W a).
Proof.
  intros I Hx B. unfold resid. rewrite B. apply (nan_opp N HN). apply (deltas_nan N HN _ _ x); [|exact Hx].
  unfold deltas. apply in_map_iff. exists (a, x). split; [reflexivity|]. apply filter_In. split; [exact I|]. cbn [fst]. apply Z.eqb_refl.
Qed.
Lemma rhs_nan V u vold vnew b b' nl vn er c : sane V -> full u (ndofs V) -> has_old V vold -> alen vnew = nvars V -> alen b = ndofs V ->
  assembly_rhs V u vold vnew b = Ok (b', nl, vn, er) -> (exists a, inner V a) -> 0 <= c < v_dim V -> N (oval u c) ->
  N er /\ exists a, 0 <= a < ndofs V /\ N (oval b' a).
Proof.
  intros S U O L Lb E (a0 & Hin) Hc Hn. pose proof (full_oval _ _ U) as RU. destruct Hin as (i0 & j0 & k0 & c0 & Hi & Hj & Hk & Hc0 & _).
  assert (F : forall n r, N (r n) -> forall m, 0 <= n < m -> N (norm2 m r)).
  { intros n r Hr m Hm. unfold norm2. apply (nan_sqrt N HN). apply (sumf_nan N HN _ _ n); [now apply in_zrange|]. now apply (nan_mul_l N HN). }
  destruct (dim_cases V S) as [D|D]; rewrite D in Hc, Hk; cbn [Z.eqb Pos.eqb] in Hk.
  - rewrite (ndofs_eq2 V S D) in *.
    destruct (rhs2_ok V _ (oval u) S u vold vnew b D RU Lb) as (b2 & E2 & R2). rewrite E in E2. injection E2 as <- -> -> ->.
    set (a := node (v_nx V) (v_ny V) 1 1 0 * 2 + 0).
    assert (Ha : 0 <= a < v_nx V * v_ny V * 2) by (pose proof (node_range (v_nx V) (v_ny V) 1 1 1 0 ltac:(lia) ltac:(lia) ltac:(lia)); unfold a; lia).
    assert (Hr : N (resid V 2 (rhs_all2 V (oval u)) a)).
    { apply (resid_nan 2 _ a (lget (be2 V (oval u) (0, 0)) 4)).
      - apply (proj2 (in_rhs_all2 V (oval u) (oval u) _ _)). exists (0, 0), 4. split; [apply in_els2; lia|]. split; [lia|]. split; reflexivity.
      - apply (be2_nan N HN V (oval u) (0, 0) c); try lia. unfold disp2. replace (c / 2) with 0 by (symmetry; apply Z.div_small; lia).
        replace (c mod 2) with c by (symmetry; apply Z.mod_small; lia). replace (corner2 _ _ _ _ _ * 2 + c) with c by (unfold corner2, node; cbn; lia). exact Hn.
      - replace (a / 2) with (node (v_nx V) (v_ny V) 1 1 0) by (unfold a; rewrite Z.add_0_r, Z.div_mul; lia).
        pose proof (bndb2_spec V 1 1 D ltac:(lia) ltac:(lia)) as Bs. destruct bndb; [|reflexivity]. exfalso.
        assert (B : bnd2 (v_nx V) (v_ny V) 1 1) by now apply Bs. unfold bnd2, on_bnd in B. lia. }
    split; [now apply (F a)|]. exists a. split; [exact Ha|]. unfold oval at 1. rewrite (proj2 R2 a Ha). exact Hr.
  - rewrite (ndofs_eq3 V D) in *. rewrite nvars_eq in L.
    destruct (rhs3_ok V _ _ S u vold vnew b D RU (has_old_ok _ _ O) L Lb) as (b2 & vn2 & E2 & R2 & _). rewrite E in E2. injection E2 as <- -> <- ->.
    set (a := node (v_nx V) (v_ny V) 1 1 1 * 3 + 0).
    assert (Ha : 0 <= a < v_nx V * v_ny V * v_nz V * 3) by (pose proof (node_range (v_nx V) (v_ny V) (v_nz V) 1 1 1 ltac:(lia) ltac:(lia) ltac:(lia)); unfold a; lia).
    assert (Hr : N (resid V 3 (rhs_all3 V (oval u) (oval vold)) a)).
    { apply (resid_nan 3 _ a (lget (be3 V (oval u) (oval vold) (0, 0, 0)) 18)).
      - apply (proj2 (in_rhs_all3 V _ _ _ _)). exists (0, 0, 0), 18. split; [apply in_els3; lia|]. split; [lia|]. split; reflexivity.
      - apply (be3_nan N HN V (oval u) (oval vold) (0, 0, 0) c); try lia. unfold disp3. replace (c / 3) with 0 by (symmetry; apply Z.div_small; lia).
        replace (c mod 3) with c by (symmetry; apply Z.mod_small; lia). replace (corner3 _ _ _ _ _ _ * 3 + c) with c by (unfold corner3, node; cbn; lia). exact Hn.
      - replace (a / 3) with (node (v_nx V) (v_ny V) 1 1 1) by (unfold a; rewrite Z.add_0_r, Z.div_mul; lia).
        pose proof (bndb3_spec V 1 1 1 D ltac:(lia) ltac:(lia) ltac:(lia)) as Bs. destruct bndb; [|reflexivity]. exfalso.
        assert (B : bnd3 (v_nx V) (v_ny V) (v_nz V) 1 1 1) by now apply Bs. unfold bnd3, on_bnd in B. lia. }
    split; [now apply (F a)|]. exists a. split; [exact Ha|]. unfold oval at 1. rewrite (proj2 R2 a Ha). exact Hr.
Qed.
Lemma body_poison V w w' nl er brk c : sane V -> wok V w -> newton_body V w = Ok (w', nl, er, brk) ->
  (exists a, inner V a) -> 0 <= c < v_dim V -> N (oval (w_u w) c) ->
  brk = false /\ forall a, 0 <= a < ndofs V -> N (oval (w_u w') a).
Proof.
  intros S K E Hin Hc Hn. destruct K as [U Ldu Lb A O L]. unfold newton_body in E.
  destruct (rhs_ok V _ _ _ _ S U O L Lb) as (b & nl0 & vn & er0 & E0 & Fb & Lv & _). rewrite E0 in E. cbn [bind] in E.
  destruct (rhs_nan V _ _ _ _ _ _ _ _ c S U O L Lb E0 Hin Hc Hn) as (Her & Hb). rewrite (nan_lt_l N HN _ _ Her) in E.
  destruct (mat_ok V (w_u w) (w_vold w) vn (w_A w) S U O Lv A) as (A' & vn' & Em & FA & _). rewrite Em in E. cbn [bind fst snd] in E.
  destruct (zero_all (oval (w_u w)) (oval (w_u w)) (ndofs V) (w_du w) (ndofs_pos V S) Ldu) as (d0 & Ed0 & R0). rewrite Ed0 in E. cbn [bind] in E.
  destruct (solve_nan N HN V A' b d0 S FA Fb (rep_full _ _ _ R0) Hb) as (d & Ed & Fd & Nd). rewrite Ed in E. cbn [bind] in E.
  apply bind_ok in E. destruct E as (u' & Eu & E). injection E as <- _ _ <-. split; [reflexivity|]. intros a Ha. cbn [w_u].
  rewrite (add_loop_nan _ _ _ _ a U Fd Eu Ha). apply (nan_add_r N HN). now apply Nd.
Qed.
Lemma newton_poison V pk fuel w r c : sane V -> wok V w -> newton fuel pk V w = Ok r ->
  (exists a, inner V a) -> 0 <= c < v_dim V -> N (oval (w_u w) c) -> forall a, 0 <= a < ndofs V -> N (oval (w_u (fst (fst (fst r)))) a).
Proof.
  intros S K E Hin Hc Hn a Ha. unfold newton in E. destruct fuel as [|fuel]; cbn [newton_loop] in E; [discriminate|].
  destruct (body_ok V w S K) as (w1 & nl & er & brk & E1 & K1 & _). rewrite E1 in E. cbn [bind] in E.
  destruct (body_poison V w w1 nl er brk c S K E1 Hin Hc Hn) as (-> & P).
  apply bind_ok in E. destruct E as (i & _ & E). destruct (_ && _)%bool; [|injection E as <-; now apply P]. exact (loop_nan V pk fuel a S Ha _ _ _ _ K1 E (P a Ha)).
Qed.

(** ** Responses *)
Definition eps_nan V (eps : list T) : Prop := exists k, 0 <= k < nvoi V /\ N (lget eps k).
Lemma respond_nan V pk fuel eps w w' nl it er s : sane V -> wok V w -> respond fuel pk V eps w = Ok (w', nl, it, er, s) ->
  (forall a, inner V a -> N (oval (w_u w) a) -> N (oval (w_u w') a)) /\
  (eps_nan V eps \/ (exists a, inner V a /\ N (oval (w_u w) a)) -> alln (nvoi V) s) /\
  (eps_nan V eps -> (exists a, inner V a) -> forall a, 0 <= a < ndofs V -> N (oval (w_u w') a)).
Proof.
  intros S K E. unfold respond in E. destruct (displ_ok V eps (w_u w) S (wk_u _ _ K)) as (u & Eu & Fu). rewrite Eu in E. cbn [bind] in E.
  assert (K1 : wok V (set_u w u)) by (destruct K; constructor; assumption).
  apply bind_ok in E. destruct E as (r & En & E). pose proof (newton_ok V pk fuel (set_u w u) S K1) as H. rewrite En in H.
  destruct r as (((w2, nl2), it2), er2). destruct H as (_ & K2 & _). apply bind_ok in E. destruct E as ((s2, vn2) & Es & E). injection E as <- _ _ _ <-.
  cbn [fst snd set_vnew w_u].
  assert (Kp : forall a, inner V a -> N (oval (w_u w) a) -> N (oval (w_u w2) a)).
  { intros a Ha Hn. pose proof (inner_range V a S Ha) as Hr. apply (loop_nan V pk fuel a S Hr _ _ _ _ K1 En). cbn [set_u w_u].
    rewrite (oval_get _ _ a (displ_keeps V eps _ _ a S Eu Ha)). exact Hn. }
  split; [exact Kp|]. split.
  - intros H. apply (ave_stress_nan N HN V _ _ _ _ _ S (wk_u _ _ K2) (wk_old _ _ K2) (wk_new _ _ K2) Es). destruct H as [(k & Hk & Hn)|(a & Ha & Hn)].
    + destruct (displ_nan V eps _ _ k S Eu Hk Hn) as (c & Hc & Hc'). exists c.
      assert (Hr : 0 <= c < ndofs V).
      { pose proof (sa_nx V S). pose proof (sa_ny V S). destruct (dim_cases V S) as [D|D]; rewrite D in Hc; [rewrite (ndofs_eq2 V S D); nia|].
        rewrite (ndofs_eq3 V D). pose proof (sane_nz V S D). assert (4 <= v_nx V * v_ny V) by nia. nia. }
      split; [exact Hr|]. apply (loop_nan V pk fuel c S Hr _ _ _ _ K1 En). exact Hc'.
    + exists a. split; [now apply inner_range|]. now apply Kp.
  - intros (k & Hk & Hn) Hin. destruct (displ_nan V eps _ _ k S Eu Hk Hn) as (c & Hc & Hc'). exact (newton_poison V pk fuel _ _ c S K1 En Hin Hc Hc').
Qed.

(** ** One Gauss point *)
Definition col_nan V (c : arr T) : Prop := forall i, 0 <= i < nvoi V * nvoi V -> exists x, aget c i = Some x /\ N x.
Definition str_nan V (s : arr T) : Prop := forall i, 0 <= i < nvoi V -> exists x, aget s i = Some x /\ N x.

Lemma homog_ctan_nan V fuel orc eps s0 w ctan its ers w' ctan' its' ers' : sane V -> wfull V w -> alen ctan = 36 -> alen its = 7 -> alen ers = 7 ->
  homog_ctan fuel orc V eps s0 w ctan its ers = Ok (w', ctan', its', ers') ->
  (forall a, inner V a -> N (oval (w_u w) a) -> N (oval (w_u w') a)) /\
  (alln (nvoi V) s0 -> col_nan V ctan').
Proof.
  intros S W Lc Li Le E. pose proof (nvoi_range V S) as Nv. pose proof (nvoi2_range V S) as Nv2. unfold homog_ctan in E.
  pose (P := fun (n : Z) (st : work T * arr T * arr Z * arr T) => let '(w', ctan', its', ers') := st in
    wfull V w' /\ alen ctan' = 36 /\ alen its' = 7 /\ alen ers' = 7 /\
    (forall a, inner V a -> N (oval (w_u w) a) -> N (oval (w_u w') a)) /\
    (alln (nvoi V) s0 -> forall v j, 0 <= v < nvoi V -> 0 <= j < n -> exists x, aget ctan' (v * nvoi V + j) = Some x /\ N x)).
  match type of E with foldM ?f _ _ = _ => pose proof (foldM_iter f P (fun _ => True) (nvoi V) ltac:(lia)) as X end.
  specialize (X (w, ctan, its, ers)). cbv beta in X.
  match type of X with ?A -> ?B -> ?C => assert (HA : A); [|assert (HB : B)] end.
  - unfold P. split; [exact W|]. split; [exact Lc|]. split; [exact Li|]. split; [exact Le|]. split; [auto|]. intros; lia.
  - intros i (((w1, c1), i1), e1) Hi (W1 & Lc1 & Li1 & Le1 & K1 & C1).
    destruct (respond fuel (orc (1 + i)) V (bump (nvoi V) eps i) w1) as [r|e] eqn:Er; cbn [bind]; [|exact I].
    pose proof (wfull_respond V _ _ _ _ _ S W1 Er) as H. destruct r as ((((w2, nl), it), er), s1). destruct H as (W2 & I2 & O2 & _).
    destruct (respond_nan V _ _ _ _ _ _ _ _ _ S (proj1 W1) Er) as (Kp & _).
    destruct (wr_col_ok V c1 i (ltab (nvoi V) (fun v => odiv (osub (lget s1 v) (lget s0 v)) d_eps)) S Lc1 Hi) as (c2 & Ec & Lc2 & Hc2).
    rewrite Ec. cbn [bind].
    destruct (wr_ok i1 (1 + i) it) as (i2 & Ei & Li2 & Gi2); [lia|]. rewrite Ei. cbn [bind].
    destruct (wr_ok e1 (1 + i) er) as (e2 & Ee & Le2 & Ge2); [lia|]. rewrite Ee. cbn [bind].
    unfold P. split; [exact W2|]. split; [exact Lc2|]. split; [lia|]. split; [lia|]. split; [auto|].
    intros Hs v j Hv Hj. rewrite (Hc2 v j Hv ltac:(lia)). destruct (Z.eqb_spec j i); [|apply C1; [exact Hs|lia|lia]].
    eexists. split; [reflexivity|]. rewrite lget_ltab by lia. apply (nan_div_l N HN), (nan_sub_r N HN). now apply Hs.
  - specialize (X HA HB). rewrite E in X. destruct X as (_ & _ & _ & _ & Kp & C). split; [exact Kp|]. intros Hs i Hi.
    replace i with ((i / nvoi V) * nvoi V + i mod nvoi V) by (rewrite (Z.div_mod i (nvoi V)) at 3 by lia; ring).
    apply C; [exact Hs| |apply Z.mod_pos_bound; lia]. split; [apply Z.div_pos; lia|]. apply Z.div_lt_upper_bound; lia.
Qed.

Definition strain_nan V g : Prop := exists k, 0 <= k < nvoi V /\ N (oval (g_strain g) k).
(** a NaN strain is never below the threshold *)
Lemma strain_nan_nl V c g : sane V -> strain_nan V g -> ~ takes_linear V c g.
Proof.
  intros S (k & Hk & Hn) (H & _).
  assert (L : forall i, N (lin_val V c (g_strain g) i)).
  { intros i. unfold lin_val. apply (sumf_nan N HN _ _ k); [now apply in_zrange|]. now apply (nan_mul_r N HN). }
  assert (X : N (oabs (inv_val V c (g_strain g)))).
  { apply (nan_abs N HN). unfold inv_val. destruct (v_dim V =? 2); apply (nan_add_r N HN), L. }
  rewrite (nan_lt_l N HN _ _ X) in H. discriminate.
Qed.
Lemma homog_gp_nan V fuel orc c w g w' inv g' : sane V -> wfull V w -> pfull c (nvoi V * nvoi V) -> gp_ok V g ->
  homog_gp fuel orc V c w g = Ok (w', inv, g') ->
  (forall a, inner V a -> N (oval (w_u w) a) -> N (oval (w_u w') a)) /\
  (takes_linear V c g /\ g_n g' = g_n g \/
   (strain_nan V g \/ (exists a, inner V a /\ N (oval (w_u w) a)) -> str_nan V (g_stress g') /\ col_nan V (g_ctan g'))) /\
  (strain_nan V g -> (exists a, inner V a) -> forall a, inner V a -> N (oval (w_u w') a)).
Proof.
  intros S W C G E. pose proof (nvoi_range V S) as Nv. unfold homog_gp in E. destruct W as (K & Fo & Fn).
  destruct (load_ok V (g_n g) (w_vold w) S (full_alen _ _ Fo)) as (vo & Eo & Fo' & _).
  { intros v Ev. pose proof (go_vars V g G) as Gv. rewrite Ev in Gv. destruct (g_k g); [tauto|contradiction]. }
  rewrite Eo in E. cbn [bind] in E.
  assert (W1 : wfull V (set_vold w vo)).
  { split; [|split; assumption]. destruct K as [A1 A2 A3 A4 A5 A6]. constructor; try assumption. cbn.
    intros e q i He Hq Hi _. apply (proj2 Fo'). rewrite nvars_eq. unfold intvar_ix. lia. }
  rewrite (is_linear_ok V c _ _ S C (go_e V g G)) in E. cbn [bind fst snd] in E.
  destruct (oltb (oabs (inv_val V c (g_strain g))) (v_inv_tol V) && match g_n g with None => true | Some _ => false end)%bool eqn:EL.
  - assert (Tl : takes_linear V c g) by (apply andb_prop in EL; destruct EL; split; [assumption|now destruct (g_n g)]).
    match type of E with context [homog_linear V c g ?x] => destruct (homog_linear_ok V c g x S C G) as (g2 & E2 & _ & _ & _ & _ & Hn & _) end.
    rewrite E2 in E. cbn [bind] in E. injection E as <- _ <-. cbn [set_vold w_u]. split; [auto|]. split; [left; auto|].
    intros Hs. now elim (strain_nan_nl V c g S Hs).
  - rewrite (rdl_ok _ _ (go_e V g G)) in E. cbn [bind] in E. set (eps := map (oval (g_strain g)) (zrange 0 (nvoi V))) in *.
    apply bind_ok in E. destruct E as (r & Er & E). pose proof (wfull_respond V _ _ _ _ _ S W1 Er) as H.
    destruct r as ((((w2, nl), it), er), s). destruct H as (W2 & _).
    destruct (respond_nan V _ _ _ _ _ _ _ _ _ S (proj1 W1) Er) as (Kp & Sn & Po). cbn [set_vold w_u] in Kp, Sn, Po.
    unfold wrl in E. destruct (fill_ok (lget s) (nvoi V) (g_stress g)) as (st & Es & Ls & Ps & Hs & _); [rewrite (go_stress V g G); lia|].
    rewrite Es in E. cbn [bind] in E. apply bind_ok in E. destruct E as ((n', k') & _ & E). cbn [fst snd] in E.
    destruct (wr_ok (g_its g) 0 it) as (i1 & Ei & Li & Gi); [rewrite (go_its V g G); lia|]. rewrite Ei in E. cbn [bind] in E.
    destruct (wr_ok (g_err g) 0 er) as (e1 & Ee & Le & Ge); [rewrite (go_err V g G); lia|]. rewrite Ee in E. cbn [bind] in E.
    apply bind_ok in E. destruct E as ((((w3, c3), i3), e3) & Et & E). injection E as <- _ <-. cbn [g_stress g_ctan].
    destruct (homog_ctan_nan V fuel orc eps s w2 (g_ctan g) i1 e1 _ _ _ _ S W2 (go_ctan V g G) ltac:(rewrite Li; exact (go_its V g G)) ltac:(rewrite Le; exact (go_err V g G)) Et) as (Kp3 & Cn).
    assert (Q : strain_nan V g -> eps_nan V eps).
    { intros (k & Hk & Hn). exists k. split; [exact Hk|]. unfold eps. now rewrite lget_map. }
    split; [auto|]. split.
    + right. intros H. assert (As : alln (nvoi V) s) by (apply Sn; destruct H; [left; auto|right; assumption]). split; [|now apply Cn].
      intros i Hi. exists (lget s i). split; [now apply Hs|now apply As].
    + intros Hs' Hin a Ha. apply Kp3; [exact Ha|]. apply (Po (Q Hs') Hin). now apply inner_range.
Qed.

(** ** All the Gauss points *)
Definition poisoned V w : Prop := forall a, inner V a -> N (oval (w_u w) a).
Definition nan_rel V c g g' : Prop := takes_linear V c g /\ g_n g' = g_n g \/ str_nan V (g_stress g') /\ col_nan V (g_ctan g').
Lemma homog_list_nan V fuel orc c l w inv w' inv' l' j' : sane V -> wfull V w -> pfull c (nvoi V * nvoi V) ->
  Forall (fun g => gp_ok V g) l -> homog_list fuel orc V c l w inv = Ok (w', inv', l', j') ->
  (forall a, inner V a -> N (oval (w_u w) a) -> N (oval (w_u w') a)) /\
  Forall2 (fun g g' => strain_nan V g \/ (exists a, inner V a /\ N (oval (w_u w) a)) -> nan_rel V c g g') l l' /\
  ((exists a, inner V a) -> (exists g, In g l /\ strain_nan V g) -> poisoned V w').
Proof.
  intros S W C F E. unfold homog_list in E.
  match type of E with foldM ?f _ _ = _ => set (ff := f) in * end.
  assert (X : forall l w inv dn j w' inv' l' j', wfull V w -> Forall (fun g => gp_ok V g) l -> foldM ff l (w, inv, dn, j) = Ok (w', inv', l', j') ->
    (forall a, inner V a -> N (oval (w_u w) a) -> N (oval (w_u w') a)) /\
    (exists d2, l' = dn ++ d2 /\ Forall2 (fun g g' => strain_nan V g \/ (exists a, inner V a /\ N (oval (w_u w) a)) -> nan_rel V c g g') l d2) /\
    ((exists a, inner V a) -> (exists g, In g l /\ strain_nan V g) -> poisoned V w')).
  { clear l w inv w' inv' l' j' W F E. induction l as [|g l IH]; intros w inv dn j w' inv' l' j' W F E; cbn [foldM] in E.
    - injection E as <- <- <- <-. split; [auto|]. split; [exists []; rewrite app_nil_r; auto|]. intros _ (g & [] & _).
    - inversion F as [|g0 l0 Gg Fl]; subst. unfold ff at 1 in E.
      pose proof (homog_gp_ok V fuel (orc j) c w g S W C Gg) as H.
      destruct (homog_gp fuel (orc j) V c w g) as [((w1, inv1), g1)|e] eqn:E1; cbn [bind] in E; [|discriminate].
      destruct (homog_gp_nan V fuel (orc j) c w g w1 inv1 g1 S W C Gg E1) as (Kp & Rl & Po).
      destruct (IH _ _ _ _ _ _ _ _ (proj1 H) Fl E) as (Kp2 & (d2 & -> & R2) & Po2). split; [auto|]. split.
      + exists (g1 :: d2). rewrite <- app_assoc. split; [reflexivity|]. constructor.
        * intros Hn. destruct Rl as [Rl|Rl]; [left; exact Rl|right; now apply Rl].
        * refine (f2_impl _ _ _ _ _ R2). cbv beta. intros x y R Hn. apply R. destruct Hn as [Hn|(a & Ha & Hn)]; [now left|right]. exists a. auto.
      + intros Hin (gg & [->|Hg] & Hs); [|apply Po2; eauto]. intros a Ha. apply Kp2; [exact Ha|]. exact (Po Hs Hin a Ha). }
  destruct (X l w inv [] 0 w' inv' l' j' W F E) as (Kp & (d2 & -> & R) & Po). auto.
Qed.

(** ** Calls *)
Lemma step_keeps c o fs o' fs' r : obj_ok o -> step c (o, fs) = Ok (o', fs', r) ->
  forall a, inner (o_env o) a -> N (oval (w_u (o_work o)) a) -> N (oval (w_u (o_work o')) a).
Proof.
  intros K E a Ha Hn. pose proof (ok_sane o K) as S. pose proof (ok_gps o K) as F. destruct c; cbn [step] in E.
  - destruct (Z.of_nat (length eps) <? nvoi (o_env o)); [discriminate|]. apply bind_ok in E. destruct E as (l & _ & E). injection E as <- _ _. exact Hn.
  - apply bind_ok in E. destruct E as (l & _ & E). injection E as <- _ _. exact Hn.
  - apply bind_ok in E. destruct E as (l & _ & E). injection E as <- _ _. exact Hn.
  - injection E as <- _ _. exact Hn.
  - apply bind_ok in E. destruct E as (o1 & E1 & E). injection E as <- _ _. unfold homogenize in E1.
    apply bind_ok in E1. destruct E1 as ((((w', inv'), l'), j') & El & E1). injection E1 as <-. cbn [o_work].
    assert (F1 : Forall (fun g => gp_ok (o_env o) g) (o_gps o)) by (eapply Forall_impl; [|exact F]; cbv beta; tauto).
    destruct (homog_list_nan _ _ _ _ _ _ _ _ _ _ _ S (ok_work o K) (ok_ctan o K) F1 El) as (Kp & _). now apply Kp.
  - apply bind_ok in E. destruct E as (o1 & E1 & E). injection E as <- _ _. unfold update_vars in E1.
    apply bind_ok in E1. destruct E1 as (l' & _ & E1). injection E1 as <-. exact Hn.
  - apply bind_ok in E. destruct E as ((o1, fs1) & E1 & E). injection E as <- _ _. unfold output in E1.
    destruct (lookup id (o_gps o)) as [g|] eqn:L; [|injection E1 as <- _; exact Hn].
    destruct (lookup_ok o id g K L) as (Gg & _). destruct (ok_work o K) as (W & Fo & Fn).
    destruct (load_ok (o_env o) (g_n g) (w_vold (o_work o)) S (full_alen _ _ Fo)) as (vo & Eo & Fo' & _).
    { intros v Ev. pose proof (go_vars _ g Gg) as Gv. rewrite Ev in Gv. destruct (g_k g); [tauto|contradiction]. }
    rewrite Eo in E1. cbn [bind] in E1. apply bind_ok in E1. destruct E1 as (eps & _ & E1).
    apply bind_ok in E1. destruct E1 as (u & Eu & E1). destruct (displ_ok (o_env o) eps _ S (wk_u _ _ W)) as (u2 & Eu2 & Fu).
    rewrite Eu in Eu2. injection Eu2 as <-.
    assert (W1 : wok (o_env o) (set_u (set_vold (o_work o) vo) u)).
    { destruct W as [A1 A2 A3 A4 A5 A6]. constructor; try assumption. cbn.
      intros e q i He Hq Hi _. apply (proj2 Fo'). rewrite nvars_eq. unfold intvar_ix. lia. }
    apply bind_ok in E1. destruct E1 as (r1 & En & E1). apply bind_ok in E1. destruct E1 as (f & _ & E1).
    apply bind_ok in E1. destruct E1 as (t & _ & E1). injection E1 as <- _. cbn [with_work o_work set_vnew w_u].
    apply (loop_nan _ pk fuel a S (inner_range _ _ S Ha) _ _ _ _ W1 En). cbn [set_u set_vold w_u].
    rewrite (oval_get _ _ a (displ_keeps _ eps _ _ a S Eu Ha)). exact Hn.
  - apply bind_ok in E. destruct E as ((o1, fs1) & E1 & E). injection E as <- _ _.
    pose proof (write_info_ok o fs K) as H. rewrite E1 in H. destruct H as (-> & _). exact Hn.
Qed.
Lemma run_keeps cs : forall o fs o' fs' rs, obj_ok o -> run cs (o, fs) = Ok (o', fs', rs) -> obj_ok o' /\ same_obj o o' /\
  forall a, inner (o_env o) a -> N (oval (w_u (o_work o)) a) -> N (oval (w_u (o_work o')) a).
Proof.
  induction cs as [|c cs IH]; intros o fs o' fs' rs K E; cbn [run] in E.
  - injection E as <- _ _. split; [exact K|]. split; [repeat split|auto].
  - apply bind_ok in E. destruct E as (((o1, fs1), r) & E1 & E). cbn [fst snd] in E.
    apply bind_ok in E. destruct E as (((o2, fs2), rs2) & E2 & E). cbn [fst snd] in E. injection E as <- _ _.
    pose proof (step_ok c o fs K) as H. rewrite E1 in H. destruct H as (K1 & S1 & _).
    destruct (IH _ _ _ _ _ K1 E2) as (K2 & S2 & Kp). split; [exact K2|]. split; [destruct S1 as (?&?&?), S2 as (?&?&?); repeat split; congruence|].
    intros a Ha Hn. apply Kp; [|exact (step_keeps c _ _ _ _ _ K E1 a Ha Hn)]. destruct S1 as (-> & _). exact Ha.
Qed.

(** a homogenisation of an object: every point it answers without the shortcut *)
Lemma step_homog fuel orc o fs o' fs' r : obj_ok o -> step (Homogenize fuel orc) (o, fs) = Ok (o', fs', r) ->
  (forall id g', lookup id (o_gps o') = Some g' -> exists g, lookup id (o_gps o) = Some g /\ g_strain g' = g_strain g /\
     (strain_nan (o_env o) g \/ (exists a, inner (o_env o) a /\ N (oval (w_u (o_work o)) a)) -> nan_rel (o_env o) (o_ctan o) g g')) /\
  ((exists a, inner (o_env o) a) -> (exists g, In g (o_gps o) /\ strain_nan (o_env o) g) -> poisoned (o_env o) (o_work o')).
Proof.
  intros K E. pose proof (ok_sane o K) as S. pose proof (ok_gps o K) as F.
  assert (F1 : Forall (fun g => gp_ok (o_env o) g) (o_gps o)) by (eapply Forall_impl; [|exact F]; cbv beta; tauto).
  cbn [step] in E. apply bind_ok in E. destruct E as (o1 & E1 & E). injection E as <- _ _. unfold homogenize in E1.
  apply bind_ok in E1. destruct E1 as ((((w', inv'), l'), j') & El & E1). injection E1 as <-. cbn [o_work o_gps].
  destruct (homog_list_nan _ _ _ _ _ _ _ _ _ _ _ S (ok_work o K) (ok_ctan o K) F1 El) as (_ & R & Po). split; [|exact Po].
  pose proof (homog_list_ok (o_env o) fuel orc (o_ctan o) (o_gps o) (o_work o) (o_inv_max o) S (ok_work o K) (ok_ctan o K) F1) as H. rewrite El in H.
  destruct H as (_ & R2 & _). intros id g' L'.
  assert (X : forall l l' P, Forall2 P l l' -> Forall2 (homog_rel fuel orc (o_env o) (o_ctan o)) l l' -> lookup id l' = Some g' ->
    exists g, lookup id l = Some g /\ g_strain g' = g_strain g /\ P g g').
  { clear. intros l l' P FP FR. induction FP as [|x y l l' p FP IH]; cbn [lookup]; [discriminate|]. inversion FR as [|x0 y0 l0 l0' h FR' Q1 Q2]; subst.
    rewrite (homog_rel_id _ _ _ _ _ _ h). destruct (g_id x =? id); [|now apply IH]. intros [= <-]. exists x. split; [reflexivity|]. split; [|exact p].
    destruct h as (jj & w & w' & inv & _ & _ & _ & (_ & _ & _ & _ & Es & _)). exact Es. }
  exact (X _ _ _ R R2 L').
Qed.

(** ** Construction *)
Lemma ctan_lin_nan V fuel orc w c w' c' : sane V -> wfull V w -> alen c = 36 -> calc_ctan_lin fuel orc V w c = Ok (w', c') ->
  (exists a, inner V a /\ N (oval (w_u w) a)) ->
  (forall a, inner V a -> N (oval (w_u w) a) -> N (oval (w_u w') a)) /\ col_nan V c'.
Proof.
  intros S W Lc E (a0 & Ha0 & Hn0). pose proof (nvoi_range V S) as Nv. unfold calc_ctan_lin in E.
  pose (P := fun (n : Z) (st : work T * arr T) => wfull V (fst st) /\ alen (snd st) = 36 /\
    (forall a, inner V a -> N (oval (w_u w) a) -> N (oval (w_u (fst st)) a)) /\
    forall v j, 0 <= v < nvoi V -> 0 <= j < n -> exists x, aget (snd st) (v * nvoi V + j) = Some x /\ N x).
  match type of E with foldM ?f _ _ = _ => pose proof (foldM_iter f P (fun _ => True) (nvoi V) ltac:(lia) (w, c)) as X end.
  match type of X with ?A -> ?B -> ?C => assert (HA : A); [|assert (HB : B)] end.
  - unfold P. split; [exact W|]. split; [exact Lc|]. split; [auto|]. intros; lia.
  - intros i (w1, c1) Hi (W1 & Lc1 & K1 & C1). cbn [fst snd] in *.
    destruct (respond fuel (orc i) V (bump (nvoi V) (zeros (nvoi V)) i) w1) as [r|e] eqn:Er; cbn [bind]; [|exact I].
    pose proof (wfull_respond V _ _ _ _ _ S W1 Er) as H. destruct r as ((((w2, nl), it), er), s). destruct H as (W2 & I2 & O2 & _).
    destruct (respond_nan V _ _ _ _ _ _ _ _ _ S (proj1 W1) Er) as (Kp & Sn & _).
    destruct (wr_col_ok V c1 i (ltab (nvoi V) (fun v => odiv (lget s v) d_eps)) S Lc1 Hi) as (c2 & Ec & Lc2 & Hc2). rewrite Ec. cbn [bind].
    unfold P. cbn [fst snd]. split; [exact W2|]. split; [exact Lc2|]. split; [auto|].
    intros v j Hv Hj. rewrite (Hc2 v j Hv ltac:(lia)). destruct (Z.eqb_spec j i); [|apply C1; lia].
    eexists. split; [reflexivity|]. rewrite lget_ltab by lia. apply (nan_div_l N HN). apply Sn; [|lia]. right. exists a0. auto.
  - specialize (X HA HB). rewrite E in X. destruct X as (_ & _ & Kp & C). cbn [fst snd] in *. split; [exact Kp|]. intros i Hi.
    replace i with ((i / nvoi V) * nvoi V + i mod nvoi V) by (rewrite (Z.div_mod i (nvoi V)) at 3 by lia; ring).
    apply C; [|apply Z.mod_pos_bound; lia]. split; [apply Z.div_pos; lia|]. apply Z.div_lt_upper_bound; lia.
Qed.
End Nan.
