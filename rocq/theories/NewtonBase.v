(** The Newton loop over any arithmetic: no access outside a buffer and no read of an
    uninitialised entry, what each pass leaves alone, and what its result says. *)
From Coq Require Import ZifyBool.
From Verif Require Import Base Scalar EllSpec EllModel EllInit EllAsm EllOp EllBc EllBc2 EllFinal Grid CgPure CgFinal CgProps AssemblyModel AsmPure AsmBnd
  AsmRun AsmMat MicroModel.

Lemma run_stores_full {T} (ws : list (Z * T)) (a a' : arr T) n : full a n -> run_stores ws a = Ok a' -> full a' n.
Proof.
  intros (L & F) E. apply run_stores_inv in E. destruct E as (_ & L' & G). split; [congruence|].
  intros i Hi. rewrite G. destruct last_write; [eauto|]. now apply F.
Qed.
Lemma run_stores_alen {T} (ws : list (Z * T)) (a a' : arr T) : run_stores ws a = Ok a' -> alen a' = alen a.
Proof. intros E. apply run_stores_inv in E. tauto. Qed.
Lemma full_alen {T} (a : arr T) n : full a n -> alen a = n.
Proof. intros (L & _); exact L. Qed.

Section N.
Context {T : Type} `{OT : Ops T}.
Implicit Types (V : env T) (w : work T).

(** the matrix of the object, any values *)
Definition is_mat V (A : ell T) : Prop :=
  if v_dim V =? 2 then matrix2 2 (v_nx V) (v_ny V) A else matrix3 3 (v_nx V) (v_ny V) (v_nz V) A.
(** committed variables of the plastic Gauss points initialised *)
Definition has_old V (vold : arr T) : Prop := forall e g i, 0 <= e < ncells V -> 0 <= g < 8 -> 0 <= i < 7 ->
  plastic_at V e = true -> exists x, aget vold (intvar_ix e g i) = Some x.
Record wok V w : Prop := {
  wk_u : full (w_u w) (ndofs V);
  wk_du : alen (w_du w) = ndofs V;
  wk_b : alen (w_b w) = ndofs V;
  wk_A : is_mat V (w_A w);
  wk_old : has_old V (w_vold w);
  wk_new : alen (w_vnew w) = nvars V }.

Lemma nvars_eq V : nvars V = ncells V * 56.
Proof. unfold nvars, num_int_vars, ncells. ring. Qed.
Lemma ndofs_eq2 V : sane V -> v_dim V = 2 -> ndofs V = v_nx V * v_ny V * 2.
Proof. intros S D. unfold ndofs, nn. destruct (sa_dim V S) as [(_ & Hz)|(D' & _)]; [|congruence]. rewrite D, Hz. ring. Qed.
Lemma ndofs_eq3 V : v_dim V = 3 -> ndofs V = v_nx V * v_ny V * v_nz V * 3.
Proof. intros D. unfold ndofs, nn. now rewrite D. Qed.
Lemma dim_cases V : sane V -> v_dim V = 2 \/ v_dim V = 3.
Proof. intros S. destruct (sa_dim V S) as [(D & _)|(D & _)]; auto. Qed.
Lemma sane_nz V : sane V -> v_dim V = 3 -> 2 <= v_nz V.
Proof. intros S D. destruct (sa_dim V S) as [(D' & _)|(_ & H)]; [congruence|exact H]. Qed.
Lemma ndofs_pos V : sane V -> 0 <= ndofs V.
Proof.
  intros S. pose proof (sa_nx V S). pose proof (sa_ny V S). destruct (dim_cases V S) as [D|D].
  - rewrite (ndofs_eq2 V S D). nia.
  - rewrite (ndofs_eq3 V D). pose proof (sane_nz V S D). assert (0 <= v_nx V * v_ny V) by nia. nia.
Qed.

Definition oval (a : arr T) (i : Z) : T := match aget a i with Some x => x | None => ofZ 0 end.
Lemma full_oval a n : full a n -> rep a n (oval a).
Proof. intros (L & F). split; [exact L|]. intros i Hi. unfold oval. destruct (F i Hi) as (x & ->). reflexivity. Qed.
Lemma has_old_ok V vold : has_old V vold -> old_ok V (oval vold) vold.
Proof. intros H e g i He Hg Hi P. destruct (H e g i He Hg Hi P) as (x & E). unfold oval. now rewrite E. Qed.

(** ** Matrix and solver *)
Lemma matrix3_wfg nF nx ny nz (m : ell T) : 1 <= nF -> 2 <= nx -> 2 <= ny -> 2 <= nz ->
  matrix3 nF nx ny nz m -> full (e_vals m) ((27 * nF) * (nx * ny * nz * nF)) -> wf_ell m 27 nF (nx * ny * nz).
Proof.
  intros HF Hx Hy Hz M F. pose proof (matrix3_struct _ _ _ _ _ Hx Hy Hz HF M) as S. pose proof (full_oval _ _ F) as V.
  destruct (struct3_rep m nF nx ny nz _ Hx Hy Hz HF S V).
  constructor; try assumption; try nia.
  - exists (colsf m). split; [assumption|]. intros a Ha. now apply er_cf.
  - eauto.
Qed.
Lemma matrix2_wfg nF nx ny (m : ell T) : 1 <= nF -> 2 <= nx -> 2 <= ny ->
  matrix2 nF nx ny m -> full (e_vals m) ((9 * nF) * (nx * ny * nF)) -> wf_ell m 9 nF (nx * ny).
Proof.
  intros HF Hx Hy M F. pose proof (matrix2_struct _ _ _ _ Hx Hy HF M) as S. pose proof (full_oval _ _ F) as V.
  destruct (struct2_rep m nF nx ny _ Hx Hy HF S V).
  constructor; try assumption; try nia.
  - exists (colsf m). split; [assumption|]. intros a Ha. now apply er_cf.
  - eauto.
Qed.

Definition full_mat V (A : ell T) : Prop := is_mat V A /\
  if v_dim V =? 2 then full (e_vals A) ((9 * 2) * (v_nx V * v_ny V * 2))
  else full (e_vals A) ((27 * 3) * (v_nx V * v_ny V * v_nz V * 3)).

Lemma mat_ok V u vold vnew A : sane V -> full u (ndofs V) -> has_old V vold -> alen vnew = nvars V -> is_mat V A ->
  exists A' vnew', assembly_mat V u vold vnew A = Ok (A', vnew') /\ full_mat V A' /\ alen vnew' = nvars V /\
    (full vnew (nvars V) -> full vnew' (nvars V)) /\ (v_dim V = 2 -> vnew' = vnew).
Proof.
  intros S U O L M. pose proof (sa_nx V S) as Hx. pose proof (sa_ny V S) as Hy. pose proof (full_oval _ _ U) as RU.
  unfold full_mat, is_mat in *. destruct (dim_cases V S) as [D|D]; rewrite D in *; cbn [Z.eqb Pos.eqb] in *.
  - pose proof (matrix2_struct 2 _ _ _ Hx Hy ltac:(lia) M) as St.
    destruct (mat2_ok V S u vold vnew A D St) as (A1 & A2 & E & E1 & E2).
    destruct (assemble2_ok 2 (v_nx V) (v_ny V) (fun e => lget (emat2 V e)) (els2 V) A ltac:(lia) St) as (v & E1' & _ & R1).
    { intros (ex, ey) He. apply in_els2 in He. simpl. lia. }
    rewrite E1 in E1'. injection E1' as ->. unfold ell_set_bc_2D in E2. apply bind_ok in E2. destruct E2 as (v2 & E2 & [= <-]).
    cbn [e_vals set_vals] in E2. pose proof (run_stores_alen _ _ _ E2) as L2.
    exists (set_vals (set_vals A v) v2), vnew. split; [exact E|]. split; [|split; [exact L|split; [tauto|reflexivity]]].
    pose proof (s2_vlen _ _ _ _ St) as SV. pose proof (proj1 R1) as LR. split.
    + apply matrix2_set; [apply matrix2_set; [exact M|]|exact L2]. congruence.
    + cbn [e_vals set_vals]. eapply run_stores_full; [|exact E2]. eapply rep_full; exact R1.
  - pose proof (sane_nz V S D) as Hz. pose proof (matrix3_struct 3 _ _ _ _ Hx Hy Hz ltac:(lia) M) as St.
    rewrite (ndofs_eq3 V D) in RU. rewrite nvars_eq in *.
    destruct (mat3_ok V _ _ S u vold vnew A D RU (has_old_ok _ _ O) L St) as (A1 & A2 & vn & E & E1 & E2 & Es & Ln).
    destruct (assemble3_ok 3 (v_nx V) (v_ny V) (v_nz V) (fun e => lget (emat3 V (oval u) (oval vold) e)) (els3 V) A ltac:(lia) St) as (v & E1' & _ & R1).
    { intros ((ex, ey), ez) He. apply in_els3 in He. simpl. lia. }
    rewrite E1 in E1'. injection E1' as ->. unfold ell_set_bc_3D in E2. apply bind_ok in E2. destruct E2 as (v2 & E2 & [= <-]).
    cbn [e_vals set_vals] in E2. pose proof (run_stores_alen _ _ _ E2) as L2.
    exists (set_vals (set_vals A v) v2), vn. split; [exact E|]. split; [|split; [exact Ln|split; [|lia]]].
    + pose proof (s3_vlen _ _ _ _ _ St) as SV. pose proof (proj1 R1) as LR. split.
      * apply matrix3_set; [apply matrix3_set; [exact M|]|exact L2]. congruence.
      * cbn [e_vals set_vals]. eapply run_stores_full; [|exact E2]. eapply rep_full; exact R1.
    + intros F. eapply run_stores_full; eassumption.
Qed.

Lemma solve_ok V A b du : sane V -> full_mat V A -> full b (ndofs V) -> full du (ndofs V) ->
  exists du', solve V A b du = Ok du' /\ full du' (ndofs V).
Proof.
  intros S (M & F) B X. pose proof (sa_nx V S) as Hx. pose proof (sa_ny V S) as Hy.
  unfold solve, is_mat in *. destruct (dim_cases V S) as [D|D]; rewrite D in *; cbn [Z.eqb Pos.eqb] in *.
  - rewrite (ndofs_eq2 V S D) in *.
    destruct (cg_budget CG2D (mkSolver cg_its 0 cg_tol (ofZ 0)) A 2 (v_nx V) (v_ny V) 1 b du (oval b) (oval du)) as (sv & x & xf & E & R & _).
    + apply matrix2_wfg; try assumption. lia.
    + now apply full_oval.
    + now apply full_oval.
    + cbn [run_cg] in E. rewrite E. cbn [bind snd]. exists x. split; [reflexivity|]. eapply rep_full; exact R.
  - rewrite (ndofs_eq3 V D) in *. pose proof (sane_nz V S D) as Hz.
    destruct (cg_budget CGstruct3 (mkSolver cg_its 0 cg_tol (ofZ 0)) A 3 (v_nx V) (v_ny V) (v_nz V) b du (oval b) (oval du)) as (sv & x & xf & E & R & _).
    + apply matrix3_wfg; try assumption. lia.
    + now apply full_oval.
    + now apply full_oval.
    + cbn [run_cg] in E. unfold nn. rewrite E. cbn [bind snd]. exists x. split; [reflexivity|]. eapply rep_full; exact R.
Qed.

Lemma rhs_ok V u vold vnew b : sane V -> full u (ndofs V) -> has_old V vold -> alen vnew = nvars V -> alen b = ndofs V ->
  exists b' nl vnew' er, assembly_rhs V u vold vnew b = Ok (b', nl, vnew', er) /\ full b' (ndofs V) /\ alen vnew' = nvars V /\
    (full vnew (nvars V) -> full vnew' (nvars V)) /\ (v_dim V = 2 -> nl = false /\ vnew' = vnew).
Proof.
  intros S U O L Lb. pose proof (full_oval _ _ U) as RU. destruct (dim_cases V S) as [D|D].
  - rewrite (ndofs_eq2 V S D) in *.
    destruct (rhs2_ok V _ (oval u) S u vold vnew b D RU Lb) as (b' & E & R). do 4 eexists. split; [exact E|].
    split; [eapply rep_full; exact R|]. auto.
  - rewrite (ndofs_eq3 V D) in *. rewrite nvars_eq in *.
    destruct (rhs3_ok V _ _ S u vold vnew b D RU (has_old_ok _ _ O) L Lb) as (b' & vn & E & R & Es). do 4 eexists. split; [exact E|].
    split; [eapply rep_full; exact R|]. split; [rewrite (run_stores_alen _ _ _ Es); exact L|]. split; [|lia].
    intros F. eapply run_stores_full; eassumption.
Qed.

Lemma ave_stress_ok V u vold vnew : sane V -> full u (ndofs V) -> has_old V vold -> alen vnew = nvars V ->
  exists s vnew', calc_ave_stress V u vold vnew = Ok (s, vnew') /\ alen vnew' = nvars V /\
    (full vnew (nvars V) -> full vnew' (nvars V)) /\ (v_dim V = 2 -> vnew' = vnew).
Proof.
  intros S U O L. pose proof (full_oval _ _ U) as RU. destruct (dim_cases V S) as [D|D].
  - rewrite (ndofs_eq2 V S D) in *. rewrite (ave_stress2_ok V _ S u vold vnew D RU). eauto 6.
  - rewrite (ndofs_eq3 V D) in *. rewrite nvars_eq in *.
    destruct (ave_stress3_ok V _ _ S u vold vnew D RU (has_old_ok _ _ O) L) as (vn & E & Es). do 2 eexists. split; [exact E|].
    split; [rewrite (run_stores_alen _ _ _ Es); exact L|]. split; [|lia]. intros F. eapply run_stores_full; eassumption.
Qed.

Lemma sum_full n u du : full u n -> full du n ->
  exists u', upd_for n (fun u i => x <- rd u i ;; y <- rd du i ;; Ok (oadd x y)) u = Ok u' /\ full u' n /\
    forall i, 0 <= i < n -> aget u' i = Some (oadd (oval u i) (oval du i)).
Proof.
  intros U X. pose proof (full_oval _ _ U) as RU. pose proof (full_oval _ _ X) as RX.
  destruct (upd_for_rep n (fun u i => x <- rd u i ;; y <- rd du i ;; Ok (oadd x y)) u (fun i => oadd (oval u i) (oval du i))) as (u' & E & R).
  - exact (full_alen _ _ U).
  - intros a i Hi La Ga. rewrite (proj2 RU i Hi) in Ga. rewrite (rd_aget _ _ _ Ga), (rep_rd _ _ _ _ RX Hi). reflexivity.
  - exists u'. split; [exact E|]. split; [eapply rep_full; exact R|]. exact (proj2 R).
Qed.

(** ** One pass *)
Lemma body_ok V w : sane V -> wok V w ->
  exists w' nl er brk, newton_body V w = Ok (w', nl, er, brk) /\ wok V w' /\ w_vold w' = w_vold w /\
    (full (w_vnew w) (nvars V) -> full (w_vnew w') (nvars V)) /\
    (v_dim V = 2 -> nl = false /\ w_vnew w' = w_vnew w) /\
    brk = oltb er nr_tol /\ (brk = true -> w_u w' = w_u w).
Proof.
  intros S K. destruct K as [U Ldu Lb A O L].
  destruct (rhs_ok V _ _ _ _ S U O L Lb) as (b & nl & vn & er & E & Fb & Lv & Fv & D2).
  unfold newton_body. rewrite E. cbn [bind]. destruct (oltb er nr_tol) eqn:Et.
  - exists (mkWork (w_u w) (w_du w) b (w_A w) (w_vold w) vn), nl, er, true. split; [reflexivity|].
    split; [constructor; try assumption; now apply full_alen|]. split; [reflexivity|]. split; [exact Fv|]. split; [exact D2|]. auto.
  - destruct (mat_ok V (w_u w) (w_vold w) vn (w_A w) S U O Lv A) as (A' & vn' & Em & FA & Lv' & Fv' & D2').
    rewrite Em. cbn [bind fst snd].
    destruct (zero_all (oval (w_u w)) (oval (w_u w)) (ndofs V) (w_du w) (ndofs_pos V S) Ldu) as (d0 & E0 & R0). rewrite E0. cbn [bind].
    destruct (solve_ok V A' b d0 S FA Fb (rep_full _ _ _ R0)) as (d & Ed & Fd). rewrite Ed. cbn [bind].
    destruct (sum_full (ndofs V) (w_u w) d U Fd) as (u' & Eu & Fu & _). rewrite Eu. cbn [bind].
    exists (mkWork u' d b A' (w_vold w) vn'), nl, er, false. split; [reflexivity|].
    split; [constructor; try assumption; try (now apply full_alen); exact (proj1 FA)|]. split; [reflexivity|].
    split; [auto|]. split; [|split; [now rewrite Et|discriminate]].
    intros D. destruct (D2 D) as (-> & ->). split; [reflexivity|]. auto.
Qed.

(** ** The loop *)
(** what a finished loop returns *)
(** n passes of the loop, none of which took the break *)
Inductive passes V : nat -> work T -> work T -> Prop :=
| P0 w : passes V 0 w w
| PS n w w1 nl er w2 : newton_body V w = Ok (w1, nl, er, false) -> passes V n w1 w2 -> passes V (S n) w w2.

(** the j-th stray read lets the loop go on *)
Definition goes_on (pk : peek) (j : Z) : Prop := exists i, pk j = Ok i /\ i < nr_its.
(** the errors of newton_raphson: the fuel runs out only if every stray read goes on *)
Definition nbad (fuel : nat) (pk : peek) (e : err) : Prop :=
  (e = Fuel /\ forall j, 1 <= j <= Z.of_nat fuel -> goes_on pk j) \/ exists j, 1 <= j /\ pk j = Err e.

Definition newton_post V (pk : peek) (k : Z) w (r : work T * bool * Z * T) : Prop :=
  let '(w', nl, its, er) := r in
  its = 0 /\ wok V w' /\ w_vold w' = w_vold w /\
  (full (w_vnew w) (nvars V) -> full (w_vnew w') (nvars V)) /\
  (v_dim V = 2 -> nl = false /\ w_vnew w' = w_vnew w) /\
  (exists n w0 brk, passes V n w w0 /\ (forall j, k < j <= k + Z.of_nat n -> goes_on pk j) /\
     wok V w0 /\ w_vold w0 = w_vold w /\ newton_body V w0 = Ok (w', nl, er, brk) /\
     (brk = false -> exists i, pk (k + Z.of_nat n + 1) = Ok i /\ (nr_its <= i \/ oltb nr_tol er = false))).
Lemma loop_ok V pk fuel : sane V -> forall k w, wok V w -> 0 <= k ->
  match newton_loop fuel pk V 0 k w with
  | Ok r => newton_post V pk k w r
  | Err e => (e = Fuel /\ forall j, k < j <= k + Z.of_nat fuel -> goes_on pk j) \/ exists k', k < k' /\ pk k' = Err e
  end.
Proof.
  intros S. induction fuel as [|fuel IH]; intros k w K Hk; cbn [newton_loop]; [left; split; [reflexivity|]; intros; lia|].
  destruct (body_ok V w S K) as (w' & nl & er & brk & E & K' & Ov & Fv & D2 & Eb & Ub). rewrite E. cbn [bind].
  assert (P : (brk = false -> exists i, pk (k + 1) = Ok i /\ (nr_its <= i \/ oltb nr_tol er = false)) -> newton_post V pk k w (w', nl, 0, er)).
  { intros X. split; [reflexivity|]. split; [exact K'|]. split; [exact Ov|]. split; [exact Fv|]. split; [exact D2|].
    exists 0%nat, w, brk. split; [constructor|]. split; [intros; lia|]. split; [exact K|]. split; [reflexivity|]. split; [exact E|].
    replace (k + Z.of_nat 0 + 1) with (k + 1) by lia. exact X. }
  destruct brk; [apply P; discriminate|].
  destruct (Z.eqb_spec (k + 1) 0) as [C|_]; [lia|].
  destruct (pk (k + 1)) as [i|e] eqn:Ep; cbn [bind].
  - destruct ((i <? nr_its) && oltb nr_tol er)%bool eqn:Ec.
    2:{ apply P. intros _. exists i. split; [reflexivity|]. apply Bool.andb_false_iff in Ec. destruct Ec as [Ec|Ec]; [left; lia|now right]. }
    assert (Hi : i < nr_its) by lia.
    specialize (IH (k + 1) w' K' ltac:(lia)). destruct (newton_loop fuel pk V 0 (k + 1) w') as [(((w2, nl2), its2), er2)|e].
    + destruct IH as (I & K2 & O2 & F2 & D22 & n & w0 & b0 & Pn & Gn & K0 & O0 & E0 & X0). split; [exact I|]. split; [exact K2|]. split; [congruence|].
      split; [auto|]. split.
      * intros D. destruct (D22 D) as (H1 & H2). destruct (D2 D) as (_ & H3). split; [exact H1|congruence].
      * exists (Datatypes.S n), w0, b0. split; [econstructor; eassumption|]. split.
        { intros j Hj. destruct (Z.eq_dec j (k + 1)) as [->|Hne]; [exists i; auto|]. apply Gn. lia. }
        split; [exact K0|]. split; [congruence|]. split; [exact E0|].
        replace (k + Z.of_nat (Datatypes.S n) + 1) with (k + 1 + Z.of_nat n + 1) by lia. exact X0.
    + destruct IH as [(-> & G)|(k' & Hk' & Ek)].
      * left. split; [reflexivity|]. intros j Hj. destruct (Z.eq_dec j (k + 1)) as [->|Hne]; [exists i; auto|]. apply G. lia.
      * right. exists k'. split; [lia|exact Ek].
  - right. exists (k + 1). split; [lia|exact Ep].
Qed.
Lemma newton_ok V pk fuel w : sane V -> wok V w ->
  match newton fuel pk V w with
  | Ok r => newton_post V pk 0 w r
  | Err e => nbad fuel pk e
  end.
Proof.
  intros S K. pose proof (loop_ok V pk fuel S 0 w K ltac:(lia)) as H. unfold newton.
  destruct newton_loop as [r|e]; [exact H|]. destruct H as [(-> & G)|(k & Hk & E)].
  - left. split; [reflexivity|]. intros j Hj. apply G. lia.
  - right. exists k. split; [lia|exact E].
Qed.

(** ** The prescribed displacements, over any arithmetic: stores within the buffer *)
Lemma in_displ3 eps n (x y z : T) a v : In (a, v) (displ3 eps n x y z) -> exists c, 0 <= c < 3 /\ a = n * 3 + c.
Proof. unfold displ3. cbn [In]. intros [[= <- _]|[[= <- _]|[[= <- _]|[]]]]; [exists 0|exists 1|exists 2]; lia. Qed.
Lemma in_displ2 eps n (x y : T) a v : In (a, v) (displ2 eps n x y) -> exists c, 0 <= c < 2 /\ a = n * 2 + c.
Proof. unfold displ2. cbn [In]. intros [[= <- _]|[[= <- _]|[]]]; [exists 0|exists 1]; lia. Qed.
Lemma nod_range nx ny nz i j k : 0 <= i < nx -> 0 <= j < ny -> 0 <= k < nz -> 0 <= nod_index nx ny i j k < nx * ny * nz.
Proof. intros. rewrite nod_index_node. now apply node_range. Qed.
Lemma displ_range V eps a v : sane V ->
  In (a, v) (if v_dim V =? 2 then set_displ2_stores V eps else if v_dim V =? 3 then set_displ3_stores V eps else []) ->
  0 <= a < ndofs V.
Proof.
  intros S. pose proof (sa_nx V S) as Hx. pose proof (sa_ny V S) as Hy. destruct (dim_cases V S) as [D|D]; rewrite D; cbn [Z.eqb Pos.eqb].
  - rewrite (ndofs_eq2 V S D). unfold set_displ2_stores. rewrite !in_app_iff, !in_flat_map.
    intros [(i & Hi & H)|[(i & Hi & H)|[(i & Hi & H)|(i & Hi & H)]]]; apply in_zrange in Hi; apply in_displ2 in H;
      destruct H as (c & Hc & ->); nia.
  - rewrite (ndofs_eq3 V D). pose proof (sane_nz V S D) as Hz.
    assert (X : forall i j k c, 0 <= i < v_nx V -> 0 <= j < v_ny V -> 0 <= k < v_nz V -> 0 <= c < 3 ->
      0 <= nod_index (v_nx V) (v_ny V) i j k * 3 + c < v_nx V * v_ny V * v_nz V * 3).
    { intros i j k c Hi Hj Hk Hc. pose proof (nod_range _ _ _ _ _ _ Hi Hj Hk). lia. }
    unfold set_displ3_stores. rewrite !in_app_iff.
    intros [H|[H|[H|[H|[H|H]]]]]; apply in_flat_map in H; destruct H as (p & Hp & H); apply in_flat_map in H;
      destruct H as (q & Hq & H); apply in_zrange in Hp; apply in_zrange in Hq; apply in_displ3 in H; destruct H as (c & Hc & ->);
      apply X; lia.
Qed.
Lemma displ_ok V eps u : sane V -> full u (ndofs V) -> exists u', set_displ V eps u = Ok u' /\ full u' (ndofs V).
Proof.
  intros S U. unfold set_displ. pose proof (displ_range V eps) as H.
  assert (X : forall ws, (forall a v, In (a, v) ws -> 0 <= a < ndofs V) -> exists u', run_stores ws u = Ok u' /\ full u' (ndofs V)).
  { intros ws Hw. destruct (run_stores_ok ws u) as (u' & E & _); [intros; rewrite (full_alen _ _ U); eauto|].
    exists u'. split; [exact E|]. eapply run_stores_full; eassumption. }
  destruct (v_dim V =? 2); [apply X; intros; now apply (H a v S)|]. destruct (v_dim V =? 3); [apply X; intros; now apply (H a v S)|].
  exists u. split; [reflexivity|exact U].
Qed.

(** ** set_displ, newton_raphson, calc_ave_stress *)
Definition respond_post V w (r : work T * bool * Z * T * list T) : Prop :=
  let '(w', nl, its, er, s) := r in
  its = 0 /\ wok V w' /\ w_vold w' = w_vold w /\
  (full (w_vnew w) (nvars V) -> full (w_vnew w') (nvars V)) /\
  (v_dim V = 2 -> nl = false /\ w_vnew w' = w_vnew w).
Lemma respond_ok V pk fuel eps w : sane V -> wok V w ->
  match respond fuel pk V eps w with
  | Ok r => respond_post V w r
  | Err e => nbad fuel pk e
  end.
Proof.
  intros S K. unfold respond. destruct (displ_ok V eps (w_u w) S (wk_u _ _ K)) as (u & Eu & Fu). rewrite Eu. cbn [bind].
  assert (K1 : wok V (set_u w u)) by (destruct K; constructor; assumption).
  pose proof (newton_ok V pk fuel (set_u w u) S K1) as H.
  destruct (newton fuel pk V (set_u w u)) as [(((w2, nl), its), er)|e]; cbn [bind]; [|exact H].
  destruct H as (I & K2 & O2 & F2 & D2 & _). cbn [set_u w_vold w_vnew] in *.
  destruct (ave_stress_ok V (w_u w2) (w_vold w2) (w_vnew w2) S (wk_u _ _ K2) (wk_old _ _ K2) (wk_new _ _ K2)) as (s & vn & Es & Ls & Fs & Ds).
  rewrite Es. cbn [bind fst snd]. split; [exact I|]. split; [destruct K2; constructor; assumption|]. split; [exact O2|].
  cbn [set_vnew w_vnew]. split; [auto|]. intros D. destruct (D2 D) as (H1 & H2). split; [exact H1|]. rewrite (Ds D). exact H2.
Qed.
End N.
