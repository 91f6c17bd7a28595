(** The CG solver as a sequence of states: the loop of EllModel refines the
    iteration of a pure step, for every scalar type. *)
From Coq Require Import ZifyBool ZifyNat.
From Verif Require Import Base Scalar EllModel EllAsm.
Open Scope Z_scope.

Section Pure.
Context {T : Type} `{OT : Ops T}.
Variables (n : Z) (mv : (Z -> T) -> Z -> T) (kf : Z -> T).

Definition dotf (a b : Z -> T) : T := sumf (zrange 0 n) (fun i => omul (a i) (b i)).

Record cgst := mkSt { sx : Z -> T; sr : Z -> T; sp : Z -> T; srho : T }.

Definition cgz (s : cgst) : Z -> T := fun i => omul (kf i) (sr s i).
Definition cgrho (s : cgst) : T := dotf (sr s) (cgz s).
Definition cgp (first : bool) (s : cgst) : Z -> T :=
  if first then cgz s
  else fun i => oadd (cgz s i) (omul (odiv (cgrho s) (srho s)) (sp s i)).
Definition cgd (first : bool) (s : cgst) : T :=
  odiv (cgrho s) (dotf (cgp first s) (mv (cgp first s))).
Definition cgstep (first : bool) (s : cgst) : cgst :=
  mkSt (fun i => osub (sx s i) (omul (cgd first s) (cgp first s i)))
       (fun i => osub (sr s i) (omul (cgd first s) (mv (cgp first s) i)))
       (cgp first s) (cgrho s).

Definition cgnorm (s : cgst) : T := osqrt (dotf (sr s) (sr s)).

Fixpoint cgseq (s0 : cgst) (k : nat) : cgst :=
  match k with O => s0 | S k => cgstep (Nat.eqb k 0) (cgseq s0 k) end.
End Pure.

Section Refine.
Context {T : Type} `{OT : Ops T}.

(** the product as a function *)
Definition mvf (nnz : Z) (cf : Z -> Z) (vf : Z -> T) (x : Z -> T) (i : Z) : T :=
  sumf (zrange 0 nnz) (fun j => omul (vf (i * nnz + j)) (x (cf (i * nnz + j)))).

Lemma dotM_ok n (a b : arr T) af bf : rep a n af -> rep b n bf -> dotM n a b = Ok (dotf n af bf).
Proof.
  intros A B. unfold dotM, dotf. apply sumM_ok. intros i Hi. apply in_zrange in Hi.
  rewrite (rep_rd _ _ _ _ A), (rep_rd _ _ _ _ B) by lia. reflexivity.
Qed.

Variables (m : ell T) (n nnz : Z) (cf : Z -> Z) (vf kf : Z -> T) (k : arr T).
Hypothesis M : ell_rep m n nnz cf vf.
Hypothesis K : rep k n kf.
Variables (tol : T) (max : Z) (s0 : cgst (T:=T)).
Let mv := mvf nnz cf vf.
Let sq := cgseq n mv kf s0.

(** what a run started in state number j returns *)
Definition cg_result (j : nat) (xa : arr T) (er : T) (its : Z) : Prop :=
  exists j' : nat, (j <= j')%nat /\ its = Z.of_nat j' /\ rep xa n (sx (sq j')) /\
    (forall i, (j <= i < j')%nat -> oltb (cgnorm n (sq i)) tol = false) /\
    ((oltb (cgnorm n (sq j')) tol = true /\ er = cgnorm n (sq j') /\ (j' = j \/ Z.of_nat j' < max)) \/
     (j' <> 0 /\ Z.of_nat j' = Z.max (Z.of_nat j + 1) max /\ er = cgnorm n (sq (j' - 1)))%nat).

Lemma cg_loop_ok : forall fuel j xa ra za pa qa,
  (1 <= fuel)%nat -> max <= Z.of_nat j + Z.of_nat fuel ->
  rep xa n (sx (sq j)) -> rep ra n (sr (sq j)) -> alen za = n -> alen qa = n -> alen pa = n ->
  (j <> 0%nat -> rep pa n (sp (sq j))) -> 
  exists xa' er its, cg_loop m k tol max fuel xa ra za pa qa
      (if Nat.eqb j 0 then ofZ 0 else srho (sq j)) (Z.of_nat j) = Ok (xa', er, its) /\
    cg_result j xa' er its.
Proof.
  induction fuel as [|fuel IH]; intros j xa ra za pa qa Hf Hm X R Lz Lq Lp P; [lia|].
  cbn [cg_loop]. rewrite (er_nrow _ _ _ _ _ M).
  rewrite (dotM_ok _ _ _ _ _ R R). cbn [bind]. fold (cgnorm n (sq j)).
  destruct (oltb (cgnorm n (sq j)) tol) eqn:Ec.
  { exists xa, (cgnorm n (sq j)), (Z.of_nat j). split; [reflexivity|]. exists j. split; [lia|].
    split; [reflexivity|]. split; [exact X|]. split; [intros; lia|]. left. auto. }
  destruct (upd_for_rep n (fun _ i => a <- rd k i ;; b <- rd ra i ;; Ok (omul a b)) za (cgz kf (sq j)) Lz)
    as (za' & Ez & Rz).
  { intros a' i Hi _ _. rewrite (rep_rd _ _ _ _ K), (rep_rd _ _ _ _ R) by lia. reflexivity. }
  rewrite Ez. cbn [bind]. rewrite (dotM_ok _ _ _ _ _ R Rz). cbn [bind]. fold (cgrho n kf (sq j)).
  assert (EP : exists pa', (if Z.of_nat j =? 0 then upd_for n (fun _ i => rd za' i) pa
       else upd_for n (fun p i => a <- rd za' i ;; b <- rd p i ;; Ok (oadd a (omul (odiv (cgrho n kf (sq j)) (if Nat.eqb j 0 then ofZ 0 else srho (sq j))) b))) pa)
      = Ok pa' /\ rep pa' n (cgp n kf (Nat.eqb j 0) (sq j))).
  { destruct j as [|j].
    - cbn [Z.of_nat Z.eqb]. destruct (upd_for_rep n (fun _ i => rd za' i) pa (cgz kf (sq 0)) Lp) as (pa' & E & R').
      + intros a' i Hi _ _. rewrite (rep_rd _ _ _ _ Rz) by lia. reflexivity.
      + exists pa'. split; [exact E|exact R'].
    - replace (Z.of_nat (S j) =? 0) with false by lia. cbn [Nat.eqb].
      specialize (P ltac:(lia)).
      destruct (upd_for_rep n (fun p i => a <- rd za' i ;; b <- rd p i ;;
           Ok (oadd a (omul (odiv (cgrho n kf (sq (S j))) (srho (sq (S j)))) b))) pa (cgp n kf false (sq (S j))) Lp)
        as (pa' & E & R').
      + intros a' i Hi _ Ea. rewrite (rep_rd _ _ _ _ Rz) by lia.
        replace (rd a' i) with (Ok (sp (sq (S j)) i)); [reflexivity|].
        symmetry. apply rd_aget. rewrite Ea. now apply P.
      + exists pa'. split; [exact E|exact R']. }
  destruct EP as (pa' & -> & Rp). cbn [bind].
  destruct (mvp_ok m n nnz cf vf pa' _ qa M Rp Lq) as (qa' & Eq & Rq). rewrite Eq. cbn [bind].
  rewrite (dotM_ok _ _ _ _ _ Rp Rq). cbn [bind].
  set (d := odiv _ _).
  destruct (upd_for_rep n (fun x i => a <- rd x i ;; b <- rd pa' i ;; Ok (osub a (omul d b))) xa (sx (sq (S j))))
    as (xa' & Ex & Rx).
  { now destruct X. }
  { intros a' i Hi _ Ea. rewrite (rep_rd _ _ _ _ Rp) by lia.
    replace (rd a' i) with (Ok (sx (sq j) i)); [reflexivity|].
    symmetry. apply rd_aget. rewrite Ea. now apply X. }
  rewrite Ex. cbn [bind].
  destruct (upd_for_rep n (fun r i => a <- rd r i ;; b <- rd qa' i ;; Ok (osub a (omul d b))) ra (sr (sq (S j))))
    as (ra' & Er & Rr).
  { now destruct R. }
  { intros a' i Hi _ Ea. rewrite (rep_rd _ _ _ _ Rq) by lia.
    replace (rd a' i) with (Ok (sr (sq j) i)); [reflexivity|].
    symmetry. apply rd_aget. rewrite Ea. now apply R. }
  rewrite Er. cbn [bind].
  replace (Z.of_nat j + 1) with (Z.of_nat (S j)) by lia.
  destruct (Z.of_nat (S j) <? max) eqn:Em.
  - destruct (IH (S j) xa' ra' za' pa' qa') as (xr & er & its & E & (j' & Hj & Ei & Rx' & Hno & Hc)); try assumption; try lia.
    + now destruct Rz.
    + now destruct Rq.
    + now destruct Rp.
    + intros _. exact Rp.
    + exists xr, er, its. split; [exact E|]. exists j'. split; [lia|]. split; [exact Ei|]. split; [exact Rx'|].
      split.
      * intros i Hi. destruct (Nat.eq_dec i j) as [->|]; [exact Ec|]. apply Hno. lia.
      * destruct Hc as [(C1 & C2 & C3)|(C0 & C1 & C2)]; [left|right].
        -- split; [exact C1|]. split; [exact C2|]. right. lia.
        -- split; [exact C0|]. split; [lia|exact C2].
  - exists xa', (cgnorm n (sq j)), (Z.of_nat (S j)). split; [reflexivity|].
    exists (S j). split; [lia|]. split; [reflexivity|]. split; [exact Rx|]. split.
    + intros i Hi. replace i with j by lia. exact Ec.
    + right. split; [lia|]. split; [lia|]. f_equal. f_equal. lia.
Qed.
End Refine.

(** ** The whole solver *)
Section Whole.
Context {T : Type} `{OT : Ops T}.

(** a matrix the solvers can be called on: nn nodes with nF fields, S slots *)
Record wf_ell (m : ell T) (S nF nn : Z) : Prop := {
  wf_nF : 1 <= nF; wf_nn : 0 <= nn;
  wf_nrow : e_nrow m = nn * nF;
  wf_nnz : e_nnz m = S * nF;
  wf_cols : exists cf, rep (e_cols m) (S * nF * (nn * nF)) cf /\
              forall a, 0 <= a < S * nF * (nn * nF) -> 0 <= cf a < nn * nF;
  wf_vals : exists vf, rep (e_vals m) (S * nF * (nn * nF)) vf }.

Definition diag_ix (S slot nF i : Z) : Z := i * (S * nF) + (slot * nF + i mod nF).

Lemma inv_diag_ok (m : ell T) S slot nF nn vf k : wf_ell m S nF nn -> 0 <= slot < S ->
  rep (e_vals m) (S * nF * (nn * nF)) vf -> alen k = nn * nF ->
  exists k', inv_diag m slot nF nn k = Ok k' /\
    rep k' (nn * nF) (fun i => odiv (ofZ 1) (vf (diag_ix S slot nF i))).
Proof.
  intros W Hs V L. unfold inv_diag. rewrite (wf_nnz _ _ _ _ W).
  pose proof (wf_nF _ _ _ _ W) as HF. pose proof (wf_nn _ _ _ _ W) as HN.
  set (l := flat_map (fun i => map (fun d => (i, d)) (zrange 0 nF)) (zrange 0 nn)).
  set (g := fun i => odiv (ofZ 1) (vf (diag_ix S slot nF i))).
  assert (Inl : forall i d, In (i, d) l <-> 0 <= i < nn /\ 0 <= d < nF).
  { intros i d. unfold l. rewrite in_flat_map. split.
    - intros (x & Hx & Hy). apply in_map_iff in Hy. destruct Hy as (y & [= -> ->] & Hy).
      apply in_zrange in Hx, Hy. lia.
    - intros (H1 & H2). exists i. rewrite in_zrange. split; [lia|]. apply in_map_iff.
      exists d. rewrite in_zrange. auto. }
  destruct (foldM_inv (fun (k : arr T) (id : Z * Z) => let '(i, d) := id in
    v <- rd (e_vals m) (i * nF * (S * nF) + slot * nF + d * (S * nF) + d)%Z ;;
    wr k (i * nF + d)%Z (odiv (ofZ 1) v))
    (fun pre k => alen k = nn * nF /\ forall i d, In (i, d) pre -> aget k (i * nF + d) = Some (g (i * nF + d))) l k)
    as (k' & E & L' & G).
  - split; [exact L|]. intros i d [].
  - intros pre [i d] post k0 El (L0 & G0).
    assert (H : In (i, d) l) by (rewrite El; apply in_elt). apply Inl in H. destruct H as (Hi & Hd).
    assert (Ed : (i * nF + d) mod nF = d) by (rewrite Z.add_comm, Z_mod_plus_full; apply Z.mod_small; lia).
    replace (i * nF * (S * nF) + slot * nF + d * (S * nF) + d) with (diag_ix S slot nF (i * nF + d))
      by (unfold diag_ix; rewrite Ed; ring).
    assert (Hr : 0 <= diag_ix S slot nF (i * nF + d) < S * nF * (nn * nF)).
    { unfold diag_ix. rewrite Ed. assert (0 <= i * nF + d < nn * nF) by nia.
      assert (0 <= slot * nF + d < S * nF) by nia. nia. }
    rewrite (rep_rd _ _ _ _ V) by exact Hr. cbn [bind].
    destruct (wr_ok k0 (i * nF + d) (g (i * nF + d))) as (k1 & E1 & L1 & G1); [rewrite L0; nia|].
    exists k1. split; [exact E1|]. split; [congruence|]. intros i' d' Hin. rewrite G1.
    destruct (Z.eqb_spec (i' * nF + d') (i * nF + d)) as [->|Ne]; [reflexivity|].
    apply in_app_iff in Hin. destruct Hin as [Hin|[[= -> ->]|[]]]; [now apply G0|congruence].
  - exists k'. split; [exact E|]. split; [exact L'|]. intros i Hi.
    pose proof (Z.mod_pos_bound i nF ltac:(lia)). pose proof (Z.div_mod i nF ltac:(lia)) as Ei.
    specialize (G (i / nF) (i mod nF)). replace (i / nF * nF + i mod nF) with i in G by lia.
    apply G. apply Inl. split; [|lia]. split; [apply Z.div_pos; lia|apply Z.div_lt_upper_bound; lia].
Qed.

(** initial state of a solve *)
Definition cg_init (nnz : Z) (cf : Z -> Z) (vf bf xf : Z -> T) : cgst (T:=T) :=
  mkSt xf (fun i => osub (mvf nnz cf vf xf i) (bf i)) (fun _ => ofZ 0) (ofZ 0).

Lemma cgpd_ok (m : ell T) S slot nF nn cf vf (sv : solver T) b x bf xf :
  wf_ell m S nF nn -> 0 <= slot < S ->
  rep (e_cols m) (S * nF * (nn * nF)) cf -> rep (e_vals m) (S * nF * (nn * nF)) vf ->
  rep b (nn * nF) bf -> rep x (nn * nF) xf ->
  exists x' er its, cgpd slot sv m nF nn b x = Ok (mkSolver (s_max_its sv) its (s_min_tol sv) er, x') /\
    cg_result (nn * nF) (S * nF) cf vf (fun i => odiv (ofZ 1) (vf (diag_ix S slot nF i)))
      (s_min_tol sv) (s_max_its sv) (cg_init (S * nF) cf vf bf xf) 0 x' er its.
Proof.
  intros W Hs C V B X. unfold cgpd. rewrite (wf_nrow _ _ _ _ W).
  assert (HN : 0 <= nn * nF) by (destruct W; nia).
  destruct (inv_diag_ok m S slot nF nn vf (malloc (nn * nF)) W Hs V eq_refl) as (k & Ek & Rk).
  rewrite Ek. cbn [bind].
  assert (M : ell_rep m (nn * nF) (S * nF) cf vf).
  { destruct W as [_ _ W1 W2 (cf' & W3 & W4) _]. constructor; auto.
    intros a Ha. destruct C as (_ & C), W3 as (_ & W3). specialize (C a Ha). specialize (W3 a Ha).
    replace (cf a) with (cf' a) by congruence. auto. }
  destruct (mvp_ok m _ _ _ _ x xf (malloc (nn * nF)) M X eq_refl) as (r0 & E0 & R0). rewrite E0. cbn [bind].
  destruct (upd_for_rep (nn * nF) (fun r i => a <- rd r i ;; c <- rd b i ;; Ok (osub a c)) r0
     (sr (cg_init (S * nF) cf vf bf xf))) as (r1 & E1 & R1).
  { now destruct R0. }
  { intros a' i Hi _ Ea. rewrite (rep_rd _ _ _ _ B) by lia.
    replace (rd a' i) with (Ok (mvf (S * nF) cf vf xf i)); [reflexivity|].
    symmetry. apply rd_aget. rewrite Ea. now apply R0. }
  rewrite E1. cbn [bind].
  destruct (cg_loop_ok m (nn * nF) (S * nF) cf vf _ k M Rk (s_min_tol sv) (s_max_its sv)
     (cg_init (S * nF) cf vf bf xf) (cg_fuel (s_max_its sv)) 0 x r1 (malloc (nn * nF)) (malloc (nn * nF)) (malloc (nn * nF)))
    as (x' & er & its & E & Rs); try reflexivity; try assumption; try (unfold cg_fuel; lia).
  cbn [Nat.eqb Z.of_nat] in E. rewrite E. cbn [bind].
  exists x', er, its. split; [reflexivity|exact Rs].
Qed.
End Whole.
