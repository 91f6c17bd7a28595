(** Sequences of calls of the functions of src/ell.cpp. *)
From Coq Require Import String Reals.
From Verif Require Import Base Scalar EllModel EllInit EllSpec EllAsm EllOp EllFinal EllProps CgPure CgFinal CgProps
  Clite CliteRules CliteEmit EllAst EllLit EllLit2 EllLit3 EllLit6.
Local Open Scope string_scope.
Local Open Scope Z_scope.

Section Grow.
Context {T : Type} `{OT : Ops T}.
Variable P : string -> option fdef.
Notation state := (@state T).

(** nothing lives at or above the next free address *)
Definition clean (s : state) : Prop := forall c, nxt s <= c -> mem s c = None.
Definition grows (s s' : state) : Prop := clean s -> clean s' /\ nxt s <= nxt s'.

Lemma grows_refl s : grows s s.
Proof. intros C. split; [exact C|lia]. Qed.
Lemma grows_trans s1 s2 s3 : grows s1 s2 -> grows s2 s3 -> grows s1 s3.
Proof. intros A B C. destruct (A C) as (C1 & L1). destruct (B C1). split; [assumption|lia]. Qed.
Lemma grows_env s x v : grows s (set_env s x v).
Proof. intros C. split; [exact C|cbn; lia]. Qed.
Lemma grows_mem s b o o' : mem s b = Some o -> grows s (set_mem s b o').
Proof.
  intros M C. split; [|cbn; lia]. intros c L. cbn in *. destruct (Z.eqb_spec c b) as [->|]; [|now apply C].
  rewrite C in M by exact L. discriminate.
Qed.
Lemma grows_alloc s x o : grows s (alloc s x o).
Proof.
  intros C. split; [|cbn; lia]. intros c L. cbn in *. destruct (Z.eqb_spec c (nxt s)); [lia|]. apply C. lia.
Qed.

Lemma exec_grows n : forall c s s' g, exec P n c s = Ok (s', g) -> grows s s'.
Proof.
  induction n as [|n IH]; intros c s s' g E; [discriminate E|].
  destruct c; cbn [exec] in E.
  - injection E as <- _. apply grows_refl.
  - apply bind_ok in E. destruct E as ([s1 g1] & E1 & E). destruct g1.
    + eapply grows_trans; eauto.
    + injection E as <- _. eauto.
    + injection E as <- _. eauto.
  - apply bind_ok in E. destruct E as (v & _ & E). injection E as <- _. apply grows_env.
  - apply bind_ok in E. destruct E as (v & _ & E). apply bind_ok in E. destruct E as (w & _ & E).
    apply bind_ok in E. destruct E as (k & _ & E). apply bind_ok in E. destruct E as (u & _ & E).
    apply bind_ok in E. destruct E as (s1 & E1 & E). injection E as <- _. unfold store in E1.
    destruct v; try discriminate. destruct (mem s b) as [[a|a|f|f]|] eqn:M; try discriminate;
      apply bind_ok in E1; destruct E1 as (t & _ & E1); apply bind_ok in E1; destruct E1 as (a' & _ & E1);
      injection E1 as <-; eapply grows_mem; exact M.
  - apply bind_ok in E. destruct E as (v & _ & E). apply bind_ok in E. destruct E as (u & _ & E).
    apply bind_ok in E. destruct E as (s1 & E1 & E). injection E as <- _. unfold store_fld in E1.
    destruct v; try discriminate. destruct o; try discriminate.
    destruct (mem s b) as [[a|a|fs|fs]|] eqn:M; try discriminate. destruct (fget fs f); try discriminate.
    injection E1 as <-; eapply grows_mem; exact M.
  - apply bind_ok in E. destruct E as (v & _ & E). apply bind_ok in E. destruct E as (t & _ & E).
    destruct t; eauto.
  - apply bind_ok in E. destruct E as (v & _ & E). apply bind_ok in E. destruct E as (t & _ & E).
    destruct t; [|injection E as <- _; apply grows_refl].
    apply bind_ok in E. destruct E as ([s1 g1] & E1 & E). destruct g1.
    + apply bind_ok in E. destruct E as ([s2 g2] & E2 & E).
      destruct g2; [| injection E as <- _ ..]; eapply grows_trans; eauto. eapply grows_trans; eauto.
    + injection E as <- _. eauto.
    + injection E as <- _. eauto.
  - apply bind_ok in E. destruct E as ([s1 g1] & E1 & E). destruct g1.
    + apply bind_ok in E. destruct E as (v & _ & E). apply bind_ok in E. destruct E as (t & _ & E).
      destruct t; [|injection E as <- _; eauto]. eapply grows_trans; eauto.
    + injection E as <- _. eauto.
    + injection E as <- _. eauto.
  - injection E as <- _. apply grows_refl.
  - apply bind_ok in E. destruct E as (v & _ & E). injection E as <- _. apply grows_refl.
  - apply bind_ok in E. destruct E as (d & _ & E). apply bind_ok in E. destruct E as (vs & _ & E).
    apply bind_ok in E. destruct E as (e & _ & E). apply bind_ok in E. destruct E as ([s1 g1] & E1 & E).
    apply IH in E1. assert (G : grows s (mkSt (env s) (mem s1) (nxt s1))).
    { intros C. destruct (E1 C) as (A & B). split; [exact A|exact B]. }
    destruct g1; [injection E as <- _; exact G | discriminate | injection E as <- _; exact G].
  - apply bind_ok in E. destruct E as (d & _ & E). apply bind_ok in E. destruct E as (vs & _ & E).
    apply bind_ok in E. destruct E as (e & _ & E). apply bind_ok in E. destruct E as ([s1 g1] & E1 & E).
    apply IH in E1. assert (G : grows s (mkSt (env s) (mem s1) (nxt s1))).
    { intros C. destruct (E1 C) as (A & B). split; [exact A|exact B]. }
    destruct g1; try discriminate. injection E as <- _. exact G.
  - injection E as <- _. apply grows_alloc.
  - apply bind_ok in E. destruct E as (v & _ & E). apply bind_ok in E. destruct E as (k & _ & E).
    injection E as <- _. apply grows_alloc.
  - apply bind_ok in E. destruct E as (v & _ & E). destruct v; try discriminate.
    + destruct o; try discriminate. destruct (mem s b) eqn:M; [|discriminate]. injection E as <- _.
      eapply grows_mem; exact M.
    + injection E as <- _. apply grows_refl.
  - apply bind_ok in E. destruct E as (vs & _ & E). apply bind_ok in E. destruct E as (a & _ & E).
    injection E as <- _. apply grows_alloc.
Qed.

Lemma calls_grows f vs h K st g : calls P f vs h K (Ok (st, g)) ->
  (forall c, K <= c -> h c = None) -> clean st /\ K <= nxt st.
Proof.
  unfold calls. destruct (P f); [|intros []]. destruct (bindp _ vs _); [|intros []].
  intros (n & H) C. specialize (H n (Nat.le_refl n)). apply exec_grows in H. exact (H C).
Qed.
End Grow.

Section Session.
Context {T : Type} `{OT : Ops T}.

(** memory and the next free address *)
Definition heap : Type := (Z -> option (@obj T)) * Z.

(** a call of [f] from memory H ends without error in memory H' *)
Definition does (f : string) (vs : list (@val T)) (H H' : heap) : Prop :=
  exists st g, calls ell_prog f vs (fst H) (snd H) (Ok (st, g)) /\ H' = (mem st, nxt st).

Lemma does_grows f vs H H' : does f vs H H' -> (forall c, snd H <= c -> fst H c = None) ->
  (forall c, snd H' <= c -> fst H' c = None) /\ snd H <= snd H'.
Proof. intros (st & g & C & ->) F. exact (calls_grows _ _ _ _ _ _ _ C F). Qed.

(** put an array at b *)
Definition put (H : heap) (b : Z) (a : arr T) : heap :=
  ((fun c => if c =? b then Some (OD a) else fst H c), snd H).

(** one call of ell_add_struct3D per cell, the caller filling its array at ba first *)
Inductive adds3 (nF nx ny nz bm ba : Z) (Ae : Z * Z * Z -> Z -> T) : list (Z * Z * Z) -> heap -> heap -> Prop :=
| adds3_nil H : adds3 nF nx ny nz bm ba Ae [] H H
| adds3_cons ex ey ez els ae H H1 H2 : rep ae (8 * nF * (8 * nF)) (Ae (ex, ey, ez)) ->
    does "ell_add_struct3D" [VP bm 0; VI ex; VI ey; VI ez; VP ba 0; VI nF; VI nx; VI ny; VI nz]
      (put H ba ae) H1 ->
    adds3 nF nx ny nz bm ba Ae els H1 H2 -> adds3 nF nx ny nz bm ba Ae ((ex, ey, ez) :: els) H H2.

(** src/ell.cpp:48-56 *)
Lemma mvp_calls bm bc bv bx bo K h (m : ell T) (x y : arr T) :
  mat_at h bm bc bv m -> h bx = Some (OD x) -> h bo = Some (OD y) ->
  bo <> bm -> bo <> bc -> bo <> bv -> bo <> bx ->
  match ell_mvp_2D m x y with
  | Ok y' => exists st, calls ell_prog "ell_mvp_2D" [VP bm 0; VP bx 0; VP bo 0] h K (Ok (st, Nrm)) /\
      mem st bo = Some (OD y') /\ forall c, c <> bo -> mem st c = h c
  | Err _ => exists w, calls ell_prog "ell_mvp_2D" [VP bm 0; VP bx 0; VP bo 0] h K (Err w)
  end.
Proof.
  intros M X Y N1 N2 N3 N4.
  set (e := fun v : string => if String.eqb v "y" then Some (VP bo 0) else
    if String.eqb v "x" then Some (VP bx 0) else if String.eqb v "m" then Some (@VP T bm 0) else None).
  pose proof (mvp_goes (mkSt e h K) bm bc bv bx bo m x y eq_refl eq_refl eq_refl M X Y N1 N2 N3 N4) as G.
  change (calls ell_prog "ell_mvp_2D" [VP bm 0; VP bx 0; VP bo 0] h K)
    with (runs ell_prog (f_body ast_ell_mvp_2D) (mkSt e h K)).
  destruct (ell_mvp_2D m x y) as [y'|w]; cbn [CliteRules.goes] in G; [|exact G].
  destruct G as (st & R & S & E). exists st. split; [exact R|]. split; [exact E|].
  intros c N. destruct S as (S1 & S2). cbn [mem] in *. apply S2. cbn. intros [->|[]]. now apply N.
Qed.

Lemma does_fill bm bc bv h K f vs r mo m' :
  fill_result bm bc bv K h f vs r mo -> mo = Ok m' -> (forall c, K <= c -> h c = None) ->
  exists H', does f vs (h, K) H' /\ mat_at (fst H') bm bc bv m' /\ K <= snd H' /\
    (forall c, snd H' <= c -> fst H' c = None) /\ (forall c, c < K -> c <> bv -> fst H' c = h c).
Proof.
  intros R -> F. destruct R as (st & C & M & X). exists (mem st, nxt st).
  assert (D : does f vs (h, K) (mem st, nxt st)) by (exists st, r; split; [exact C|reflexivity]).
  destruct (does_grows _ _ _ _ D F) as (G1 & G2). auto.
Qed.

Lemma adds3_ok nF nx ny nz bm bc bv ba (Ae : Z * Z * Z -> Z -> T) els : forall H m m',
  bm < snd H -> bc < snd H -> bv < snd H -> ba < snd H ->
  bm <> bv -> bc <> bv -> ba <> bv -> ba <> bm -> ba <> bc ->
  (forall c, snd H <= c -> fst H c = None) -> mat_at (fst H) bm bc bv m ->
  foldM (fun m e => let '(ex, ey, ez) := e in
           ell_add_struct3D m ex ey ez (Ae (ex, ey, ez)) nF nx ny nz) els m = Ok m' ->
  exists H', adds3 nF nx ny nz bm ba Ae els H H' /\ mat_at (fst H') bm bc bv m' /\ snd H <= snd H' /\
    (forall c, snd H' <= c -> fst H' c = None) /\
    (forall c, c < snd H -> c <> bv -> c <> ba -> fst H' c = fst H c).
Proof.
  induction els as [|((ex & ey) & ez) els IH]; intros H m m' L1 L2 L3 L4 N1 N2 N3 N4 N5 F M E.
  - cbn in E. injection E as <-. exists H. split; [constructor|]. split; [exact M|]. split; [lia|]. auto.
  - cbn [foldM] in E. apply bind_ok in E. destruct E as (m1 & E1 & E).
    destruct (upd_for_rep (8 * nF * (8 * nF)) (fun _ i => Ok (Ae (ex, ey, ez) i)) (malloc _) (Ae (ex, ey, ez)) eq_refl)
      as (ae & _ & Ra); [reflexivity|].
    set (h0 := fst (put H ba ae)).
    assert (B1 : forall c, c <> ba -> h0 c = fst H c).
    { intros c N. unfold h0, put. cbn [fst]. now rewrite (proj2 (Z.eqb_neq c ba) N). }
    assert (M0 : mat_at h0 bm bc bv m).
    { destruct M as (M1 & M2 & M3). unfold mat_at. rewrite !B1 by auto. auto. }
    assert (F0 : forall c, snd H <= c -> h0 c = None) by (intros c Lc; rewrite B1 by lia; auto).
    assert (Ha : h0 ba = Some (OD ae)) by (unfold h0, put; cbn [fst]; now rewrite Z.eqb_refl).
    pose proof (add3_calls bm bc bv (snd H) h0 m L1 L3 N1 M0 L2 N2 ba ae (Ae (ex, ey, ez)) ex ey ez nF nx ny nz
      L4 N3 Ha (fun j Hj => rep_rd _ _ _ _ Ra Hj)) as R.
    destruct (does_fill _ _ _ _ _ _ _ _ _ _ R E1 F0) as (H1 & D & M1 & G & F1 & X).
    destruct (IH H1 m1 m') as (H2 & A & M2 & G2 & F2 & X2); try assumption; try lia.
    exists H2. split; [econstructor; [exact Ra | exact D | exact A]|]. split; [exact M2|]. split; [lia|].
    split; [exact F2|]. intros c Lc C1 C2. rewrite X2 by (try assumption; lia). rewrite X by assumption. now apply B1.
Qed.

(** the product, in exact arithmetic *)
Lemma does_mvp bm bc bv bx bo H (m : ell T) x y y' :
  (forall c, snd H <= c -> fst H c = None) ->
  mat_at (fst H) bm bc bv m -> fst H bx = Some (OD x) -> fst H bo = Some (OD y) ->
  bo <> bm -> bo <> bc -> bo <> bv -> bo <> bx -> ell_mvp_2D m x y = Ok y' ->
  exists H', does "ell_mvp_2D" [VP bm 0; VP bx 0; VP bo 0] H H' /\ fst H' bo = Some (OD y') /\
    (forall c, c <> bo -> fst H' c = fst H c) /\ snd H <= snd H' /\ (forall c, snd H' <= c -> fst H' c = None).
Proof.
  intros F M X Y N1 N2 N3 N4 E. pose proof (mvp_calls bm bc bv bx bo (snd H) (fst H) m x y M X Y N1 N2 N3 N4) as C.
  rewrite E in C. destruct C as (st & C & G & R). exists (mem st, nxt st).
  assert (D : does "ell_mvp_2D" [VP bm 0; VP bx 0; VP bo 0] H (mem st, nxt st)) by (exists st, Nrm; split; [exact C|reflexivity]).
  destruct (does_grows _ _ _ _ D F). auto.
Qed.

Lemma does_free bm bc bv H (m : ell T) : (forall c, snd H <= c -> fst H c = None) -> bm < snd H -> bv < snd H ->
  bm <> bv -> bc < snd H -> bc <> bv -> mat_at (fst H) bm bc bv m ->
  exists H', does "ell_free" [VP bm 0] H H' /\ fst H' bc = None /\ fst H' bv = None /\
    forall c, c <> bc -> c <> bv -> fst H' c = fst H c.
Proof.
  intros F L1 L2 N1 L3 N2 M. destruct (free_calls bm bc bv (snd H) (fst H) m) as (st & C & A1 & A2 & A3 & A4); try assumption.
  exists (mem st, nxt st). split; [exists st, Nrm; split; [exact C|reflexivity]|]. auto.
Qed.

Lemma does_init3 nF nx ny nz bm H o1 o2 o3 o4 o5 m : (forall c, snd H <= c -> fst H c = None) -> bm < snd H ->
  fst H bm = Some (OS [("nrow", o1); ("ncol", o2); ("nnz", o3); ("cols", o4); ("vals", o5)]) ->
  ell_init_3D nF nx ny nz = Ok m ->
  exists H', does "ell_init_3D" [VP bm 0; VI nF; VI nx; VI ny; VI nz] H H' /\
    mat_at (fst H') bm (snd H) (snd H + 1) m /\ snd H + 1 < snd H' /\ (forall c, snd H' <= c -> fst H' c = None) /\
    forall c, c < snd H -> c <> bm -> fst H' c = fst H c.
Proof.
  intros F L M E. pose proof (init3_calls bm (snd H) (fst H) o1 o2 o3 o4 o5 L M nF nx ny nz) as C.
  unfold init_result in C. rewrite E in C. destruct C as (st & C & M' & X). exists (mem st, nxt st).
  assert (D : does "ell_init_3D" [VP bm 0; VI nF; VI nx; VI ny; VI nz] H (mem st, nxt st)) by (exists st, Nrm; split; [exact C|reflexivity]).
  destruct (does_grows _ _ _ _ D F) as (G1 & G2). split; [exact D|]. split; [exact M'|]. split; [|auto].
  cbn [fst snd] in *. destruct (Z.lt_ge_cases (snd H + 1) (nxt st)) as [|G]; [assumption|].
  destruct M' as (_ & _ & M'). rewrite G1 in M' by exact G. discriminate.
Qed.
End Session.

(** The text of the matrix functions run on a 3D grid: initialise, reset, one element matrix per
    listed cell, multiply, release. *)
Lemma text_operator_3D nF nx ny nz (Ae : Z * Z * Z -> Z -> R) els x xf y a0 bm ba bx bo (H : @heap R) :
  2 <= nx -> 2 <= ny -> 2 <= nz -> 1 <= nF ->
  (forall ex ey ez, In (ex, ey, ez) els -> 0 <= ex < nx - 1 /\ 0 <= ey < ny - 1 /\ 0 <= ez < nz - 1) ->
  NoDup [bm; ba; bx; bo] -> (forall c, In c [bm; ba; bx; bo] -> c < snd H) ->
  (forall c, snd H <= c -> fst H c = None) ->
  fst H bm = Some (OS [("nrow", None); ("ncol", None); ("nnz", None); ("cols", None); ("vals", None)]) ->
  fst H ba = Some (OD a0) -> fst H bx = Some (OD x) -> fst H bo = Some (OD y) ->
  rep x (nx * ny * nz * nF) xf -> alen y = nx * ny * nz * nF ->
  exists H1 H2 H3 H4 H5 y',
    does "ell_init_3D" [VP bm 0; VI nF; VI nx; VI ny; VI nz] H H1 /\
    does "ell_set_zero_mat" [VP bm 0] H1 H2 /\
    adds3 nF nx ny nz bm ba Ae els H2 H3 /\
    does "ell_mvp_2D" [VP bm 0; VP bx 0; VP bo 0] H3 H4 /\
    does "ell_free" [VP bm 0] H4 H5 /\
    fst H5 bo = Some (OD y') /\ alen y' = nx * ny * nz * nF /\
    (forall n d1, 0 <= n < nx * ny * nz -> 0 <= d1 < nF ->
      aget y' (n * nF + d1) = Some
        (rsum els (fun e => let '(ex, ey, ez) := e in
           rsum (zrange 0 8) (fun k => if corner3 nx ny ex ey ez k =? n then
             rsum (zrange 0 8) (fun l => rsum (zrange 0 nF) (fun d2 =>
               (Ae e ((k * nF + d1) * (8 * nF) + (l * nF + d2))%Z
                * xf (corner3 nx ny ex ey ez l * nF + d2)%Z)%R)) else 0%R)))) /\
    fst H5 bx = Some (OD x) /\
    (forall c, c < snd H -> c <> bm -> c <> ba -> c <> bo -> fst H5 c = fst H c) /\
    fst H5 (snd H) = None /\ fst H5 (snd H + 1) = None.
Proof.
  intros Hx Hy Hz HF He ND old F Mm Ma Mx Mo X Y.
  assert (L1 : bm < snd H) by (apply old; cbn; tauto). assert (L2 : ba < snd H) by (apply old; cbn; tauto).
  assert (L3 : bx < snd H) by (apply old; cbn; tauto). assert (L4 : bo < snd H) by (apply old; cbn; tauto).
  assert (D : bm <> ba /\ bm <> bx /\ bm <> bo /\ ba <> bx /\ ba <> bo /\ bx <> bo).
  { inversion_clear ND as [|? ? A ND1]. inversion_clear ND1 as [|? ? B ND2]. inversion_clear ND2 as [|? ? C _].
    cbn in A, B, C. clear - A B C. intuition congruence. }
  destruct D as (D1 & D2 & D3 & D4 & D5 & D6).
  destruct (@init3_struct R nF nx ny nz) as (m & Em & _); try assumption.
  assert (Mt : matrix3 nF nx ny nz m) by (exists m, (e_vals m); split; [exact Em|]; split; [reflexivity|]; now destruct m).
  destruct (operator_3D nF nx ny nz Ae els m x xf y Hx Hy Hz HF Mt He X Y) as (m0 & m' & y' & E0 & E1 & E2 & E3 & E4).
  destruct (does_init3 nF nx ny nz bm H _ _ _ _ _ m F L1 Mm Em) as (H1 & R1 & M1 & G1 & F1 & K1).
  set (bc := snd H) in *. set (bv := bc + 1) in *.
  assert (Z1 : fill_result bm bc bv (snd H1) (fst H1) "ell_set_zero_mat" [VP bm 0] (Ret (VI 0)) (ell_set_zero_mat m)).
  { apply zero_calls; try assumption; lia. }
  destruct (does_fill _ _ _ _ _ _ _ _ _ _ Z1 E0 F1) as (H2 & R2 & M2 & G2 & F2 & K2).
  destruct (adds3_ok nF nx ny nz bm bc bv ba Ae els H2 m0 m') as (H3 & R3 & M3 & G3 & F3 & K3); try assumption; try lia.
  assert (Y3 : forall c, c < bc -> c <> bm -> c <> ba -> fst H3 c = fst H c).
  { intros c Lc N1 N2. rewrite K3, K2, K1 by lia. reflexivity. }
  destruct (does_mvp bm bc bv bx bo H3 m' x y y') as (H4 & R4 & M4 & K4 & G4 & F4); try assumption; try lia.
  { rewrite Y3 by auto. exact Mx. }
  { rewrite Y3 by auto. exact Mo. }
  destruct (does_free bm bc bv H4 m') as (H5 & R5 & A5 & B5 & K5); try assumption; try lia.
  { destruct M3 as (P1 & P2 & P3). unfold mat_at. rewrite !K4 by lia. auto. }
  destruct H1 as [h1 k1].
  exists (h1, k1), H2, H3, H4, H5, y'. split; [exact R1|]. split; [exact R2|]. split; [exact R3|]. split; [exact R4|].
  split; [exact R5|]. split; [rewrite K5 by lia; exact M4|]. split; [exact E3|]. split; [exact E4|].
  split; [rewrite K5, K4, Y3 by lia; exact Mx|].
  split; [|split; [exact A5|exact B5]].
  intros c Lc N1 N2 N3. rewrite K5, K4, Y3 by lia. reflexivity.
Qed.

(** The text of the product, in exact arithmetic: the dense matrix times x. *)
Lemma text_product S nF nn (m : ell R) bm bc bv bx bo (H : @heap R) x xf y :
  0 <= S -> wf_ell m S nF nn -> rep x (nn * nF) xf -> alen y = nn * nF ->
  mat_at (fst H) bm bc bv m -> fst H bx = Some (OD x) -> fst H bo = Some (OD y) ->
  bo <> bm -> bo <> bc -> bo <> bv -> bo <> bx ->
  exists H' y', does "ell_mvp_2D" [VP bm 0; VP bx 0; VP bo 0] H H' /\ fst H' bo = Some (OD y') /\
    (forall c, c <> bo -> fst H' c = fst H c) /\
    rep y' (nn * nF) (fun r => rsum (zrange 0 (nn * nF)) (fun c => dense m r c * xf c)%R).
Proof.
  intros HS W X Y M Mx Mo N1 N2 N3 N4.
  assert (E : exists y', ell_mvp_2D m x y = Ok y' /\ rep y' (nn * nF) (fun r => mul m xf r)).
  { assert (W' : ell_rep m (nn * nF) (S * nF) (colsf m) (getR (e_vals m))).
    { pose proof W as [V1 V2 V3 V4 (cf & (C0 & C1) & C2) (vf & U0 & U1)].
      constructor; try assumption.
      - split; [exact C0|]. intros i Hi. unfold colsf. now rewrite C1.
      - split; [exact U0|]. intros i Hi. unfold getR. now rewrite U1.
      - intros a Ha. unfold colsf. rewrite C1 by exact Ha. now apply C2. }
    destruct (mvp_ok m _ _ _ _ x xf y W' X Y) as (y' & E & R). exists y'. split; [exact E|].
    eapply rep_ext; [exact R|]. intros i Hi. exact (mul_mvf m S nF nn xf i W HS Hi). }
  destruct E as (y' & E & R). pose proof (mvp_calls bm bc bv bx bo (snd H) (fst H) m x y M Mx Mo N1 N2 N3 N4) as C.
  rewrite E in C. destruct C as (st & C & G & K). exists (mem st, nxt st), y'.
  split; [exists st, Nrm; split; [exact C|reflexivity]|]. split; [exact G|]. split; [exact K|].
  eapply rep_ext; [exact R|]. intros i Hi. unfold mul. now rewrite (wf_nrow _ _ _ _ W).
Qed.

(** The text of the conjugate gradient solvers, in exact arithmetic. *)
Definition cg_name (f : cgfun) : string := match f with CG2D => "ell_solve_cgpd_2D" | _ => "ell_solve_cgpd_struct" end.
Definition cg_args (f : cgfun) (nF nx ny nz : Z) : list (@val R) :=
  match f with CG2D => [VI nF; VI nx; VI ny] | CGstruct2 => [VI nF; VI 2; VI (nx * ny)]
             | CGstruct3 => [VI nF; VI 3; VI (nx * ny * nz)] end.

Lemma text_cg_truth f (m : ell R) nF nx ny nz b x bf xf bs bm bc bv bb bx mi tol it0 er0 (H : @heap R) :
  wf_ell m (slots f) nF (nodes f nx ny nz) ->
  rep b (nodes f nx ny nz * nF) bf -> rep x (nodes f nx ny nz * nF) xf ->
  NoDup [bs; bm; bc; bv; bb; bx] -> (forall c, In c [bs; bm; bc; bv; bb; bx] -> c < snd H) ->
  (forall c, snd H <= c -> fst H c = None) ->
  fst H bs = Some (sol_obj mi tol it0 er0) -> mat_at (fst H) bm bc bv m ->
  fst H bb = Some (OD b) -> fst H bx = Some (OD x) ->
  exists H' x' xf' its er,
    does (cg_name f) (VP bs 0 :: VP bm 0 :: cg_args f nF nx ny nz ++ [VP bb 0; VP bx 0])%list H H' /\
    fst H' bx = Some (OD x') /\ rep x' (nodes f nx ny nz * nF) xf' /\
    fst H' bs = Some (sol_obj mi tol (Some (VI its)) (Some (VD er))) /\
    (forall c, c <> bs -> c <> bx -> fst H' c = fst H c) /\
    (its < mi -> (er < tol)%R /\ er = residual_norm m bf xf').
Proof.
  intros W B X ND old F Hs Hm Hb Hx.
  destruct (cg_truth f m nF nx ny nz b x bf xf W B X (mkSolver mi 0 tol 0%R)) as (sv' & x' & xf' & E & R & Q).
  cbn [s_max_its s_min_tol] in Q.
  assert (C : cg_result bs bx (snd H) (fst H) mi tol (cg_name f)
     (VP bs 0 :: VP bm 0 :: cg_args f nF nx ny nz ++ [VP bb 0; VP bx 0])%list (run_cg f (mkSolver mi 0 tol 0%R) m nF nx ny nz b x)).
  { destruct f; cbn [run_cg cg_name cg_args app].
    - eapply cgpd_2D_calls; eassumption.
    - eapply cgpd_struct_calls; eassumption.
    - eapply cgpd_struct_calls; eassumption. }
  rewrite E in C. destruct C as (st & C & C1 & C2 & C3).
  exists (mem st, nxt st), x', xf', (s_its sv'), (s_err sv').
  split; [exists st, (Ret (VI 0)); split; [exact C|reflexivity]|]. auto.
Qed.
