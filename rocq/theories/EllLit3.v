(** The syntax tree of ell_solve_jacobi_2D (src/ell.cpp:58-114) computes what EllModel.v says. *)
From Coq Require Import String.
From Verif Require Import Base Scalar EllModel Clite CliteRules EllAst EllLit EllLit2.
Local Open Scope string_scope.
Local Open Scope Z_scope.

Section Jac.
Context {T : Type} `{OT : Ops T}.
Notation state := (@state T).
Notation goes := (goes ell_prog).
Notation runs := (runs ell_prog).

(** while (x < hi) body, the body stepping x itself *)
Lemma goes_while2 {A} x hi body (I : Z -> A -> state -> Prop) (f : A -> Z -> res A) lo n a s :
  (forall i a s, I i a s -> eval s hi = Ok (VI n) /\ env s x = Some (VI i)) ->
  (forall i a s, lo <= i < n -> I i a s -> goes body s (f a i) (fun a' s' => I (i + 1) a' s')) ->
  I lo a s ->
  goes (SWhile (EBin Lt (EV x) hi) body SSkip) s (foldM f (zrange lo n) a)
    (fun a' s' => I (Z.max lo n) a' s').
Proof.
  intros HE. remember (Z.to_nat (n - lo)) as k eqn:Hk. revert lo a s Hk.
  induction k as [|k IH]; intros lo a s Hk HB I0.
  - rewrite zrange_empty by lia. cbn [foldM CliteRules.goes]. exists s.
    rewrite Z.max_l by lia. split; [|exact I0].
    destruct (HE _ _ _ I0) as (E1 & E2). eapply runs_while_stop.
    + cbn [eval]. rewrite E1, E2. reflexivity.
    + cbn. destruct (Z.ltb_spec lo n); [lia|reflexivity].
  - rewrite zrange_cons by lia. cbn [foldM].
    destruct (HE _ _ _ I0) as (E1 & E2).
    assert (EC : eval s (EBin Lt (EV x) hi) = Ok (VI 1)).
    { cbn [eval]. rewrite E1, E2. cbn. destruct (Z.ltb_spec lo n); [reflexivity|lia]. }
    assert (R : lo <= lo < n) by lia.
    pose proof (HB lo a s R I0) as G. destruct (f a lo) as [a'|e]; cbn [CliteRules.goes bind] in *.
    + destruct G as (s1 & R1 & I1).
      assert (IHr := IH (lo + 1) a' s1 ltac:(lia) (fun i a s Hi => HB i a s ltac:(lia)) I1). clear IH.
      replace (Z.max lo n) with (Z.max (lo + 1) n) by lia.
      destruct (foldM f (zrange (lo + 1) n) a') as [b|e]; cbn [CliteRules.goes] in *.
      * destruct IHr as (s2 & R2 & I2). exists s2. split; [|exact I2].
        eapply runs_while_go; [exact EC | reflexivity | exact R1 | apply runs_skip | exact R2].
      * destruct IHr as (w & R2). exists w.
        eapply runs_while_go; [exact EC | reflexivity | exact R1 | apply runs_skip | exact R2].
    + destruct G as (w & R1). exists w. eapply runs_while_err; eauto; reflexivity.
Qed.

(** the fused loop of src/ell.cpp:102-105 *)
Lemma upd_keep (f : arr T -> Z -> res T) lo n (e e' : arr T) j :
  foldM (fun a i => v <- f a i ;; wr a i v) (zrange lo n) e = Ok e' -> j < lo -> rd e' j = rd e j.
Proof.
  remember (Z.to_nat (n - lo)) as k eqn:Hk. revert lo e Hk.
  induction k as [|k IH]; intros lo e Hk.
  - rewrite zrange_empty by lia. cbn. now intros [= ->].
  - rewrite zrange_cons by lia. cbn [foldM]. intros H L.
    apply bind_ok in H. destruct H as (e1 & H1 & H2). apply bind_ok in H1. destruct H1 as (v & _ & W).
    rewrite (IH (lo + 1) e1) by (try exact H2; lia).
    apply wr_inv in W. destruct W as (R & Ln & G). unfold rd.
    assert (I : inb e1 j = inb e j) by (unfold inb; now rewrite Ln).
    rewrite I. destruct (inb e j) eqn:B; [|reflexivity].
    specialize (G j). unfold aget in G. rewrite I, B in G.
    rewrite G. destruct (Z.eqb_spec j lo); [lia|reflexivity].
Qed.

Lemma fused_err (f : arr T -> Z -> res T) lo n (e : arr T) acc :
  requiv
    (foldM (fun ea i => e1 <- (v <- f (fst ea) i ;; wr (fst ea) i v) ;;
                        v <- rd e1 i ;; Ok (e1, oadd (snd ea) (omul v v))) (zrange lo n) (e, acc))
    (e' <- foldM (fun a i => v <- f a i ;; wr a i v) (zrange lo n) e ;;
     t <- foldM (fun t i => v <- (u <- rd e' i ;; w <- rd e' i ;; Ok (omul u w)) ;; Ok (oadd t v))
            (zrange lo n) acc ;; Ok (e', t)).
Proof.
  remember (Z.to_nat (n - lo)) as k eqn:Hk. revert lo e acc Hk.
  induction k as [|k IH]; intros lo e acc Hk.
  - rewrite zrange_empty by lia. reflexivity.
  - rewrite zrange_cons by lia. cbn [foldM fst snd].
    destruct (f e lo) as [v|w]; cbn [bind]; [|exact I].
    destruct (wr e lo v) as [e1|w] eqn:W; cbn [bind]; [|exact I].
    rewrite (rd_wr _ _ _ _ W). cbn [bind].
    specialize (IH (lo + 1) e1 (oadd acc (omul v v)) ltac:(lia)).
    destruct (foldM (fun a i => v <- f a i ;; wr a i v) (zrange (lo + 1) n) e1) as [e'|w] eqn:F; cbn [bind] in *.
    + rewrite (upd_keep f (lo + 1) n e1 e' lo F) by lia. rewrite (rd_wr _ _ _ _ W). cbn [bind]. exact IH.
    + exact IH.
Qed.

Section Call.
Variables (bs bm bc bv bb bx K : Z) (h : Z -> option (@obj T)).
Variables (m : ell T) (mi : Z) (tol : T) (it0 er0 : option (@val T)) (b : arr T).
Hypothesis ND : NoDup [bs; bm; bc; bv; bb; bx].
Hypothesis old : forall c, In c [bs; bm; bc; bv; bb; bx] -> c < K.
Hypothesis Hs : h bs = Some (sol_obj mi tol it0 er0).
Hypothesis Hm : mat_at h bm bc bv m.
Hypothesis Hb : h bb = Some (OD b).

Notation n := (e_nrow m).

(** variables and memory during the sweeps; only x, k (at K) and e_i (at K + 1) change *)
Record jctx (s : state) (k x e : arr T) : Prop := {
  j_sol : env s "solver" = Some (VP bs 0);
  j_m : env s "m" = Some (VP bm 0);
  j_b : env s "b" = Some (VP bb 0);
  j_x : env s "x" = Some (VP bx 0);
  j_k : env s "k" = Some (VP K 0);
  j_e : env s "e_i" = Some (VP (K + 1) 0);
  w_x : mem s bx = Some (OD x);
  w_k : mem s K = Some (OD k);
  w_e : mem s (K + 1) = Some (OD e);
  w_o : forall c, c <> bx -> c <> K -> c <> K + 1 -> mem s c = h c }.

Definition jnames := ["solver"; "m"; "b"; "x"; "k"; "e_i"].

Lemma dis : bs < K /\ bm < K /\ bc < K /\ bv < K /\ bb < K /\ bx < K /\
  bx <> bs /\ bx <> bm /\ bx <> bc /\ bx <> bv /\ bx <> bb.
Proof.
  assert (L : bs < K /\ bm < K /\ bc < K /\ bv < K /\ bb < K /\ bx < K).
  { repeat split; apply old; cbn; tauto. }
  assert (N : forall c, In c [bs; bm; bc; bv; bb] -> bx <> c).
  { intros c Hc ->. pose proof ND as D.
    change [bs; bm; bc; bv; bb; c] with ([bs; bm; bc; bv; bb] ++ c :: [])%list in D.
    apply NoDup_remove_2 in D. rewrite app_nil_r in D. contradiction. }
  destruct L as (L1 & L2 & L3 & L4 & L5 & L6).
  repeat split; try assumption; apply N; cbn; tauto.
Qed.

(** the rest of memory *)
Lemma jmem s k x e : jctx s k x e ->
  mem s bs = Some (sol_obj mi tol it0 er0) /\ mem s bm = Some (mat_obj m bc bv) /\
  mem s bc = Some (OI (e_cols m)) /\ mem s bv = Some (OD (e_vals m)) /\ mem s bb = Some (OD b).
Proof.
  intros C. destruct dis as (d1 & d2 & d3 & d4 & d5 & d6 & d7 & d8 & d9 & d10 & d11).
  destruct Hm as (H1 & H2 & H3). rewrite !(w_o _ _ _ _ C) by lia. auto 10.
Qed.

Lemma jctx_upd s s' k x e k' x' e' W B :
  jctx s k x e -> keeps W s s' -> same_mem B s s' ->
  forallb (fun v => negb (mems v W)) jnames = true ->
  (forall c, In c B -> c = bx \/ c = K \/ c = K + 1) ->
  mem s' bx = Some (OD x') -> mem s' K = Some (OD k') -> mem s' (K + 1) = Some (OD e') ->
  jctx s' k' x' e'.
Proof.
  intros C Kp (_ & S) F N M1 M2 M3. destruct C.
  assert (E : forall v o, In v jnames -> env s v = o -> env s' v = o).
  { intros v o I <-. apply Kp. rewrite forallb_forall in F. specialize (F v I).
    destruct (mems v W); [discriminate|reflexivity]. }
  unfold jnames in E. cbn [In] in E.
  constructor; first [assumption | apply E; [tauto|assumption] | idtac].
  intros c H1 H2 H3. rewrite S; [now apply w_o0|]. intros Hc. apply N in Hc. tauto.
Qed.
Lemma jctx_mem s s' k x e W :
  jctx s k x e -> keeps W s s' -> forallb (fun v => negb (mems v W)) jnames = true ->
  mem s' = mem s -> nxt s' = nxt s -> jctx s' k x e.
Proof.
  intros C Kp F M N. apply (jctx_upd s s' k x e k x e W []); try assumption;
    try (rewrite M; now destruct C).
  - split; [exact N|]. intros c _. now rewrite M.
  - intros c [].
Qed.
Lemma jctx_set s k x e v w :
  jctx s k x e -> forallb (fun y => negb (mems y [v])) jnames = true -> jctx (set_env s v w) k x e.
Proof.
  intros C F. apply (jctx_mem s _ k x e [v]); try reflexivity; [exact C| |exact F].
  apply keeps_set; [apply keeps_refl | cbn; now rewrite String.eqb_refl].
Qed.

Ltac jop C := let Q := fresh in pose proof (jmem _ _ _ _ C) as Q;
  destruct Q as (?Q1 & ?Q2 & ?Q3 & ?Q4 & ?Q5);
  pose proof C as Q; destruct Q as [?V1 ?V2 ?V3 ?V4 ?V5 ?V6 ?O1 ?O2 ?O3 ?O4];
  unfold sol_obj, mat_obj in *.

(** the inner loop, src/ell.cpp:89-95 *)
Definition jrow_body : stmt :=
  block [(SIf (EBin Eq (EIdx (EFld (EV "m") "cols") (EBin Add (EBin Mul (EV "i") (EFld (EV "m") "nnz")) (EV "j"))) (ENeg (EI 1))) SBreak SSkip);
 (SIf (EBin Ne (EIdx (EFld (EV "m") "cols") (EBin Add (EBin Mul (EV "i") (EFld (EV "m") "nnz")) (EV "j"))) (EV "i")) (SSet "aux" (EBin Add (EV "aux") (EBin Mul (EIdx (EFld (EV "m") "vals") (EBin Add (EBin Mul (EV "i") (EFld (EV "m") "nnz")) (EV "j"))) (EIdx (EV "x") (EIdx (EFld (EV "m") "cols") (EBin Add (EBin Mul (EV "i") (EFld (EV "m") "nnz")) (EV "j"))))))) SSkip);
 (SSet "j" (EBin Add (EV "j") (EI 1)))].

Lemma jrow_goes s k x e i j0 t :
  jctx s k x e -> env s "i" = Some (VI i) -> env s "j" = Some (VI j0) -> env s "aux" = Some (VD t) ->
  goes (SWhile (EBin Lt (EV "j") (EFld (EV "m") "nnz")) jrow_body SSkip) s
    (jac_row m x i (zrange j0 (e_nnz m)) t)
    (fun t' s' => keeps ["j"; "aux"] s s' /\ mem s' = mem s /\ nxt s' = nxt s /\
                  env s' "aux" = Some (VD t')).
Proof.
  remember (Z.to_nat (e_nnz m - j0)) as c eqn:Hc. revert s j0 t Hc.
  induction c as [|c IH]; intros s j0 t Hc C Ei Ej Ea.
  - rewrite zrange_empty by lia. cbn [jac_row CliteRules.goes]. exists s. split.
    + jop C. eapply runs_while_stop; [ev; reflexivity|]. cbn.
      destruct (Z.ltb_spec j0 (e_nnz m)); [lia|reflexivity].
    + split; [apply keeps_refl|]. auto.
  - rewrite zrange_cons by lia. cbn [jac_row].
    assert (EC : eval s (EBin Lt (EV "j") (EFld (EV "m") "nnz")) = Ok (VI 1)).
    { jop C. ev. unfold ofb. destruct (Z.ltb_spec j0 (e_nnz m)); [reflexivity|lia]. }
    assert (STEP : forall t1, jctx (set_env s "aux" (VD t1)) k x e ->
      goes (SWhile (EBin Lt (EV "j") (EFld (EV "m") "nnz")) jrow_body SSkip)
         (set_env (set_env s "aux" (VD t1)) "j" (VI (j0 + 1))) (jac_row m x i (zrange (j0 + 1) (e_nnz m)) t1)
         (fun t' s' => keeps ["j"; "aux"] s s' /\ mem s' = mem s /\ nxt s' = nxt s /\
                       env s' "aux" = Some (VD t'))).
    { intros t1 C1.
      set (s1 := set_env (set_env s "aux" (VD t1)) "j" (VI (j0 + 1))).
      assert (C2 : jctx s1 k x e) by (apply jctx_set; [exact C1 | reflexivity]).
      specialize (IH s1 (j0 + 1) t1 ltac:(lia) C2 Ei eq_refl eq_refl).
      eapply goes_weak; [exact IH|]. intros t' s' (K' & M' & N' & A').
      split; [|split; [exact M' | split; [exact N' | exact A']]].
      eapply keeps_trans; [|exact K']. unfold s1. apply keeps_set; [apply keeps_set; [apply keeps_refl|reflexivity]|reflexivity]. }
    assert (STEP0 : goes (SWhile (EBin Lt (EV "j") (EFld (EV "m") "nnz")) jrow_body SSkip)
         (set_env s "j" (VI (j0 + 1))) (jac_row m x i (zrange (j0 + 1) (e_nnz m)) t)
         (fun t' s' => keeps ["j"; "aux"] s s' /\ mem s' = mem s /\ nxt s' = nxt s /\
                       env s' "aux" = Some (VD t'))).
    { set (s1 := set_env s "j" (VI (j0 + 1))).
      assert (C2 : jctx s1 k x e) by (apply jctx_set; [exact C | reflexivity]).
      specialize (IH s1 (j0 + 1) t ltac:(lia) C2 Ei eq_refl Ea).
      eapply goes_weak; [exact IH|]. intros t' s' (K' & M' & N' & A').
      split; [|split; [exact M' | split; [exact N' | exact A']]].
      eapply keeps_trans; [|exact K']. unfold s1. apply keeps_set; [apply keeps_refl|reflexivity]. }
    jop C.
    destruct (rd (e_cols m) (i * e_nnz m + j0)) as [cl|w] eqn:Rc; cbn [bind].
    2:{ cbn [CliteRules.goes]. exists w. eapply runs_while_err; [exact EC | reflexivity|].
        unfold jrow_body. cbn [block]. apply runs_seq_err. apply runs_if_err. ev. rewrite Rc. reflexivity. }
    assert (E1 : eval s (EBin Eq (EIdx (EFld (EV "m") "cols") (EBin Add (EBin Mul (EV "i") (EFld (EV "m") "nnz")) (EV "j"))) (ENeg (EI 1))) = Ok (ofb (cl =? -1))).
    { ev. rewrite Rc. ev. reflexivity. }
    destruct (Z.eqb_spec cl (-1)) as [D1|D1].
    { cbn [CliteRules.goes]. exists s. split; [|split; [apply keeps_refl | auto]].
      eapply runs_while_break; [exact EC | reflexivity|].
      unfold jrow_body. cbn [block]. apply runs_seq_stop; [|discriminate].
      eapply runs_if; [exact E1 | reflexivity | apply runs_break]. }
    assert (P1 : runs (SIf (EBin Eq (EIdx (EFld (EV "m") "cols") (EBin Add (EBin Mul (EV "i") (EFld (EV "m") "nnz")) (EV "j"))) (ENeg (EI 1))) SBreak SSkip) s (Ok (s, Nrm))).
    { eapply runs_if; [exact E1 | reflexivity | apply runs_skip]. }
    assert (E2 : eval s (EBin Ne (EIdx (EFld (EV "m") "cols") (EBin Add (EBin Mul (EV "i") (EFld (EV "m") "nnz")) (EV "j"))) (EV "i")) = Ok (ofb (negb (cl =? i)))).
    { ev. rewrite Rc. ev. reflexivity. }
    destruct (Z.eqb_spec cl i) as [D2|D2].
    + assert (RB : runs jrow_body s (Ok (set_env s "j" (VI (j0 + 1)), Nrm))).
      { unfold jrow_body. cbn [block]. eapply runs_seq; [exact P1|]. eapply runs_seq.
        - eapply runs_if; [exact E2 | reflexivity | apply runs_skip].
        - apply runs_set. ev. reflexivity. }
      destruct (jac_row m x i (zrange (j0 + 1) (e_nnz m)) t) as [t'|w]; cbn [CliteRules.goes] in *.
      * destruct STEP0 as (s' & R' & Q'). exists s'. split; [|exact Q'].
        eapply runs_while_go; [exact EC | reflexivity | exact RB | apply runs_skip | exact R'].
      * destruct STEP0 as (w' & R'). exists w'.
        eapply runs_while_go; [exact EC | reflexivity | exact RB | apply runs_skip | exact R'].
    + assert (ERR : forall w, eval s (EBin Add (EV "aux") (EBin Mul (EIdx (EFld (EV "m") "vals") (EBin Add (EBin Mul (EV "i") (EFld (EV "m") "nnz")) (EV "j"))) (EIdx (EV "x") (EIdx (EFld (EV "m") "cols") (EBin Add (EBin Mul (EV "i") (EFld (EV "m") "nnz")) (EV "j")))))) = Err w ->
          runs (SWhile (EBin Lt (EV "j") (EFld (EV "m") "nnz")) jrow_body SSkip) s (Err w)).
      { intros w Hw. eapply runs_while_err; [exact EC | reflexivity|].
        unfold jrow_body. cbn [block]. eapply runs_seq; [exact P1|]. apply runs_seq_err.
        eapply runs_if; [exact E2 | reflexivity |]. cbn. now apply runs_set_err. }
      destruct (rd (e_vals m) (i * e_nnz m + j0)) as [v|w] eqn:Rv; cbn [bind].
      2:{ cbn [CliteRules.goes]. exists w. apply ERR. ev. rewrite Rv. reflexivity. }
      destruct (rd x cl) as [xc|w] eqn:Rx; cbn [bind].
      2:{ cbn [CliteRules.goes]. exists w. apply ERR. ev. rewrite Rv. ev. rewrite Rc. ev. rewrite Rx. reflexivity. }
      assert (RB : runs jrow_body s (Ok (set_env (set_env s "aux" (VD (oadd t (omul v xc)))) "j" (VI (j0 + 1)), Nrm))).
      { unfold jrow_body. cbn [block]. eapply runs_seq; [exact P1|]. eapply runs_seq.
        - eapply runs_if; [exact E2 | reflexivity |]. cbn. apply runs_set.
          ev. rewrite Rv. ev. rewrite Rc. ev. rewrite Rx. ev. reflexivity.
        - apply runs_set. cbn [eval env set_env String.eqb Ascii.eqb Bool.eqb]. rewrite Ej. reflexivity. }
      specialize (STEP (oadd t (omul v xc)) ltac:(apply jctx_set; [exact C | reflexivity])).
      destruct (jac_row m x i (zrange (j0 + 1) (e_nnz m)) (oadd t (omul v xc))) as [t'|w]; cbn [CliteRules.goes] in *.
      * destruct STEP as (s' & R' & Q'). exists s'. split; [|exact Q'].
        eapply runs_while_go; [exact EC | reflexivity | exact RB | apply runs_skip | exact R'].
      * destruct STEP as (w' & R'). exists w'.
        eapply runs_while_go; [exact EC | reflexivity | exact RB | apply runs_skip | exact R'].
Qed.

(** one sweep, src/ell.cpp:85-98 *)
Definition jsweep_body : stmt :=
  block [(SSet "aux" (EDbl (EI 0)));
 (SSet "j" (EI 0));
 (SWhile (EBin Lt (EV "j") (EFld (EV "m") "nnz")) jrow_body SSkip);
 (SStore (EV "x") (EV "i") (EBin Mul (EIdx (EV "k") (EV "i")) (EBin Add (EBin Mul (ENeg (EI 1)) (EV "aux")) (EIdx (EV "b") (EV "i")))));
 (SSet "i" (EBin Add (EV "i") (EI 1)))].

Lemma jsweep_goes s k x e :
  jctx s k x e -> env s "i" = Some (VI 0) ->
  goes (SWhile (EBin Lt (EV "i") (EFld (EV "m") "nrow")) jsweep_body SSkip) s (jac_sweep m k b x)
    (fun x' s' => keeps ["aux"; "i"; "j"] s s' /\ jctx s' k x' e /\ nxt s' = nxt s).
Proof.
  intros C Ei. unfold jac_sweep, upd_for.
  destruct dis as (d1 & d2 & d3 & d4 & d5 & d6 & d7 & d8 & d9 & d10 & d11).
  eapply goes_weak.
  - apply (goes_while2 "i" _ _ (fun i x' s' => keeps ["aux"; "i"; "j"] s s' /\ jctx s' k x' e /\
       nxt s' = nxt s /\ env s' "i" = Some (VI i))).
    + intros i x' s' (Kp & C' & _ & X). split; [|exact X]. jop C'. ev. reflexivity.
    + intros i x' s' Hi (Kp & C' & Nx & X). unfold jsweep_body. cbn [block].
      eapply goes_pre; [apply runs_set; reflexivity|].
      eapply goes_pre; [apply runs_set; reflexivity|].
      set (s1 := set_env (set_env s' "aux" _) "j" _).
      assert (C1 : jctx s1 k x' e) by (apply jctx_set; [apply jctx_set; [exact C'|reflexivity]|reflexivity]).
      assert (K1 : keeps ["aux"; "i"; "j"] s s1)
        by (apply keeps_set; [apply keeps_set; [exact Kp|reflexivity]|reflexivity]).
      assert (G := jrow_goes s1 k x' e i 0 (ofZ 0) C1 X eq_refl eq_refl).
      destruct (jac_row m x' i (zrange 0 (e_nnz m)) (ofZ 0)) as [aux|w]; cbn [bind CliteRules.goes] in *.
      2:{ destruct G as (w' & G). exists w'. now apply runs_seq_err. }
      destruct G as (s2 & R2 & K2 & M2 & N2 & A2).
      assert (C2 : jctx s2 k x' e) by (eapply jctx_mem; [exact C1 | exact K2 | reflexivity | exact M2 | exact N2]).
      assert (X2 : env s2 "i" = Some (VI i)) by (rewrite K2 by reflexivity; exact X).
      jop C2.
      destruct (rd k i) as [ki|w] eqn:Rk; cbn [bind].
      2:{ cbn [CliteRules.goes]. exists w. eapply runs_seq; [exact R2|]. apply runs_seq_err.
          eapply runs_store_err; [ev; reflexivity | ev; reflexivity | exact O1|].
          ev. rewrite Rk. ev. reflexivity. }
      destruct (rd b i) as [bi|w] eqn:Rb; cbn [bind].
      2:{ cbn [CliteRules.goes]. exists w. eapply runs_seq; [exact R2|]. apply runs_seq_err.
          eapply runs_store_err; [ev; reflexivity | ev; reflexivity | exact O1|].
          ev. rewrite Rk. ev. change (- (1)) with (-1). ev. rewrite Rb. ev. reflexivity. }
      destruct (wr x' i (omul ki (oadd (omul (ofZ (-1)) aux) bi))) as [x2|w] eqn:W; cbn [CliteRules.goes].
      2:{ exists w. eapply runs_seq; [exact R2|]. apply runs_seq_err.
          eapply runs_store_err; [ev; reflexivity | ev; reflexivity | exact O1|].
          ev. rewrite Rk. ev. rewrite Rb. ev. eexists. split; [reflexivity|]. exact W. }
      set (s3 := set_mem s2 bx (Some (OD x2))).
      exists (set_env s3 "i" (VI (i + 1))). split.
      { eapply runs_seq; [exact R2|]. eapply runs_seq.
        - eapply runs_store; [ev; reflexivity | ev; reflexivity | ev; rewrite Rk; ev; rewrite Rb; ev; reflexivity
             | reflexivity | exact O1 | rewrite Z.add_0_l; exact W].
        - apply runs_set. unfold s3. cbn [eval env set_mem]. rewrite X2. reflexivity. }
      split; [|split; [|split]].
      * apply keeps_set; [|reflexivity]. apply keeps_mem. eapply keeps_trans; [exact K1|].
        eapply keeps_sub; [exact K2|]. intros v Hv. cbn in *.
        destruct (String.eqb v "aux"); [discriminate|]. destruct (String.eqb v "i"); [discriminate|].
        destruct (String.eqb v "j"); [discriminate|]. reflexivity.
      * apply jctx_set; [|reflexivity].
        apply (jctx_upd s2 s3 k x' e k x2 e [] [bx]); try assumption; try reflexivity.
        -- apply keeps_mem, keeps_refl.
        -- apply set_same.
        -- intros c [<-|[]]. now left.
        -- cbn. now rewrite Z.eqb_refl.
        -- cbn. destruct (Z.eqb_spec K bx); [lia|assumption].
        -- cbn. destruct (Z.eqb_spec (K + 1) bx); [lia|assumption].
      * cbn. rewrite N2. exact Nx.
      * reflexivity.
    + split; [apply keeps_refl|]. auto.
  - intros x' s' (Kp & C' & Nx & _). auto.
Qed.

(** the residual and its norm, src/ell.cpp:102-105 *)
Definition jerr_for : stmt :=
  SFor "i'" (EI 0) (EBin Lt (EV "i'") (EFld (EV "m") "nrow")) (block [(SStore (EV "e_i") (EV "i'") (EBin Sub (EIdx (EV "e_i") (EV "i'")) (EIdx (EV "b") (EV "i'"))));
 (SSet "err" (EBin Add (EV "err") (EBin Mul (EIdx (EV "e_i") (EV "i'")) (EIdx (EV "e_i") (EV "i'")))))]).

Lemma jerr_goes s k x e :
  jctx s k x e -> env s "err" = Some (VD (ofZ 0)) ->
  goes jerr_for s
    (e' <- upd_for n (fun e i => u <- rd e i ;; c <- rd b i ;; Ok (osub u c)) e ;;
     t <- dotM n e' e' ;; Ok (e', t))
    (fun et s' => keeps ["i'"; "err"] s s' /\ jctx s' k x (fst et) /\ nxt s' = nxt s /\
                  env s' "err" = Some (VD (snd et))).
Proof.
  intros C Ee. unfold upd_for, dotM, sumM.
  destruct dis as (d1 & d2 & d3 & d4 & d5 & d6 & d7 & d8 & d9 & d10 & d11).
  eapply goes_resp; [apply fused_err|]. unfold jerr_for, SFor.
  eapply goes_pre; [apply runs_set; reflexivity|].
  eapply goes_weak.
  - apply (goes_while ell_prog "i'" _ _ (fun i et s' => keeps ["i'"; "err"] s s' /\ jctx s' k x (fst et) /\
       nxt s' = nxt s /\ env s' "err" = Some (VD (snd et)) /\ env s' "i'" = Some (VI i))).
    + intros i et s' (Kp & C' & _ & _ & X). split; [|exact X]. jop C'. ev. reflexivity.
    + intros i [e1 t] s' Hi (Kp & C' & Nx & E1 & X). cbn [fst snd block] in *. jop C'.
      destruct (rd e1 i) as [u|w] eqn:R1; cbn [bind].
      2:{ cbn [CliteRules.goes]. exists w. apply runs_seq_err.
          eapply runs_store_err; [ev; reflexivity | ev; reflexivity | exact O3|]. ev. rewrite R1. ev. reflexivity. }
      destruct (rd b i) as [c|w] eqn:R2; cbn [bind].
      2:{ cbn [CliteRules.goes]. exists w. apply runs_seq_err.
          eapply runs_store_err; [ev; reflexivity | ev; reflexivity | exact O3|]. ev. rewrite R1. ev. rewrite R2. ev. reflexivity. }
      destruct (wr e1 i (osub u c)) as [e2|w] eqn:W; cbn [bind].
      2:{ cbn [CliteRules.goes]. exists w. apply runs_seq_err.
          eapply runs_store_err; [ev; reflexivity | ev; reflexivity | exact O3|]. ev. rewrite R1. ev. rewrite R2. ev.
          eexists. split; [reflexivity|]. exact W. }
      rewrite (rd_wr _ _ _ _ W). cbn [bind CliteRules.goes fst snd].
      set (s1 := set_mem s' (K + 1) (Some (OD e2))).
      assert (C1 : jctx s1 k x e2).
      { apply (jctx_upd s' s1 k x e1 k x e2 [] [K + 1]); try assumption; try reflexivity.
        - apply keeps_mem, keeps_refl.
        - apply set_same.
        - intros c0 [<-|[]]. now right; right.
        - cbn. destruct (Z.eqb_spec bx (K + 1)); [lia|assumption].
        - cbn. destruct (Z.eqb_spec K (K + 1)); [lia|assumption].
        - cbn. now rewrite Z.eqb_refl. }
      exists (set_env s1 "err" (VD (oadd t (omul (osub u c) (osub u c))))). split.
      { eapply runs_seq.
        - eapply runs_store; [ev; reflexivity | ev; reflexivity | ev; rewrite R1; ev; rewrite R2; ev; reflexivity
             | reflexivity | exact O3 | rewrite Z.add_0_l; exact W].
        - fold s1. apply runs_set. 
          assert (env s1 "e_i" = Some (VP (K + 1) 0)) by (now destruct C1).
          assert (mem s1 (K + 1) = Some (OD e2)) by (now destruct C1).
          assert (env s1 "i'" = Some (VI i)) by exact X.
          assert (env s1 "err" = Some (VD t)) by exact E1.
          clearbody s1. ev. rewrite (rd_wr _ _ _ _ W). ev. reflexivity. }
      split; [exact X|]. split; [|split; [|split; [|split]]].
      * apply keeps_set; [|reflexivity]. apply keeps_set; [|reflexivity]. apply keeps_mem. exact Kp.
      * apply jctx_set; [|reflexivity]. apply jctx_set; [exact C1|reflexivity].
      * exact Nx.
      * reflexivity.
      * reflexivity.
    + cbn [fst snd]. split; [|split; [|split; [|split]]].
      * apply keeps_set; [apply keeps_refl|reflexivity].
      * apply jctx_set; [exact C|reflexivity].
      * reflexivity.
      * exact Ee.
      * reflexivity.
  - intros et s' (Kp & C' & Nx & E1 & _). auto.
Qed.

(** the loop, src/ell.cpp:83-110 *)
Definition jloop_body : stmt :=
  block [(SSet "err" (EDbl (EI 0)));
 (SSet "i" (EI 0));
 (SWhile (EBin Lt (EV "i") (EFld (EV "m") "nrow")) jsweep_body SSkip);
 (SSet "err" (EDbl (EI 0)));
 (SCall "ell_mvp_2D" [(EV "m"); (EV "x"); (EV "e_i")]);
 jerr_for;
 (SSet "err" (ESqrt (EV "err")));
 (SIf (EBin Lt (EV "err") (EV "min_tol")) SBreak SSkip);
 (SSet "its" (EBin Add (EV "its") (EI 1)))].

Definition jac_step (k x e : arr T) : res (arr T * arr T * T) :=
  x <- jac_sweep m k b x ;;
  e <- ell_mvp_2D m x e ;;
  et <- (e' <- upd_for n (fun e i => u <- rd e i ;; c <- rd b i ;; Ok (osub u c)) e ;;
         t <- dotM n e' e' ;; Ok (e', t)) ;;
  Ok (x, fst et, osqrt (snd et)).

Lemma jac_loop_step fuel k x e er its :
  jac_loop m k b tol mi (S fuel) x e er its =
  if its <? mi then
    (o <- jac_step k x e ;;
     let '(x, e, er) := o in
     if oltb er tol then Ok (x, Some er, its)
     else jac_loop m k b tol mi fuel x e (Some er) (its + 1))
  else Ok (x, er, its).
Proof.
  cbn [jac_loop]. unfold jac_step. destruct (its <? mi); [|reflexivity].
  destruct (jac_sweep m k b x) as [x1|]; cbn [bind]; [|reflexivity].
  destruct (ell_mvp_2D m x1 e) as [e1|]; cbn [bind]; [|reflexivity].
  destruct (upd_for n _ e1) as [e2|]; cbn [bind]; [|reflexivity].
  destruct (dotM n e2 e2) as [t|]; cbn [bind]; reflexivity.
Qed.

Lemma jbody_ends s k x e its :
  jctx s k x e -> env s "its" = Some (VI its) -> env s "min_tol" = Some (VD tol) ->
  ends jloop_body s (jac_step k x e)
    (fun o g s' => jctx s' k (fst (fst o)) (snd (fst o)) /\ nxt s' = nxt s /\
       env s' "err" = Some (VD (snd o)) /\ env s' "min_tol" = Some (VD tol) /\
       env s' "max_its" = env s "max_its" /\
       if oltb (snd o) tol then g = Brk /\ env s' "its" = Some (VI its)
       else g = Nrm /\ env s' "its" = Some (VI (its + 1))).
Proof.
  intros C Ti Tm. destruct dis as (d1 & d2 & d3 & d4 & d5 & d6 & d7 & d8 & d9 & d10 & d11).
  unfold jloop_body, jac_step. cbn [block].
  eapply ends_pre; [apply runs_set; reflexivity|].
  eapply ends_pre; [apply runs_set; reflexivity|].
  set (s1 := set_env (set_env s "err" _) "i" _).
  assert (C1 : jctx s1 k x e) by (apply jctx_set; [apply jctx_set; [exact C|reflexivity]|reflexivity]).
  eapply ends_seq; [apply jsweep_goes; [exact C1 | reflexivity]|].
  intros x1 s2 (K2 & C2 & N2).
  eapply ends_pre; [apply runs_set; reflexivity|].
  set (s3 := set_env s2 "err" _).
  assert (C3 : jctx s3 k x1 e) by (apply jctx_set; [exact C2|reflexivity]).
  eapply ends_seq.
  { pose proof (jmem _ _ _ _ C3) as (Q1 & Q2 & Q3 & Q4 & Q5). pose proof C3 as C'. destruct C'.
    set (adl := fun i => if i =? 1 then bm else if i =? 2 then bc else bv).
    apply (call_mvp adl m s3 bx (K + 1) x1 e "x" "e_i"); try assumption; unfold adl; cbn; try lia.
    repeat split; assumption. }
  intros e1 s4 (K4 & S4 & M4).
  assert (C4 : jctx s4 k x1 e1).
  { pose proof C3 as C'. destruct C'.
    apply (jctx_upd s3 s4 k x1 e k x1 e1 [] [K + 1]); try assumption; try reflexivity;
      try (rewrite (proj2 S4); [assumption | cbn; lia]).
    intros c [<-|[]]. now right; right. }
  assert (E4 : env s4 "err" = Some (VD (ofZ 0))) by (rewrite K4 by reflexivity; reflexivity).
  eapply ends_seq; [apply jerr_goes; [exact C4 | exact E4]|].
  intros [e2 t] s5 (K5 & C5 & N5 & E5). cbn [fst snd] in *.
  eapply ends_pre; [apply runs_set; ev; reflexivity|].
  set (s6 := set_env s5 "err" _).
  assert (C6 : jctx s6 k x1 e2) by (apply jctx_set; [exact C5|reflexivity]).
  assert (PRE : forall v, mems v ["aux"; "i"; "j"; "i'"; "err"] = false -> env s6 v = env s v).
  { intros v Hv. cbn in Hv.
    destruct (String.eqb v "aux") eqn:F1; [discriminate|]. destruct (String.eqb v "i") eqn:F2; [discriminate|].
    destruct (String.eqb v "j") eqn:F3; [discriminate|]. destruct (String.eqb v "i'") eqn:F4; [discriminate|].
    destruct (String.eqb v "err") eqn:F5; [discriminate|].
    unfold s6. cbn [env set_env]. rewrite F5.
    rewrite K5 by (cbn [mems]; now rewrite F4, F5). rewrite K4 by reflexivity.
    unfold s3. cbn [env set_env]. rewrite F5.
    rewrite K2 by (cbn [mems]; now rewrite F1, F2, F3). unfold s1. cbn [env set_env]. now rewrite F2, F5. }
  assert (NX : nxt s6 = nxt s).
  { unfold s6. cbn. rewrite N5, (proj1 S4). cbn. exact N2. }
  assert (T6 : env s6 "its" = Some (VI its)) by (rewrite PRE by reflexivity; exact Ti).
  assert (M6 : env s6 "min_tol" = Some (VD tol)) by (rewrite PRE by reflexivity; exact Tm).
  assert (X6 : env s6 "max_its" = env s "max_its") by (apply PRE; reflexivity).
  assert (E6 : env s6 "err" = Some (VD (osqrt t))) by reflexivity.
  clearbody s6.
  assert (EC : eval s6 (EBin Lt (EV "err") (EV "min_tol")) = Ok (ofb (oltb (osqrt t) tol))) by (ev; reflexivity).
  cbn [ends]. destruct (oltb (osqrt t) tol) eqn:LT.
  - exists s6, Brk. split.
    { apply runs_seq_stop; [|discriminate]. eapply runs_if; [exact EC | reflexivity | apply runs_break]. }
    cbn [fst snd]. rewrite LT. auto 10.
  - exists (set_env s6 "its" (VI (its + 1))), Nrm. split.
    { eapply runs_seq; [eapply runs_if; [exact EC | reflexivity | apply runs_skip]|].
      apply runs_set. ev. reflexivity. }
    cbn [fst snd]. rewrite LT. split; [apply jctx_set; [exact C6|reflexivity]|]. auto 10.
Qed.

Lemma jloop_goes fuel s k x e er its :
  jctx s k x e -> env s "its" = Some (VI its) -> env s "min_tol" = Some (VD tol) ->
  env s "max_its" = Some (VI mi) -> env s "err" = option_map VD er ->
  mi - its <= Z.of_nat fuel ->
  goes (SWhile (EBin Lt (EV "its") (EV "max_its")) jloop_body SSkip) s
    (jac_loop m k b tol mi fuel x e er its)
    (fun o s' => (exists e', jctx s' k (fst (fst o)) e') /\ nxt s' = nxt s /\
       env s' "err" = option_map VD (snd (fst o)) /\ env s' "its" = Some (VI (snd o))).
Proof.
  revert s x e er its. induction fuel as [|fuel IH]; intros s x e er its C Ti Tm Tx Te F.
  - cbn [jac_loop]. destruct (Z.ltb_spec its mi); [lia|]. cbn [CliteRules.goes]. exists s. split.
    { eapply runs_while_stop; [ev; reflexivity|]. cbn. destruct (Z.ltb_spec its mi); [lia|reflexivity]. }
    cbn [fst snd]. eauto.
  - rewrite jac_loop_step.
    assert (EC : eval s (EBin Lt (EV "its") (EV "max_its")) = Ok (ofb (its <? mi))) by (ev; reflexivity).
    destruct (Z.ltb_spec its mi) as [L|L].
    2:{ cbn [CliteRules.goes]. exists s. split; [eapply runs_while_stop; [exact EC | reflexivity]|].
        cbn [fst snd]. eauto. }
    pose proof (jbody_ends s k x e its C Ti Tm) as G.
    destruct (jac_step k x e) as [[[x1 e1] er1]|w]; cbn [ends bind] in *.
    2:{ destruct G as (w' & G). cbn [CliteRules.goes]. exists w'.
        eapply runs_while_err; [exact EC | reflexivity | exact G]. }
    destruct G as (s1 & g & R1 & C1 & N1 & E1 & M1 & X1 & H). cbn [fst snd] in *.
    destruct (oltb er1 tol).
    + destruct H as (-> & T1). cbn [CliteRules.goes]. exists s1. split.
      { eapply runs_while_break; [exact EC | reflexivity | exact R1]. }
      cbn [fst snd]. split; [eauto|]. split; [exact N1|]. split; [exact E1 | exact T1].
    + destruct H as (-> & T1).
      specialize (IH s1 x1 e1 (Some er1) (its + 1) C1 T1 M1 ltac:(rewrite X1; exact Tx) E1 ltac:(lia)).
      destruct (jac_loop m k b tol mi fuel x1 e1 (Some er1) (its + 1)) as [[[x2 er2] it2]|w]; cbn [CliteRules.goes] in *.
      * destruct IH as (s2 & R2 & C2 & N2 & Q2). exists s2. split.
        { eapply runs_while_go; [exact EC | reflexivity | exact R1 | apply runs_skip | exact R2]. }
        split; [exact C2|]. split; [congruence|]. exact Q2.
      * destruct IH as (w' & R2). exists w'.
        eapply runs_while_go; [exact EC | reflexivity | exact R1 | apply runs_skip | exact R2].
Qed.

Hypothesis fresh : forall c, K <= c -> h c = None.
Variable x : arr T.
Hypothesis Hx : h bx = Some (OD x).

(** src/ell.cpp:58-114; the arrays k (at K) and e_i (at K + 1) are not released *)
Lemma jacobi_calls nF nx ny ie ee :
  match ell_solve_jacobi_2D (mkSolver mi ie tol ee) m nF nx ny b x with
  | Ok (s', x') => exists st k e,
      calls ell_prog "ell_solve_jacobi_2D" [VP bs 0; VP bm 0; VI nF; VI nx; VI ny; VP bb 0; VP bx 0]
        h K (Ok (st, Ret (VI 0))) /\
      mem st bs = Some (sol_obj mi tol (Some (VI (s_its s'))) (Some (VD (s_err s')))) /\
      mem st bx = Some (OD x') /\
      mem st K = Some (OD k) /\ mem st (K + 1) = Some (OD e) /\
      (forall c, c <> bs -> c <> bx -> c <> K -> c <> K + 1 -> mem st c = h c)
  | Err _ => exists w,
      calls ell_prog "ell_solve_jacobi_2D" [VP bs 0; VP bm 0; VI nF; VI nx; VI ny; VP bb 0; VP bx 0]
        h K (Err w)
  end.
Proof.
  destruct dis as (d1 & d2 & d3 & d4 & d5 & d6 & d7 & d8 & d9 & d10 & d11).
  set (en := fun v : string => if String.eqb v "x" then Some (VP bx 0) else
    if String.eqb v "b" then Some (VP bb 0) else if String.eqb v "ny" then Some (VI ny) else
    if String.eqb v "nx" then Some (VI nx) else if String.eqb v "nFields" then Some (VI nF) else
    if String.eqb v "m" then Some (VP bm 0) else if String.eqb v "solver" then Some (@VP T bs 0) else None).
  assert (CL : forall r, runs (f_body ast_ell_solve_jacobi_2D) (mkSt en h K) r ->
     calls ell_prog "ell_solve_jacobi_2D" [VP bs 0; VP bm 0; VI nF; VI nx; VI ny; VP bb 0; VP bx 0] h K r)
    by (intros r R; exact R).
  pose proof Hm as (Hm1 & Hm2 & Hm3).
  assert (G : ends (f_body ast_ell_solve_jacobi_2D) (mkSt en h K)
    (k <- inv_diag m 4 nF (nx * ny) (malloc n) ;;
     '(x, er, its) <- jac_loop m k b tol mi (Z.to_nat mi) x (malloc n) None 0 ;;
     er <- of_option Uninit er ;; Ok (x, er, its))
    (fun o g s' => g = Ret (VI 0) /\
       mem s' bs = Some (sol_obj mi tol (Some (VI (snd o))) (Some (VD (snd (fst o))))) /\
       mem s' bx = Some (OD (fst (fst o))) /\
       (exists k e, mem s' K = Some (OD k) /\ mem s' (K + 1) = Some (OD e)) /\
       (forall c, c <> bs -> c <> bx -> c <> K -> c <> K + 1 -> mem s' c = h c))).
  { cbn [f_body ast_ell_solve_jacobi_2D block].
    eapply ends_pre.
    { eapply (runs_if _ _ _ _ _ (VI 0) false); [|reflexivity|apply runs_skip]. reflexivity. }
    assert (AL : forall v (s : state) d (mo : res (arr T * T * Z)) Q, env s "m" = Some (VP bm 0) -> mem s bm = Some (mat_obj m bc bv) ->
       ends d (alloc s v (OD (malloc n))) mo Q ->
       ends (SSeq (SMalloc v TDbl (EFld (EV "m") "nrow")) d) s mo Q).
    { intros v s d mo Q E M. apply ends_pre. change (OD (malloc n)) with (match TDbl with TInt => OI (malloc n) | TDbl => @OD T (malloc n) end).
      apply runs_malloc. unfold mat_obj in M. ev. reflexivity. }
    apply AL; [reflexivity | exact Hm1|]. set (s2 := alloc (mkSt en h K) "k" _).
    apply AL; [reflexivity | cbn; destruct (Z.eqb_spec bm K); [lia | exact Hm1]|]. set (s3 := alloc s2 "e_i" _).
    assert (C3 : jctx s3 (malloc n) x (malloc n)).
    { constructor; try reflexivity.
      - cbn. destruct (Z.eqb_spec bx (K + 1)); [lia|]. destruct (Z.eqb_spec bx K); [lia|exact Hx].
      - cbn. destruct (Z.eqb_spec K (K + 1)); [lia|]. now rewrite Z.eqb_refl.
      - cbn. now rewrite Z.eqb_refl.
      - intros c H1 H2 H3. cbn. destruct (Z.eqb_spec c (K + 1)); [lia|]. destruct (Z.eqb_spec c K); [lia|reflexivity]. }
    assert (EN : forall v, mems v ["k"; "e_i"] = false -> env s3 v = en v).
    { intros v Hv. cbn [mems] in Hv. cbn [s3 s2 alloc env].
      destruct (String.eqb v "k"); [discriminate|]. destruct (String.eqb v "e_i"); [discriminate|]. reflexivity. }
    assert (Ee3 : env s3 "err" = None) by reflexivity.
    clearbody s3. clear s2.
    eapply ends_pre.
    { apply runs_set. cbn [eval]. rewrite !EN by reflexivity. reflexivity. }
    set (s4 := set_env s3 "nn" _).
    assert (C4 : jctx s4 (malloc n) x (malloc n)) by (apply jctx_set; [exact C3|reflexivity]).
    eapply ends_seq.
    { pose proof (jmem _ _ _ _ C4) as (Q1 & Q2 & Q3 & Q4 & Q5). pose proof C4 as C'. destruct C'.
      apply (diag_goes s4 4 "d" (EV "nn") nF (nx * ny) bm bc bv K m (malloc n)); try assumption; try reflexivity; try lia.
      - intros s' K'. cbn [eval]. rewrite K' by reflexivity. reflexivity.
      - unfold s4. cbn [env set_env String.eqb Ascii.eqb Bool.eqb]. rewrite EN by reflexivity. reflexivity.
      - repeat split; assumption. }
    intros k s5 (K5 & S5 & M5).
    assert (C5 : jctx s5 k x (malloc n)).
    { pose proof C4 as C'. destruct C'.
      apply (jctx_upd s4 s5 (malloc n) x (malloc n) k x (malloc n) ["i"; "d"] [K]); try assumption; try reflexivity;
        try (rewrite (proj2 S5); [assumption | cbn; lia]).
      intros c [<-|[]]. now right; left. }
    eapply ends_pre; [apply runs_set; reflexivity|].
    set (s6 := set_env s5 "its" _).
    assert (C6 : jctx s6 k x (malloc n)) by (apply jctx_set; [exact C5|reflexivity]).
    eapply ends_pre.
    { apply runs_set. jop C6. ev. reflexivity. }
    set (s7 := set_env s6 "max_its" _).
    assert (C7 : jctx s7 k x (malloc n)) by (apply jctx_set; [exact C6|reflexivity]).
    eapply ends_pre.
    { apply runs_set. jop C7. ev. reflexivity. }
    set (s8 := set_env s7 "min_tol" _).
    assert (C8 : jctx s8 k x (malloc n)) by (apply jctx_set; [exact C7|reflexivity]).
    assert (E8 : env s8 "err" = None).
    { unfold s8, s7, s6. cbn [env set_env String.eqb Ascii.eqb Bool.eqb]. rewrite K5 by reflexivity. exact Ee3. }
    eapply ends_seq.
    { apply (jloop_goes (Z.to_nat mi) s8 k x (malloc n) None 0 C8); try reflexivity; [exact E8 | lia]. }
    intros [[x1 er] it] s9 ((e9 & C9) & N9 & E9 & T9). cbn [fst snd] in *.
    jop C9.
    destruct er as [er|]; cbn [option_map of_option bind] in *.
    2:{ cbn [ends]. exists Uninit. apply runs_seq_err. eapply runs_fld_err; [ev; reflexivity|].
        cbn [eval]. rewrite E9. reflexivity. }
    eapply ends_pre.
    { eapply runs_fld; [ev; reflexivity | cbn [eval]; rewrite E9; reflexivity | exact Q1 | reflexivity]. }
    eapply ends_pre.
    { eapply runs_fld; [cbn [eval env set_mem]; rewrite V1; reflexivity | cbn [eval env set_mem]; rewrite T9; reflexivity
        | cbn [mem set_mem]; rewrite Z.eqb_refl; reflexivity | reflexivity]. }
    cbn [ends]. eexists. exists (Ret (VI 0)). split; [apply runs_ret; reflexivity|].
    split; [reflexivity|]. cbn [fst snd mem set_mem].
    assert (NB : forall c, c <> bs -> (c =? bs) = false) by (intros c Hc; now apply Z.eqb_neq).
    split; [rewrite Z.eqb_refl; reflexivity|].
    split; [rewrite !NB by lia; exact O1|].
    split.
    - exists k, e9. rewrite !NB by lia. auto.
    - intros c H1 H2 H3 H4. rewrite !NB by lia. now apply O4. }
  unfold ell_solve_jacobi_2D. cbn [s_min_tol s_max_its].
  destruct (inv_diag m 4 nF (nx * ny) (malloc n)) as [k|w]; cbn [bind ends] in *.
  2:{ destruct G as (w' & G). eauto. }
  destruct (jac_loop _ _ _ _ _ _ _ _ _ _) as [[[x' er] it]|w]; cbn [bind ends] in *.
  2:{ destruct G as (w' & G). eauto. }
  destruct er as [er|]; cbn [of_option bind ends] in *.
  2:{ destruct G as (w' & G). eauto. }
  destruct G as (s' & g & R & -> & M0 & M5 & (k' & e' & Mk & Me) & O). exists s', k', e'.
  split; [apply CL; exact R|]. cbn [fst snd s_its s_err] in *. auto.
Qed.

End Call.
End Jac.
