(** The syntax trees of src/ell.cpp (EllAst.v) compute what the functions of EllModel.v say:
    the product and the solvers. *)
From Coq Require Import String.
From Verif Require Import Base Scalar EllModel Clite CliteRules EllAst.
Local Open Scope string_scope.
Local Open Scope Z_scope.

Ltac lk x := cbn [eval bind of_option load load_fld bin_op int_op to_int to_dbl dbl_op fget
                  String.eqb Ascii.eqb Bool.eqb] in x.
Ltac ev1 :=
  cbn [eval bind of_option load load_fld bin_op int_op to_int to_dbl dbl_op fget
       String.eqb Ascii.eqb Bool.eqb]; rewrite ?Z.add_0_l.
(** evaluation by the known variables and objects *)
Ltac ev := ev1; repeat (match goal with
  | H : env ?s ?x = Some _ |- context [env ?s ?x] => rewrite H
  | H : mem ?s ?b = Some _ |- context [mem ?s ?b] => rewrite H
  end; ev1).

Section Lit.
Context {T : Type} `{OT : Ops T}.
Notation state := (@state T).
Notation goes := (goes ell_prog).
Notation runs := (runs ell_prog).

(** an ell_matrix in memory: the struct at [bm], its arrays at [bc] and [bv] *)
Definition mat_obj (m : ell T) (bc bv : Z) : @obj T :=
  OS [("nrow", Some (VI (e_nrow m))); ("ncol", Some (VI (e_ncol m)));
      ("nnz", Some (VI (e_nnz m))); ("cols", Some (VP bc 0)); ("vals", Some (VP bv 0))].
Definition mat_at (h : Z -> option (@obj T)) (bm bc bv : Z) (m : ell T) : Prop :=
  h bm = Some (mat_obj m bc bv) /\ h bc = Some (OI (e_cols m)) /\ h bv = Some (OD (e_vals m)).

(** product: src/ell.cpp:48-56 *)
Lemma mvp_goes (s : state) bm bc bv bx bo (m : ell T) (x y : arr T) :
  env s "m" = Some (VP bm 0) -> env s "x" = Some (VP bx 0) -> env s "y" = Some (VP bo 0) ->
  mat_at (mem s) bm bc bv m -> mem s bx = Some (OD x) -> mem s bo = Some (OD y) ->
  bo <> bm -> bo <> bc -> bo <> bv -> bo <> bx ->
  goes (f_body ast_ell_mvp_2D) s (ell_mvp_2D m x y)
    (fun y' s' => same_mem [bo] s s' /\ mem s' bo = Some (OD y')).
Proof.
  intros Em Ex Ey (Mm & Mc & Mv) Mx My N1 N2 N3 N4. unfold mat_obj in Mm.
  cbn [f_body ast_ell_mvp_2D]. unfold SFor at 1.
  eapply goes_pre; [apply runs_set; reflexivity|].
  unfold ell_mvp_2D, upd_for.
  set (I := fun (i : Z) (y' : arr T) (s' : state) =>
     keeps ["i"; "j"] s s' /\ same_mem [bo] s s' /\ mem s' bo = Some (OD y') /\
     env s' "i" = Some (VI i)).
  assert (L : forall i y' s', I i y' s' ->
     env s' "m" = Some (VP bm 0) /\ env s' "x" = Some (VP bx 0) /\ env s' "y" = Some (VP bo 0) /\
     mem s' bm = Some (mat_obj m bc bv) /\ mem s' bc = Some (OI (e_cols m)) /\
     mem s' bv = Some (OD (e_vals m)) /\ mem s' bx = Some (OD x)).
  { intros i y' s' (K & (_ & S) & _ & _). rewrite !K by reflexivity; rewrite !S by (cbn; intuition congruence).
    auto 10. }
  eapply goes_weak.
  - apply (goes_while ell_prog "i" _ _ I).
    + intros i y' s' J. destruct (L _ _ _ J) as (Em' & _ & _ & Mm' & _).
      destruct J as (_ & _ & _ & X). split; [|exact X]. unfold mat_obj in Mm'. ev. reflexivity.
    + intros i y' s' Hi J. destruct (L _ _ _ J) as (Em' & Ex' & Ey' & Mm' & Mc' & Mv' & Mx').
      unfold mat_obj in Mm'. destruct J as (K & S & M & X). cbn [block].
      destruct (wr y' i (ofZ 0)) as [y0|w] eqn:W0.
      2:{ assert (Z : (v <- mvp_row m x i ;; wr y' i v) = Err w \/
                  exists w', (v <- mvp_row m x i ;; wr y' i v) = Err w').
          { right. destruct (mvp_row m x i) as [v|w']; cbn; [|eauto].
            exists w. eapply wr_err; eauto. }
          assert (exists w', (v <- mvp_row m x i ;; wr y' i v) = Err w') as (w' & ->)
            by (destruct Z; eauto).
          cbn [CliteRules.goes]. exists w. apply runs_seq_err.
          eapply runs_store_err; [ev; reflexivity | ev; reflexivity | exact M |].
          ev. exists (ofZ 0). split; [reflexivity|]. exact W0. }
      eapply goes_pre.
      { eapply runs_store; [ev; reflexivity | ev; reflexivity | ev; reflexivity | reflexivity
                           | exact M | rewrite Z.add_0_l; exact W0]. }
      set (s0 := set_mem s' bo (Some (OD y0))).
      unfold SFor. eapply goes_pre; [apply runs_set; reflexivity|].
      set (s1 := set_env s0 "j" (VI 0)).
      set (J := fun (j : Z) (t : T) (s2 : state) =>
         keeps ["j"] s' s2 /\ same_mem [bo] s' s2 /\ env s2 "j" = Some (VI j) /\
         exists y2, wr y' i t = Ok y2 /\ mem s2 bo = Some (OD y2)).
      assert (G : goes (SWhile (EBin Lt (EV "j") (EFld (EV "m") "nnz"))
         (SStore (EV "y") (EV "i") (EBin Add (EIdx (EV "y") (EV "i")) (EBin Mul (EIdx (EFld (EV "m") "vals") (EBin Add (EBin Mul (EV "i") (EFld (EV "m") "nnz")) (EV "j"))) (EIdx (EV "x") (EIdx (EFld (EV "m") "cols") (EBin Add (EBin Mul (EV "i") (EFld (EV "m") "nnz")) (EV "j")))))))
         (SSet "j" (EBin Add (EV "j") (EI 1)))) s1 (mvp_row m x i)
         (fun t s2 => J (Z.max 0 (e_nnz m)) t s2)).
      { unfold mvp_row, sumM.
        assert (L2 : forall j t s2, J j t s2 ->
           env s2 "m" = Some (VP bm 0) /\ env s2 "x" = Some (VP bx 0) /\ env s2 "y" = Some (VP bo 0) /\
           env s2 "i" = Some (VI i) /\
           mem s2 bm = Some (mat_obj m bc bv) /\ mem s2 bc = Some (OI (e_cols m)) /\
           mem s2 bv = Some (OD (e_vals m)) /\ mem s2 bx = Some (OD x)).
        { intros j t s2 (K2 & (_ & S2) & _ & _).
          rewrite !K2 by reflexivity; rewrite !S2 by (cbn; intuition congruence). unfold mat_obj. auto 10. }
        apply (goes_while ell_prog "j" _ _ J).
        - intros j t s2 J2. destruct (L2 _ _ _ J2) as (Em2 & _ & _ & _ & Mm2 & _).
          destruct J2 as (_ & _ & X2 & _). split; [|exact X2]. unfold mat_obj in Mm2. ev. reflexivity.
        - intros j t s2 Hj J2. destruct (L2 _ _ _ J2) as (Em2 & Ex2 & Ey2 & Ei2 & Mm2 & Mc2 & Mv2 & Mx2).
          unfold mat_obj in Mm2. destruct J2 as (K2 & S2 & X2 & y2 & W2 & M2).
          assert (E2 : forall r, r = eval s2 (EBin Add (EIdx (EV "y") (EV "i")) (EBin Mul (EIdx (EFld (EV "m") "vals") (EBin Add (EBin Mul (EV "i") (EFld (EV "m") "nnz")) (EV "j"))) (EIdx (EV "x") (EIdx (EFld (EV "m") "cols") (EBin Add (EBin Mul (EV "i") (EFld (EV "m") "nnz")) (EV "j")))))) ->
             match (v <- rd (e_vals m) (i * e_nnz m + j) ;; c <- rd (e_cols m) (i * e_nnz m + j) ;;
                    xc <- rd x c ;; Ok (omul v xc)) with
             | Ok v => r = Ok (VD (oadd t v)) | Err _ => exists w, r = Err w end).
          { intros r ->. ev. rewrite (rd_wr _ _ _ _ W2). ev.
            destruct (rd (e_vals m) _); ev; [|eauto]. destruct (rd (e_cols m) _); ev; [|eauto].
            destruct (rd x _); ev; eauto. }
          specialize (E2 _ eq_refl). destruct (v <- rd (e_vals m) _ ;; _) as [v|w]; cbn [bind CliteRules.goes].
          + destruct (wr y' i (oadd t v)) as [y3|w] eqn:W3.
            2:{ exfalso. unfold wr in W2, W3. destruct (inb y' i); discriminate. }
            exists (set_mem s2 bo (Some (OD y3))). split.
            { eapply runs_store; [ev; reflexivity | ev; reflexivity | exact E2 | reflexivity
                                 | exact M2 | rewrite Z.add_0_l, (wr_wr _ _ _ _ _ W2); exact W3]. }
            split; [exact X2|]. split; [|split; [|split]].
            * apply keeps_set; [now apply keeps_mem | reflexivity].
            * split; [exact (proj1 S2)|]. intros c Hc. cbn.
              destruct (Z.eqb_spec c bo); [subst; exfalso; apply Hc; now left|]. now apply (proj2 S2).
            * reflexivity.
            * exists y3. split; [exact W3|]. cbn. now rewrite Z.eqb_refl.
          + destruct E2 as (w2 & E2). exists w2.
            eapply runs_store_err; [ev; reflexivity | ev; reflexivity | exact M2 | now rewrite E2].
        - split; [|split; [|split]].
          + unfold s1, s0. apply keeps_set; [apply keeps_mem, keeps_refl | reflexivity].
          + split; [reflexivity|]. intros c Hc. cbn.
            destruct (Z.eqb_spec c bo); [subst; exfalso; apply Hc; now left|reflexivity].
          + reflexivity.
          + exists y0. split; [exact W0|]. cbn. now rewrite Z.eqb_refl. }
      destruct (mvp_row m x i) as [t|w]; cbn [bind CliteRules.goes] in *.
      * destruct G as (s2 & R2 & K2 & S2 & X2 & y2 & W2 & M2). rewrite W2. cbn [CliteRules.goes].
        exists s2. split; [exact R2|]. split; [rewrite K2 by reflexivity; exact X|].
        split; [|split; [|split]].
        -- apply keeps_set; [|reflexivity]. eapply keeps_trans; [exact K|].
           eapply keeps_sub; [exact K2|]. intros z Hz. cbn in *.
           destruct (String.eqb z "i"); [discriminate|]. exact Hz.
        -- exact (same_trans _ _ _ _ S S2).
        -- exact M2.
        -- reflexivity.
      * exact G.
    + split; [|split; [|split]].
      * apply keeps_set; [apply keeps_refl|reflexivity].
      * split; reflexivity.
      * exact My.
      * reflexivity.
  - intros y' s' (K & S & M & _). auto.
Qed.

(** ** The conjugate gradients *)
(** two loops fused into one, src/ell.cpp:184-187 *)
Definition requiv {A} (m m' : res A) : Prop :=
  match m, m' with Ok a, Ok b => a = b | Err _, Err _ => True | _, _ => False end.
Lemma goes_resp {A} c (s : state) (m m' : res A) Q : requiv m m' -> goes c s m Q -> goes c s m' Q.
Proof. destruct m, m'; cbn; intros E G; try tauto. now subst. Qed.
Lemma fused {A B C} (f : A -> C -> res A) (g : B -> C -> res B) l x r :
  requiv (foldM (fun xr i => x' <- f (fst xr) i ;; r' <- g (snd xr) i ;; Ok (x', r')) l (x, r))
         (x' <- foldM f l x ;; r' <- foldM g l r ;; Ok (x', r')).
Proof.
  revert x r. induction l as [|c l IH]; intros x r; cbn; [reflexivity|].
  destruct (f x c) as [x1|e]; cbn; [|exact I].
  destruct (g r c) as [r1|e]; cbn; [apply IH|].
  destruct (foldM f l x1); cbn; exact I.
Qed.

(** the body of the do-while, src/ell.cpp:153-192 and 249-287 *)
Definition cg_body : stmt := (block [(SSet "err" (EDbl (EI 0)));
 (SFor "i" (EI 0) (EBin Lt (EV "i") (EFld (EV "m") "nrow")) (SSet "err" (EBin Add (EV "err") (EBin Mul (EIdx (EV "r") (EV "i")) (EIdx (EV "r") (EV "i"))))));
 (SSet "err" (ESqrt (EV "err")));
 (SIf (EBin Lt (EV "err") (EFld (EV "solver") "min_tol")) SBreak SSkip);
 (SFor "i" (EI 0) (EBin Lt (EV "i") (EFld (EV "m") "nrow")) (SStore (EV "z") (EV "i") (EBin Mul (EIdx (EV "k") (EV "i")) (EIdx (EV "r") (EV "i")))));
 (SSet "rho_1" (EDbl (EI 0)));
 (SFor "i" (EI 0) (EBin Lt (EV "i") (EFld (EV "m") "nrow")) (SSet "rho_1" (EBin Add (EV "rho_1") (EBin Mul (EIdx (EV "r") (EV "i")) (EIdx (EV "z") (EV "i"))))));
 (SIf (EBin Eq (EV "its") (EI 0)) (SFor "i" (EI 0) (EBin Lt (EV "i") (EFld (EV "m") "nrow")) (SStore (EV "p") (EV "i") (EIdx (EV "z") (EV "i")))) (block [(SSet "beta" (EBin Div (EV "rho_1") (EV "rho_0")));
 (SFor "i" (EI 0) (EBin Lt (EV "i") (EFld (EV "m") "nrow")) (SStore (EV "p") (EV "i") (EBin Add (EIdx (EV "z") (EV "i")) (EBin Mul (EV "beta") (EIdx (EV "p") (EV "i"))))))]));
 (SCall "ell_mvp_2D" [(EV "m"); (EV "p"); (EV "q")]);
 (SSet "aux" (EDbl (EI 0)));
 (SFor "i" (EI 0) (EBin Lt (EV "i") (EFld (EV "m") "nrow")) (SSet "aux" (EBin Add (EV "aux") (EBin Mul (EIdx (EV "p") (EV "i")) (EIdx (EV "q") (EV "i"))))));
 (SSet "d" (EBin Div (EV "rho_1") (EV "aux")));
 (SFor "i" (EI 0) (EBin Lt (EV "i") (EFld (EV "m") "nrow")) (block [(SStore (EV "x") (EV "i") (EBin Sub (EIdx (EV "x") (EV "i")) (EBin Mul (EV "d") (EIdx (EV "p") (EV "i")))));
 (SStore (EV "r") (EV "i") (EBin Sub (EIdx (EV "r") (EV "i")) (EBin Mul (EV "d") (EIdx (EV "q") (EV "i")))))]));
 (SSet "rho_0" (EV "rho_1"));
 (SSet "its" (EBin Add (EV "its") (EI 1)))]).

(** the addresses: 0 solver, 1 m, 2 m->cols, 3 m->vals, 4 b, 5 x, 6 k, 7 r, 8 z, 9 p, 10 q *)
Variable ad : Z -> Z.
Hypothesis inj : forall i j, 0 <= i <= 10 -> 0 <= j <= 10 -> ad i = ad j -> i = j.

Definition sol_obj (mi : Z) (tol : T) (it er : option (@val T)) : @obj T :=
  OS [("max_its", Some (VI mi)); ("its", it); ("min_tol", Some (VD tol)); ("err", er)].

Variables (m : ell T) (mi : Z) (tol : T) (it0 er0 : option (@val T)) (b k : arr T).

(** variables and memory during the iterations *)
Record ctx (s : state) (x r z p q : arr T) : Prop := {
  v_sol : env s "solver" = Some (VP (ad 0) 0);
  v_m : env s "m" = Some (VP (ad 1) 0);
  v_b : env s "b" = Some (VP (ad 4) 0);
  v_x : env s "x" = Some (VP (ad 5) 0);
  v_k : env s "k" = Some (VP (ad 6) 0);
  v_r : env s "r" = Some (VP (ad 7) 0);
  v_z : env s "z" = Some (VP (ad 8) 0);
  v_p : env s "p" = Some (VP (ad 9) 0);
  v_q : env s "q" = Some (VP (ad 10) 0);
  o_sol : mem s (ad 0) = Some (sol_obj mi tol it0 er0);
  o_m : mem s (ad 1) = Some (mat_obj m (ad 2) (ad 3));
  o_c : mem s (ad 2) = Some (OI (e_cols m));
  o_v : mem s (ad 3) = Some (OD (e_vals m));
  o_b : mem s (ad 4) = Some (OD b);
  o_x : mem s (ad 5) = Some (OD x);
  o_k : mem s (ad 6) = Some (OD k);
  o_r : mem s (ad 7) = Some (OD r);
  o_z : mem s (ad 8) = Some (OD z);
  o_p : mem s (ad 9) = Some (OD p);
  o_q : mem s (ad 10) = Some (OD q) }.

Ltac nin := cbn [In]; intros Hin; repeat (destruct Hin as [Hin|Hin]; [apply inj in Hin; lia|]);
  exact Hin.
(** facts of a context for [ev] *)
Ltac op C := destruct C as [?V1 ?V2 ?V3 ?V4 ?V5 ?V6 ?V7 ?V8 ?V9 ?O1 ?O2 ?O3 ?O4 ?O5 ?O6 ?O7 ?O8 ?O9 ?O10 ?O11];
  unfold sol_obj in *; unfold mat_obj in *.

(** the names of the pointers *)
Definition pnames := ["solver"; "m"; "b"; "x"; "k"; "r"; "z"; "p"; "q"].
Lemma ctx_upd s s' x r z p q x' r' z' p' q' W B :
  ctx s x r z p q -> keeps W s s' -> same_mem B s s' ->
  forallb (fun v => negb (mems v W)) pnames = true ->
  (forall i, 0 <= i <= 4 \/ i = 6 -> ~ In (ad i) B) ->
  mem s' (ad 5) = Some (OD x') -> mem s' (ad 7) = Some (OD r') -> mem s' (ad 8) = Some (OD z') ->
  mem s' (ad 9) = Some (OD p') -> mem s' (ad 10) = Some (OD q') -> ctx s' x' r' z' p' q'.
Proof.
  intros C K (_ & S) F N M5 M7 M8 M9 M10. destruct C.
  assert (E : forall v o, In v pnames -> env s v = o -> env s' v = o).
  { intros v o I <-. apply K. rewrite forallb_forall in F. specialize (F v I).
    destruct (mems v W); [discriminate|reflexivity]. }
  assert (O : forall i o, 0 <= i <= 4 \/ i = 6 -> mem s (ad i) = o -> mem s' (ad i) = o).
  { intros i o Hi <-. apply S, N, Hi. }
  unfold pnames in E. cbn [In] in E.
  constructor; first [assumption | apply O; [lia|assumption] | apply E; [tauto|assumption]].
Qed.
Lemma ctx_mem s s' x r z p q W :
  ctx s x r z p q -> keeps W s s' -> forallb (fun v => negb (mems v W)) pnames = true ->
  mem s' = mem s -> nxt s' = nxt s -> ctx s' x r z p q.
Proof.
  intros C K F M N. destruct C.
  apply (ctx_upd s s' x r z p q x r z p q W []); try (rewrite M; assumption).
  - constructor; assumption.
  - exact K.
  - split; [exact N|]. intros c _. now rewrite M.
  - exact F.
  - intros i _ [].
Qed.

Lemma nrow_ev s x r z p q W s' :
  ctx s x r z p q -> keeps W s s' -> mems "m" W = false -> mem s' (ad 1) = mem s (ad 1) ->
  eval s' (EFld (EV "m") "nrow") = Ok (VI (e_nrow m)).
Proof.
  intros C K H M. op C. rewrite O2 in M.
  assert (env s' "m" = Some (VP (ad 1) 0)) by (rewrite K by exact H; assumption).
  ev. reflexivity.
Qed.

(** a scalar product, e.g. src/ell.cpp:156-157 *)
Lemma dot_goes s x r z p q acc va vb ba bb (a1 a2 : arr T) :
  ctx s x r z p q -> String.eqb "i" acc = false -> mems "m" ["i"; acc] = false ->
  mems va ["i"; acc] = false -> mems vb ["i"; acc] = false ->
  env s acc = Some (VD (ofZ 0)) ->
  env s va = Some (VP ba 0) -> env s vb = Some (VP bb 0) ->
  mem s ba = Some (OD a1) -> mem s bb = Some (OD a2) ->
  goes (SFor "i" (EI 0) (EBin Lt (EV "i") (EFld (EV "m") "nrow"))
         (SSet acc (EBin Add (EV acc) (EBin Mul (EIdx (EV va) (EV "i")) (EIdx (EV vb) (EV "i"))))))
    s (dotM (e_nrow m) a1 a2)
    (fun t s' => keeps ["i"; acc] s s' /\ mem s' = mem s /\ nxt s' = nxt s /\
                 env s' acc = Some (VD t)).
Proof.
  intros C NE Mm Ma Mb Ea Eva Evb M1 M2. unfold dotM, sumM. apply goes_sum.
  - exact NE.
  - exact Ea.
  - intros i s' Hi K M X.
    assert (env s' va = Some (VP ba 0)) by (rewrite K by exact Ma; assumption).
    assert (env s' vb = Some (VP bb 0)) by (rewrite K by exact Mb; assumption).
    rewrite <- M in M1, M2. unfold evald.
    destruct (rd a1 i) as [u|w] eqn:R1; cbn [bind].
    2:{ exists w. ev. now rewrite R1. }
    destruct (rd a2 i) as [v|w] eqn:R2; cbn [bind].
    + ev. rewrite R1. ev. rewrite R2. reflexivity.
    + exists w. ev. rewrite R1. ev. now rewrite R2.
  - intros s' K M. eapply nrow_ev; eauto. now rewrite M.
Qed.

(** the call of the product *)
Lemma call_mvp s bx bo (x y : arr T) vx vo :
  env s "m" = Some (VP (ad 1) 0) -> env s vx = Some (VP bx 0) -> env s vo = Some (VP bo 0) ->
  mat_at (mem s) (ad 1) (ad 2) (ad 3) m -> mem s bx = Some (OD x) -> mem s bo = Some (OD y) ->
  bo <> ad 1 -> bo <> ad 2 -> bo <> ad 3 -> bo <> bx ->
  goes (SCall "ell_mvp_2D" [EV "m"; EV vx; EV vo]) s (ell_mvp_2D m x y)
    (fun y' s' => keeps [] s s' /\ same_mem [bo] s s' /\ mem s' bo = Some (OD y')).
Proof.
  intros Em Ex Ey MA Mx My N1 N2 N3 N4.
  assert (A : mapM (eval s) [EV "m"; EV vx; EV vo] = Ok [VP (ad 1) 0; VP bx 0; VP bo 0]).
  { cbn [mapM eval]. rewrite Em, Ex, Ey. reflexivity. }
  set (e := fun y0 : string => if String.eqb y0 "y" then Some (VP bo 0) else
             if String.eqb y0 "x" then Some (VP bx 0) else
             if String.eqb y0 "m" then Some (@VP T (ad 1) 0) else None).
  assert (B : bindp (f_params ast_ell_mvp_2D) [VP (ad 1) 0; VP bx 0; VP bo 0] (fun _ => None) = Ok e)
    by reflexivity.
  pose proof (mvp_goes (mkSt e (mem s) (nxt s)) (ad 1) (ad 2) (ad 3) bx bo m x y
                eq_refl eq_refl eq_refl MA Mx My N1 N2 N3 N4) as G.
  destruct (ell_mvp_2D m x y) as [y'|w]; cbn [CliteRules.goes] in *.
  - destruct G as (s1 & R & S & M). exists (mkSt (env s) (mem s1) (nxt s1)). split.
    { eapply runs_call; [reflexivity | exact A | exact B | exact R | discriminate]. }
    split; [intros z _; reflexivity|]. split; [exact S | exact M].
  - destruct G as (w' & R). exists w'. eapply runs_call_err; [reflexivity | exact A | exact B | exact R].
Qed.

Lemma ctx_set s x r z p q v w :
  ctx s x r z p q -> forallb (fun y => negb (mems y [v])) pnames = true ->
  ctx (set_env s v w) x r z p q.
Proof.
  intros C F. apply (ctx_mem s _ x r z p q [v]); try reflexivity; [exact C| |exact F].
  apply keeps_set; [apply keeps_refl | cbn; now rewrite String.eqb_refl].
Qed.

(** how a statement ends, with breaks *)
Definition ends {A} (c : stmt) (s : state) (mo : res A) (Q : A -> sig -> state -> Prop) : Prop :=
  match mo with
  | Ok a => exists s' g, runs c s (Ok (s', g)) /\ Q a g s'
  | Err _ => exists e, runs c s (Err e)
  end.
Lemma ends_seq {A B} c d s (mo : res A) (f : A -> res B) Q Q' :
  goes c s mo Q -> (forall a s', Q a s' -> ends d s' (f a) Q') -> ends (SSeq c d) s (bind mo f) Q'.
Proof.
  destruct mo as [a|e]; cbn [CliteRules.goes bind].
  - intros (s1 & R & H) W. specialize (W a s1 H). destruct (f a) as [c'|e]; cbn [ends] in *.
    + destruct W as (s2 & g & R2 & H2). exists s2, g. split; [|exact H2]. eapply runs_seq; eauto.
    + destruct W as (w & R2). exists w. eapply runs_seq; eauto.
  - intros (w & R) _. exists w. now apply runs_seq_err.
Qed.
Lemma ends_pre {B} c d s s1 (mo : res B) Q :
  runs c s (Ok (s1, Nrm)) -> ends d s1 mo Q -> ends (SSeq c d) s mo Q.
Proof.
  intros R. destruct mo; cbn [ends].
  - intros (s2 & g & R2 & H). exists s2, g. split; [|exact H]. eapply runs_seq; eauto.
  - intros (w & R2). exists w. eapply runs_seq; eauto.
Qed.
Lemma ends_goes {A} c s (mo : res A) Q (Q' : A -> sig -> state -> Prop) :
  goes c s mo Q -> (forall a s', Q a s' -> Q' a Nrm s') -> ends c s mo Q'.
Proof. destruct mo; cbn; [|auto]. intros (s' & R & H) W. exists s', Nrm. auto. Qed.
Lemma ends_break {A} c d s v (t : bool) (m1 m2 : res A) a (Q : A -> sig -> state -> Prop) :
  eval s c = Ok v -> truth v = Ok t -> m1 = Ok a -> (t = true -> Q a Brk s) ->
  (t = false -> ends d s m2 Q) -> ends (SSeq (SIf c SBreak SSkip) d) s (if t then m1 else m2) Q.
Proof.
  intros E V -> HB HN. destruct t.
  - cbn [ends]. exists s, Brk. split; [|now apply HB]. apply runs_seq_stop; [|discriminate].
    eapply runs_if; [exact E | exact V | apply runs_break].
  - eapply ends_pre; [|now apply HN]. eapply runs_if; [exact E | exact V | apply runs_skip].
Qed.

(** one pass of the loop, in the words of EllModel.v *)
Definition cg_step (x r z p q : arr T) (rho_0 : T) (its : Z)
  : res (T * option (arr T * arr T * arr T * arr T * arr T * T)) :=
  let n := e_nrow m in
  rr <- dotM n r r ;;
  if oltb (osqrt rr) tol then Ok (osqrt rr, None)
  else
    z <- upd_for n (fun _ i => u <- rd k i ;; v <- rd r i ;; Ok (omul u v)) z ;;
    rho_1 <- dotM n r z ;;
    p <- (if its =? 0 then upd_for n (fun _ i => rd z i) p
          else upd_for n (fun p i => u <- rd z i ;; v <- rd p i ;; Ok (oadd u (omul (odiv rho_1 rho_0) v))) p) ;;
    q <- ell_mvp_2D m p q ;;
    aux <- dotM n p q ;;
    xr <- (x' <- upd_for n (fun x i => u <- rd x i ;; v <- rd p i ;; Ok (osub u (omul (odiv rho_1 aux) v))) x ;;
           r' <- upd_for n (fun r i => u <- rd r i ;; v <- rd q i ;; Ok (osub u (omul (odiv rho_1 aux) v))) r ;;
           Ok (x', r')) ;;
    Ok (osqrt rr, Some (fst xr, snd xr, z, p, q, rho_1)).

Lemma cg_loop_step fuel x r z p q rho its :
  cg_loop m k tol mi (S fuel) x r z p q rho its =
  (o <- cg_step x r z p q rho its ;;
   match o with
   | (er, None) => Ok (x, er, its)
   | (er, Some (x, r, z, p, q, rho_1)) =>
       if its + 1 <? mi then cg_loop m k tol mi fuel x r z p q rho_1 (its + 1)
       else Ok (x, er, its + 1)
   end).
Proof.
  unfold cg_step. cbn [cg_loop].
  destruct (dotM (e_nrow m) r r) as [rr|]; cbn [bind]; [|reflexivity].
  destruct (oltb (osqrt rr) tol); cbn [bind]; [reflexivity|].
  destruct (upd_for _ _ z) as [z1|]; cbn [bind]; [|reflexivity].
  destruct (dotM (e_nrow m) r z1) as [rho1|]; cbn [bind]; [|reflexivity].
  destruct (if its =? 0 then _ else _) as [p1|]; cbn [bind]; [|reflexivity].
  destruct (ell_mvp_2D m p1 q) as [q1|]; cbn [bind]; [|reflexivity].
  destruct (dotM (e_nrow m) p1 q1) as [aux|]; cbn [bind]; [|reflexivity].
  destruct (upd_for _ _ x) as [x1|]; cbn [bind]; [|reflexivity].
  destruct (upd_for _ _ r) as [r1|]; cbn [bind]; [|reflexivity].
  reflexivity.
Qed.

Definition work := [ad 5; ad 7; ad 8; ad 9; ad 10].

(** x and r are updated in one loop, src/ell.cpp:184-187 *)
Lemma xr_goes s x r z p q d :
  ctx s x r z p q -> env s "d" = Some (VD d) ->
  goes (SFor "i" (EI 0) (EBin Lt (EV "i") (EFld (EV "m") "nrow"))
     (block [(SStore (EV "x") (EV "i") (EBin Sub (EIdx (EV "x") (EV "i")) (EBin Mul (EV "d") (EIdx (EV "p") (EV "i")))));
             (SStore (EV "r") (EV "i") (EBin Sub (EIdx (EV "r") (EV "i")) (EBin Mul (EV "d") (EIdx (EV "q") (EV "i")))))]))
    s (x' <- upd_for (e_nrow m) (fun x i => u <- rd x i ;; v <- rd p i ;; Ok (osub u (omul d v))) x ;;
       r' <- upd_for (e_nrow m) (fun r i => u <- rd r i ;; v <- rd q i ;; Ok (osub u (omul d v))) r ;;
       Ok (x', r'))
    (fun xr s' => keeps ["i"] s s' /\ same_mem [ad 5; ad 7] s s' /\
                  ctx s' (fst xr) (snd xr) z p q).
Proof.
  intros C Ed. unfold upd_for.
  eapply goes_resp; [apply fused|]. unfold SFor. eapply goes_pre; [apply runs_set; reflexivity|].
  eapply goes_weak.
  - apply (goes_while ell_prog "i" _ _
      (fun i xr s' => keeps ["i"] s s' /\ same_mem [ad 5; ad 7] s s' /\
                      ctx s' (fst xr) (snd xr) z p q /\ env s' "i" = Some (VI i))).
    + intros i xr s' (K & S & C' & X). split; [|exact X].
      eapply nrow_ev; [exact C' | apply (keeps_refl []) | reflexivity | reflexivity].
    + intros i [x1 r1] s' Hi (K & S & C' & X). cbn [fst snd block] in *.
      assert (Ed' : env s' "d" = Some (VD d)) by (rewrite K by reflexivity; exact Ed).
      pose proof C' as C0. op C'.
      destruct (rd x1 i) as [u|w] eqn:R1; cbn [bind].
      2:{ cbn [CliteRules.goes]. exists w. apply runs_seq_err.
          eapply runs_store_err; [ev; reflexivity | ev; reflexivity | eassumption |].
          ev. rewrite R1. ev. reflexivity. }
      destruct (rd p i) as [v|w] eqn:R2; cbn [bind].
      2:{ cbn [CliteRules.goes]. exists w. apply runs_seq_err.
          eapply runs_store_err; [ev; reflexivity | ev; reflexivity | eassumption |].
          ev. rewrite R1. ev. rewrite R2. ev. reflexivity. }
      destruct (wr x1 i (osub u (omul d v))) as [x2|w] eqn:W1; cbn [bind].
      2:{ cbn [CliteRules.goes]. exists w. apply runs_seq_err.
          eapply runs_store_err; [ev; reflexivity | ev; reflexivity | eassumption |].
          ev. rewrite R1. ev. rewrite R2. ev. eexists. split; [reflexivity|]. exact W1. }
      eapply goes_pre.
      { eapply runs_store; [ev; reflexivity | ev; reflexivity | ev; rewrite R1; ev; rewrite R2; ev; reflexivity
                           | reflexivity | eassumption | rewrite Z.add_0_l; exact W1]. }
      set (s1 := set_mem s' (ad 5) (Some (OD x2))).
      assert (S1 : same_mem [ad 5] s' s1).
      { split; [reflexivity|]. intros c Hc. cbn. destruct (Z.eqb_spec c (ad 5)); [|reflexivity].
        subst. exfalso. apply Hc. now left. }
      assert (C1 : ctx s1 x2 r1 z p q).
      { eapply (ctx_upd s' s1 _ _ _ _ _ x2 r1 z p q []); [exact C0 | | exact S1 | reflexivity
          | | | | | | ].
        - apply keeps_mem, keeps_refl.
        - intros j Hj. nin.
        - cbn. now rewrite Z.eqb_refl.
        - rewrite (proj2 S1) by nin. assumption.
        - rewrite (proj2 S1) by nin. assumption.
        - rewrite (proj2 S1) by nin. assumption.
        - rewrite (proj2 S1) by nin. assumption. }
      assert (X1 : env s1 "i" = Some (VI i)) by exact X.
      assert (Ed1 : env s1 "d" = Some (VD d)) by exact Ed'.
      assert (K1 : keeps ["i"] s s1) by (apply keeps_mem; exact K).
      clearbody s1. clear V1 V2 V3 V4 V5 V6 V7 V8 V9 O1 O2 O3 O4 O5 O6 O7 O8 O9 O10 O11.
      pose proof C1 as C0'. op C1.
      destruct (rd r1 i) as [u'|w] eqn:R3; cbn [bind].
      2:{ cbn [CliteRules.goes]. exists w.
          eapply runs_store_err; [ev; reflexivity | ev; reflexivity | eassumption |].
          ev. rewrite R3. ev. reflexivity. }
      destruct (rd q i) as [v'|w] eqn:R4; cbn [bind].
      2:{ cbn [CliteRules.goes]. exists w.
          eapply runs_store_err; [ev; reflexivity | ev; reflexivity | eassumption |].
          ev. rewrite R3. ev. rewrite R4. ev. reflexivity. }
      destruct (wr r1 i (osub u' (omul d v'))) as [r2|w] eqn:W2; cbn [bind CliteRules.goes].
      2:{ exists w.
          eapply runs_store_err; [ev; reflexivity | ev; reflexivity | eassumption |].
          ev. rewrite R3. ev. rewrite R4. ev. eexists. split; [reflexivity|]. exact W2. }
      exists (set_mem s1 (ad 7) (Some (OD r2))). split.
      { eapply runs_store; [ev; reflexivity | ev; reflexivity | ev; rewrite R3; ev; rewrite R4; ev; reflexivity
                           | reflexivity | eassumption | rewrite Z.add_0_l; exact W2]. }
      split; [exact X1|].
      set (s2 := set_mem s1 (ad 7) (Some (OD r2))).
      assert (S2 : same_mem [ad 7] s1 s2).
      { split; [reflexivity|]. intros c Hc. cbn. destruct (Z.eqb_spec c (ad 7)); [|reflexivity].
        subst. exfalso. apply Hc. now left. }
      split; [|split; [|split]].
      * apply keeps_set; [apply keeps_mem; exact K1 | reflexivity].
      * eapply same_trans; [exact S|]. eapply same_trans.
        -- eapply same_sub; [exact S1|]. intros c [<-|[]]. now left.
        -- destruct S2 as (N2 & F2). split; [exact N2|]. intros c Hc. cbn.
           destruct (Z.eqb_spec c (ad 7)); [subst; exfalso; apply Hc; right; now left|reflexivity].
      * apply ctx_set; [|reflexivity]. cbn [fst snd].
        eapply (ctx_upd s1 s2 _ _ _ _ _ x2 r2 z p q []); [exact C0' | | exact S2 | reflexivity
          | | | | | | ].
        -- apply keeps_mem, keeps_refl.
        -- intros j Hj. nin.
        -- rewrite (proj2 S2) by nin. assumption.
        -- cbn. now rewrite Z.eqb_refl.
        -- rewrite (proj2 S2) by nin. assumption.
        -- rewrite (proj2 S2) by nin. assumption.
        -- rewrite (proj2 S2) by nin. assumption.
      * reflexivity.
    + split; [|split; [|split]].
      * apply keeps_set; [apply keeps_refl | reflexivity].
      * split; reflexivity.
      * apply ctx_set; [exact C | reflexivity].
      * reflexivity.
  - intros xr s' (K & S & C' & _). auto.
Qed.

(** a loop v[i] = e over one of the work arrays *)
Lemma upd_goes s x r z p q v j e (f : arr T -> Z -> res T) (a : arr T) :
  ctx s x r z p q -> 0 <= j <= 10 -> j <> 1 -> env s v = Some (VP (ad j) 0) -> mems v ["i"] = false ->
  mem s (ad j) = Some (OD a) ->
  (forall i a' s', 0 <= i < e_nrow m -> keeps ["i"] s s' -> same_mem [ad j] s s' ->
     env s' "i" = Some (VI i) -> mem s' (ad j) = Some (OD a') -> evals s' e (f a' i)) ->
  goes (SFor "i" (EI 0) (EBin Lt (EV "i") (EFld (EV "m") "nrow")) (SStore (EV v) (EV "i") e)) s
    (upd_for (e_nrow m) f a)
    (fun a' s' => keeps ["i"] s s' /\ same_mem [ad j] s s' /\ mem s' (ad j) = Some (OD a')).
Proof.
  intros C Hj J1 Ev Mv Mj HE. apply goes_upd.
  - exact Mj.
  - intros i a' s' Hi K S X M. split; [|now apply HE].
    assert (env s' v = Some (VP (ad j) 0)) by (rewrite K by exact Mv; exact Ev). ev. reflexivity.
  - intros s' K S. eapply nrow_ev; [exact C | exact K | reflexivity |].
    apply (proj2 S). intros [H|[]]. apply inj in H; lia.
Qed.

(** the pass of the tree is the pass of the model *)
Lemma step_ends s x r z p q rho its :
  ctx s x r z p q -> env s "its" = Some (VI its) ->
  (its <> 0 -> env s "rho_0" = Some (VD rho)) ->
  ends cg_body s (cg_step x r z p q rho its)
    (fun o g s' => env s' "err" = Some (VD (fst o)) /\ same_mem work s s' /\
       match snd o with
       | None => g = Brk /\ ctx s' x r z p q /\ env s' "its" = Some (VI its)
       | Some (x', r', z', p', q', rho') =>
           g = Nrm /\ ctx s' x' r' z' p' q' /\ env s' "its" = Some (VI (its + 1)) /\
           env s' "rho_0" = Some (VD rho')
       end).
Proof.
  intros C Ti Tr. unfold cg_body, cg_step. cbn [block].
  (* err *)
  eapply ends_pre; [apply runs_set; reflexivity|].
  match goal with |- ends _ ?s0 _ _ => set (s1 := s0) end.
  assert (C1 : ctx s1 x r z p q) by (apply ctx_set; [exact C | reflexivity]).
  assert (T1 : env s1 "its" = Some (VI its)) by exact Ti.
  assert (Q1 : its <> 0 -> env s1 "rho_0" = Some (VD rho)) by exact Tr.
  assert (S1 : same_mem work s s1) by (split; reflexivity).
  assert (E1 : env s1 "err" = Some (VD (ofZ 0))) by reflexivity.
  clearbody s1.
  eapply ends_seq.
  { pose proof C1 as C1'. op C1'. eapply (dot_goes s1 x r z p q "err" "r" "r"); try eassumption; reflexivity. }
  intros rr s2 (K2 & M2 & N2 & E2).
  assert (C2 : ctx s2 x r z p q) by (eapply ctx_mem; [exact C1 | exact K2 | reflexivity | exact M2 | exact N2]).
  assert (T2 : env s2 "its" = Some (VI its)) by (rewrite K2 by reflexivity; exact T1).
  assert (Q2 : its <> 0 -> env s2 "rho_0" = Some (VD rho)) by (intros H; rewrite K2 by reflexivity; auto).
  assert (S2 : same_mem work s s2).
  { eapply same_trans; [exact S1|]. split; [exact N2|]. intros c _. now rewrite M2. }
  eapply ends_pre; [apply runs_set; ev; reflexivity|].
  match goal with |- ends _ ?s0 _ _ => set (s3 := s0) end.
  assert (C3 : ctx s3 x r z p q) by (apply ctx_set; [exact C2 | reflexivity]).
  assert (T3 : env s3 "its" = Some (VI its)) by exact T2.
  assert (Q3 : its <> 0 -> env s3 "rho_0" = Some (VD rho)) by exact Q2.
  assert (S3 : same_mem work s s3) by exact S2.
  assert (E3 : env s3 "err" = Some (VD (osqrt rr))) by reflexivity.
  clearbody s3. clear E1 E2.
  (* the test *)
  eapply ends_break with (a := (osqrt rr, None)).
  { pose proof C3 as C3'. op C3'. ev. reflexivity. }
  { unfold ofb, truth. destruct (oltb (osqrt rr) tol); reflexivity. }
  { reflexivity. }
  { intros _. cbn [fst snd]. auto 10. }
  intros _.
  (* z *)
  eapply ends_seq.
  { pose proof C3 as C3'. op C3'.
    eapply (upd_goes s3 x r z p q "z" 8 _ _ z); try eassumption; try lia; try reflexivity.
    intros i a' s' Hi K (_ & S) X M.
    assert (env s' "k" = Some (VP (ad 6) 0)) by (rewrite K by reflexivity; assumption).
    assert (env s' "r" = Some (VP (ad 7) 0)) by (rewrite K by reflexivity; assumption).
    assert (mem s' (ad 6) = Some (OD k)) by (rewrite S by nin; assumption).
    assert (mem s' (ad 7) = Some (OD r)) by (rewrite S by nin; assumption).
    unfold evals. destruct (rd k i) as [u|w] eqn:R1; cbn [bind].
    2:{ exists w. ev. now rewrite R1. }
    destruct (rd r i) as [v|w] eqn:R2; cbn [bind].
    2:{ exists w. ev. rewrite R1. ev. now rewrite R2. }
    eexists. split; [ev; rewrite R1; ev; rewrite R2; ev; reflexivity | reflexivity]. }
  intros z1 s4 (K4 & S4 & M4).
  assert (C4 : ctx s4 x r z1 p q).
  { pose proof C3 as C3'. op C3'.
    eapply (ctx_upd s3 s4 x r z p q x r z1 p q ["i"] [ad 8]); try eassumption; try reflexivity;
      try (rewrite (proj2 S4) by nin; assumption). intros j Hj. nin. }
  assert (T4 : env s4 "its" = Some (VI its)) by (rewrite K4 by reflexivity; exact T3).
  assert (E4 : env s4 "err" = Some (VD (osqrt rr))) by (rewrite K4 by reflexivity; exact E3).
  assert (Q4 : its <> 0 -> env s4 "rho_0" = Some (VD rho)) by (intros H; rewrite K4 by reflexivity; auto).
  assert (S04 : same_mem work s s4).
  { eapply same_trans; [exact S3|]. eapply same_sub; [exact S4|]. unfold work. intros c [<-|[]]. cbn. clear. tauto. }
  (* rho_1 *)
  eapply ends_pre; [apply runs_set; reflexivity|].
  match goal with |- ends _ ?s0 _ _ => set (s5 := s0) end.
  assert (C5 : ctx s5 x r z1 p q) by (apply ctx_set; [exact C4 | reflexivity]).
  assert (T5 : env s5 "its" = Some (VI its)) by exact T4.
  assert (E5 : env s5 "err" = Some (VD (osqrt rr))) by exact E4.
  assert (Q5 : its <> 0 -> env s5 "rho_0" = Some (VD rho)) by exact Q4.
  assert (S5 : same_mem work s s5) by exact S04.
  assert (R5 : env s5 "rho_1" = Some (VD (ofZ 0))) by reflexivity.
  clearbody s5.
  eapply ends_seq.
  { pose proof C5 as C5'. op C5'. eapply (dot_goes s5 x r z1 p q "rho_1" "r" "z"); try eassumption; reflexivity. }
  intros rho1 s6 (K6 & M6 & N6 & R6).
  assert (C6 : ctx s6 x r z1 p q) by (eapply ctx_mem; [exact C5 | exact K6 | reflexivity | exact M6 | exact N6]).
  assert (T6 : env s6 "its" = Some (VI its)) by (rewrite K6 by reflexivity; exact T5).
  assert (E6 : env s6 "err" = Some (VD (osqrt rr))) by (rewrite K6 by reflexivity; exact E5).
  assert (Q6 : its <> 0 -> env s6 "rho_0" = Some (VD rho)) by (intros H; rewrite K6 by reflexivity; auto).
  assert (S6 : same_mem work s s6).
  { eapply same_trans; [exact S5|]. split; [exact N6|]. intros c _. now rewrite M6. }
  (* p *)
  eapply ends_seq with (Q := fun p1 s7 => ctx s7 x r z1 p1 q /\ env s7 "its" = Some (VI its) /\
     env s7 "err" = Some (VD (osqrt rr)) /\ env s7 "rho_1" = Some (VD rho1) /\ same_mem work s s7).
  { set (bb := its =? 0).
    assert (EB : eval s6 (EBin Eq (EV "its") (EI 0)) = Ok (ofb bb)) by (ev; reflexivity).
    assert (EVb : truth (@ofb T bb) = Ok bb) by (unfold ofb, truth; destruct bb; reflexivity).
    assert (goes_if : forall c1 c2 (mo : res (arr T)) Q, goes (if bb then c1 else c2) s6 mo Q ->
        goes (SIf (EBin Eq (EV "its") (EI 0)) c1 c2) s6 mo Q).
    { intros c1 c2 mo Q G. destruct mo; cbn [CliteRules.goes] in *.
      - destruct G as (s' & R & H). exists s'. split; [|exact H]. eapply runs_if; eauto.
      - destruct G as (w & R). exists w. eapply runs_if; eauto. }
    apply goes_if. clear goes_if EB EVb. destruct (Z.eqb_spec its 0) as [E0|E0]; subst bb.
    - eapply goes_weak.
      { pose proof C6 as C6'. op C6'.
        eapply (upd_goes s6 x r z1 p q "p" 9 _ (fun _ i => rd z1 i) p); try eassumption; try lia; try reflexivity.
        intros i a' s' Hi K (_ & S) X M.
        assert (env s' "z" = Some (VP (ad 8) 0)) by (rewrite K by reflexivity; assumption).
        assert (mem s' (ad 8) = Some (OD z1)) by (rewrite S by nin; assumption).
        unfold evals. destruct (rd z1 i) as [u|w] eqn:R1; cbn [bind].
        2:{ exists w. ev. now rewrite R1. }
        eexists. split; [ev; rewrite R1; ev; reflexivity | reflexivity]. }
      intros p1 s7 (K7 & S7 & M7). split; [|split; [|split; [|split]]].
      + pose proof C6 as C6'. op C6'.
        eapply (ctx_upd s6 s7 x r z1 p q x r z1 p1 q ["i"] [ad 9]); try eassumption; try reflexivity;
          try (rewrite (proj2 S7) by nin; assumption). intros j Hj. nin.
      + rewrite K7 by reflexivity; exact T6.
      + rewrite K7 by reflexivity; exact E6.
      + rewrite K7 by reflexivity; exact R6.
      + apply (same_trans work s s6 s7 S6). eapply same_sub; [exact S7|]. unfold work. intros c [<-|[]]. cbn. clear. tauto.
    - cbn [block]. specialize (Q6 E0).
      eapply goes_pre; [apply runs_set; ev; reflexivity|].
      match goal with |- CliteRules.goes _ _ ?s0 _ _ => set (s6b := s0) end.
      assert (C6b : ctx s6b x r z1 p q) by (apply ctx_set; [exact C6 | reflexivity]).
      assert (B6 : env s6b "beta" = Some (VD (odiv rho1 rho))) by reflexivity.
      eapply goes_weak.
      { pose proof C6b as C6'. op C6'.
        eapply (upd_goes s6b x r z1 p q "p" 9 _
                 (fun p i => u <- rd z1 i ;; v <- rd p i ;; Ok (oadd u (omul (odiv rho1 rho) v))) p);
          try eassumption; try lia; try reflexivity.
        intros i a' s' Hi K (_ & S) X M.
        assert (env s' "z" = Some (VP (ad 8) 0)) by (rewrite K by reflexivity; assumption).
        assert (env s' "p" = Some (VP (ad 9) 0)) by (rewrite K by reflexivity; assumption).
        assert (env s' "beta" = Some (VD (odiv rho1 rho))) by (rewrite K by reflexivity; assumption).
        assert (mem s' (ad 8) = Some (OD z1)) by (rewrite S by nin; assumption).
        unfold evals. destruct (rd z1 i) as [u|w] eqn:R1; cbn [bind].
        2:{ exists w. ev. now rewrite R1. }
        destruct (rd a' i) as [v|w] eqn:R2; cbn [bind].
        2:{ exists w. ev. rewrite R1. ev. now rewrite R2. }
        eexists. split; [ev; rewrite R1; ev; rewrite R2; ev; reflexivity | reflexivity]. }
      intros p1 s7 (K7 & S7 & M7). split; [|split; [|split; [|split]]].
      + pose proof C6b as C6'. op C6'.
        eapply (ctx_upd s6b s7 x r z1 p q x r z1 p1 q ["i"] [ad 9]); try eassumption; try reflexivity;
          try (rewrite (proj2 S7) by nin; assumption). intros j Hj. nin.
      + rewrite K7 by reflexivity; exact T6.
      + rewrite K7 by reflexivity; exact E6.
      + rewrite K7 by reflexivity; exact R6.
      + apply (same_trans work s s6b s7 S6). eapply same_sub; [exact S7|]. unfold work. intros c [<-|[]]. cbn. clear. tauto. }
  intros p1 s7 (C7 & T7 & E7 & R7 & S7).
  (* q *)
  eapply ends_seq.
  { pose proof C7 as C7'. destruct C7'.
    apply (call_mvp s7 (ad 9) (ad 10) p1 q "p" "q"); try assumption;
      try (intros H; apply inj in H; lia). repeat split; assumption. }
  intros q1 s8 (K8 & S8 & M8).
  assert (C8 : ctx s8 x r z1 p1 q1).
  { pose proof C7 as C7'. op C7'.
    eapply (ctx_upd s7 s8 x r z1 p1 q x r z1 p1 q1 [] [ad 10]); try eassumption; try reflexivity;
      try (rewrite (proj2 S8) by nin; assumption). intros j Hj. nin. }
  assert (T8 : env s8 "its" = Some (VI its)) by (rewrite K8 by reflexivity; exact T7).
  assert (E8 : env s8 "err" = Some (VD (osqrt rr))) by (rewrite K8 by reflexivity; exact E7).
  assert (R8 : env s8 "rho_1" = Some (VD rho1)) by (rewrite K8 by reflexivity; exact R7).
  assert (S08 : same_mem work s s8).
  { eapply same_trans; [exact S7|]. eapply same_sub; [exact S8|]. unfold work. intros c [<-|[]]. cbn. clear. tauto. }
  (* aux *)
  eapply ends_pre; [apply runs_set; reflexivity|].
  match goal with |- ends _ ?s0 _ _ => set (s9 := s0) end.
  assert (C9 : ctx s9 x r z1 p1 q1) by (apply ctx_set; [exact C8 | reflexivity]).
  assert (T9 : env s9 "its" = Some (VI its)) by exact T8.
  assert (E9 : env s9 "err" = Some (VD (osqrt rr))) by exact E8.
  assert (R9 : env s9 "rho_1" = Some (VD rho1)) by exact R8.
  assert (S9 : same_mem work s s9) by exact S08.
  assert (A9 : env s9 "aux" = Some (VD (ofZ 0))) by reflexivity.
  clearbody s9.
  eapply ends_seq.
  { pose proof C9 as C9'. op C9'. eapply (dot_goes s9 x r z1 p1 q1 "aux" "p" "q"); try eassumption; reflexivity. }
  intros aux s10 (K10 & M10 & N10 & A10).
  assert (C10 : ctx s10 x r z1 p1 q1) by (eapply ctx_mem; [exact C9 | exact K10 | reflexivity | exact M10 | exact N10]).
  assert (T10 : env s10 "its" = Some (VI its)) by (rewrite K10 by reflexivity; exact T9).
  assert (E10 : env s10 "err" = Some (VD (osqrt rr))) by (rewrite K10 by reflexivity; exact E9).
  assert (R10 : env s10 "rho_1" = Some (VD rho1)) by (rewrite K10 by reflexivity; exact R9).
  assert (S10 : same_mem work s s10).
  { eapply same_trans; [exact S9|]. split; [exact N10|]. intros c _. now rewrite M10. }
  (* d *)
  eapply ends_pre; [apply runs_set; ev; reflexivity|].
  match goal with |- ends _ ?s0 _ _ => set (s11 := s0) end.
  assert (C11 : ctx s11 x r z1 p1 q1) by (apply ctx_set; [exact C10 | reflexivity]).
  assert (T11 : env s11 "its" = Some (VI its)) by exact T10.
  assert (E11 : env s11 "err" = Some (VD (osqrt rr))) by exact E10.
  assert (R11 : env s11 "rho_1" = Some (VD rho1)) by exact R10.
  assert (S11 : same_mem work s s11) by exact S10.
  assert (D11 : env s11 "d" = Some (VD (odiv rho1 aux))) by reflexivity.
  clearbody s11.
  (* x and r *)
  eapply ends_seq; [eapply xr_goes; eassumption|].
  intros [x1 r1] s12 (K12 & S12 & C12). cbn [fst snd] in *.
  assert (T12 : env s12 "its" = Some (VI its)) by (rewrite K12 by reflexivity; exact T11).
  assert (E12 : env s12 "err" = Some (VD (osqrt rr))) by (rewrite K12 by reflexivity; exact E11).
  assert (R12 : env s12 "rho_1" = Some (VD rho1)) by (rewrite K12 by reflexivity; exact R11).
  (* rho_0, its *)
  eapply ends_pre; [apply runs_set; ev; reflexivity|].
  cbn [ends]. eexists. exists Nrm. split.
  { apply runs_set. cbn [eval]. cbn [env set_env String.eqb Ascii.eqb Bool.eqb]. rewrite T12. reflexivity. }
  cbn [fst snd]. split; [exact E12|]. split.
  { apply (same_trans work s s11); [exact S11|]. eapply same_sub; [exact S12|].
    unfold work. intros c [<-|[<-|[]]]; cbn; clear; tauto. }
  split; [reflexivity|]. split; [|split; reflexivity].
  apply ctx_set; [|reflexivity]. apply ctx_set; [exact C12 | reflexivity].
Qed.

(** src/ell.cpp:153-193: the whole loop *)
Lemma loop_goes fuel s x r z p q rho its :
  ctx s x r z p q -> env s "its" = Some (VI its) -> 0 <= its ->
  (its <> 0 -> env s "rho_0" = Some (VD rho)) ->
  (1 <= fuel)%nat -> mi - its <= Z.of_nat fuel ->
  goes (SDo cg_body (EBin Lt (EV "its") (EFld (EV "solver") "max_its"))) s
    (cg_loop m k tol mi fuel x r z p q rho its)
    (fun o s' => exists r' z' p' q', ctx s' (fst (fst o)) r' z' p' q' /\
       env s' "err" = Some (VD (snd (fst o))) /\ env s' "its" = Some (VI (snd o)) /\
       same_mem work s s').
Proof.
  revert s x r z p q rho its. induction fuel as [|fuel IH]; intros s x r z p q rho its C Ti Hi Tr F1 F2; [lia|].
  rewrite cg_loop_step. pose proof (step_ends s x r z p q rho its C Ti Tr) as H.
  destruct (cg_step x r z p q rho its) as [[er o]|w]; cbn [ends bind] in *.
  2:{ destruct H as (w' & H). cbn [CliteRules.goes]. exists w'. now apply runs_do_err. }
  destruct H as (s1 & g & R1 & E1 & S1 & H). cbn [fst snd] in *.
  destruct o as [[[[[[x' r'] z'] p'] q'] rho']|].
  - destruct H as (-> & C1 & T1 & Q1).
    assert (EC : eval s1 (EBin Lt (EV "its") (EFld (EV "solver") "max_its")) = Ok (ofb (its + 1 <? mi))).
    { pose proof C1 as C1'. op C1'. ev. reflexivity. }
    destruct (Z.ltb_spec (its + 1) mi) as [L|L].
    + specialize (IH s1 x' r' z' p' q' rho' (its + 1) C1 T1 ltac:(lia) (fun _ => Q1) ltac:(lia) ltac:(lia)).
      destruct (cg_loop m k tol mi fuel x' r' z' p' q' rho' (its + 1)) as [[[x2 er2] it2]|w]; cbn [CliteRules.goes] in *.
      * destruct IH as (s2 & R2 & r2 & z2 & p2 & q2 & C2 & E2 & T2 & S2).
        exists s2. split.
        { eapply runs_do_go; [exact R1 | exact EC | reflexivity | exact R2]. }
        exists r2, z2, p2, q2. split; [exact C2|]. split; [exact E2|]. split; [exact T2|].
        exact (same_trans _ _ _ _ S1 S2).
      * destruct IH as (w' & R2). exists w'. eapply runs_do_go; [exact R1 | exact EC | reflexivity | exact R2].
    + cbn [CliteRules.goes]. exists s1. split.
      { eapply runs_do_stop; [exact R1 | exact EC | reflexivity]. }
      cbn [fst snd]. exists r', z', p', q'. auto.
  - destruct H as (-> & C1 & T1). cbn [CliteRules.goes]. exists s1. split; [now apply runs_do_break|].
    cbn [fst snd]. exists r, z, p, q. auto.
Qed.

(** after the diagonal: product, residual, iterations, report and release,
    src/ell.cpp:148-204 and 245-299 *)
Definition cg_tail : stmt :=
  block [SCall "ell_mvp_2D" [EV "m"; EV "x"; EV "r"];
    SFor "i" (EI 0) (EBin Lt (EV "i") (EFld (EV "m") "nrow"))
      (SStore (EV "r") (EV "i") (EBin Sub (EIdx (EV "r") (EV "i")) (EIdx (EV "b") (EV "i"))));
    SDo cg_body (EBin Lt (EV "its") (EFld (EV "solver") "max_its"));
    SFld (EV "solver") "err" (EV "err");
    SFld (EV "solver") "its" (EV "its");
    SFree (EV "k"); SFree (EV "r"); SFree (EV "z"); SFree (EV "p"); SFree (EV "q");
    SRet (EI 0)].

Lemma set_same (s : state) (c : Z) o : same_mem [c] s (set_mem s c o).
Proof.
  split; [reflexivity|]. intros d Hd. cbn. destruct (Z.eqb_spec d c); [|reflexivity].
  subst. exfalso. apply Hd. now left.
Qed.

Lemma tail_ends s x r z p q :
  ctx s x r z p q -> env s "its" = Some (VI 0) ->
  ends cg_tail s
    (r <- ell_mvp_2D m x r ;;
     r <- upd_for (e_nrow m) (fun r i => u <- rd r i ;; c <- rd b i ;; Ok (osub u c)) r ;;
     cg_loop m k tol mi (cg_fuel mi) x r z p q (ofZ 0) 0)
    (fun o g s' => g = Ret (VI 0) /\ nxt s' = nxt s /\
       mem s' (ad 0) = Some (sol_obj mi tol (Some (VI (snd o))) (Some (VD (snd (fst o))))) /\
       mem s' (ad 5) = Some (OD (fst (fst o))) /\
       (forall i, 6 <= i <= 10 -> mem s' (ad i) = None) /\
       (forall c, ~ In c [ad 0; ad 5; ad 6; ad 7; ad 8; ad 9; ad 10] -> mem s' c = mem s c)).
Proof.
  intros C Ti. unfold cg_tail. cbn [block].
  eapply ends_seq.
  { pose proof C as C'. destruct C'.
    apply (call_mvp s (ad 5) (ad 7) x r "x" "r"); try assumption;
      try (intros H; apply inj in H; lia). repeat split; assumption. }
  intros r1 s1 (K1 & S1 & M1).
  assert (C1 : ctx s1 x r1 z p q).
  { pose proof C as C'. op C'.
    eapply (ctx_upd s s1 x r z p q x r1 z p q [] [ad 7]); try eassumption; try reflexivity;
      try (rewrite (proj2 S1) by nin; assumption). intros j Hj. nin. }
  assert (T1 : env s1 "its" = Some (VI 0)) by (rewrite K1 by reflexivity; exact Ti).
  eapply ends_seq.
  { pose proof C1 as C'. op C'.
    eapply (upd_goes s1 x r1 z p q "r" 7 _
             (fun r i => u <- rd r i ;; c <- rd b i ;; Ok (osub u c)) r1);
      try eassumption; try lia; try reflexivity.
    intros i a' s' Hi K (_ & S) X M.
    assert (env s' "b" = Some (VP (ad 4) 0)) by (rewrite K by reflexivity; assumption).
    assert (env s' "r" = Some (VP (ad 7) 0)) by (rewrite K by reflexivity; assumption).
    assert (mem s' (ad 4) = Some (OD b)) by (rewrite S by nin; assumption).
    unfold evals. destruct (rd a' i) as [u|w] eqn:R1; cbn [bind].
    2:{ exists w. ev. now rewrite R1. }
    destruct (rd b i) as [v|w] eqn:R2; cbn [bind].
    2:{ exists w. ev. rewrite R1. ev. now rewrite R2. }
    eexists. split; [ev; rewrite R1; ev; rewrite R2; ev; reflexivity | reflexivity]. }
  intros r2 s2 (K2 & S2 & M2).
  assert (C2 : ctx s2 x r2 z p q).
  { pose proof C1 as C'. op C'.
    eapply (ctx_upd s1 s2 x r1 z p q x r2 z p q ["i"] [ad 7]); try eassumption; try reflexivity;
      try (rewrite (proj2 S2) by nin; assumption). intros j Hj. nin. }
  assert (T2 : env s2 "its" = Some (VI 0)) by (rewrite K2 by reflexivity; exact T1).
  assert (S02 : same_mem [ad 7] s s2) by exact (same_trans _ _ _ _ S1 S2).
  assert (G : ends (SSeq (SDo cg_body (EBin Lt (EV "its") (EFld (EV "solver") "max_its")))
     (block [SFld (EV "solver") "err" (EV "err"); SFld (EV "solver") "its" (EV "its");
             SFree (EV "k"); SFree (EV "r"); SFree (EV "z"); SFree (EV "p"); SFree (EV "q");
             SRet (EI 0)])) s2
    (o <- cg_loop m k tol mi (cg_fuel mi) x r2 z p q (ofZ 0) 0 ;; Ok o)
    (fun o g s' => g = Ret (VI 0) /\ nxt s' = nxt s /\
       mem s' (ad 0) = Some (sol_obj mi tol (Some (VI (snd o))) (Some (VD (snd (fst o))))) /\
       mem s' (ad 5) = Some (OD (fst (fst o))) /\
       (forall i, 6 <= i <= 10 -> mem s' (ad i) = None) /\
       (forall c, ~ In c [ad 0; ad 5; ad 6; ad 7; ad 8; ad 9; ad 10] -> mem s' c = mem s c))).
  2:{ destruct (cg_loop m k tol mi (cg_fuel mi) x r2 z p q (ofZ 0) 0); exact G. }
  eapply ends_seq.
  { apply loop_goes; [exact C2 | exact T2 | lia | intros H; exfalso; now apply H | | ].
    - unfold cg_fuel. lia.
    - unfold cg_fuel. lia. }
  intros [[x3 er] it] s3 (r3 & z3 & p3 & q3 & C3 & E3 & T3 & S3). cbn [fst snd] in *. cbn [block].
  pose proof C3 as C3'. op C3'.
  eapply ends_pre.
  { eapply runs_fld; [ev; reflexivity | ev; reflexivity | exact O1 | reflexivity]. }
  eapply ends_pre.
  { eapply runs_fld; [cbn [eval env set_mem]; rewrite V1; reflexivity | cbn [eval env set_mem]; rewrite T3; reflexivity
      | cbn [mem set_mem]; rewrite Z.eqb_refl; reflexivity | reflexivity]. }
  cbn [fset String.eqb Ascii.eqb Bool.eqb].
  assert (NE : forall i j, 0 <= i <= 10 -> 0 <= j <= 10 -> i <> j -> (ad i =? ad j) = false).
  { intros i j Hi Hj Hij. apply Z.eqb_neq. intros H. apply Hij. now apply inj. }
  assert (FR : forall v j (s' : state) o' (d : stmt) (mo : res (arr T * T * Z)) Q,
     env s' v = Some (VP (ad j) 0) -> mem s' (ad j) = Some o' ->
     ends d (set_mem s' (ad j) None) mo Q -> ends (SSeq (SFree (EV v)) d) s' mo Q).
  { intros v j s' o' d mo Q Ev Mv. apply ends_pre. eapply runs_free; [ev; reflexivity | exact Mv]. }
  eapply (FR "k" 6); [exact V5 | cbn [mem set_mem]; rewrite !NE by lia; exact O7|].
  eapply (FR "r" 7); [exact V6 | cbn [mem set_mem]; rewrite !NE by lia; exact O8|].
  eapply (FR "z" 8); [exact V7 | cbn [mem set_mem]; rewrite !NE by lia; exact O9|].
  eapply (FR "p" 9); [exact V8 | cbn [mem set_mem]; rewrite !NE by lia; exact O10|].
  eapply (FR "q" 10); [exact V9 | cbn [mem set_mem]; rewrite !NE by lia; exact O11|].
  cbn [ends]. eexists. exists (Ret (VI 0)). split; [apply runs_ret; reflexivity|].
  split; [reflexivity|]. split.
  { cbn [nxt set_mem]. rewrite (proj1 S3). exact (proj1 S02). }
  cbn [fst snd]. split; [|split; [|split]].
  - cbn [mem set_mem]. rewrite !NE by lia. rewrite Z.eqb_refl. reflexivity.
  - cbn [mem set_mem]. rewrite !NE by lia. exact O6.
  - intros i Hi. cbn [mem set_mem].
    assert (i = 6 \/ i = 7 \/ i = 8 \/ i = 9 \/ i = 10) as D by lia.
    repeat (destruct D as [D|D]); subst i; rewrite ?Z.eqb_refl; rewrite ?NE by lia; reflexivity.
  - intros c Hc. cbn [mem set_mem].
    assert (NC : forall j, In (ad j) [ad 0; ad 5; ad 6; ad 7; ad 8; ad 9; ad 10] -> (c =? ad j) = false).
    { intros j Hj. apply Z.eqb_neq. intros H. apply Hc. now rewrite H. }
    rewrite !NC by (cbn [In]; clear; tauto).
    rewrite (proj2 S3), (proj2 S02); [reflexivity| |].
    + intros H. apply Hc. destruct H as [<-|[]]. cbn [In]. clear. tauto.
    + intros H. apply Hc. unfold work in H. cbn [In] in *. clear - H. tauto.
Qed.

End Lit.
