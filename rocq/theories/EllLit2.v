(** The syntax trees of the solvers of src/ell.cpp, called with pointers into memory: they
    return what the functions of EllModel.v return, release their work arrays and leave the
    rest of memory alone. *)
From Coq Require Import String.
From Verif Require Import Base Scalar EllModel Clite CliteRules EllAst EllLit.
Local Open Scope string_scope.
Local Open Scope Z_scope.

Lemma foldM_map {S A B} (f : S -> B -> res S) (g : A -> B) l s :
  foldM f (map g l) s = foldM (fun s x => f s (g x)) l s.
Proof.
  revert s. induction l as [|x l IH]; intros s; cbn; [reflexivity|].
  destruct (f s (g x)); cbn; [apply IH | reflexivity].
Qed.

Section Solvers.
Context {T : Type} `{OT : Ops T}.
Notation state := (@state T).
Notation goes := (goes ell_prog).
Notation runs := (runs ell_prog).

(** the inverse of the diagonal, src/ell.cpp:142-146 (and 69-74, 231-243) *)
Definition diag_for (slot : Z) (dv : string) (hi : exp) : stmt :=
  SFor "i" (EI 0) (EBin Lt (EV "i") hi)
   (SFor dv (EI 0) (EBin Lt (EV dv) (EV "nFields"))
     (SStore (EV "k") (EBin Add (EBin Mul (EV "i") (EV "nFields")) (EV dv))
       (EBin Div (EI 1) (EIdx (EFld (EV "m") "vals")
         (EBin Add (EBin Add (EBin Add (EBin Mul (EBin Mul (EV "i") (EV "nFields")) (EFld (EV "m") "nnz"))
            (EBin Mul (EI slot) (EV "nFields"))) (EBin Mul (EV dv) (EFld (EV "m") "nnz"))) (EV dv)))))).

Lemma diag_goes s slot dv hi nF nn bm bc bv bk (m : ell T) (k : arr T) :
  mems dv ["i"; "m"; "k"; "nFields"] = false ->
  (forall s', keeps ["i"; dv] s s' -> eval s' hi = Ok (VI nn)) ->
  env s "m" = Some (VP bm 0) -> env s "k" = Some (VP bk 0) -> env s "nFields" = Some (VI nF) ->
  mat_at (mem s) bm bc bv m -> mem s bk = Some (OD k) -> bk <> bm -> bk <> bv ->
  goes (diag_for slot dv hi) s (inv_diag m slot nF nn k)
    (fun k' s' => keeps ["i"; dv] s s' /\ same_mem [bk] s s' /\ mem s' bk = Some (OD k')).
Proof.
  intros D HH Em Ek En (Mm & Mc & Mv) Mk N1 N2. unfold mat_obj in Mm.
  cbn [mems] in D. destruct (String.eqb dv "i") eqn:Di; [discriminate|].
  destruct (String.eqb dv "m") eqn:Dm; [discriminate|].
  destruct (String.eqb dv "k") eqn:Dk; [discriminate|].
  destruct (String.eqb dv "nFields") eqn:Dn; [discriminate|]. clear D.
  assert (Dr : forall w, String.eqb dv w = String.eqb w dv) by (intros; apply String.eqb_sym).
  rewrite Dr in Di, Dm, Dk, Dn.
  assert (Wi : mems "i" ["i"; dv] = true) by reflexivity.
  assert (Wd : mems dv ["i"; dv] = true) by (cbn [mems]; rewrite Dr, Di, String.eqb_refl; reflexivity).
  assert (Wm : mems "m" ["i"; dv] = false) by (cbn [mems]; change (String.eqb "m" "i") with false; cbv iota; now rewrite Dm).
  assert (Wk : mems "k" ["i"; dv] = false) by (cbn [mems]; change (String.eqb "k" "i") with false; cbv iota; now rewrite Dk).
  assert (Wn : mems "nFields" ["i"; dv] = false) by (cbn [mems]; change (String.eqb "nFields" "i") with false; cbv iota; now rewrite Dn).
  unfold diag_for. unfold SFor at 1. eapply goes_pre; [apply runs_set; reflexivity|].
  unfold inv_diag. rewrite foldM_flat.
  set (F := fun s' k' => keeps ["i"; dv] s s' /\ same_mem [bk] s s' /\ mem s' bk = Some (OD k')).
  assert (L : forall s' k', F s' k' ->
     env s' "m" = Some (VP bm 0) /\ env s' "k" = Some (VP bk 0) /\ env s' "nFields" = Some (VI nF) /\
     mem s' bm = Some (OS [("nrow", Some (VI (e_nrow m))); ("ncol", Some (VI (e_ncol m)));
      ("nnz", Some (VI (e_nnz m))); ("cols", Some (VP bc 0)); ("vals", Some (VP bv 0))]) /\
     mem s' bv = Some (OD (e_vals m))).
  { intros s' k' (K & (_ & S) & _).
    rewrite (K "m" Wm), (K "k" Wk), (K "nFields" Wn), !S by (cbn; intuition congruence). auto. }
  eapply goes_weak.
  - apply (goes_while ell_prog "i" _ _ (fun i k' s' => F s' k' /\ env s' "i" = Some (VI i))).
    + intros i k' s' (HF & X). split; [|exact X]. apply HH, HF.
    + intros i k' s' Hi (HF & X). rewrite foldM_map.
      unfold SFor. eapply goes_pre; [apply runs_set; reflexivity|].
      eapply goes_weak.
      * apply (goes_while ell_prog dv _ _ (fun d k2 s2 => F s2 k2 /\ env s2 "i" = Some (VI i) /\
                 env s2 dv = Some (VI d))).
        -- intros d k2 s2 (HF2 & X2 & Y2). split; [|exact Y2].
           destruct (L _ _ HF2) as (_ & _ & H & _). ev. reflexivity.
        -- intros d k2 s2 Hd (HF2 & X2 & Y2).
           destruct (L _ _ HF2) as (H1 & H2 & H3 & H4 & H5). destruct HF2 as (K2 & S2 & M2).
           destruct (rd (e_vals m) (i * nF * e_nnz m + slot * nF + d * e_nnz m + d)) as [v|w] eqn:R; cbn [bind].
           2:{ cbn [CliteRules.goes]. exists w.
               eapply runs_store_err; [ev; reflexivity | ev; reflexivity | exact M2 |].
               ev. rewrite R. ev. reflexivity. }
           destruct (wr k2 (i * nF + d) (odiv (ofZ 1) v)) as [k3|w] eqn:W; cbn [CliteRules.goes].
           2:{ exists w. eapply runs_store_err; [ev; reflexivity | ev; reflexivity | exact M2 |].
               ev. rewrite R. ev. eexists. split; [reflexivity|]. exact W. }
           exists (set_mem s2 bk (Some (OD k3))). split.
           { eapply runs_store; [ev; reflexivity | ev; reflexivity | ev; rewrite R; ev; reflexivity
               | reflexivity | exact M2 | rewrite Z.add_0_l; exact W]. }
           split; [exact Y2|]. split; [|split].
           ++ split; [|split].
              ** apply keeps_set; [now apply keeps_mem | exact Wd].
              ** apply (same_trans _ s s2); [exact S2|]. apply set_same.
              ** cbn. now rewrite Z.eqb_refl.
           ++ cbn [env set_env set_mem]. rewrite Di. exact X2.
           ++ cbn. now rewrite String.eqb_refl.
        -- split; [|split].
           ++ destruct HF as (K & S & M). split; [|split]; [|exact S|exact M].
              apply keeps_set; [exact K | exact Wd].
           ++ cbn [env set_env set_mem]. rewrite Di. exact X.
           ++ cbn. now rewrite String.eqb_refl.
      * intros k2 s2 ((K2 & S2 & M2) & X2 & Y2). split; [exact X2|]. split; [|reflexivity].
        split; [|split]; [|exact S2|exact M2]. apply keeps_set; [exact K2 | exact Wi].
    + split; [|reflexivity]. split; [|split]; [|split; reflexivity|exact Mk].
      apply keeps_set; [apply keeps_refl | exact Wi].
  - intros k' s' ((K & S & M) & _). auto.
Qed.

(** ** Calls of the conjugate gradients *)
Section CG.
Variables (bs bm bc bv bb bx K : Z) (h : Z -> option (@obj T)).
Variables (m : ell T) (mi : Z) (tol : T) (it0 er0 : option (@val T)) (b x : arr T).
Hypothesis ND : NoDup [bs; bm; bc; bv; bb; bx].
Hypothesis old : forall c, In c [bs; bm; bc; bv; bb; bx] -> c < K.
Hypothesis fresh : forall c, K <= c -> h c = None.
Hypothesis Hs : h bs = Some (sol_obj mi tol it0 er0).
Hypothesis Hm : mat_at h bm bc bv m.
Hypothesis Hb : h bb = Some (OD b).
Hypothesis Hx : h bx = Some (OD x).

(** the addresses of the objects and of the five work arrays *)
Definition addrs : list Z := [bs; bm; bc; bv; bb; bx; K; K + 1; K + 1 + 1; K + 1 + 1 + 1; K + 1 + 1 + 1 + 1].
Definition adr (i : Z) : Z := nth (Z.to_nat i) addrs 0.

Lemma adr_inj i j : 0 <= i <= 10 -> 0 <= j <= 10 -> adr i = adr j -> i = j.
Proof.
  intros Hi Hj E. assert (N : NoDup addrs).
  { unfold addrs. change (NoDup ([bs; bm; bc; bv; bb; bx] ++
      [K; K + 1; K + 1 + 1; K + 1 + 1 + 1; K + 1 + 1 + 1 + 1])).
    assert (N2 : NoDup [K; K + 1; K + 1 + 1; K + 1 + 1 + 1; K + 1 + 1 + 1 + 1]).
    { repeat constructor; cbn; lia. }
    revert ND old. generalize [bs; bm; bc; bv; bb; bx]. induction l as [|a l IH]; intros N O; cbn [app].
    - exact N2.
    - inversion N as [|? ? A B]; subst. constructor.
      + rewrite in_app_iff. intros [Q|Q]; [contradiction|].
        specialize (O a (or_introl eq_refl)). cbn in Q. lia.
      + apply IH; [exact B|]. intros c Hc. apply O. now right. }
  pose proof (proj1 (NoDup_nth addrs 0) N (Z.to_nat i) (Z.to_nat j)) as Q.
  cbn [length addrs] in Q. unfold adr in E. specialize (Q ltac:(lia) ltac:(lia) E). lia.
Qed.

Notation n := (e_nrow m).
Notation ctx := (ctx adr m mi tol it0 er0 b).

(** src/ell.cpp:129-140: the NULL tests and the allocations *)
Lemma start_ends {A} (rest : stmt) e (mo : res A) Q :
  e "solver" = Some (VP bs 0) -> e "m" = Some (VP bm 0) -> e "b" = Some (VP bb 0) ->
  e "x" = Some (VP bx 0) ->
  (forall s, keeps ["its"; "k"; "r"; "z"; "p"; "q"] (mkSt e h K) s -> nxt s = K + 1 + 1 + 1 + 1 + 1 ->
     env s "its" = Some (VI 0) ->
     ctx (malloc n) s x (malloc n) (malloc n) (malloc n) (malloc n) ->
     (forall c, c < K \/ K + 4 < c -> mem s c = h c) -> ends rest s mo Q) ->
  ends (SSeq (SIf (EOr (EOr (EBin Eq (EV "m") ENull) (EBin Eq (EV "b") ENull)) (EBin Eq (EV "x") ENull)) (SRet (EI 1)) SSkip)
    (SSeq (SSet "its" (EI 0))
    (SSeq (SMalloc "k" TDbl (EFld (EV "m") "nrow")) (SSeq (SMalloc "r" TDbl (EFld (EV "m") "nrow"))
    (SSeq (SMalloc "z" TDbl (EFld (EV "m") "nrow")) (SSeq (SMalloc "p" TDbl (EFld (EV "m") "nrow"))
    (SSeq (SMalloc "q" TDbl (EFld (EV "m") "nrow")) rest))))))) (mkSt e h K) mo Q.
Proof.
  intros Es Em Eb Ex HR. destruct Hm as (Hm1 & Hm2 & Hm3).
  assert (LT : bs < K /\ bm < K /\ bc < K /\ bv < K /\ bb < K /\ bx < K).
  { repeat split; apply old; cbn; tauto. }
  destruct LT as (L1 & L2 & L3 & L4 & L5 & L6).
  eapply ends_pre.
  { eapply (runs_if _ _ _ _ _ (VI 0) false); [|reflexivity|apply runs_skip].
    cbn [eval env]. rewrite Em, Eb, Ex. reflexivity. }
  eapply ends_pre; [apply runs_set; reflexivity|].
  set (s1 := set_env (mkSt e h K) "its" (VI 0)).
  assert (AL : forall v (s : state) d, env s "m" = Some (VP bm 0) -> mem s bm = Some (mat_obj m bc bv) ->
     ends d (alloc s v (OD (malloc n))) mo Q ->
     ends (SSeq (SMalloc v TDbl (EFld (EV "m") "nrow")) d) s mo Q).
  { intros v s d E M. apply ends_pre. change (OD (malloc n)) with (match TDbl with TInt => OI (malloc n) | TDbl => @OD T (malloc n) end).
    apply runs_malloc. unfold mat_obj in M. ev. reflexivity. }
  assert (MB : forall c d (o : option (@obj T)) r, c < d -> (r = o) -> (if c =? d then Some (OD (malloc n)) else r) = o).
  { intros c d o r L <-. destruct (Z.eqb_spec c d); [lia|reflexivity]. }
  apply AL; [exact Em | exact Hm1|]. set (s2 := alloc s1 "k" _).
  apply AL; [exact Em | cbn; apply MB; [lia|]; exact Hm1|]. set (s3 := alloc s2 "r" _).
  apply AL; [exact Em | cbn; repeat (apply MB; [lia|]); exact Hm1|]. set (s4 := alloc s3 "z" _).
  apply AL; [exact Em | cbn; repeat (apply MB; [lia|]); exact Hm1|]. set (s5 := alloc s4 "p" _).
  apply AL; [exact Em | cbn; repeat (apply MB; [lia|]); exact Hm1|]. set (s6 := alloc s5 "q" _).
  assert (NE : forall c d (r : option (@obj T)), c <> d -> (if c =? d then Some (OD (malloc n)) else r) = r).
  { intros c d r Hd. destruct (Z.eqb_spec c d); [contradiction|reflexivity]. }
  assert (OUT : forall c, c < K \/ K + 4 < c -> mem s6 c = h c).
  { intros c Hc. cbn. rewrite !NE by lia. reflexivity. }
  assert (INN : forall c, K <= c <= K + 4 -> mem s6 c = Some (OD (malloc n))).
  { intros c Hc. cbn.
    destruct (Z.eqb_spec c (K + 1 + 1 + 1 + 1)); [reflexivity|].
    destruct (Z.eqb_spec c (K + 1 + 1 + 1)); [reflexivity|].
    destruct (Z.eqb_spec c (K + 1 + 1)); [reflexivity|].
    destruct (Z.eqb_spec c (K + 1)); [reflexivity|].
    destruct (Z.eqb_spec c K); [reflexivity|]. lia. }
  apply HR.
  - intros v Hv. cbn in Hv. cbn.
    destruct (String.eqb v "its"); [discriminate|]. destruct (String.eqb v "k"); [discriminate|].
    destruct (String.eqb v "r"); [discriminate|]. destruct (String.eqb v "z"); [discriminate|].
    destruct (String.eqb v "p"); [discriminate|]. destruct (String.eqb v "q"); [discriminate|].
    reflexivity.
  - reflexivity.
  - reflexivity.
  - constructor; try reflexivity; try assumption;
      unfold adr, addrs; match goal with |- context [Z.to_nat ?k] => let v := eval compute in (Z.to_nat k) in change (Z.to_nat k) with v end;
      cbn [nth]; try (apply INN; lia); try (rewrite OUT by lia; assumption).
  - exact OUT.
Qed.

(** with the arrays in place and k filled: the rest *)
Lemma rest_ends s (k : arr T) :
  env s "its" = Some (VI 0) ->
  ctx k s x (malloc n) (malloc n) (malloc n) (malloc n) ->
  (forall c, c < K \/ K + 4 < c -> mem s c = h c) ->
  ends cg_tail s
    (r <- ell_mvp_2D m x (malloc n) ;;
     r <- upd_for n (fun r i => u <- rd r i ;; c <- rd b i ;; Ok (osub u c)) r ;;
     cg_loop m k tol mi (cg_fuel mi) x r (malloc n) (malloc n) (malloc n) (ofZ 0) 0)
    (fun o g s' => g = Ret (VI 0) /\
       mem s' bs = Some (sol_obj mi tol (Some (VI (snd o))) (Some (VD (snd (fst o))))) /\
       mem s' bx = Some (OD (fst (fst o))) /\
       (forall c, c <> bs -> c <> bx -> mem s' c = h c)).
Proof.
  intros Ti C OUT.
  pose proof (tail_ends adr adr_inj m mi tol it0 er0 b k s x (malloc n) (malloc n) (malloc n) (malloc n) C Ti) as H.
  destruct (r <- ell_mvp_2D m x (malloc n) ;; _) as [o|w]; cbn [ends] in *; [|exact H].
  destruct H as (s' & g & R & G & N & M0 & M5 & F & O). exists s', g. split; [exact R|].
  split; [exact G|]. split; [exact M0|]. split; [exact M5|].
  intros c N0 N5. destruct (Z_lt_dec c K) as [Lc|Lc]; [|destruct (Z_le_dec c (K + 4)) as [Gc|Gc]].
  - rewrite O; [apply OUT; lia|].
    change [adr 0; adr 5; adr 6; adr 7; adr 8; adr 9; adr 10]
      with [bs; bx; K; K + 1; K + 1 + 1; K + 1 + 1 + 1; K + 1 + 1 + 1 + 1].
    cbn [In]. intros Q. repeat (destruct Q as [Q|Q]; [lia|]). exact Q.
  - rewrite fresh by lia.
    assert (exists i, 6 <= i <= 10 /\ c = adr i) as (i & Hi & ->).
    { exists (c - K + 6). split; [lia|].
      assert (c - K + 6 = 6 \/ c - K + 6 = 7 \/ c - K + 6 = 8 \/ c - K + 6 = 9 \/ c - K + 6 = 10) as D by lia.
      destruct D as [D|[D|[D|[D|D]]]]; rewrite D;
        [change (c = K) | change (c = K + 1) | change (c = K + 1 + 1) | change (c = K + 1 + 1 + 1)
        | change (c = K + 1 + 1 + 1 + 1)]; lia. }
    now apply F.
  - rewrite O; [apply OUT; lia|].
    change [adr 0; adr 5; adr 6; adr 7; adr 8; adr 9; adr 10]
      with [bs; bx; K; K + 1; K + 1 + 1; K + 1 + 1 + 1; K + 1 + 1 + 1 + 1].
    cbn [In]. intros Q. repeat (destruct Q as [Q|Q]; [lia|]). exact Q.
Qed.

(** k changes *)
Lemma ctx_k k k' s s' r z p q W :
  ctx k s x r z p q -> keeps W s s' -> same_mem [adr 6] s s' -> mem s' (adr 6) = Some (OD k') ->
  forallb (fun v => negb (mems v W)) pnames = true -> ctx k' s' x r z p q.
Proof.
  intros C Kp (_ & S) M6 F. destruct C.
  assert (E : forall v o, In v pnames -> env s v = o -> env s' v = o).
  { intros v o I <-. apply Kp. rewrite forallb_forall in F. specialize (F v I).
    destruct (mems v W); [discriminate|reflexivity]. }
  assert (O : forall i o, 0 <= i <= 10 -> i <> 6 -> mem s (adr i) = o -> mem s' (adr i) = o).
  { intros i o Hi H6 <-. apply S. intros [H|[]]. apply adr_inj in H; lia. }
  unfold pnames in E. cbn [In] in E.
  constructor; first [exact M6 | apply O; [lia|lia|assumption] | apply E; [tauto|assumption]].
Qed.

(** what a call does *)
Definition cg_result (f : string) (vs : list (@val T)) (mo : res (solver T * arr T)) : Prop :=
  match mo with
  | Ok (s', x') => exists st,
      calls ell_prog f vs h K (Ok (st, Ret (VI 0))) /\
      mem st bs = Some (sol_obj mi tol (Some (VI (s_its s'))) (Some (VD (s_err s')))) /\
      mem st bx = Some (OD x') /\
      (forall c, c <> bs -> c <> bx -> mem st c = h c)
  | Err _ => exists w, calls ell_prog f vs h K (Err w)
  end.

Lemma cgpd_2D_calls nF nx ny ie ee :
  cg_result "ell_solve_cgpd_2D" [VP bs 0; VP bm 0; VI nF; VI nx; VI ny; VP bb 0; VP bx 0]
    (ell_solve_cgpd_2D (mkSolver mi ie tol ee) m nF nx ny b x).
Proof.
  set (e := fun v : string => if String.eqb v "x" then Some (VP bx 0) else
    if String.eqb v "b" then Some (VP bb 0) else if String.eqb v "ny" then Some (VI ny) else
    if String.eqb v "nx" then Some (VI nx) else if String.eqb v "nFields" then Some (VI nF) else
    if String.eqb v "m" then Some (VP bm 0) else if String.eqb v "solver" then Some (@VP T bs 0) else None).
  assert (G : ends (f_body ast_ell_solve_cgpd_2D) (mkSt e h K)
    (k <- inv_diag m 4 nF (nx * ny) (malloc n) ;;
     r <- ell_mvp_2D m x (malloc n) ;;
     r <- upd_for n (fun r i => u <- rd r i ;; c <- rd b i ;; Ok (osub u c)) r ;;
     cg_loop m k tol mi (cg_fuel mi) x r (malloc n) (malloc n) (malloc n) (ofZ 0) 0)
    (fun o g s' => g = Ret (VI 0) /\
       mem s' bs = Some (sol_obj mi tol (Some (VI (snd o))) (Some (VD (snd (fst o))))) /\
       mem s' bx = Some (OD (fst (fst o))) /\
       (forall c, c <> bs -> c <> bx -> mem s' c = h c))).
  { cbn [f_body ast_ell_solve_cgpd_2D block].
    apply start_ends; try reflexivity.
    intros s Kp Nx Ti C OUT.
    eapply ends_pre.
    { apply runs_set. cbn [eval]. rewrite !Kp by reflexivity. reflexivity. }
    set (s1 := set_env s "nn" _).
    assert (C1 : ctx (malloc n) s1 x (malloc n) (malloc n) (malloc n) (malloc n))
      by (apply ctx_set; [exact adr_inj | exact C | reflexivity]).
    eapply ends_seq.
    { pose proof C1 as C1'. destruct C1'.
      apply (diag_goes s1 4 "d'" (EV "nn") nF (nx * ny) (adr 1) (adr 2) (adr 3) (adr 6) m (malloc n));
        try assumption; try reflexivity.
      - intros s' K'. cbn [eval]. rewrite K' by reflexivity. reflexivity.
      - unfold s1. cbn [env set_env String.eqb Ascii.eqb Bool.eqb]. rewrite Kp by reflexivity. reflexivity.
      - repeat split; assumption.
      - intros H. apply adr_inj in H; lia.
      - intros H. apply adr_inj in H; lia. }
    intros k s2 (K2 & S2 & M2).
    assert (C2 : ctx k s2 x (malloc n) (malloc n) (malloc n) (malloc n))
      by (eapply ctx_k; [exact C1 | exact K2 | exact S2 | exact M2 | reflexivity]).
    apply (rest_ends s2 k).
    - rewrite K2 by reflexivity. exact Ti.
    - exact C2.
    - intros c Hc. rewrite (proj2 S2); [now apply OUT|].
      change (adr 6) with K. intros [<-|[]]. lia. }
  unfold ell_solve_cgpd_2D, cgpd, cg_result. cbn [s_min_tol s_max_its].
  assert (CL : forall r, runs (f_body ast_ell_solve_cgpd_2D) (mkSt e h K) r ->
     calls ell_prog "ell_solve_cgpd_2D" [VP bs 0; VP bm 0; VI nF; VI nx; VI ny; VP bb 0; VP bx 0] h K r)
    by (intros r R; exact R).
  destruct (inv_diag m 4 nF (nx * ny) (malloc n)) as [k|w]; cbn [bind ends] in *.
  2:{ destruct G as (w' & G). eauto. }
  destruct (ell_mvp_2D m x (malloc n)) as [r|w]; cbn [bind ends] in *.
  2:{ destruct G as (w' & G). eauto. }
  destruct (upd_for n _ r) as [r'|w]; cbn [bind ends] in *.
  2:{ destruct G as (w' & G). eauto. }
  destruct (cg_loop _ _ _ _ _ _ _ _ _ _ _ _) as [[[x' er] it]|w]; cbn [bind ends] in *.
  2:{ destruct G as (w' & G). eauto. }
  destruct G as (s' & g & R & -> & M0 & M5 & O). exists s'. split; [apply CL; exact R|].
  cbn [fst snd s_its s_err] in *. auto.
Qed.

Lemma cgpd_struct_calls nF dim nn ie ee :
  cg_result "ell_solve_cgpd_struct" [VP bs 0; VP bm 0; VI nF; VI dim; VI nn; VP bb 0; VP bx 0]
    (ell_solve_cgpd_struct (mkSolver mi ie tol ee) m nF dim nn b x).
Proof.
  set (e := fun v : string => if String.eqb v "x" then Some (VP bx 0) else
    if String.eqb v "b" then Some (VP bb 0) else if String.eqb v "nn" then Some (VI nn) else
    if String.eqb v "dim" then Some (VI dim) else if String.eqb v "nFields" then Some (VI nF) else
    if String.eqb v "m" then Some (VP bm 0) else if String.eqb v "solver" then Some (@VP T bs 0) else None).
  set (mk := if dim =? 2 then inv_diag m 4 nF nn (malloc n)
             else if dim =? 3 then inv_diag m 13 nF nn (malloc n) else Ok (malloc n)).
  assert (G : ends (f_body ast_ell_solve_cgpd_struct) (mkSt e h K)
    (k <- mk ;;
     r <- ell_mvp_2D m x (malloc n) ;;
     r <- upd_for n (fun r i => u <- rd r i ;; c <- rd b i ;; Ok (osub u c)) r ;;
     cg_loop m k tol mi (cg_fuel mi) x r (malloc n) (malloc n) (malloc n) (ofZ 0) 0)
    (fun o g s' => g = Ret (VI 0) /\
       mem s' bs = Some (sol_obj mi tol (Some (VI (snd o))) (Some (VD (snd (fst o))))) /\
       mem s' bx = Some (OD (fst (fst o))) /\
       (forall c, c <> bs -> c <> bx -> mem s' c = h c))).
  { cbn [f_body ast_ell_solve_cgpd_struct block].
    apply start_ends; try reflexivity.
    intros s Kp Nx Ti C OUT.
    assert (D : forall slot, goes (diag_for slot "d'" (EV "nn")) s (inv_diag m slot nF nn (malloc n))
      (fun k' s' => keeps ["i"; "d'"] s s' /\ same_mem [adr 6] s s' /\ mem s' (adr 6) = Some (OD k'))).
    { intros slot. pose proof C as C1'. destruct C1'.
      apply (diag_goes s slot "d'" (EV "nn") nF nn (adr 1) (adr 2) (adr 3) (adr 6) m (malloc n));
        try assumption; try reflexivity.
      - intros s' K'. cbn [eval]. rewrite K', Kp by reflexivity. reflexivity.
      - rewrite Kp by reflexivity. reflexivity.
      - repeat split; assumption.
      - intros H. apply adr_inj in H; lia.
      - intros H. apply adr_inj in H; lia. }
    assert (IFG : forall v z c1 c2 (mo : res (arr T)) Q, env s v = Some (VI z) ->
        forall w, goes (if z =? w then c1 else c2) s mo Q ->
        goes (SIf (EBin Eq (EV v) (EI w)) c1 c2) s mo Q).
    { intros v z c1 c2 mo Q Ev w. assert (EB : eval s (EBin Eq (EV v) (EI w)) = Ok (ofb (z =? w))) by (ev; reflexivity).
      assert (EVb : truth (@ofb T (z =? w)) = Ok (z =? w)) by (unfold ofb, truth; destruct (z =? w); reflexivity).
      intros Hg. destruct mo; cbn [CliteRules.goes] in *.
      - destruct Hg as (s' & R & H). exists s'. split; [|exact H]. eapply runs_if; eauto.
      - destruct Hg as (w' & R). exists w'. eapply runs_if; eauto. }
    eapply ends_seq.
    { apply (IFG "dim" dim); [rewrite Kp by reflexivity; reflexivity|].
      instantiate (1 := fun k' s' => keeps ["i"; "d'"] s s' /\ same_mem [adr 6] s s' /\ mem s' (adr 6) = Some (OD k')).
      subst mk. destruct (dim =? 2); [apply D|].
      apply (IFG "dim" dim); [rewrite Kp by reflexivity; reflexivity|].
      destruct (dim =? 3); [apply D|].
      cbn [CliteRules.goes]. exists s. split; [apply runs_skip|].
      split; [apply keeps_refl|]. split; [apply same_refl|]. now destruct C. }
    intros k s2 (K2 & S2 & M2).
    assert (C2 : ctx k s2 x (malloc n) (malloc n) (malloc n) (malloc n))
      by (eapply ctx_k; [exact C | exact K2 | exact S2 | exact M2 | reflexivity]).
    apply (rest_ends s2 k).
    - rewrite K2 by reflexivity. exact Ti.
    - exact C2.
    - intros c Hc. rewrite (proj2 S2); [now apply OUT|].
      change (adr 6) with K. intros [<-|[]]. lia. }
  assert (CL : forall r, runs (f_body ast_ell_solve_cgpd_struct) (mkSt e h K) r ->
     calls ell_prog "ell_solve_cgpd_struct" [VP bs 0; VP bm 0; VI nF; VI dim; VI nn; VP bb 0; VP bx 0] h K r)
    by (intros r R; exact R).
  assert (MD : ell_solve_cgpd_struct (mkSolver mi ie tol ee) m nF dim nn b x =
    (k <- mk ;;
     r <- ell_mvp_2D m x (malloc n) ;;
     r <- upd_for n (fun r i => u <- rd r i ;; c <- rd b i ;; Ok (osub u c)) r ;;
     '(x, er, its) <- cg_loop m k tol mi (cg_fuel mi) x r (malloc n) (malloc n) (malloc n) (ofZ 0) 0 ;;
     Ok (mkSolver mi its tol er, x))).
  { unfold ell_solve_cgpd_struct, cgpd, mk. cbn [s_min_tol s_max_its].
    destruct (dim =? 2); [reflexivity|]. destruct (dim =? 3); reflexivity. }
  rewrite MD. unfold cg_result. clear MD. clearbody mk.
  destruct mk as [k|w]; cbn [bind ends] in *.
  2:{ destruct G as (w' & G). eauto. }
  destruct (ell_mvp_2D m x (malloc n)) as [r|w]; cbn [bind ends] in *.
  2:{ destruct G as (w' & G). eauto. }
  destruct (upd_for n _ r) as [r'|w]; cbn [bind ends] in *.
  2:{ destruct G as (w' & G). eauto. }
  destruct (cg_loop _ _ _ _ _ _ _ _ _ _ _ _) as [[[x' er] it]|w]; cbn [bind ends] in *.
  2:{ destruct G as (w' & G). eauto. }
  destruct G as (s' & g & R & -> & M0 & M5 & O). exists s'. split; [apply CL; exact R|].
  cbn [fst snd s_its s_err] in *. auto.
Qed.

End CG.
(** src/ell.cpp:129-130, 65-66 and 220-221: a NULL argument *)
Lemma null_calls f vs (vm vb vx : @val T) h K e :
  In f ["ell_solve_cgpd_2D"; "ell_solve_cgpd_struct"; "ell_solve_jacobi_2D"] ->
  List.length vs = 7%nat -> nth 1 vs VNull = vm -> nth 5 vs VNull = vb -> nth 6 vs VNull = vx ->
  (forall v, In v [vm; vb; vx] -> v = VNull \/ exists c o, v = VP c o) ->
  In VNull [vm; vb; vx] ->
  match ell_prog f with Some d => bindp (f_params d) vs (fun _ => None) = Ok e | None => False end ->
  calls ell_prog f vs h K (Ok (mkSt e h K, Ret (VI 1))).
Proof.
  intros Hf L E1 E5 E6 HP HN B.
  assert (HE : forall d v w u, e "m" = Some v -> e "b" = Some w -> e "x" = Some u ->
    v = vm -> w = vb -> u = vx ->
    runs (SSeq (SIf (EOr (EOr (EBin Eq (EV "m") ENull) (EBin Eq (EV "b") ENull)) (EBin Eq (EV "x") ENull)) (SRet (EI 1)) SSkip) d)
      (mkSt e h K) (Ok (mkSt e h K, Ret (VI 1)))).
  { intros d v w u Em Eb Ex -> -> ->. apply runs_seq_stop; [|discriminate].
    eapply (runs_if _ _ _ _ _ (VI 1) true); [|reflexivity|apply runs_ret; reflexivity].
    cbn [eval env]. rewrite Em, Eb, Ex. cbn [of_option bind].
    destruct (HP vm (or_introl eq_refl)) as [->|(c1 & o1 & ->)]; [reflexivity|].
    destruct (HP vb (or_intror (or_introl eq_refl))) as [->|(c2 & o2 & ->)]; [reflexivity|].
    destruct (HP vx (or_intror (or_intror (or_introl eq_refl)))) as [->|(c3 & o3 & ->)]; [reflexivity|].
    exfalso. cbn in HN. destruct HN as [H|[H|[H|[]]]]; discriminate. }
  do 7 (destruct vs as [|? vs]; [discriminate|]). destruct vs; [|discriminate].
  cbn [nth] in E1, E5, E6.
  cbn [In] in Hf. destruct Hf as [<-|[<-|[<-|[]]]]; unfold calls;
    [change (ell_prog "ell_solve_cgpd_2D") with (Some ast_ell_solve_cgpd_2D) in *
    |change (ell_prog "ell_solve_cgpd_struct") with (Some ast_ell_solve_cgpd_struct) in *
    |change (ell_prog "ell_solve_jacobi_2D") with (Some ast_ell_solve_jacobi_2D) in *];
    cbv iota in *; rewrite B; cbn [f_params ast_ell_solve_cgpd_2D ast_ell_solve_cgpd_struct ast_ell_solve_jacobi_2D bindp] in B;
    injection B as B; cbn [f_body ast_ell_solve_cgpd_2D ast_ell_solve_cgpd_struct ast_ell_solve_jacobi_2D block];
    (eapply HE; [rewrite <- B; reflexivity | rewrite <- B; reflexivity | rewrite <- B; reflexivity
                | exact E1 | exact E5 | exact E6]).
Qed.

End Solvers.
