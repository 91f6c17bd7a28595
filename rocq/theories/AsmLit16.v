(** The syntax trees of src/solve.cpp against the model: newton_raphson. *)
From Coq Require Import String FMapPositive.
From Verif Require Import Base Scalar MicroModel Clite CliteRules EllAst AsmAst Sym SymStep Grid EllModel AssemblyModel
  EllLit EllLit2 EllLit6 EllLit7 SymFold AsmCalls AsmLit AsmLit2 AsmLit13 AsmLit14 AsmLit15 AsmLit26.
Local Open Scope string_scope.
Local Open Scope Z_scope.

(** two places of a list without repetition differ *)
Lemma nd_pick (l : list Z) i j : NoDup l -> Nat.eqb i j = false -> Nat.ltb i (List.length l) = true ->
  Nat.ltb j (List.length l) = true -> nth i l 0 <> nth j l 0.
Proof.
  intros N E I J X. apply Nat.eqb_neq in E. apply Nat.ltb_lt in I, J. apply E. exact (proj1 (NoDup_nth l 0) N i j I J X).
Qed.
Ltac idx x l := match l with x :: _ => constr:(O) | _ :: ?t => let i := idx x t in constr:(S i) end.
Ltac lt_all H := repeat (let Z := fresh "LT" in apply Forall_cons_iff in H; destruct H as (Z & H)); clear H.
(** the object, its matrix and vectors, and the three results of newton_raphson *)
Definition nr_addrs (P : place) (bc bv bl bi be : Z) : list Z := (whole_addrs P bc bv ++ [bl; bi; be])%list.
Ltac ne := match goal with ND : NoDup ?l |- ?x <> ?y =>
  let l' := eval cbv [nr_addrs whole_addrs body_addrs app] in l in let i := idx x l' in let j := idx y l' in
  exact (nd_pick l i j ND eq_refl eq_refl eq_refl) end.
(** not one of the listed places *)
Ltac nin := let H := fresh "H" in intros H; cbn [In] in H; repeat (destruct H as [H|H]); try contradiction;
  revert H; match goal with |- ?x = ?y -> False => change (x <> y) end; first [ne | congruence].
Ltac nei := match goal with I : In ?c _ |- ?c <> _ => cbn [In] in I; repeat (destruct I as [<-|I]); [ne .. | contradiction] end.


Section Asm.
Context {T : Type} `{OT : Ops T}.
Notation state := (@state T).
Notation obj := (@obj T).
Notation val := (@val T).
Notation work := (MicroModel.work T).

Lemma frame_step (h h1 h2 : Z -> option obj) k k1 l F : frame h h1 k F -> frame h1 h2 k1 l -> k <= k1 -> incl l F -> frame h h2 k F.
Proof. intros A B L I c LC N. rewrite B; [now apply A|lia|]. auto. Qed.
Lemma frame_neq (h1 h2 : Z -> option obj) b k F : (forall c, c <> b -> h2 c = h1 c) -> In b F -> frame h1 h2 k F.
Proof. intros A I c L N. apply A. intros ->. auto. Qed.
Lemma body_vn (V : env T) P vo vn vn' u h h' :
  (forall c, In c [a_this P; a_et P; a_ml P; a_vo P; a_u P] -> h' c = h c) -> h' (a_vn P) = Some (OD vn') ->
  body V P vo vn u h -> body V P vo vn' u h'.
Proof.
  intros E N (fs & l2 & B0 & B1 & B2 & B3 & B4 & B5 & B6 & B7). exists fs, l2.
  splits; auto; rewrite E by (cbn; tauto); assumption.
Qed.
Lemma body_u (V : env T) P vo vn u u' h h' :
  (forall c, In c [a_this P; a_et P; a_ml P; a_vo P; a_vn P] -> h' c = h c) -> h' (a_u P) = Some (OD u') ->
  body V P vo vn u h -> body V P vo vn u' h'.
Proof.
  intros E N (fs & l2 & B0 & B1 & B2 & B3 & B4 & B5 & B6 & B7). exists fs, l2.
  splits; auto; rewrite E by (cbn; tauto); assumption.
Qed.

(** a loop over the cells of one array *)
Definition on_arr (l : list (string * val)) (bx : Z) (h1 : Z -> option obj) (k1 : Z) (a : arr T) (s : state) : Prop :=
  kenv l s /\ mem s bx = Some (OD a) /\ (forall c, c <> bx -> mem s c = h1 c) /\ nxt s = k1.
Lemma loop_arr l bx h1 k1 (f : arr T -> Z -> res (arr T)) n c body a a' s :
  foldM f (zrange 0 n) a = Ok a' -> on_arr l bx h1 k1 a s -> ~ In "i" (map fst l) ->
  (forall a s i, on_arr l bx h1 k1 a s -> Clite.env s "i" = Some (VI i) ->
     exists v, eval s c = Ok v /\ truth v = Ok (i <? n)) ->
  (forall i a a' s, 0 <= i < n -> f a i = Ok a' -> on_arr l bx h1 k1 a s -> Clite.env s "i" = Some (VI i) ->
     runs asm_prog body s (Ok (set_mem s bx (Some (OD a')), Nrm))) ->
  exists s', runs asm_prog (SFor "i" (EI 0) c body) s (Ok (s', Nrm)) /\ on_arr l bx h1 k1 a' s'.
Proof.
  intros E R0 NI HC HB. refine (runs_fold asm_prog f "i" _ _ _ (on_arr l bx h1 k1) 0 n a a' s E R0 (eq_refl : eval s (EI 0) = _) _ (fun i m t => HC m t i) _).
  - intros m t i (K & M & O & N). split; [now apply kenv_set|]. auto.
  - intros i m m' t I F R1 X. exists (set_mem t bx (Some (OD m'))). split; [now apply (HB i m)|].
    destruct R1 as (K & M & O & N). split; [|exact X]. split; [exact K|]. cbn. rewrite Z.eqb_refl. splits; auto.
    intros d D. destruct (Z.eqb_spec d bx); [contradiction|auto].
Qed.

Section Newton.
Variables (V : env T) (P : place) (bc bv bl bi be k : Z) (h : Z -> option obj) (ia : arr Z).
Hypothesis DD : v_dim V = 2 \/ v_dim V = 3.
Hypothesis Z0 : dec 0 1 = (ofZ 0 : T).
Hypothesis ND : NoDup (nr_addrs P bc bv bl bi be).
Hypothesis FK : Forall (fun a => a < k) (nr_addrs P bc bv bl bi be).

Definition nr_touch : list Z := [a_vn P; a_u P; bv; a_b P; a_du P; bl; bi; be].
Definition nr_env (j : Z) : list (string * val) :=
  [("this", VP (a_this P) 0); ("nl_flag", VP bl 0); ("its", VP bi j); ("err", VP be 0)].
Definition nr_mem (w : work) (s : state) : Prop :=
  whole V P bc bv w (mem s) /\ mem s bi = Some (OI ia) /\ frame h (mem s) k nr_touch /\ blank_from (mem s) (nxt s) /\ k <= nxt s.
Definition nr_pre (w : work) (s : state) : Prop :=
  nr_mem w s /\ (exists fl, mem s bl = Some (OI fl) /\ alen fl = 1) /\ (exists ea, mem s be = Some (OD ea) /\ 0 < alen ea).
Definition nr_post (w : work) (nl : bool) (er : T) (s : state) : Prop :=
  nr_mem w s /\ (exists fl, mem s bl = Some (OI fl) /\ alen fl = 1 /\ aget fl 0 = Some (if nl then 1 else 0)) /\
  (exists ea, mem s be = Some (OD ea) /\ 0 < alen ea /\ aget ea 0 = Some er).
Lemma nr_post_pre w nl er s : nr_post w nl er s -> nr_pre w s.
Proof. intros (M & (fl & F1 & F2 & _) & (ea & E1 & E2 & _)). split; [exact M|]. split; [exists fl|exists ea]; auto. Qed.

Definition nr_body : stmt :=
 (block [(SCallR "ret" "assembly_rhs" [(EV "this"); (EV "nl_flag")]);
 (SStore (EV "err") (EI 0) (EV "ret"));
 (SIf (EBin Lt (EIdx (EV "err") (EI 0)) (EDec 1 5)) SBreak SSkip);
 (SCall "assembly_mat" [(EV "this")]);
 (SFor "i" (EI 0) (EBin Lt (EV "i") (EBin Mul (EFld (EV "this") "nn") (EFld (EV "this") "dim"))) (SStore (EFld (EV "this") "du") (EV "i") (EDbl (EI 0))));
 (SCall "solve" [(EV "this")]);
 (SFor "i" (EI 0) (EBin Lt (EV "i") (EBin Mul (EFld (EV "this") "nn") (EFld (EV "this") "dim"))) (SStore (EFld (EV "this") "u") (EV "i") (EBin Add (EIdx (EFld (EV "this") "u") (EV "i")) (EIdx (EFld (EV "this") "du") (EV "i")))));
 (SSet "its" (EAdr (EV "its") (EI 1)))]).

(** *err = assembly_rhs (nl_flag) *)
Lemma nr_rhs w s j b nl vn er : kenv (nr_env j) s -> nr_pre w s ->
  assembly_rhs V (w_u w) (w_vold w) (w_vnew w) (w_b w) = Ok (b, nl, vn, er) ->
  exists s', runs asm_prog (SCallR "ret" "assembly_rhs" [(EV "this"); (EV "nl_flag")]) s (Ok (s', Nrm)) /\
    kenv (nr_env j) s' /\ Clite.env s' "ret" = Some (VD er) /\
    nr_mem (mkWork (w_u w) (w_du w) b (w_A w) (w_vold w) vn) s' /\
    (exists fl, mem s' bl = Some (OI fl) /\ alen fl = 1 /\ aget fl 0 = Some (if nl then 1 else 0)) /\
    (exists ea, mem s' be = Some (OD ea) /\ 0 < alen ea).
Proof.
  intros KE ((WH & BI & FR & BL & LE) & (fl & F1 & F2) & (ea & E1 & E2)) M.
  pose proof FK as L. cbn in L. lt_all L.
  destruct WH as (BD & MA & HB & HD).
  destruct (assembly_rhs_any V P (w_vold w) (w_vnew w) (w_u w) (w_b w) (mem s) (nxt s) bl fl b nl vn er DD Z0)
    as (st & fl' & C & B1 & Hb & F1' & F2' & F3' & FR1 & LE1); auto.
  { cbn. repeat (constructor; [nin|]). constructor. }
  { cbn. repeat (constructor; [lia|]). constructor. }
  exists (set_env (mkSt (Clite.env s) (mem st) (nxt st)) "ret" (VD er)). split.
  { eapply runs_callsR; [|exact C]. cbn [mapM eval]. rewrite (KE "this" (VP (a_this P) 0)) by (cbn; tauto).
    rewrite (KE "nl_flag" (VP bl 0)) by (cbn; tauto). reflexivity. }
  split; [apply kenv_set; [exact KE|cbn; intuition discriminate]|]. split; [reflexivity|].
  destruct (calls_grows asm_prog _ _ _ _ _ _ C BL) as (CL & _).
  split; [|split; [eauto|exists ea; split; [|exact E2]]].
  - unfold nr_mem, whole. cbn [mem nxt set_env]. splits.
    + exact B1.
    + apply (mat_ext (mem s)); [apply FR1; [lia|nin] ..|exact MA].
    + exact Hb.
    + cbn [w_du]. rewrite FR1; [exact HD|lia|nin].
    + rewrite FR1; [exact BI|lia|nin].
    + eapply frame_step; [exact FR|exact FR1|lia|]. intros c I. cbn in I |- *. tauto.
    + exact CL.
    + lia.
  - cbn [mem set_env]. rewrite FR1; [exact E1|lia|nin].
Qed.
(** *err = ret *)
Lemma nr_err w s j er fl : kenv (nr_env j) s -> Clite.env s "ret" = Some (VD er) -> nr_mem w s ->
  mem s bl = Some (OI fl) -> (exists ea, mem s be = Some (OD ea) /\ 0 < alen ea) ->
  exists s', runs asm_prog (SStore (EV "err") (EI 0) (EV "ret")) s (Ok (s', Nrm)) /\
    kenv (nr_env j) s' /\ nr_mem w s' /\ mem s' bl = Some (OI fl) /\
    (exists ea, mem s' be = Some (OD ea) /\ 0 < alen ea /\ aget ea 0 = Some er).
Proof.
  intros KE ER (WH & BI & FR & BL & LE) F1 (ea & E1 & E2).
  pose proof FK as L. cbn in L. lt_all L.
  destruct (wr_ok ea 0 er ltac:(lia)) as (ea' & W & LA & G).
  exists (set_mem s be (Some (OD ea'))). split.
  { apply (runs_store _ _ _ _ _ be 0 0 (VD er) ea er ea'); auto; cbn [eval].
    - rewrite (KE "err" (VP be 0)) by (cbn; tauto). reflexivity.
    - rewrite ER. reflexivity. }
  split; [exact KE|].
  assert (O : forall c, c <> be -> mem (set_mem s be (Some (OD ea'))) c = mem s c).
  { intros c D. cbn. destruct (Z.eqb_spec c be); [contradiction|reflexivity]. }
  destruct WH as (BD & MA & HB & HD).
  split; [|split].
  - unfold nr_mem, whole. splits.
    + eapply body_ext; [|exact BD]. intros c I. apply O. nei.
    + apply (mat_ext (mem s)); [apply O; ne ..|exact MA].
    + rewrite O by ne. exact HB.
    + rewrite O by ne. exact HD.
    + rewrite O by ne. exact BI.
    + eapply (frame_step _ _ _ _ k [be]); [exact FR|eapply frame_neq; [exact O|cbn; auto]|lia|]. intros c I. cbn in I |- *. tauto.
    + intros c I. rewrite O; [now apply BL|]. cbn in I. lia.
    + exact LE.
  - rewrite O by ne. exact F1.
  - exists ea'. split; [cbn; now rewrite Z.eqb_refl|]. split; [lia|]. rewrite G, Z.eqb_refl. reflexivity.
Qed.

Lemma nr_dofs w s : whole V P bc bv w (mem s) -> Clite.env s "this" = Some (VP (a_this P) 0) ->
  forall i, Clite.env s "i" = Some (VI i) ->
  exists v, eval s (EBin Lt (EV "i") (EBin Mul (EFld (EV "this") "nn") (EFld (EV "this") "dim"))) = Ok v /\
    truth v = Ok (i <? ndofs V).
Proof.
  intros (BD & _) E i I.
  pose proof (this_fld V P _ _ _ s "nn" (VI (v_nx V * v_ny V * v_nz V)) BD E ltac:(cbn; tauto)) as X1.
  pose proof (this_fld V P _ _ _ s "dim" (VI (v_dim V)) BD E ltac:(cbn; tauto)) as X2.
  exists (VI (if i <? ndofs V then 1 else 0)). cbn [eval] in X1, X2 |- *. rewrite X1, X2, I. cbn.
  split; [reflexivity|]. now destruct (i <? ndofs V).
Qed.

(** the rest of a pass *)
Lemma nr_rest w s j nl er m du1 du2 u2 : kenv (nr_env j) s -> nr_post w nl er s ->
  assembly_mat V (w_u w) (w_vold w) (w_vnew w) (w_A w) = Ok m ->
  run_stores (map (fun i => (i, dec 0 1)) (zrange 0 (ndofs V))) (w_du w) = Ok du1 ->
  solve V (fst m) (w_b w) du1 = Ok du2 ->
  upd_for (ndofs V) (fun u i => x <- rd u i ;; y <- rd du2 i ;; Ok (oadd x y)) (w_u w) = Ok u2 ->
  exists s', runs asm_prog (block
    [(SCall "assembly_mat" [(EV "this")]);
     (SFor "i" (EI 0) (EBin Lt (EV "i") (EBin Mul (EFld (EV "this") "nn") (EFld (EV "this") "dim"))) (SStore (EFld (EV "this") "du") (EV "i") (EDbl (EI 0))));
     (SCall "solve" [(EV "this")]);
     (SFor "i" (EI 0) (EBin Lt (EV "i") (EBin Mul (EFld (EV "this") "nn") (EFld (EV "this") "dim"))) (SStore (EFld (EV "this") "u") (EV "i") (EBin Add (EIdx (EFld (EV "this") "u") (EV "i")) (EIdx (EFld (EV "this") "du") (EV "i")))));
     (SSet "its" (EAdr (EV "its") (EI 1)))]) s (Ok (s', Nrm)) /\
    kenv (nr_env (j + 1)) s' /\
    nr_post (mkWork u2 du2 (w_b w) (fst m) (w_vold w) (snd m)) nl er s'.
Proof.
  intros KE (((BD & MA & HB & HD) & BI & FR & BL & LE) & (fl & F1 & F2 & F3) & (ea & E1 & E2 & E3)) M1 M2 M3 M4.
  pose proof FK as L. cbn in L. lt_all L. destruct m as (A1 & vn1). cbn [fst snd] in *.
  (* assembly_mat *)
  destruct (assembly_mat_any V P (w_vold w) (w_vnew w) (w_u w) (w_A w) bc bv (mem s) (nxt s) A1 vn1 DD)
    as (t1 & C1 & B1 & MA1 & FR1 & LE1); auto.
  { unfold mat_addrs. cbn. repeat (constructor; [nin|]). constructor. }
  { unfold mat_addrs. cbn. repeat (constructor; [lia|]). constructor. }
  destruct (calls_grows asm_prog _ _ _ _ _ _ C1 BL) as (CL1 & _).
  set (s1 := mkSt (Clite.env s) (mem t1) (nxt t1)).
  assert (KE1 : kenv (nr_env j) s1) by exact KE.
  assert (HD1 : mem s1 (a_du P) = Some (OD (w_du w))) by (cbn; rewrite FR1; [exact HD|lia|nin]).
  assert (HB1 : mem s1 (a_b P) = Some (OD (w_b w))) by (cbn; rewrite FR1; [exact HB|lia|nin]).
  (* du = 0 *)
  unfold run_stores in M2. rewrite foldM_map in M2. cbn [fst snd] in M2.
  destruct (loop_arr (nr_env j) (a_du P) (mem s1) (nxt s1) _ _
    (EBin Lt (EV "i") (EBin Mul (EFld (EV "this") "nn") (EFld (EV "this") "dim")))
    (SStore (EFld (EV "this") "du") (EV "i") (EDbl (EI 0))) _ _ s1 M2) as (s2 & R2 & (KE2 & HD2 & O2 & NX2)).
  { split; [exact KE1|]. splits; auto. }
  { cbn. intuition discriminate. }
  { intros a t i (K & Md & O & Nx) I. apply (nr_dofs (mkWork (w_u w) a (w_b w) A1 (w_vold w) vn1)); [|apply K; cbn; tauto|exact I].
    unfold whole; splits; cbn [w_u w_vold w_vnew w_A w_b w_du]; auto.
    - eapply body_ext; [|exact B1]. intros c J. apply O. nei.
    - apply (mat_ext (mem s1)); [apply O; ne ..|exact MA1].
    - rewrite O by ne. exact HB1. }
  { intros i a a' t I W (K & Md & O & Nx) X. rewrite Z0 in W.
    apply (runs_store _ _ _ _ _ (a_du P) 0 i (VD (ofZ 0)) a (ofZ 0) a'); auto.
    - apply (this_fld V P (w_vold w) vn1 (w_u w)); [|apply K; cbn; tauto|cbn; tauto].
      eapply body_ext; [|exact B1]. intros c J. apply O. nei.
    - cbn. now rewrite X. }
  assert (B2 : body V P (w_vold w) vn1 (w_u w) (mem s2)).
  { eapply body_ext; [|exact B1]. intros c J. apply O2. nei. }
  assert (WH2 : whole V P bc bv (mkWork (w_u w) du1 (w_b w) A1 (w_vold w) vn1) (mem s2)).
  { unfold whole; splits; cbn [w_u w_vold w_vnew w_A w_b w_du]; auto.
    - apply (mat_ext (mem s1)); [apply O2; ne ..|exact MA1].
    - rewrite O2 by ne. exact HB1. }
  assert (BL2 : blank_from (mem s2) (nxt s2)).
  { intros c I. rewrite NX2 in I. cbn in I. rewrite O2 by lia. apply CL1. exact I. }
  (* solve *)
  destruct (solve_any V P bc bv (mkWork (w_u w) du1 (w_b w) A1 (w_vold w) vn1) (mem s2) (nxt s2) du2 DD) as (t3 & C3 & HD3 & FR3); auto.
  { unfold whole_addrs. cbn. repeat (constructor; [nin|]). constructor. }
  { unfold whole_addrs. cbn. rewrite NX2. cbn. repeat (constructor; [lia|]). constructor. }
  destruct (calls_grows asm_prog _ _ _ _ _ _ C3 BL2) as (CL3 & LE3). rewrite NX2 in LE3, FR3. cbn [nxt s1] in LE3, FR3.
  set (s3 := mkSt (Clite.env s2) (mem t3) (nxt t3)).
  assert (B3 : body V P (w_vold w) vn1 (w_u w) (mem s3)).
  { eapply body_ext; [|exact B2]. intros c J. cbn [mem s3]. apply FR3; [cbn in J; repeat (destruct J as [<-|J]); [lia ..|contradiction]|]; intros [Q|[]]; revert Q; apply not_eq_sym; nei. }
  assert (HU3 : mem s3 (a_u P) = Some (OD (w_u w))) by (destruct B3 as (x1 & x2 & _ & _ & _ & _ & _ & _ & _ & X); exact X).
  (* u = u + du *)
  destruct (loop_arr (nr_env j) (a_u P) (mem s3) (nxt s3) _ _
    (EBin Lt (EV "i") (EBin Mul (EFld (EV "this") "nn") (EFld (EV "this") "dim")))
    (SStore (EFld (EV "this") "u") (EV "i") (EBin Add (EIdx (EFld (EV "this") "u") (EV "i")) (EIdx (EFld (EV "this") "du") (EV "i"))))
    _ _ s3 M4) as (s4 & R4 & (KE4 & HU4 & O4 & NX4)).
  { split; [exact KE2|]. splits; auto. }
  { cbn. intuition discriminate. }
  { intros a t i (K & Mu & O & Nx) I. apply (nr_dofs (mkWork a du2 (w_b w) A1 (w_vold w) vn1)); [|apply K; cbn; tauto|exact I].
    destruct WH2 as (_ & W2 & W3 & _). cbn [w_u w_vold w_vnew w_A w_b w_du] in W2, W3.
    unfold whole; splits; cbn [w_u w_vold w_vnew w_A w_b w_du]; auto.
    - eapply body_u; [|exact Mu|exact B3]. intros c J. apply O. nei.
    - apply (mat_ext (mem s2)); [rewrite O by ne; apply FR3; [lia|nin] ..|exact W2].
    - rewrite O by ne. cbn [mem s3]. rewrite FR3; [exact W3|lia|nin].
    - rewrite O by ne. exact HD3. }
  { intros i a a' t I W (K & Mu & O & Nx) X.
    apply bind_ok in W. destruct W as (v & W1 & W). apply bind_ok in W1. destruct W1 as (x & X1 & W1).
    apply bind_ok in W1. destruct W1 as (y & Y1 & W1). injection W1 as <-.
    assert (BT : body V P (w_vold w) vn1 a (mem t)).
    { eapply body_u; [|exact Mu|exact B3]. intros c J. apply O. nei. }
    assert (ET : Clite.env t "this" = Some (VP (a_this P) 0)) by (apply K; cbn; tauto).
    pose proof (this_fld V P _ _ _ t "u" (VP (a_u P) 0) BT ET ltac:(cbn; tauto)) as FU.
    pose proof (this_fld V P _ _ _ t "du" (VP (a_du P) 0) BT ET ltac:(cbn; tauto)) as FD.
    apply (runs_store _ _ _ _ _ (a_u P) 0 i (VD (oadd x y)) a (oadd x y) a'); auto.
    - cbn. now rewrite X.
    - cbn [eval] in FU, FD |- *. rewrite FU, FD, X. cbn. rewrite Mu, X1. cbn. rewrite O by ne. cbn [s3 mem]. rewrite HD3.
      cbn. rewrite Y1. reflexivity. }
  set (s5 := set_env s4 "its" (VP bi (j + 1))).
  assert (NX4' : nxt s4 = nxt t3) by exact NX4.
  assert (T1 : forall c, c <> a_vn P -> c <> bv -> c <> a_du P -> c <> a_u P -> c < k -> mem s5 c = mem s c).
  { intros c D1 D2 D3' D4 LC. cbn. rewrite O4 by exact D4. cbn [s3 mem]. rewrite FR3; [|lia|nin].
    rewrite O2 by exact D3'. cbn [s1 mem]. apply FR1; [lia|nin]. }
  exists s5. split; [|split].
  - cbn [block]. apply (runs_seq _ _ _ _ s1).
    { refine (runs_calls asm_prog _ _ s _ t1 _ _ C1 _); [|discriminate]. cbn [mapM eval].
      rewrite (KE "this" (VP (a_this P) 0)) by (cbn; tauto). reflexivity. }
    eapply runs_seq; [exact R2|]. apply (runs_seq _ _ _ _ s3).
    { refine (runs_calls asm_prog _ _ s2 _ t3 _ _ C3 _); [|discriminate]. cbn [mapM eval].
      rewrite (KE2 "this" (VP (a_this P) 0)) by (cbn; tauto). reflexivity. }
    eapply runs_seq; [exact R4|]. apply runs_set. cbn [eval].
    rewrite (KE4 "its" (VP bi j)) by (cbn; tauto). reflexivity.
  - intros x v I. cbn in I. destruct I as [[= <- <-]|[[= <- <-]|[[= <- <-]|[[= <- <-]|[]]]]]; cbn; try reflexivity; apply KE4; cbn; tauto.
  - destruct WH2 as (_ & W2 & W3 & _). cbn [w_u w_vold w_vnew w_A w_b w_du] in W2, W3.
    unfold nr_post, nr_mem, whole. splits.
    + cbn [w_u w_vold w_vnew w_A w_b w_du s5 mem set_env]. eapply body_u; [|exact HU4|exact B3].
      intros c J. apply O4. nei.
    + cbn [w_A s5 mem set_env]. apply (mat_ext (mem s2)); [rewrite O4 by ne; apply FR3; [lia|nin] ..|exact W2].
    + cbn [w_b s5 mem set_env]. rewrite O4 by ne. cbn [mem s3]. rewrite FR3; [exact W3|lia|nin].
    + cbn [w_du s5 mem set_env]. rewrite O4 by ne. exact HD3.
    + rewrite T1 by (ne || lia). exact BI.
    + intros c LC NI. rewrite T1; [apply FR; assumption| | | | |exact LC]; intros ->; apply NI; cbn; tauto.
    + intros c I. cbn [s5 mem set_env nxt] in I |- *. rewrite NX4' in I. rewrite O4 by lia. apply CL3. exact I.
    + cbn [s5 nxt set_env]. rewrite NX4'. lia.
    + exists fl. rewrite T1 by (ne || lia). auto.
    + exists ea. rewrite T1 by (ne || lia). auto.
Qed.

(** one pass *)
Lemma nr_pass w s j w' nl er brk : kenv (nr_env j) s -> nr_pre w s -> newton_body V w = Ok (w', nl, er, brk) ->
  exists s', runs asm_prog nr_body s (Ok (s', if brk then Brk else Nrm)) /\
    kenv (nr_env (if brk then j else j + 1)) s' /\ nr_post w' nl er s'.
Proof.
  intros KE PRE M. unfold newton_body in M. apply bind_ok in M. destruct M as ([[[b nl0] vn] er0] & M1 & M).
  destruct (nr_rhs w s j b nl0 vn er0 KE PRE M1) as (s1 & R1 & KE1 & RT & NM1 & (fl & F1 & F2 & F3) & EA1).
  destruct (nr_err _ s1 j er0 fl KE1 RT NM1 F1 EA1) as (s2 & R2 & KE2 & NM2 & F1' & (ea & EA & LA & GA)).
  assert (PO : nr_post (mkWork (w_u w) (w_du w) b (w_A w) (w_vold w) vn) nl0 er0 s2) by (split; [exact NM2|]; eauto 10).
  assert (CO : eval s2 (EBin Lt (EIdx (EV "err") (EI 0)) (EDec 1 5)) = Ok (ofb (oltb er0 (dec 1 5)))).
  { cbn [eval]. rewrite (KE2 "err" (VP be 0)) by (cbn; tauto). cbn. rewrite EA. cbn [bind]. rewrite (rd_aget _ _ _ GA). reflexivity. }
  unfold nr_tol in M. destruct (oltb er0 (dec 1 5)) eqn:TOL.
  - injection M as <- <- <- <-. exists s2. split; [|split; [exact KE2|exact PO]].
    unfold nr_body. cbn [block]. eapply runs_seq; [exact R1|]. eapply runs_seq; [exact R2|].
    apply runs_seq_stop; [|discriminate]. eapply runs_if; [exact CO|reflexivity|]. apply runs_break.
  - apply bind_ok in M. destruct M as (m & M2 & M). apply bind_ok in M. destruct M as (du1 & M3 & M).
    apply bind_ok in M. destruct M as (du2 & M4 & M). apply bind_ok in M. destruct M as (u2 & M5 & M).
    injection M as <- <- <- <-.
    destruct (nr_rest _ s2 j nl0 er0 m du1 du2 u2 KE2 PO M2 M3 M4 M5) as (s3 & R3 & KE3 & PO3).
    exists s3. split; [|split; [exact KE3|exact PO3]].
    unfold nr_body. cbn [block]. eapply runs_seq; [exact R1|]. eapply runs_seq; [exact R2|].
    eapply runs_seq; [|exact R3]. eapply runs_if; [exact CO|reflexivity|]. apply runs_skip.
Qed.

Definition nr_cond : exp := (EAnd (EBin Lt (EIdx (EV "its") (EI 0)) (EI 40)) (EBin Gt (EIdx (EV "err") (EI 0)) (EDec 1 5))).
(** while (its < NR_MAX_ITS && err > NR_MAX_TOL), with the pointer its moved *)
Lemma nr_test w s j nl er : kenv (nr_env j) s -> nr_post w nl er s ->
  match rd ia j with
  | Ok i => exists v, eval s nr_cond = Ok v /\ truth v = Ok ((i <? nr_its) && oltb nr_tol er)%bool
  | Err e => eval s nr_cond = Err e
  end.
Proof.
  intros KE ((WH & BI & _) & _ & (ea & EA & LA & GA)). unfold nr_cond. cbn [eval].
  rewrite (KE "its" (VP bi j)) by (cbn; tauto). cbn. rewrite BI. replace (j + 0) with j by lia.
  destruct (rd ia j) as [i|e]; [|reflexivity]. cbn [bind]. cbn. unfold nr_its, nr_tol.
  destruct (i <? 40); cbn.
  - rewrite (KE "err" (VP be 0)) by (cbn; tauto). cbn. rewrite EA. cbn. rewrite (rd_aget _ _ _ GA). cbn.
    destruct (oltb (dec 1 5) er); cbn; eexists; split; reflexivity.
  - eexists; split; reflexivity.
Qed.
Lemma nr_loop pk : (forall j, j <> 0 -> pk j = rd ia j) -> forall fuel j w s w' nl c er,
  kenv (nr_env j) s -> nr_pre w s -> 0 <= j ->
  newton_loop fuel pk V 0 j w = Ok (w', nl, c, er) ->
  exists s', runs asm_prog (SDo nr_body nr_cond) s (Ok (s', Nrm)) /\ nr_post w' nl er s' /\ c = 0.
Proof.
  intros PK. induction fuel as [|fuel IH]; intros j w s w' nl c er KE PRE J M; [discriminate M|].
  cbn [newton_loop] in M. apply bind_ok in M. destruct M as ([[[w1 nl1] er1] brk] & M1 & M).
  destruct (nr_pass w s j w1 nl1 er1 brk KE PRE M1) as (s1 & R1 & KE1 & PO1).
  destruct brk.
  - injection M as <- <- <- <-. exists s1. split; [now apply runs_do_break|]. auto.
  - cbv zeta in M. destruct (Z.eqb_spec (j + 1) 0); [lia|]. rewrite PK in M by assumption.
    pose proof (nr_test _ _ _ _ _ KE1 PO1) as CT. apply bind_ok in M. destruct M as (i & I & M). rewrite I in CT.
    destruct CT as (v & EV' & TV). destruct ((i <? nr_its) && oltb nr_tol er1)%bool.
    + destruct (IH _ _ _ _ _ _ _ KE1 (nr_post_pre _ _ _ _ PO1) ltac:(lia) M) as (s2 & R2 & PO2).
      exists s2. split; [|exact PO2]. eapply runs_do_go; eauto.
    + injection M as <- <- <- <-. exists s1. split; [|auto]. eapply runs_do_stop; eauto.
Qed.
Lemma runs_do_cerr b c (s s1 : state) e : runs asm_prog b s (Ok (s1, Nrm)) -> eval s1 c = Err e -> runs asm_prog (SDo b c) s (Err e).
Proof.
  intros (n & Hn) E. exists (S n). intros [|m] L; [lia|]. cbn [Clite.exec]. rewrite Hn by lia. cbn. now rewrite E.
Qed.
Lemma nr_oob w s w' nl er : kenv (nr_env 0) s -> nr_pre w s -> alen ia = 1 ->
  newton_body V w = Ok (w', nl, er, false) -> runs asm_prog (SDo nr_body nr_cond) s (Err OOB).
Proof.
  intros KE PRE L M. destruct (nr_pass w s 0 w' nl er false KE PRE M) as (s1 & R1 & KE1 & PO1).
  pose proof (nr_test _ _ _ _ _ KE1 PO1) as CT. cbn [Z.add] in CT.
  replace (rd ia 1) with (@Err Z OOB) in CT.
  - eapply runs_do_cerr; eauto.
  - unfold rd. destruct (inb ia 1) eqn:I; [|reflexivity]. apply inb_spec in I. lia.
Qed.
End Newton.

Section Top.
Variables (V : env T) (P : place) (bc bv bl bi be k : Z) (h : Z -> option obj) (w : work) (fl i0 : arr Z) (ea : arr T).
Hypothesis DD : v_dim V = 2 \/ v_dim V = 3.
Hypothesis Z0 : dec 0 1 = (ofZ 0 : T).
Hypothesis ND : NoDup (nr_addrs P bc bv bl bi be).
Hypothesis FK : Forall (fun a => a < k) (nr_addrs P bc bv bl bi be).
Hypothesis BL : blank_from h k.
Hypothesis WH : whole V P bc bv w h.
Hypothesis HF : h bl = Some (OI fl).
Hypothesis LF : alen fl = 1.
Hypothesis HI : h bi = Some (OI i0).
Hypothesis LI : 0 < alen i0.
Hypothesis HE : h be = Some (OD ea).
Hypothesis LE : 0 < alen ea.

(** *its = 0; *err = 0.0 *)
Lemma nr_start : exists ia s, wr i0 0 0 = Ok ia /\
  (forall r, runs asm_prog (SDo nr_body nr_cond) s r -> calls asm_prog "newton_raphson" [VP (a_this P) 0; VP bl 0; VP bi 0; VP be 0] h k r) /\
  kenv (nr_env P bl bi be 0) s /\ nr_pre V P bc bv bl bi be k h ia w s.
Proof.
  pose proof FK as L. cbn in L. lt_all L.
  destruct (wr_ok i0 0 0 ltac:(lia)) as (ia & W & LA & G).
  destruct (wr_ok ea 0 (ofZ 0) ltac:(lia)) as (ea' & W' & LA' & G').
  set (e0 := fun y : string => if String.eqb y "err" then Some (@VP T be 0) else if String.eqb y "its" then Some (VP bi 0) else
    if String.eqb y "nl_flag" then Some (VP bl 0) else if String.eqb y "this" then Some (VP (a_this P) 0) else None).
  set (s0 := mkSt e0 h k). set (s1 := set_mem s0 bi (Some (OI ia))). set (s2 := set_mem s1 be (Some (OD ea'))).
  exists ia, s2. split; [exact W|].
  assert (O : forall c, c <> bi -> c <> be -> mem s2 c = h c).
  { intros c D1 D2. cbn. destruct (Z.eqb_spec c be); [contradiction|]. destruct (Z.eqb_spec c bi); [contradiction|reflexivity]. }
  destruct WH as (BD & MA & HB & HD). splits.
  - intros r R. change (runs asm_prog (f_body ast_newton_raphson) s0 r). cbn [f_body ast_newton_raphson block].
    apply (runs_seq _ _ _ _ s1); [apply (runs_istore asm_prog _ _ _ _ bi 0 0 0 i0 ia); auto|].
    apply (runs_seq _ _ _ _ s2); [|exact R]. apply (runs_store _ _ _ _ _ be 0 0 (VD (ofZ 0)) ea (ofZ 0) ea'); auto.
    cbn. destruct (Z.eqb_spec be bi) as [E|_]; [|exact HE]. exfalso. revert E. change (be <> bi). ne.
  - intros x v [[= <- <-]|[[= <- <-]|[[= <- <-]|[[= <- <-]|[]]]]]; reflexivity.
  - unfold nr_pre, nr_mem, whole. splits.
    + eapply body_ext; [|exact BD]. intros c I. apply O; nei.
    + apply (mat_ext h); [apply O; ne ..|exact MA].
    + rewrite O by ne. exact HB.
    + rewrite O by ne. exact HD.
    + cbn. destruct (Z.eqb_spec bi be) as [E|_]; [exfalso; revert E; change (bi <> be); ne|]. now rewrite Z.eqb_refl.
    + intros c LC NI. apply O; intros ->; apply NI; cbn; tauto.
    + intros c I. cbn in I. rewrite O by lia. now apply BL.
    + cbn. lia.
    + exists fl. rewrite O by ne. auto.
    + exists ea'. cbn. rewrite Z.eqb_refl. split; [reflexivity|lia].
Qed.

(** newton_raphson, src/solve.cpp:46-66 *)
Theorem newton_text fuel w' nl c er : newton fuel (rd i0) V w = Ok (w', nl, c, er) ->
  exists st fl' ia ea',
    calls asm_prog "newton_raphson" [VP (a_this P) 0; VP bl 0; VP bi 0; VP be 0] h k (Ok (st, Nrm)) /\
    whole V P bc bv w' (mem st) /\ mem st bl = Some (OI fl') /\ aget fl' 0 = Some (if nl then 1 else 0) /\
    mem st bi = Some (OI ia) /\ aget ia 0 = Some 0 /\ mem st be = Some (OD ea') /\ aget ea' 0 = Some er /\
    frame h (mem st) k (nr_touch P bv bl bi be) /\ blank_from (mem st) (nxt st) /\ k <= nxt st.
Proof.
  intros M. destruct nr_start as (ia & s & W & CA & KE & PRE). destruct (wr_inv _ _ _ _ W) as (_ & LA & G).
  assert (PK : forall j, j <> 0 -> rd i0 j = rd ia j).
  { intros j J. unfold rd. assert (A : aget ia j = aget i0 j) by (rewrite G; destruct (Z.eqb_spec j 0); [contradiction|reflexivity]).
    unfold aget in A. unfold inb in *. rewrite LA in *. destruct (_ && _)%bool; [|reflexivity]. now rewrite A. }
  destruct (nr_loop V P bc bv bl bi be k h ia DD Z0 ND FK (rd i0) PK fuel 0 w s w' nl c er KE PRE ltac:(lia) M)
    as (st & R & ((W' & BI & FR & BL' & LK) & (fl' & F1 & F2 & F3) & (ea' & E1 & E2 & E3)) & _).
  exists st, fl', ia, ea'. splits; auto. rewrite G. reflexivity.
Qed.
(** [its] a single int: without the break in the first pass, the loop condition reads behind it *)
Theorem newton_text_oob w' nl er : alen i0 = 1 -> newton_body V w = Ok (w', nl, er, false) ->
  calls asm_prog "newton_raphson" [VP (a_this P) 0; VP bl 0; VP bi 0; VP be 0] h k (Err OOB).
Proof.
  intros L1 M. destruct nr_start as (ia & s & W & CA & KE & PRE). destruct (wr_inv _ _ _ _ W) as (_ & LA & G).
  apply CA. eapply (nr_oob V P bc bv bl bi be k h ia DD Z0 ND FK); eauto. lia.
Qed.
End Top.
End Asm.
