(** The syntax trees of src/assembly.cpp against the model: assembly_mat for two dimensions. *)
From Coq Require Import String.
From Verif Require Import Base Scalar Clite CliteRules EllAst AsmAst Sym SymStep Grid EllModel AssemblyModel
  EllLit EllLit2 EllLit6 SymFold AsmCalls AsmLit AsmLit2 AsmLit3 AsmLit8 AsmLit11 AsmLit14 AsmLit22.
Local Open Scope string_scope.
Local Open Scope Z_scope.

Section Asm.
Context {T : Type} `{OT : Ops T}.
Notation state := (@state T).
Notation obj := (@obj T).
Notation val := (@val T).

Section Mat.
Variables (V : env T) (P : place) (bc bv k : Z) (h : Z -> option obj) (vold vnew u : arr T).
Hypothesis D2 : v_dim V = 2.
Hypothesis ND : NoDup (mat_addrs P bc bv).
Hypothesis FK : Forall (fun a => a < k) (mat_addrs P bc bv).

Variable ba : Z.
Definition dm_inv (st : ell T) (hh : Z -> option obj) (kk : Z) : Prop :=
  body V P vold vnew u hh /\ mat_at hh (a_A P) bc bv st /\
  (exists ae, hh ba = Some (OD ae) /\ alen ae = 64) /\ frame h hh k [bv] /\ k <= ba < kk.
Definition dm_env : list (string * val) := [("this", VP (a_this P) 0); ("Ae", VP ba 0)].
Definition dm_R (l : list (string * val)) (st : ell T) (s : state) : Prop :=
  kenv (l ++ dm_env)%list s /\ dm_inv st (mem s) (nxt s).
Definition dm_step (st : ell T) (ex ey : Z) : res (ell T) :=
  Ae <- get_elem_mat2D V ex ey ;;
  ell_add_struct2D st ex ey (lget Ae) 2 (v_nx V) (v_ny V).

Lemma dm_lt a : In a (mat_addrs P bc bv) -> a < k.
Proof. intros I. rewrite Forall_forall in FK. auto. Qed.
Lemma dm_nd : NoDup (body_addrs P) /\ (forall x, In x (body_addrs P) -> x <> a_A P /\ x <> bc /\ x <> bv) /\
  a_A P <> bc /\ a_A P <> bv /\ bc <> bv.
Proof.
  destruct (nd_app _ _ ND) as (N1 & N2 & N3). split; [exact N1|]. split.
  - intros x I. specialize (N3 x I). cbn [In] in N3. splits; congruence || intuition congruence.
  - inversion_clear N2 as [|? ? X N]. inversion_clear N as [|? ? Y N2]. cbn [In] in X, Y. splits; intros E; intuition congruence.
Qed.
Lemma dm_body_in a : In a (body_addrs P) -> In a (mat_addrs P bc bv).
Proof. intros I. unfold mat_addrs. apply in_app_iff. auto. Qed.
Lemma dm_body_lt a : In a (body_addrs P) -> a < k.
Proof. intros I. apply dm_lt. now apply dm_body_in. Qed.
Lemma dm_A_lt : a_A P < k /\ bc < k /\ bv < k.
Proof. splits; apply dm_lt; unfold mat_addrs; apply in_app_iff; cbn; tauto. Qed.

(** get_elem_mat2D (ex, ey, Ae); ell_add_struct2D (&A, ex, ey, Ae, dim, nx, ny) *)
Definition dm_body : stmt := block [(SCall "get_elem_mat2D" [(EV "this"); (EV "ex"); (EV "ey"); (EV "Ae")]);
 (SCall "ell_add_struct2D" [(EFld (EV "this") "A"); (EV "ex"); (EV "ey"); (EV "Ae"); (EFld (EV "this") "dim"); (EFld (EV "this") "nx"); (EFld (EV "this") "ny")])].
Lemma dm_cell st st' ex ey s : dm_step st ex ey = Ok st' ->
  dm_R [("ey", VI ey); ("ex", VI ex)] st s ->
  exists s', runs asm_prog dm_body s (Ok (s', Nrm)) /\ dm_R [("ey", VI ey); ("ex", VI ex)] st' s'.
Proof.
  intros M (KE & BD & MA & (ae & HA & LA) & FR & LB). unfold dm_step in M.
  apply bind_ok in M. destruct M as (K & G & AD).
  destruct dm_nd as (N1 & N2 & N3 & N4 & N5). destruct dm_A_lt as (LA1 & LA2 & LA3).
  assert (E1 : Clite.env s "this" = Some (VP (a_this P) 0)) by (apply KE; cbn; tauto).
  assert (E2 : Clite.env s "Ae" = Some (VP ba 0)) by (apply KE; cbn; tauto).
  assert (E3 : Clite.env s "ex" = Some (VI ex)) by (apply KE; cbn; tauto).
  assert (E4 : Clite.env s "ey" = Some (VI ey)) by (apply KE; cbn; tauto).
  destruct (get_elem_mat2D_text V P vold vnew u (mem s) (nxt s) ba ae ex ey K D2) as
    (s1 & aa' & C1 & B1 & HA1 & VE & F1 & LE1); auto.
  { apply NoDup_app_snoc; [exact N1|]. intros I. apply dm_body_lt in I. lia. }
  { apply Forall_app. split; [|repeat constructor; lia]. apply Forall_forall. intros a I. apply dm_body_lt in I. lia. }
  assert (MA1 : mat_at (mem s1) (a_A P) bc bv st).
  { apply (mat_ext (mem s)); [apply F1; [lia|] ..|exact MA]; cbn [In]; intuition (congruence || lia). }
  pose proof (add2_calls (a_A P) bc bv (nxt s1) (mem s1) st ltac:(lia) ltac:(lia) N4 MA1 ltac:(lia) N5
    ba aa' (lget K) ex ey 2 (v_nx V) (v_ny V) ltac:(lia) ltac:(lia) HA1) as C2.
  unfold fill_result in C2. rewrite AD in C2. destruct C2 as (s2 & C2 & MA2 & F2).
  { intros j J. apply (vec_rd 64); [exact VE|]. change (Z.of_nat 64) with 64. lia. }
  apply calls_ell in C2. pose proof (calls_nxt _ _ _ _ _ _ _ C2) as LE2.
  set (t1 := mkSt (Clite.env s) (mem s1) (nxt s1)).
  exists (mkSt (Clite.env s) (mem s2) (nxt s2)). split.
  - unfold dm_body. cbn [block]. eapply runs_seq.
    + eapply runs_calls; [|exact C1|discriminate]. cbn [mapM eval]. rewrite E1, E2, E3, E4. reflexivity.
    + fold t1. refine (runs_calls asm_prog _ _ t1 _ s2 Nrm _ C2 _); [|discriminate].
      assert (E1' : Clite.env t1 "this" = Some (VP (a_this P) 0)) by exact E1.
      cbn [mapM].
      rewrite (this_fld V P vold vnew u t1 "A" (VP (a_A P) 0) B1 E1') by (cbn; tauto).
      rewrite (this_fld V P vold vnew u t1 "dim" (VI (v_dim V)) B1 E1') by (cbn; tauto).
      rewrite (this_fld V P vold vnew u t1 "nx" (VI (v_nx V)) B1 E1') by (cbn; tauto).
      rewrite (this_fld V P vold vnew u t1 "ny" (VI (v_ny V)) B1 E1') by (cbn; tauto).
      rewrite D2. cbn [eval]. unfold t1. cbn [Clite.env]. rewrite E2, E3, E4. reflexivity.
  - split; [exact KE|]. cbn [mem nxt]. unfold dm_inv. splits.
    + eapply body_ext; [|exact B1]. intros c I. apply F2; [pose proof (dm_body_lt _ I); lia|]. apply N2. exact I.
    + exact MA2.
    + exists aa'. split; [rewrite F2 by lia; exact HA1|]. destruct VE as (L & _). exact L.
    + intros c LC NI. cbn [In] in NI. rewrite F2 by (lia || intuition congruence).
      rewrite F1; [apply FR; [exact LC|]|lia|]; cbn [In]; intuition (congruence || lia).
    + lia.
    + lia.
Qed.

Lemma dm_cond x lim n st s i l w : dm_R l st s -> Clite.env s x = Some (VI i) ->
  In (lim, Some (VI n)) (this_flds (v_dim V) (v_type V) V (ptr (a_et P)) (ptr (a_ml P)) (ptr (a_vo P))
    (ptr (a_vn P)) (ptr (a_u P)) (ptr (a_b P)) (ptr (a_du P)) (ptr (a_A P)) (ptr (a_es P)) (ptr (a_en P))) -> w = n - 1 ->
  exists v, eval s (EBin Lt (EV x) (EBin Sub (EFld (EV "this") lim) (EI 1))) = Ok v /\ truth v = Ok (i <? w).
Proof.
  intros (KE & BD & _) E I ->. pose proof (this_fld V P vold vnew u s lim (VI n) BD) as X.
  specialize (X ltac:(apply KE; apply in_app_iff; cbn; tauto) I).
  exists (VI (if i <? n - 1 then 1 else 0)). cbn [eval] in X |- *. rewrite E. cbn [of_option bind] in X |- *. rewrite X. cbn.
  split; [reflexivity|]. now destruct (i <? n - 1).
Qed.
Lemma dm_R_set l st s x v : ~ In x (map fst (l ++ dm_env)) -> dm_R l st s -> dm_R l st (set_env s x v).
Proof. intros N (K & I). split; [now apply kenv_set|exact I]. Qed.

Lemma dm_loops st st' s :
  foldM (fun st e => let '(ex, ey) := e in dm_step st ex ey) (els2 V) st = Ok st' -> dm_R [] st s ->
  exists s', runs asm_prog (SFor "ex" (EI 0) (EBin Lt (EV "ex") (EBin Sub (EFld (EV "this") "nx") (EI 1)))
    (SFor "ey" (EI 0) (EBin Lt (EV "ey") (EBin Sub (EFld (EV "this") "ny") (EI 1))) dm_body)) s (Ok (s', Nrm)) /\ dm_R [] st' s'.
Proof.
  unfold els2. rewrite foldM_flat. intros E R0.
  refine (runs_fold asm_prog _ "ex" _ _ _ (dm_R []) 0 _ _ _ s E R0 (eq_refl : eval s (EI 0) = Ok (VI 0)) _ _ _).
  { intros m t i. apply dm_R_set. cbn. intuition discriminate. }
  { intros i m t R1 X. eapply dm_cond; [exact R1|exact X|cbn; tauto|reflexivity]. }
  clear E R0 st st' s. intros ex st st' s IX E R0 X. rewrite foldM_map in E.
  destruct (runs_fold asm_prog _ "ey" (EI 0) (EBin Lt (EV "ey") (EBin Sub (EFld (EV "this") "ny") (EI 1))) dm_body
    (dm_R [("ex", VI ex)]) 0 _ _ _ s E) as (s' & R1 & R2).
  { destruct R0 as (KE & I). split; [now apply kenv_cons|exact I]. }
  { reflexivity. }
  { intros m t i. apply dm_R_set. cbn. intuition discriminate. }
  { intros i m t R1 X1. eapply dm_cond; [exact R1|exact X1|cbn; tauto|reflexivity]. }
  2: { exists s'. split; [exact R1|]. destruct R2 as (KE & I). split; [split; [|exact I]|apply KE; cbn; tauto].
       intros y w J. apply KE. cbn. tauto. }
  clear E R0 X st st' s. intros ey st st' s IY E R0 X.
  destruct (dm_cell st st' ex ey s E) as (s' & R1 & R2).
  { destruct R0 as (KE & I). split; [now apply kenv_cons|exact I]. }
  exists s'. split; [exact R1|]. destruct R2 as (KE & I). split; [split; [|exact I]|apply KE; cbn; tauto].
  intros y w J. apply KE. cbn in J |- *. tauto.
Qed.
End Mat.

(** assembly_mat, src/assembly.cpp:333-364 *)
Theorem assembly_mat2D_text V P vold vnew u A bc bv h k A' vnew' :
  v_dim V = 2 -> NoDup (mat_addrs P bc bv) -> Forall (fun a => a < k) (mat_addrs P bc bv) ->
  body V P vold vnew u h -> mat_at h (a_A P) bc bv A ->
  assembly_mat V u vold vnew A = Ok (A', vnew') ->
  exists st, calls asm_prog "assembly_mat" [VP (a_this P) 0] h k (Ok (st, Nrm)) /\
    vnew' = vnew /\ body V P vold vnew u (mem st) /\ mat_at (mem st) (a_A P) bc bv A' /\
    frame h (mem st) k [bv] /\ k <= nxt st.
Proof.
  intros D2 ND FK BD MA M. unfold assembly_mat in M. apply bind_ok in M. destruct M as (A0 & Z0 & M).
  rewrite D2 in M. change (2 =? 2) with true in M. cbv iota in M.
  apply bind_ok in M. destruct M as (st1 & LO & M). apply bind_ok in M. destruct M as (A1 & BC & M).
  injection M as -> <-.
  destruct (dm_nd P bc bv h ND) as (N1 & N2 & N3 & N4 & N5). destruct (dm_A_lt P bc bv k h FK) as (LA1 & LA2 & LA3).
  set (e0 := fun y : string => if String.eqb y "this" then Some (@VP T (a_this P) 0) else None).
  set (s0 := mkSt e0 h k).
  set (s1 := alloc s0 "index" (OI (malloc 8))).
  assert (O1 : forall c, c < k -> mem s1 c = h c) by (intros c L; cbn; destruct (Z.eqb_spec c k); [lia|reflexivity]).
  assert (MA1 : mat_at (mem s1) (a_A P) bc bv A) by (apply (mat_ext h); auto).
  pose proof (zero_calls (a_A P) bc bv (nxt s1) (mem s1) A ltac:(cbn; lia) ltac:(cbn; lia) N4 MA1 ltac:(cbn; lia) N5) as C1.
  unfold fill_result in C1. rewrite Z0 in C1. destruct C1 as (t1 & C1 & MA2 & F1).
  apply calls_ell in C1. pose proof (calls_nxt _ _ _ _ _ _ _ C1) as LE1. cbn [nxt s1 alloc s0] in LE1.
  set (s2 := mkSt (Clite.env s1) (mem t1) (nxt t1)).
  assert (B2 : body V P vold vnew u (mem s2)).
  { eapply body_ext; [|exact BD]. intros c I. pose proof (dm_body_lt P bc bv k FK _ I). cbn [s2 mem].
    rewrite F1; [apply O1; lia|cbn; lia|]. now apply N2. }
  set (s3 := alloc s2 "Ae" (OD (malloc 64))).
  assert (O3 : forall c, c < nxt t1 -> mem s3 c = mem t1 c)
    by (intros c L; cbn; destruct (Z.eqb_spec c (nxt t1)); [lia|reflexivity]).
  assert (R3 : dm_R V P bc bv k h vold vnew u (nxt t1) [] A0 s3).
  { split; [|unfold dm_inv; splits].
    - intros y w [[= <- <-]|[[= <- <-]|[]]]; reflexivity.
    - eapply body_ext; [|exact B2]. intros c I. pose proof (dm_body_lt P bc bv k FK _ I). apply O3. lia.
    - apply (mat_ext (mem t1)); [apply O3; lia ..|exact MA2].
    - exists (malloc 64). cbn. rewrite Z.eqb_refl. split; reflexivity.
    - intros c L NI. cbn [In] in NI. rewrite O3 by lia. rewrite F1; [now apply O1|cbn; lia|intuition congruence].
    - lia.
    - cbn. lia. }
  destruct (dm_loops V P bc bv k h vold vnew u D2 ND FK (nxt t1) A0 st1 s3 LO R3) as (s4 & RL & KE & B4 & MA4 & _ & F4 & L4).
  pose proof (bc2_calls (a_A P) bc bv (nxt s4) (mem s4) st1 ltac:(lia) ltac:(lia) N4 MA4 ltac:(lia) N5
    2 (v_nx V) (v_ny V)) as C5.
  unfold fill_result in C5. rewrite BC in C5. destruct C5 as (t5 & C5 & MA5 & F5).
  apply calls_ell in C5. pose proof (calls_nxt _ _ _ _ _ _ _ C5) as LE5.
  exists (mkSt (Clite.env s4) (mem t5) (nxt t5)). cbn [mem nxt]. splits.
  - change (runs asm_prog (f_body ast_assembly_mat) s0 (Ok (mkSt (Clite.env s4) (mem t5) (nxt t5), Nrm))).
    cbn [f_body ast_assembly_mat block].
    apply (runs_seq _ _ _ _ s1); [apply (runs_malloc _ "index" TInt); reflexivity|].
    assert (BD1 : body V P vold vnew u (mem s1)).
    { eapply body_ext; [|exact BD]. intros c I. apply O1. exact (dm_body_lt P bc bv k FK _ I). }
    apply (runs_seq _ _ _ _ s2).
    { refine (runs_calls asm_prog _ _ s1 _ t1 _ _ C1 _); [|discriminate]. cbn [mapM].
      rewrite (this_fld V P vold vnew u s1 "A" (VP (a_A P) 0) BD1 eq_refl) by (cbn; tauto). reflexivity. }
    assert (DM : forall i, eval s2 (EBin Eq (EFld (EV "this") "dim") (EI i)) = Ok (VI (if 2 =? i then 1 else 0))).
    { intros i. pose proof (this_fld V P vold vnew u s2 "dim" (VI (v_dim V)) B2 eq_refl ltac:(cbn; tauto)) as X.
      rewrite D2 in X. cbn [eval] in X |- *. rewrite X. reflexivity. }
    eapply runs_if; [apply DM|reflexivity|]. cbn [Z.eqb Pos.eqb].
    apply (runs_seq _ _ _ _ s3); [apply (runs_malloc _ "Ae" TDbl); reflexivity|].
    eapply runs_seq; [exact RL|].
    refine (runs_calls asm_prog _ _ s4 _ t5 _ _ C5 _); [|discriminate]. cbn [mapM].
    assert (E4 : Clite.env s4 "this" = Some (VP (a_this P) 0)) by (apply KE; cbn; tauto).
    rewrite (this_fld V P vold vnew u s4 "A" (VP (a_A P) 0) B4 E4) by (cbn; tauto).
    rewrite (this_fld V P vold vnew u s4 "dim" (VI (v_dim V)) B4 E4) by (cbn; tauto).
    rewrite (this_fld V P vold vnew u s4 "nx" (VI (v_nx V)) B4 E4) by (cbn; tauto).
    rewrite (this_fld V P vold vnew u s4 "ny" (VI (v_ny V)) B4 E4) by (cbn; tauto).
    rewrite D2. reflexivity.
  - reflexivity.
  - eapply body_ext; [|exact B4]. intros c I. pose proof (dm_body_lt P bc bv k FK _ I). apply F5; [lia|]. now apply N2.
  - exact MA5.
  - intros c L NI. pose proof (F4 c L NI) as X. cbn [In] in NI. rewrite F5; [exact X|lia|intuition congruence].
  - lia.
Qed.
End Asm.
