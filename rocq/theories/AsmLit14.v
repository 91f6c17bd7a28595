(** The syntax trees of src/assembly.cpp against the model: assembly_mat. *)
From Coq Require Import String.
From Verif Require Import Base Scalar Clite CliteRules EllAst AsmAst Sym SymStep Grid EllModel AssemblyModel
  EllLit EllLit2 EllLit6 SymFold AsmCalls AsmLit AsmLit2 AsmLit3 AsmLit8 AsmLit11.
Local Open Scope string_scope.
Local Open Scope Z_scope.

Section Asm.
Context {T : Type} `{OT : Ops T}.
Notation state := (@state T).
Notation obj := (@obj T).
Notation val := (@val T).

(** ** what the object consists of, with its matrix *)
Lemma body_ext (V : env T) A vo vn u h h' : (forall c, In c (body_addrs A) -> h' c = h c) ->
  body V A vo vn u h -> body V A vo vn u h'.
Proof.
  intros E (fs & l2 & B0 & B1 & B2 & B3 & B4 & B5 & B6 & B7). exists fs, l2. unfold body_addrs in E.
  rewrite !E by (cbn; tauto). auto 10.
Qed.
Lemma mat_ext h h' bm bc bv (m : ell T) : h' bm = h bm -> h' bc = h bc -> h' bv = h bv ->
  mat_at h bm bc bv m -> mat_at h' bm bc bv m.
Proof. intros E1 E2 E3 (H1 & H2 & H3). unfold mat_at. now rewrite E1, E2, E3. Qed.
Definition kenv (l : list (string * val)) (s : state) : Prop := forall x v, In (x, v) l -> Clite.env s x = Some v.
Lemma kenv_set l s x v : kenv l s -> ~ In x (map fst l) -> kenv l (set_env s x v).
Proof.
  intros K N y w I. cbn. destruct (String.eqb_spec y x) as [->|]; [|now apply K].
  exfalso. apply N. apply in_map_iff. now exists (x, w).
Qed.
Lemma kenv_cons l s x v : Clite.env s x = Some v -> kenv l s -> kenv ((x, v) :: l) s.
Proof. intros E K y w [[= <- <-]|I]; auto. Qed.
Lemma this_fld V A vo vn u (s : state) f w : body V A vo vn u (mem s) -> Clite.env s "this" = Some (VP (a_this A) 0) ->
  In (f, Some w) (this_flds (v_dim V) (v_type V) V (ptr (a_et A)) (ptr (a_ml A)) (ptr (a_vo A))
    (ptr (a_vn A)) (ptr (a_u A)) (ptr (a_b A)) (ptr (a_du A)) (ptr (a_A A)) (ptr (a_es A)) (ptr (a_en A))) ->
  eval s (EFld (EV "this") f) = Ok w.
Proof.
  intros (fs & l2 & B0 & B1 & _) E I. cbn. rewrite E. cbn. unfold load_fld. rewrite B0, (B1 _ _ I). reflexivity.
Qed.
Lemma vec_rd n (a : arr T) l j : vec n a l -> 0 <= j < Z.of_nat n -> rd a j = Ok (lget l j).
Proof.
  intros (L & G) I. specialize (G _ I). unfold aget in G. unfold rd.
  destruct (inb a j); [now rewrite G|discriminate G].
Qed.
Lemma nd_app {A} (l m : list A) : NoDup (l ++ m)%list -> NoDup l /\ NoDup m /\ forall x, In x l -> ~ In x m.
Proof.
  induction l as [|a l IH]; cbn; intros N; [split; [constructor|auto]|].
  inversion N; subst. destruct IH as (N1 & N2 & N3); [assumption|]. rewrite in_app_iff in H1. splits.
  - constructor; tauto.
  - exact N2.
  - intros x [<-|I]; auto.
Qed.

Section Mat.
Variables (V : env T) (P : place) (bc bv k : Z) (h : Z -> option obj) (vold u : arr T).
Hypothesis D3 : v_dim V = 3.
Definition mat_addrs : list Z := (body_addrs P ++ [a_A P; bc; bv])%list.
Hypothesis ND : NoDup mat_addrs.
Hypothesis FK : Forall (fun a => a < k) mat_addrs.

Variable ba : Z.
Definition m_inv (st : ell T * arr T) (hh : Z -> option obj) (kk : Z) : Prop :=
  body V P vold (snd st) u hh /\ mat_at hh (a_A P) bc bv (fst st) /\
  (exists ae, hh ba = Some (OD ae) /\ alen ae = 576) /\ frame h hh k [a_vn P; bv] /\ k <= ba < kk.
Definition m_env : list (string * val) := [("this", VP (a_this P) 0); ("Ae", VP ba 0)].
Definition m_R (l : list (string * val)) (st : ell T * arr T) (s : state) : Prop :=
  kenv (l ++ m_env)%list s /\ m_inv st (mem s) (nxt s).
Definition m_step (st : ell T * arr T) (ex ey ez : Z) : res (ell T * arr T) :=
  ' r <- get_elem_mat3D V u vold (snd st) ex ey ez ;;
  A <- ell_add_struct3D (fst st) ex ey ez (lget (fst r)) 3 (v_nx V) (v_ny V) (v_nz V) ;;
  Ok (A, snd r).

Lemma m_lt a : In a mat_addrs -> a < k.
Proof. intros I. rewrite Forall_forall in FK. auto. Qed.
Lemma m_nd : NoDup (body_addrs P) /\ (forall x, In x (body_addrs P) -> x <> a_A P /\ x <> bc /\ x <> bv) /\
  a_A P <> bc /\ a_A P <> bv /\ bc <> bv.
Proof.
  destruct (nd_app _ _ ND) as (N1 & N2 & N3). split; [exact N1|]. split.
  - intros x I. specialize (N3 x I). cbn [In] in N3. splits; congruence || intuition congruence.
  - inversion_clear N2 as [|? ? X N]. inversion_clear N as [|? ? Y N2]. cbn [In] in X, Y. splits; intros E; intuition congruence.
Qed.
Lemma m_body_in a : In a (body_addrs P) -> In a mat_addrs.
Proof. intros I. unfold mat_addrs. apply in_app_iff. auto. Qed.
Lemma m_body_lt a : In a (body_addrs P) -> a < k.
Proof. intros I. apply m_lt. now apply m_body_in. Qed.
Lemma m_A_lt : a_A P < k /\ bc < k /\ bv < k.
Proof. splits; apply m_lt; unfold mat_addrs; apply in_app_iff; cbn; tauto. Qed.

(** get_elem_mat3D (ex, ey, ez, Ae); ell_add_struct3D (&A, ex, ey, ez, Ae, dim, nx, ny, nz) *)
Definition m_body : stmt := block [(SCall "get_elem_mat3D" [(EV "this"); (EV "ex"); (EV "ey"); (EV "ez"); (EV "Ae")]);
 (SCall "ell_add_struct3D" [(EFld (EV "this") "A"); (EV "ex"); (EV "ey"); (EV "ez"); (EV "Ae"); (EFld (EV "this") "dim"); (EFld (EV "this") "nx"); (EFld (EV "this") "ny"); (EFld (EV "this") "nz")])].
Lemma m_cell st st' ex ey ez s : m_step st ex ey ez = Ok st' ->
  m_R [("ez", VI ez); ("ey", VI ey); ("ex", VI ex)] st s ->
  exists s', runs asm_prog m_body s (Ok (s', Nrm)) /\ m_R [("ez", VI ez); ("ey", VI ey); ("ex", VI ex)] st' s'.
Proof.
  intros M (KE & BD & MA & (ae & HA & LA) & FR & LB). unfold m_step in M.
  apply bind_ok in M. destruct M as ((K & vn') & G & M). cbn [fst snd] in M.
  apply bind_ok in M. destruct M as (A' & AD & M). injection M as <-.
  destruct m_nd as (N1 & N2 & N3 & N4 & N5). destruct m_A_lt as (LA1 & LA2 & LA3).
  assert (E1 : Clite.env s "this" = Some (VP (a_this P) 0)) by (apply KE; cbn; tauto).
  assert (E2 : Clite.env s "Ae" = Some (VP ba 0)) by (apply KE; cbn; tauto).
  assert (E3 : Clite.env s "ex" = Some (VI ex)) by (apply KE; cbn; tauto).
  assert (E4 : Clite.env s "ey" = Some (VI ey)) by (apply KE; cbn; tauto).
  assert (E5 : Clite.env s "ez" = Some (VI ez)) by (apply KE; cbn; tauto).
  destruct (get_elem_mat3D_text V P vold (snd st) u (mem s) (nxt s) ba ae ex ey ez K vn' D3) as
    (s1 & aa' & C1 & B1 & HA1 & VE & F1 & LE1); auto.
  { apply NoDup_app_snoc; [exact N1|]. intros I. apply m_body_lt in I. lia. }
  { apply Forall_app. split; [|repeat constructor; lia]. apply Forall_forall. intros a I. apply m_body_lt in I. lia. }
  assert (VN : In (a_vn P) (body_addrs P)) by (cbn; tauto).
  assert (MA1 : mat_at (mem s1) (a_A P) bc bv (fst st)).
  { apply (mat_ext (mem s)); [apply F1; [lia|] ..|exact MA]; cbn [In]; destruct (N2 _ VN) as (X1 & X2 & X3); intuition (congruence || lia). }
  pose proof (add3_calls (a_A P) bc bv (nxt s1) (mem s1) (fst st) ltac:(lia) ltac:(lia) N4 MA1 ltac:(lia) N5
    ba aa' (lget K) ex ey ez 3 (v_nx V) (v_ny V) (v_nz V) ltac:(lia) ltac:(lia) HA1) as C2.
  unfold fill_result in C2. rewrite AD in C2. destruct C2 as (s2 & C2 & MA2 & F2).
  { intros j J. apply (vec_rd 576); [exact VE|]. change (Z.of_nat 576) with 576. lia. }
  apply calls_ell in C2. pose proof (calls_nxt _ _ _ _ _ _ _ C2) as LE2.
  set (t1 := mkSt (Clite.env s) (mem s1) (nxt s1)).
  exists (mkSt (Clite.env s) (mem s2) (nxt s2)). split.
  - unfold m_body. cbn [block]. eapply runs_seq.
    + eapply runs_calls; [|exact C1|discriminate]. cbn [mapM eval]. rewrite E1, E2, E3, E4, E5. reflexivity.
    + fold t1. refine (runs_calls asm_prog _ _ t1 _ s2 Nrm _ C2 _); [|discriminate].
      assert (E1' : Clite.env t1 "this" = Some (VP (a_this P) 0)) by exact E1.
      cbn [mapM].
      rewrite (this_fld V P vold vn' u t1 "A" (VP (a_A P) 0) B1 E1') by (cbn; tauto).
      rewrite (this_fld V P vold vn' u t1 "dim" (VI (v_dim V)) B1 E1') by (cbn; tauto).
      rewrite (this_fld V P vold vn' u t1 "nx" (VI (v_nx V)) B1 E1') by (cbn; tauto).
      rewrite (this_fld V P vold vn' u t1 "ny" (VI (v_ny V)) B1 E1') by (cbn; tauto).
      rewrite (this_fld V P vold vn' u t1 "nz" (VI (v_nz V)) B1 E1') by (cbn; tauto).
      rewrite D3. cbn [eval]. unfold t1. cbn [Clite.env]. rewrite E2, E3, E4, E5. reflexivity.
  - split; [exact KE|]. cbn [mem nxt]. unfold m_inv. cbn [fst snd]. splits.
    + eapply body_ext; [|exact B1]. intros c I. apply F2; [pose proof (m_body_lt _ I); lia|]. apply N2. exact I.
    + exact MA2.
    + exists aa'. split; [rewrite F2 by lia; exact HA1|]. destruct VE as (L & _). exact L.
    + intros c LC NI. cbn [In] in NI. rewrite F2 by (lia || intuition congruence).
      rewrite F1; [apply FR; [exact LC|]|lia|]; cbn [In]; intuition (congruence || lia).
    + lia.
    + lia.
Qed.

Lemma m_cond x lim n st s i l w : m_R l st s -> Clite.env s x = Some (VI i) ->
  In (lim, Some (VI n)) (this_flds (v_dim V) (v_type V) V (ptr (a_et P)) (ptr (a_ml P)) (ptr (a_vo P))
    (ptr (a_vn P)) (ptr (a_u P)) (ptr (a_b P)) (ptr (a_du P)) (ptr (a_A P)) (ptr (a_es P)) (ptr (a_en P))) -> w = n - 1 ->
  exists v, eval s (EBin Lt (EV x) (EBin Sub (EFld (EV "this") lim) (EI 1))) = Ok v /\ truth v = Ok (i <? w).
Proof.
  intros (KE & BD & _) E I ->. pose proof (this_fld V P vold (snd st) u s lim (VI n) BD) as X.
  specialize (X ltac:(apply KE; apply in_app_iff; cbn; tauto) I).
  exists (VI (if i <? n - 1 then 1 else 0)). cbn [eval] in X |- *. rewrite E. cbn [of_option bind] in X |- *. rewrite X. cbn.
  split; [reflexivity|]. now destruct (i <? n - 1).
Qed.
Lemma m_R_set l st s x v : ~ In x (map fst (l ++ m_env)) -> m_R l st s -> m_R l st (set_env s x v).
Proof. intros N (K & I). split; [now apply kenv_set|exact I]. Qed.

Lemma m_loops st st' s :
  foldM (fun st e => let '(ex, ey, ez) := e in m_step st ex ey ez) (els3 V) st = Ok st' -> m_R [] st s ->
  exists s', runs asm_prog (SFor "ex" (EI 0) (EBin Lt (EV "ex") (EBin Sub (EFld (EV "this") "nx") (EI 1)))
    (SFor "ey" (EI 0) (EBin Lt (EV "ey") (EBin Sub (EFld (EV "this") "ny") (EI 1)))
    (SFor "ez" (EI 0) (EBin Lt (EV "ez") (EBin Sub (EFld (EV "this") "nz") (EI 1))) m_body))) s (Ok (s', Nrm)) /\ m_R [] st' s'.
Proof.
  unfold els3. rewrite foldM_flat. intros E R0.
  refine (runs_fold asm_prog _ "ex" _ _ _ (m_R []) 0 _ _ _ s E R0 (eq_refl : eval s (EI 0) = Ok (VI 0)) _ _ _).
  { intros m t i. apply m_R_set. cbn. intuition discriminate. }
  { intros i m t R1 X. eapply m_cond; [exact R1|exact X|cbn; tauto|reflexivity]. }
  clear E R0 st st' s. intros ex st st' s IX E R0 X. rewrite foldM_flat in E.
  destruct (runs_fold asm_prog _ "ey" (EI 0) (EBin Lt (EV "ey") (EBin Sub (EFld (EV "this") "ny") (EI 1)))
    (SFor "ez" (EI 0) (EBin Lt (EV "ez") (EBin Sub (EFld (EV "this") "nz") (EI 1))) m_body)
    (m_R [("ex", VI ex)]) 0 _ _ _ s E) as (s' & R1 & R2).
  { destruct R0 as (KE & I). split; [now apply kenv_cons|exact I]. }
  { reflexivity. }
  { intros m t i. apply m_R_set. cbn. intuition discriminate. }
  { intros i m t R1 X1. eapply m_cond; [exact R1|exact X1|cbn; tauto|reflexivity]. }
  2: { exists s'. split; [exact R1|]. destruct R2 as (KE & I). split; [split; [|exact I]|apply KE; cbn; tauto].
       intros y w J. apply KE. cbn. tauto. }
  clear E R0 X st st' s. intros ey st st' s IY E R0 X. rewrite foldM_map in E.
  destruct (runs_fold asm_prog _ "ez" (EI 0) (EBin Lt (EV "ez") (EBin Sub (EFld (EV "this") "nz") (EI 1))) m_body
    (m_R [("ey", VI ey); ("ex", VI ex)]) 0 _ _ _ s E) as (s' & R1 & R2).
  { destruct R0 as (KE & I). split; [now apply kenv_cons|exact I]. }
  { reflexivity. }
  { intros m t i. apply m_R_set. cbn. intuition discriminate. }
  { intros i m t R1 X1. eapply m_cond; [exact R1|exact X1|cbn; tauto|reflexivity]. }
  2: { exists s'. split; [exact R1|]. destruct R2 as (KE & I). split; [split; [|exact I]|apply KE; cbn; tauto].
       intros y w J. apply KE. cbn in J |- *. tauto. }
  clear E R0 X st st' s. intros ez st st' s IZ E R0 X.
  destruct (m_cell st st' ex ey ez s E) as (s' & R1 & R2).
  { destruct R0 as (KE & I). split; [now apply kenv_cons|exact I]. }
  exists s'. split; [exact R1|]. destruct R2 as (KE & I). split; [split; [|exact I]|apply KE; cbn; tauto].
  intros y w J. apply KE. cbn in J |- *. tauto.
Qed.
End Mat.

(** assembly_mat, src/assembly.cpp:333-364 *)
Theorem assembly_mat_text V P vold vnew u A bc bv h k A' vnew' :
  v_dim V = 3 -> NoDup (mat_addrs P bc bv) -> Forall (fun a => a < k) (mat_addrs P bc bv) ->
  body V P vold vnew u h -> mat_at h (a_A P) bc bv A ->
  assembly_mat V u vold vnew A = Ok (A', vnew') ->
  exists st, calls asm_prog "assembly_mat" [VP (a_this P) 0] h k (Ok (st, Nrm)) /\
    body V P vold vnew' u (mem st) /\ mat_at (mem st) (a_A P) bc bv A' /\
    frame h (mem st) k [a_vn P; bv] /\ k <= nxt st.
Proof.
  intros D3 ND FK BD MA M. unfold assembly_mat in M. apply bind_ok in M. destruct M as (A0 & Z0 & M).
  rewrite D3 in M. change (3 =? 2) with false in M. change (3 =? 3) with true in M. cbv iota in M.
  apply bind_ok in M. destruct M as (st1 & LO & M). apply bind_ok in M. destruct M as (A1 & BC & M).
  injection M as -> <-.
  destruct (m_nd P bc bv h ND) as (N1 & N2 & N3 & N4 & N5). destruct (m_A_lt P bc bv k h FK) as (LA1 & LA2 & LA3).
  set (e0 := fun y : string => if String.eqb y "this" then Some (@VP T (a_this P) 0) else None).
  set (s0 := mkSt e0 h k).
  set (s1 := alloc s0 "index" (OI (malloc 8))).
  assert (O1 : forall c, c < k -> mem s1 c = h c) by (intros c L; cbn; destruct (Z.eqb_spec c k); [lia|reflexivity]).
  assert (MA1 : mat_at (mem s1) (a_A P) bc bv A) by (apply (mat_ext h); auto).
  pose proof (zero_calls (a_A P) bc bv (nxt s1) (mem s1) A ltac:(cbn; lia) ltac:(cbn; lia) N4 MA1 ltac:(cbn; lia) N5) as C1.
  unfold fill_result in C1. rewrite Z0 in C1. destruct C1 as (t1 & C1 & MA2 & F1).
  apply calls_ell in C1. pose proof (calls_nxt _ _ _ _ _ _ _ C1) as LE1. cbn [nxt s1 alloc s0] in LE1.
  set (s2 := mkSt (Clite.env s1) (mem t1) (nxt t1)).
  assert (B2 : body V P vold vnew u (mem s2)).
  { eapply body_ext; [|exact BD]. intros c I. pose proof (m_body_lt P bc bv k FK _ I). cbn [s2 mem].
    rewrite F1; [apply O1; lia|cbn; lia|]. now apply N2. }
  set (s3 := alloc s2 "Ae" (OD (malloc 576))).
  assert (O3 : forall c, c < nxt t1 -> mem s3 c = mem t1 c)
    by (intros c L; cbn; destruct (Z.eqb_spec c (nxt t1)); [lia|reflexivity]).
  assert (R3 : m_R V P bc bv k h vold u (nxt t1) [] (A0, vnew) s3).
  { split; [|unfold m_inv; splits].
    - intros y w [[= <- <-]|[[= <- <-]|[]]]; reflexivity.
    - eapply body_ext; [|exact B2]. intros c I. pose proof (m_body_lt P bc bv k FK _ I). apply O3. lia.
    - apply (mat_ext (mem t1)); [apply O3; lia ..|exact MA2].
    - exists (malloc 576). cbn. rewrite Z.eqb_refl. split; reflexivity.
    - intros c L NI. cbn [In] in NI. rewrite O3 by lia. rewrite F1; [now apply O1|cbn; lia|intuition congruence].
    - lia.
    - cbn. lia. }
  destruct (m_loops V P bc bv k h vold u D3 ND FK (nxt t1) (A0, vnew) st1 s3 LO R3) as (s4 & RL & KE & B4 & MA4 & _ & F4 & L4).
  pose proof (bc3_calls (a_A P) bc bv (nxt s4) (mem s4) (fst st1) ltac:(lia) ltac:(lia) N4 MA4 ltac:(lia) N5
    3 (v_nx V) (v_ny V) (v_nz V)) as C5.
  unfold fill_result in C5. rewrite BC in C5. destruct C5 as (t5 & C5 & MA5 & F5).
  apply calls_ell in C5. pose proof (calls_nxt _ _ _ _ _ _ _ C5) as LE5.
  exists (mkSt (Clite.env s4) (mem t5) (nxt t5)). cbn [mem nxt]. splits.
  - change (runs asm_prog (f_body ast_assembly_mat) s0 (Ok (mkSt (Clite.env s4) (mem t5) (nxt t5), Nrm))).
    cbn [f_body ast_assembly_mat block].
    apply (runs_seq _ _ _ _ s1); [apply (runs_malloc _ "index" TInt); reflexivity|].
    assert (BD1 : body V P vold vnew u (mem s1)).
    { eapply body_ext; [|exact BD]. intros c I. apply O1. exact (m_body_lt P bc bv k FK _ I). }
    apply (runs_seq _ _ _ _ s2).
    { refine (runs_calls asm_prog _ _ s1 _ t1 _ _ C1 _); [|discriminate]. cbn [mapM].
      rewrite (this_fld V P vold vnew u s1 "A" (VP (a_A P) 0) BD1 eq_refl) by (cbn; tauto). reflexivity. }
    assert (DM : forall i, eval s2 (EBin Eq (EFld (EV "this") "dim") (EI i)) = Ok (VI (if 3 =? i then 1 else 0))).
    { intros i. pose proof (this_fld V P vold vnew u s2 "dim" (VI (v_dim V)) B2 eq_refl ltac:(cbn; tauto)) as X.
      rewrite D3 in X. cbn [eval] in X |- *. rewrite X. reflexivity. }
    eapply runs_if; [apply DM|reflexivity|]. cbn [Z.eqb Pos.eqb].
    eapply runs_if; [apply DM|reflexivity|]. cbn [Z.eqb Pos.eqb].
    apply (runs_seq _ _ _ _ s3); [apply (runs_malloc _ "Ae" TDbl); reflexivity|].
    eapply runs_seq; [exact RL|].
    refine (runs_calls asm_prog _ _ s4 _ t5 _ _ C5 _); [|discriminate]. cbn [mapM].
    assert (E4 : Clite.env s4 "this" = Some (VP (a_this P) 0)) by (apply KE; cbn; tauto).
    rewrite (this_fld V P vold (snd st1) u s4 "A" (VP (a_A P) 0) B4 E4) by (cbn; tauto).
    rewrite (this_fld V P vold (snd st1) u s4 "dim" (VI (v_dim V)) B4 E4) by (cbn; tauto).
    rewrite (this_fld V P vold (snd st1) u s4 "nx" (VI (v_nx V)) B4 E4) by (cbn; tauto).
    rewrite (this_fld V P vold (snd st1) u s4 "ny" (VI (v_ny V)) B4 E4) by (cbn; tauto).
    rewrite (this_fld V P vold (snd st1) u s4 "nz" (VI (v_nz V)) B4 E4) by (cbn; tauto).
    rewrite D3. reflexivity.
  - eapply body_ext; [|exact B4]. intros c I. pose proof (m_body_lt P bc bv k FK _ I). apply F5; [lia|]. now apply N2.
  - exact MA5.
  - intros c L NI. pose proof (F4 c L NI) as X. cbn [In] in NI. rewrite F5; [exact X|lia|intuition congruence].
  - lia.
Qed.
End Asm.
