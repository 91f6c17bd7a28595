(** The syntax trees of src/solve.cpp against the model: solve and newton_raphson. *)
From Coq Require Import String FMapPositive.
From Verif Require Import Base Scalar MicroModel Clite CliteRules EllAst AsmAst Sym SymStep Grid EllModel AssemblyModel
  EllLit EllLit2 EllLit6 EllLit7 SymFold AsmCalls AsmLit AsmLit2 AsmLit13 AsmLit14.
Local Open Scope string_scope.
Local Open Scope Z_scope.

Section Asm.
Context {T : Type} `{OT : Ops T}.
Notation state := (@state T).
Notation obj := (@obj T).
Notation val := (@val T).

Lemma runs_struct P x fs (s : state) : runs P (SStruct x fs) s (Ok (Clite.alloc s x (OS (map (fun f => (f, None)) fs)), Nrm)).
Proof. exists 1%nat. intros [|n] L; [lia|reflexivity]. Qed.
Lemma runs_istore P p i e (s : state) b o k z a a' :
  eval s p = Ok (VP b o) -> eval s i = Ok (VI k) -> eval s e = Ok (VI z) ->
  mem s b = Some (OI a) -> wr a (o + k) z = Ok a' ->
  runs P (SStore p i e) s (Ok (set_mem s b (Some (OI a')), Nrm)).
Proof.
  intros E1 E2 E3 M W. exists 1%nat. intros [|n] L; [lia|]. cbn [Clite.exec].
  rewrite E1, E2, E3. cbn [bind to_int]. unfold store. rewrite M. cbn [bind to_int]. now rewrite W.
Qed.

(** ** the object with all its arrays *)
Definition whole_addrs (P : place) (bc bv : Z) : list Z := (body_addrs P ++ [a_A P; bc; bv; a_b P; a_du P])%list.
Definition whole (V : env T) (P : place) (bc bv : Z) (w : MicroModel.work T) (h : Z -> option obj) : Prop :=
  body V P (w_vold w) (w_vnew w) (w_u w) h /\ mat_at h (a_A P) bc bv (w_A w) /\
  h (a_b P) = Some (OD (w_b w)) /\ h (a_du P) = Some (OD (w_du w)).
Definition blank_from (h : Z -> option obj) (k : Z) : Prop := forall c, k <= c -> h c = None.

(** solve, src/solve.cpp:32-44 *)
Theorem solve_text V P bc bv w h k du' :
  v_dim V = 3 -> NoDup (whole_addrs P bc bv) -> Forall (fun a => a < k) (whole_addrs P bc bv) ->
  blank_from h k -> whole V P bc bv w h -> solve V (w_A w) (w_b w) (w_du w) = Ok du' ->
  exists st, calls asm_prog "solve" [VP (a_this P) 0] h k (Ok (st, Nrm)) /\
    mem st (a_du P) = Some (OD du') /\ frame h (mem st) k [a_du P].
Proof.
  intros D3 ND FK BL (BD & MA & HB & HD) M. unfold solve in M. rewrite D3 in M.
  change (3 =? 2) with false in M. change (3 =? 3) with true in M. cbv iota zeta in M.
  apply bind_ok in M. destruct M as ((sv & du) & M & E). injection E as <-. 
  destruct (nd_app _ _ ND) as (N1 & N2 & N3).
  assert (LT : forall a, In a (whole_addrs P bc bv) -> a < k) by (rewrite <- Forall_forall; exact FK).
  assert (LB : forall a, In a (body_addrs P) -> a < k) by (intros a I; apply LT; apply in_app_iff; auto).
  assert (L5 : a_A P < k /\ bc < k /\ bv < k /\ a_b P < k /\ a_du P < k)
    by (splits; apply LT; apply in_app_iff; right; cbn; tauto).
  destruct L5 as (L1 & L2 & L3 & L4 & L5).
  set (e0 := fun y : string => if String.eqb y "this" then Some (@VP T (a_this P) 0) else None).
  set (s0 := mkSt e0 h k).
  set (s1 := Clite.alloc s0 "solver" (OS (map (fun f => (f, None)) ["max_its"; "its"; "min_tol"; "err"]))).
  set (s2 := set_mem s1 k (Some (OS [("max_its", Some (VI 2000)); ("its", None); ("min_tol", None); ("err", None)]))).
  set (s3 := set_mem s2 k (Some (sol_obj 2000 (dec 1 8) None None))).
  assert (O3 : forall c, c < k -> mem s3 c = h c) by (intros c L; cbn; destruct (Z.eqb_spec c k); [lia|reflexivity]).
  assert (B3 : body V P (w_vold w) (w_vnew w) (w_u w) (mem s3)) by (eapply body_ext; [|exact BD]; auto).
  assert (MA3 : mat_at (mem s3) (a_A P) bc bv (w_A w)) by (apply (mat_ext h); auto).
  pose proof (cgpd_struct_calls k (a_A P) bc bv (a_b P) (a_du P) (k + 1) (mem s3) (w_A w) 2000 (dec 1 8) None None
    (w_b w) (w_du w)) as C.
  assert (ND6 : NoDup [k; a_A P; bc; bv; a_b P; a_du P]).
  { constructor; [|exact N2]. cbn. lia. }
  specialize (C ND6). 
  assert (LT6 : forall c, In c [k; a_A P; bc; bv; a_b P; a_du P] -> c < k + 1) by (cbn; intros c I; lia).
  assert (BL3 : forall c, k + 1 <= c -> mem s3 c = None).
  { intros c L. cbn. destruct (Z.eqb_spec c k); [lia|]. apply BL. lia. }
  specialize (C LT6 BL3 ltac:(cbn; now rewrite Z.eqb_refl) MA3 ltac:(rewrite O3 by lia; exact HB)
    ltac:(rewrite O3 by lia; exact HD) 3 3 (nn V) 0 (ofZ 0)).
  unfold cg_result in C. unfold cg_its, cg_tol in M. rewrite M in C. destruct C as (st & C & _ & Hx & Fr).
  apply calls_ell in C.
  exists (mkSt (Clite.env s3) (mem st) (nxt st)). cbn [mem]. splits.
  - change (runs asm_prog (f_body ast_solve) s0 (Ok (mkSt (Clite.env s3) (mem st) (nxt st), Nrm))).
    cbn [f_body ast_solve block].
    apply (runs_seq _ _ _ _ s1); [apply runs_struct|].
    apply (runs_seq _ _ _ _ s2).
    { refine (runs_fld asm_prog _ _ _ s1 k (map (fun f => (f, None)) ["max_its"; "its"; "min_tol"; "err"]) None (VI 2000) _ _ _ _);
        [reflexivity|reflexivity|cbn; now rewrite Z.eqb_refl|reflexivity]. }
    apply (runs_seq _ _ _ _ s3).
    { refine (runs_fld asm_prog _ _ _ s2 k [("max_its", Some (VI 2000)); ("its", None); ("min_tol", None); ("err", None)]
        None (VD (dec 1 8)) _ _ _ _); [reflexivity|reflexivity|cbn; now rewrite Z.eqb_refl|reflexivity]. }
    assert (DM : forall i, eval s3 (EBin Eq (EFld (EV "this") "dim") (EI i)) = Ok (VI (if 3 =? i then 1 else 0))).
    { intros i. pose proof (this_fld V P _ _ _ s3 "dim" (VI (v_dim V)) B3 eq_refl ltac:(cbn; tauto)) as X.
      rewrite D3 in X. cbn [eval] in X |- *. rewrite X. reflexivity. }
    eapply runs_if; [apply DM|reflexivity|]. cbn [Z.eqb Pos.eqb].
    eapply runs_if; [apply DM|reflexivity|]. cbn [Z.eqb Pos.eqb].
    refine (runs_calls asm_prog _ _ s3 _ st _ _ C _); [|discriminate]. cbn [mapM].
    rewrite (this_fld V P _ _ _ s3 "A" (VP (a_A P) 0) B3 eq_refl) by (cbn; tauto).
    rewrite (this_fld V P _ _ _ s3 "dim" (VI (v_dim V)) B3 eq_refl) by (cbn; tauto).
    rewrite (this_fld V P _ _ _ s3 "nn" (VI (v_nx V * v_ny V * v_nz V)) B3 eq_refl) by (cbn; tauto).
    rewrite (this_fld V P _ _ _ s3 "b" (VP (a_b P) 0) B3 eq_refl) by (cbn; tauto).
    rewrite (this_fld V P _ _ _ s3 "du" (VP (a_du P) 0) B3 eq_refl) by (cbn; tauto).
    rewrite D3. reflexivity.
  - exact Hx.
  - intros c L NI. rewrite Fr; [now apply O3|lia|]. intros ->. apply NI. cbn. auto.
Qed.
End Asm.
