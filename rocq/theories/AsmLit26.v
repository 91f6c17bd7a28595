(** The syntax trees of src/assembly.cpp and src/solve.cpp against the model: solve for two dimensions, and
    assembly_rhs, assembly_mat and solve for both. *)
From Coq Require Import String FMapPositive.
From Verif Require Import Base Scalar MicroModel Clite CliteRules EllAst AsmAst Sym SymStep Grid EllModel AssemblyModel
  EllLit EllLit2 EllLit6 EllLit7 SymFold AsmCalls AsmLit AsmLit2 AsmLit13 AsmLit14 AsmLit15 AsmLit24 AsmLit25.
Local Open Scope string_scope.
Local Open Scope Z_scope.

Section Asm.
Context {T : Type} `{OT : Ops T}.
Notation state := (@state T).
Notation obj := (@obj T).
Notation val := (@val T).

(** ** solve for two dimensions, src/solve.cpp:32-44 *)
Theorem solve2D_text V P bc bv w h k du' :
  v_dim V = 2 -> NoDup (whole_addrs P bc bv) -> Forall (fun a => a < k) (whole_addrs P bc bv) ->
  blank_from h k -> whole V P bc bv w h -> solve V (w_A w) (w_b w) (w_du w) = Ok du' ->
  exists st, calls asm_prog "solve" [VP (a_this P) 0] h k (Ok (st, Nrm)) /\
    mem st (a_du P) = Some (OD du') /\ frame h (mem st) k [a_du P].
Proof.
  intros D2 ND FK BL (BD & MA & HB & HD) M. unfold solve in M. rewrite D2 in M.
  change (2 =? 2) with true in M. cbv iota zeta in M.
  apply bind_ok in M. destruct M as ((sv & du) & M & E). injection E as <-. 
  destruct (nd_app _ _ ND) as (N1 & N2 & N3).
  assert (LT : forall a, In a (whole_addrs P bc bv) -> a < k) by (rewrite <- Forall_forall; exact FK).
  assert (LB : forall a, In a (body_addrs P) -> a < k) by (intros a I; apply LT; apply in_app_iff; auto).
  assert (L5 : a_A P < k /\ bc < k /\ bv < k /\ a_b P < k /\ a_du P < k)
    by (splits; apply LT; apply in_app_iff; right; cbn; tauto).
  destruct L5 as (L1 & L2 & L3 & L4 & L5).
  set (e0 := fun y : string => if String.eqb y "this" then Some (@VP T (a_this P) 0) else None).
  set (s0 := mkSt e0 h k).
  set (s1 := Clite.alloc s0 "solver" (OS (map (fun f => (f, None)) ["max_its"; "its"; "min_tol"; "err"]))).
  set (s2 := set_mem s1 k (Some (OS [("max_its", Some (VI 2000)); ("its", None); ("min_tol", None); ("err", None)]))).
  set (s3 := set_mem s2 k (Some (sol_obj 2000 (dec 1 8) None None))).
  assert (O3 : forall c, c < k -> mem s3 c = h c) by (intros c L; cbn; destruct (Z.eqb_spec c k); [lia|reflexivity]).
  assert (B3 : body V P (w_vold w) (w_vnew w) (w_u w) (mem s3)) by (eapply body_ext; [|exact BD]; auto).
  assert (MA3 : mat_at (mem s3) (a_A P) bc bv (w_A w)) by (apply (mat_ext h); auto).
  pose proof (cgpd_2D_calls k (a_A P) bc bv (a_b P) (a_du P) (k + 1) (mem s3) (w_A w) 2000 (dec 1 8) None None
    (w_b w) (w_du w)) as C.
  assert (ND6 : NoDup [k; a_A P; bc; bv; a_b P; a_du P]).
  { constructor; [|exact N2]. cbn. lia. }
  specialize (C ND6). 
  assert (LT6 : forall c, In c [k; a_A P; bc; bv; a_b P; a_du P] -> c < k + 1) by (cbn; intros c I; lia).
  assert (BL3 : forall c, k + 1 <= c -> mem s3 c = None).
  { intros c L. cbn. destruct (Z.eqb_spec c k); [lia|]. apply BL. lia. }
  specialize (C LT6 BL3 ltac:(cbn; now rewrite Z.eqb_refl) MA3 ltac:(rewrite O3 by lia; exact HB)
    ltac:(rewrite O3 by lia; exact HD) 2 (v_nx V) (v_ny V) 0 (ofZ 0)).
  unfold cg_result in C. unfold cg_its, cg_tol in M. rewrite M in C. destruct C as (st & C & _ & Hx & Fr).
  apply calls_ell in C.
  exists (mkSt (Clite.env s3) (mem st) (nxt st)). cbn [mem]. splits.
  - change (runs asm_prog (f_body ast_solve) s0 (Ok (mkSt (Clite.env s3) (mem st) (nxt st), Nrm))).
    cbn [f_body ast_solve block].
    apply (runs_seq _ _ _ _ s1); [apply runs_struct|].
    apply (runs_seq _ _ _ _ s2).
    { refine (runs_fld asm_prog _ _ _ s1 k (map (fun f => (f, None)) ["max_its"; "its"; "min_tol"; "err"]) None (VI 2000) _ _ _ _);
        [reflexivity|reflexivity|cbn; now rewrite Z.eqb_refl|reflexivity]. }
    apply (runs_seq _ _ _ _ s3).
    { refine (runs_fld asm_prog _ _ _ s2 k [("max_its", Some (VI 2000)); ("its", None); ("min_tol", None); ("err", None)]
        None (VD (dec 1 8)) _ _ _ _); [reflexivity|reflexivity|cbn; now rewrite Z.eqb_refl|reflexivity]. }
    assert (DM : forall i, eval s3 (EBin Eq (EFld (EV "this") "dim") (EI i)) = Ok (VI (if 2 =? i then 1 else 0))).
    { intros i. pose proof (this_fld V P _ _ _ s3 "dim" (VI (v_dim V)) B3 eq_refl ltac:(cbn; tauto)) as X.
      rewrite D2 in X. cbn [eval] in X |- *. rewrite X. reflexivity. }
    eapply runs_if; [apply DM|reflexivity|]. cbn [Z.eqb Pos.eqb].
    refine (runs_calls asm_prog _ _ s3 _ st _ _ C _); [|discriminate]. cbn [mapM].
    rewrite (this_fld V P _ _ _ s3 "A" (VP (a_A P) 0) B3 eq_refl) by (cbn; tauto).
    rewrite (this_fld V P _ _ _ s3 "dim" (VI (v_dim V)) B3 eq_refl) by (cbn; tauto).
    rewrite (this_fld V P _ _ _ s3 "nx" (VI (v_nx V)) B3 eq_refl) by (cbn; tauto).
    rewrite (this_fld V P _ _ _ s3 "ny" (VI (v_ny V)) B3 eq_refl) by (cbn; tauto).
    rewrite (this_fld V P _ _ _ s3 "b" (VP (a_b P) 0) B3 eq_refl) by (cbn; tauto).
    rewrite (this_fld V P _ _ _ s3 "du" (VP (a_du P) 0) B3 eq_refl) by (cbn; tauto).
    rewrite D2. reflexivity.
  - exact Hx.
  - intros c L NI. rewrite Fr; [now apply O3|lia|]. intros ->. apply NI. cbn. auto.
Qed.

(** ** both dimensions *)
Theorem assembly_rhs_any V A vold vnew u b h k bl fl b' nl vnew' nrm :
  v_dim V = 2 \/ v_dim V = 3 -> dec 0 1 = (ofZ 0 : T) -> NoDup (body_addrs A ++ [a_b A; bl])%list ->
  Forall (fun a => a < k) (body_addrs A ++ [a_b A; bl])%list -> body V A vold vnew u h ->
  h (a_b A) = Some (OD b) -> h bl = Some (OI fl) -> alen fl = 1 ->
  assembly_rhs V u vold vnew b = Ok (b', nl, vnew', nrm) ->
  exists st fl',
    calls asm_prog "assembly_rhs" [VP (a_this A) 0; VP bl 0] h k (Ok (st, Ret (VD nrm))) /\
    body V A vold vnew' u (mem st) /\ mem st (a_b A) = Some (OD b') /\
    mem st bl = Some (OI fl') /\ alen fl' = 1 /\ aget fl' 0 = Some (if nl then 1 else 0) /\
    frame h (mem st) k [a_vn A; a_b A; bl] /\ k <= nxt st.
Proof. intros [D|D]; [now apply assembly_rhs2D_text|now apply assembly_rhs_text]. Qed.
Theorem assembly_mat_any V P vold vnew u A bc bv h k A' vnew' :
  v_dim V = 2 \/ v_dim V = 3 -> NoDup (mat_addrs P bc bv) -> Forall (fun a => a < k) (mat_addrs P bc bv) ->
  body V P vold vnew u h -> mat_at h (a_A P) bc bv A ->
  assembly_mat V u vold vnew A = Ok (A', vnew') ->
  exists st, calls asm_prog "assembly_mat" [VP (a_this P) 0] h k (Ok (st, Nrm)) /\
    body V P vold vnew' u (mem st) /\ mat_at (mem st) (a_A P) bc bv A' /\
    frame h (mem st) k [a_vn P; bv] /\ k <= nxt st.
Proof.
  intros [D|D] ND FK BD MA M; [|exact (assembly_mat_text V P vold vnew u A bc bv h k A' vnew' D ND FK BD MA M)].
  destruct (assembly_mat2D_text V P vold vnew u A bc bv h k A' vnew' D ND FK BD MA M) as (st & C & -> & B & M' & F & L).
  exists st. split; [exact C|]. split; [exact B|]. split; [exact M'|]. split; [|exact L].
  intros c LC N. apply F; [exact LC|]. intros I. apply N. now right.
Qed.
Theorem solve_any V P bc bv w h k du' :
  v_dim V = 2 \/ v_dim V = 3 -> NoDup (whole_addrs P bc bv) -> Forall (fun a => a < k) (whole_addrs P bc bv) ->
  blank_from h k -> whole V P bc bv w h -> solve V (w_A w) (w_b w) (w_du w) = Ok du' ->
  exists st, calls asm_prog "solve" [VP (a_this P) 0] h k (Ok (st, Nrm)) /\
    mem st (a_du P) = Some (OD du') /\ frame h (mem st) k [a_du P].
Proof. intros [D|D]; [now apply solve2D_text|now apply solve_text]. Qed.
End Asm.
