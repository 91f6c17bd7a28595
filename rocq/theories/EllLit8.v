(** Concrete memories for the claims on the text of src/ell.cpp, and the NULL arguments. *)
From Coq Require Import String Reals.
From Verif Require Import Base Scalar FixInst EllModel EllSpec EllInit EllAsm EllOp EllFinal EllProps CgPure CgFinal CgProps JacProps
  Clite CliteRules CliteEmit EllAst EllLit EllLit2 EllLit3 EllLit6 EllLit7.
Local Open Scope string_scope.
Local Open Scope Z_scope.

Section Null.
Context {T : Type} `{OT : Ops T}.
Lemma text_null f (v0 vm v2 v3 v4 vb vx : @val T) h K :
  In f ["ell_solve_cgpd_2D"; "ell_solve_cgpd_struct"; "ell_solve_jacobi_2D"] ->
  (forall v, In v [vm; vb; vx] -> v = VNull \/ exists c o, v = VP c o) -> In VNull [vm; vb; vx] ->
  exists st, calls ell_prog f [v0; vm; v2; v3; v4; vb; vx] h K (Ok (st, Ret (VI 1))) /\ mem st = h /\ nxt st = K.
Proof.
  intros Hf HP HN.
  assert (E : exists e, match ell_prog f with
    Some d => bindp (f_params d) [v0; vm; v2; v3; v4; vb; vx] (fun _ => None) = Ok e | None => False end).
  { cbn [In] in Hf. destruct Hf as [<-|[<-|[<-|[]]]]; eexists; reflexivity. }
  destruct E as (e & E). exists (mkSt e h K).
  split; [|split; reflexivity]. eapply null_calls; eauto.
Qed.

(** memory with the six objects of a solver call at 0, ..., 5 *)
Definition heap6 (mi : Z) (tol : T) (m : ell T) (b x : arr T) : @heap T :=
  ((fun c => if c =? 0 then Some (sol_obj mi tol None None) else if c =? 1 then Some (mat_obj m 2 3) else
             if c =? 2 then Some (OI (e_cols m)) else if c =? 3 then Some (OD (e_vals m)) else
             if c =? 4 then Some (OD b) else if c =? 5 then Some (OD x) else None), 6).
Lemma heap6_ok mi tol m b x : let H := heap6 mi tol m b x in
  NoDup [0; 1; 2; 3; 4; 5] /\ (forall c, In c [0; 1; 2; 3; 4; 5] -> c < snd H) /\
  (forall c, snd H <= c -> fst H c = None) /\ fst H 0 = Some (sol_obj mi tol None None) /\
  mat_at (fst H) 1 2 3 m /\ fst H 4 = Some (OD b) /\ fst H 5 = Some (OD x).
Proof.
  cbn zeta. split; [repeat constructor; cbn; clear; intuition discriminate|].
  split; [cbn; intros c; lia|]. split.
  - intros c L. cbn in L |- *. rewrite !(proj2 (Z.eqb_neq c _)) by lia. reflexivity.
  - split; [reflexivity|]. split; [split; [|split]; reflexivity|]. split; reflexivity.
Qed.
End Null.

(** a product computed by the text: (1 2; 3 4) (5, 6) = (17, 39) *)
Definition two {A} (a b : A) : arr A := match (v <- wr (malloc 2) 0 a ;; wr v 1 b) with Ok v => v | Err _ => malloc 2 end.
Definition four {A} (a b c d : A) : arr A :=
  match (v <- wr (malloc 4) 0 a ;; v <- wr v 1 b ;; v <- wr v 2 c ;; wr v 3 d) with Ok v => v | Err _ => malloc 4 end.
Definition small : ell fx := mkEll 2 2 2 (four 0 1 0 1) (four (ofZ 1) (ofZ 2) (ofZ 3) (ofZ 4)).
Definition small_heap : Z -> option (@obj fx) := fst (heap6 3 (ofZ 1) small (two (ofZ 5) (ofZ 6)) (malloc 2)).

Lemma small_run : exists st, calls ell_prog "ell_mvp_2D" [VP 1 0; VP 4 0; VP 5 0] small_heap 6 (Ok (st, Nrm)) /\
  exists y, mem st 5 = Some (OD y) /\ rd y 0 = Ok (ofZ 17) /\ rd y 1 = Ok (ofZ 39).
Proof.
  pose proof (heap6_ok 3 (ofZ 1) small (two (ofZ 5) (ofZ 6)) (malloc 2)) as (_ & _ & _ & _ & M & B & X).
  pose proof (mvp_calls 1 2 3 4 5 6 small_heap small _ _ M B X ltac:(lia) ltac:(lia) ltac:(lia) ltac:(lia)) as G.
  assert (E : match ell_mvp_2D small (two (ofZ 5) (ofZ 6)) (malloc 2) with
     Ok y => rd y 0 = Ok (ofZ 17) /\ rd y 1 = Ok (ofZ 39) | Err _ => False end) by (vm_compute; split; reflexivity).
  destruct (ell_mvp_2D _ _ _) as [y|]; [|destruct E]. destruct G as (st & C & M5 & _).
  exists st. split; [exact C|]. exists y. split; [exact M5|exact E].
Qed.

(** the memory of an assembly: the struct without fields set, the caller's element matrix, x and y *)
Lemma asm_case : exists (H : @heap R) x xf y a0 els, let nF := 3 in let nx := 4 in let ny := 4 in let nz := 4 in
  (forall ex ey ez, In (ex, ey, ez) els -> 0 <= ex < nx - 1 /\ 0 <= ey < ny - 1 /\ 0 <= ez < nz - 1) /\
  List.length els = 2%nat /\
  NoDup [0; 1; 2; 3] /\ (forall c, In c [0; 1; 2; 3] -> c < snd H) /\ (forall c, snd H <= c -> fst H c = None) /\
  fst H 0 = Some (OS [("nrow", None); ("ncol", None); ("nnz", None); ("cols", None); ("vals", None)]) /\
  fst H 1 = Some (OD a0) /\ fst H 2 = Some (OD x) /\ fst H 3 = Some (OD y) /\
  rep x (nx * ny * nz * nF) xf /\ alen y = nx * ny * nz * nF.
Proof.
  set (x := const_arr 192 2%R). set (y := @malloc R 192). set (a := @malloc R 576).
  exists ((fun c => if c =? 0 then Some (OS [("nrow", None); ("ncol", None); ("nnz", None); ("cols", None); ("vals", None)])
     else if c =? 1 then Some (OD a) else if c =? 2 then Some (OD x) else if c =? 3 then Some (OD y) else None), 4).
  exists x, (fun _ => 2%R), y, a, [(0, 1, 2); (1, 1, 2)]. cbn zeta. cbn [fst snd].
  split; [|split; [reflexivity|]].
  { intros ex ey ez [[= <- <- <-]|[[= <- <- <-]|[]]]; lia. }
  split; [repeat constructor; cbn; clear; intuition discriminate|].
  split; [cbn; intros c; lia|]. split.
  { intros c L. rewrite !(proj2 (Z.eqb_neq c _)) by lia. reflexivity. }
  do 4 (split; [reflexivity|]). split; [apply const_arr_rep|reflexivity].
Qed.

(** the memory of a solver call with a nonzero residual *)
Lemma cg_text_case : exists (m : ell R) b x bf xf (H : @heap R), wf_ell m (slots CG2D) 2 (nodes CG2D 4 4 1) /\
  rep b (nodes CG2D 4 4 1 * 2) bf /\ rep x (nodes CG2D 4 4 1 * 2) xf /\ residual_norm m bf xf <> 0%R /\
  NoDup [0; 1; 2; 3; 4; 5] /\ (forall c, In c [0; 1; 2; 3; 4; 5] -> c < snd H) /\
  (forall c, snd H <= c -> fst H c = None) /\ fst H 0 = Some (sol_obj 100 (1 / 1000)%R None None) /\
  mat_at (fst H) 1 2 3 m /\ fst H 4 = Some (OD b) /\ fst H 5 = Some (OD x).
Proof.
  destruct cg_case as (m & W & b & x & bf & xf & B & X & N).
  exists m, b, x, bf, xf, (heap6 100 (1 / 1000)%R m b x). do 4 (split; [assumption|]). apply heap6_ok.
Qed.

Section Gather.
Context {T : Type} `{OT : Ops T}.

Lemma fill_refines bm bc bv K h (m : ell T) :
  bm < K -> bc < K -> bv < K -> bm <> bv -> bc <> bv -> mat_at h bm bc bv m ->
  (fill_result bm bc bv K h "ell_set_zero_mat" [VP bm 0] (Ret (VI 0)) (ell_set_zero_mat m)) /\
  (forall nF nx ny, fill_result bm bc bv K h "ell_set_bc_2D" [VP bm 0; VI nF; VI nx; VI ny] Nrm
     (ell_set_bc_2D m nF nx ny)) /\
  (forall nF nx ny nz, fill_result bm bc bv K h "ell_set_bc_3D" [VP bm 0; VI nF; VI nx; VI ny; VI nz] Nrm
     (ell_set_bc_3D m nF nx ny nz)) /\
  (forall ba ae Ae, ba < K -> ba <> bv -> h ba = Some (OD ae) ->
    (forall ex ey nF nx ny, (forall j, 0 <= j < 4 * nF * (4 * nF) -> rd ae j = Ok (Ae j)) ->
      fill_result bm bc bv K h "ell_add_struct2D" [VP bm 0; VI ex; VI ey; VP ba 0; VI nF; VI nx; VI ny] Nrm
        (ell_add_struct2D m ex ey Ae nF nx ny)) /\
    (forall ex ey ez nF nx ny nz, (forall j, 0 <= j < 8 * nF * (8 * nF) -> rd ae j = Ok (Ae j)) ->
      fill_result bm bc bv K h "ell_add_struct3D"
        [VP bm 0; VI ex; VI ey; VI ez; VP ba 0; VI nF; VI nx; VI ny; VI nz] Nrm
        (ell_add_struct3D m ex ey ez Ae nF nx ny nz))).
Proof.
  intros L1 L2 L3 N1 N2 M. split; [apply zero_calls; assumption|].
  split; [intros; apply bc2_calls; assumption|]. split; [intros; apply bc3_calls; assumption|].
  intros ba ae Ae L4 N3 Ha. split; intros; [eapply add2_calls | eapply add3_calls]; eassumption.
Qed.

Lemma init_refines bm K h o1 o2 o3 o4 o5 : bm < K ->
  h bm = Some (OS [("nrow", o1); ("ncol", o2); ("nnz", o3); ("cols", o4); ("vals", o5)]) ->
  (forall nF nx ny, init_result (T := T) bm K h "ell_init_2D" [VP bm 0; VI nF; VI nx; VI ny] (ell_init_2D nF nx ny)) /\
  (forall nF nx ny nz, init_result (T := T) bm K h "ell_init_3D" [VP bm 0; VI nF; VI nx; VI ny; VI nz] (ell_init_3D nF nx ny nz)).
Proof. intros L M. split; intros; [eapply init2_calls | eapply init3_calls]; eassumption. Qed.

Lemma fill_case (tol : T) m b x : let H := heap6 7 tol m b x in
  1 < snd H /\ 2 < snd H /\ 3 < snd H /\ 1 <> 3 /\ 2 <> 3 /\ mat_at (fst H) 1 2 3 m /\
  fst H 1 = Some (OS [("nrow", Some (VI (e_nrow m))); ("ncol", Some (VI (e_ncol m))); ("nnz", Some (VI (e_nnz m)));
    ("cols", Some (VP 2 0)); ("vals", Some (VP 3 0))]).
Proof.
  cbn zeta. cbn [snd heap6]. do 5 (split; [lia|]). split; [split; [|split]; reflexivity|reflexivity].
Qed.

Lemma free_once bm bc bv K h (m : ell T) :
  bm < K -> bv < K -> bm <> bv -> mat_at h bm bc bv m -> bc < K -> bc <> bv -> exists st,
  calls ell_prog "ell_free" [VP bm 0] h K (Ok (st, Nrm)) /\
  mem st bc = None /\ mem st bv = None /\ nxt st = K /\
  (forall c, c <> bc -> c <> bv -> mem st c = h c) /\ mem st bm = Some (mat_obj m bc bv).
Proof.
  intros L1 L2 N1 M L3 N2. pose proof M as (M1 & M2 & _).
  assert (N3 : bm <> bc) by (intros ->; unfold mat_obj in M1; congruence).
  destruct (free_calls bm bc bv K h m) as (st & C & A1 & A2 & A3 & A4); try assumption.
  exists st. do 5 (split; [assumption|]). rewrite A4 by assumption. exact M1.
Qed.

Lemma free_twice_bad bm bc bv K h (m : ell T) :
  bm < K -> bv < K -> bm <> bv -> mat_at h bm bc bv m -> bc < K -> bc <> bv -> exists st,
  calls ell_prog "ell_free" [VP bm 0] h K (Ok (st, Nrm)) /\
  calls ell_prog "ell_free" [VP bm 0] (mem st) (nxt st) (Err BadPtr).
Proof.
  intros L1 L2 N1 M L3 N2. destruct (free_once bm bc bv K h m) as (st & C & A1 & A2 & A3 & A4 & A5); try assumption.
  exists st. split; [exact C|]. eapply free_twice; eassumption.
Qed.
End Gather.

(** the Jacobi solver returns, and its two arrays stay *)
Lemma jacobi_leaks bs bm bc bv bb bx K h (m : ell R) mi tol it0 er0 b x bf xf nF nx ny :
  NoDup [bs; bm; bc; bv; bb; bx] -> (forall c, In c [bs; bm; bc; bv; bb; bx] -> c < K) ->
  (forall c, K <= c -> h c = None) ->
  h bs = Some (sol_obj mi tol it0 er0) -> mat_at h bm bc bv m -> h bb = Some (OD b) -> h bx = Some (OD x) ->
  wf_ell m 9 nF (nx * ny) -> rep b (nx * ny * nF) bf -> rep x (nx * ny * nF) xf -> 1 <= mi ->
  exists st k e, calls ell_prog "ell_solve_jacobi_2D" [VP bs 0; VP bm 0; VI nF; VI nx; VI ny; VP bb 0; VP bx 0]
      h K (Ok (st, Ret (VI 0))) /\ h K = None /\ h (K + 1) = None /\
    mem st K = Some (OD k) /\ mem st (K + 1) = Some (OD e).
Proof.
  intros ND old F Hs Hm Hb Hx W B X L.
  destruct (jacobi_truth (mkSolver mi 0 tol 0%R) m nF nx ny b x bf xf W B X L) as (sv' & x' & xf' & E & _).
  pose proof (jacobi_calls bs bm bc bv bb bx K h m mi tol it0 er0 b ND old Hs Hm Hb F x Hx nF nx ny 0 0%R) as J.
  rewrite E in J. destruct J as (st & k & e & J1 & _ & _ & J2 & J3 & _). exists st, k, e.
  split; [exact J1|]. split; [apply F; lia|]. split; [apply F; lia|]. auto.
Qed.
