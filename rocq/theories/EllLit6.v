(** Calls of the functions of src/ell.cpp that build and fill the matrix. *)
From Coq Require Import String.
From Verif Require Import Base Scalar EllModel Clite CliteRules CliteEmit EllAst EllLit EllLit4 EllLit5.
Local Open Scope string_scope.
Local Open Scope Z_scope.

Section Calls.
Context {T : Type} `{OT : Ops T}.
Notation state := (@state T).

Section Fill.
Variables (bm bc bv K : Z) (h : Z -> option (@obj T)) (m : ell T).
Hypothesis Lm : bm < K.
Hypothesis Lv : bv < K.
Hypothesis Nv : bm <> bv.
Hypothesis Hm : mat_at h bm bc bv m.

(** a call of [f] that does [mo] on the values of m: the array of values is the result, everything
    allocated before the call is unchanged *)
Definition fill_result (f : string) (vs : list (@val T)) (r : sig) (mo : res (ell T)) : Prop :=
  match mo with
  | Ok m' => exists st, calls ell_prog f vs h K (Ok (st, r)) /\ mat_at (mem st) bm bc bv m' /\
      forall c, c < K -> c <> bv -> mem st c = h c
  | Err _ => exists w, calls ell_prog f vs h K (Err w)
  end.

Hypothesis Lc : bc < K.
Hypothesis Nc : bc <> bv.

(** what is known at the entry *)
Lemma entry_knows e ki kd :
  e "m" = Some (VP bm 0) ->
  (forall x v, In (x, v) ki -> e x = Some v) ->
  (forall x n g, In (x, (n, g)) kd -> kdbl bv (mkSt e h K) x n g) ->
  knows bv (mkKn ki (kfm bc bv m) [] kd) (mkSt e h K).
Proof.
  intros E V D. destruct Hm as (H1 & _). split; [exact Lv|]. split; [exact V|]. split; [|split].
  - cbn [CliteEmit.kf]. intros x f v Hx. unfold kfm in Hx. cbn [In] in Hx. unfold mat_obj in H1.
    repeat (destruct Hx as [[= <- <- <-]|Hx]; [eexists; eexists; split; [exact E|]; split; [exact Nv|];
      split; [exact Lm|]; split; [exact H1 | reflexivity]|]). destruct Hx.
  - intros x l [].
  - exact D.
Qed.

Lemma fill_of f d vs e step k l :
  ell_prog f = Some d -> bindp (f_params d) vs (fun _ => None) = Ok e ->
  knows bv k (mkSt e h K) -> emits ell_prog bv T OD step k (f_body d) l ->
  fill_result f vs Nrm (v <- foldM step l (e_vals m) ;; Ok (set_vals m v)).
Proof.
  intros P B Kn E. pose proof Hm as (H1 & H2 & H3). specialize (E _ (e_vals m) Kn H3).
  unfold fill_result, calls. rewrite P, B.
  destruct (foldM step l (e_vals m)) as [a|w]; cbn [bind CliteRules.goes] in *.
  - destruct E as (s' & R & _ & (_ & X) & M). exists s'. cbn [nxt mem] in X.
    split; [exact R|]. split; [|intros c L N; now rewrite X].
    split; [|split]; [rewrite X by assumption; exact H1 | rewrite X by assumption; exact H2 | exact M].
  - exact E.
Qed.

(** src/ell.cpp:401-535 *)
Lemma bc2_calls nF nx ny :
  fill_result "ell_set_bc_2D" [VP bm 0; VI nF; VI nx; VI ny] Nrm (ell_set_bc_2D m nF nx ny).
Proof.
  unfold ell_set_bc_2D, run_stores. eapply fill_of; [reflexivity | reflexivity | | apply bc2_emits].
  apply entry_knows; [reflexivity| |intros ? ? ? []].
  cbn [In]. intros x v [[= <- <-]|[[= <- <-]|[[= <- <-]|[]]]]; reflexivity.
Qed.

(** src/ell.cpp:537-705 *)
Lemma bc3_calls nF nx ny nz :
  fill_result "ell_set_bc_3D" [VP bm 0; VI nF; VI nx; VI ny; VI nz] Nrm (ell_set_bc_3D m nF nx ny nz).
Proof.
  unfold ell_set_bc_3D, run_stores. eapply fill_of; [reflexivity | reflexivity | | apply bc3_emits].
  apply entry_knows; [reflexivity| |intros ? ? ? []].
  cbn [In]. intros x v [[= <- <-]|[[= <- <-]|[[= <- <-]|[[= <- <-]|[]]]]]; reflexivity.
Qed.

(** src/ell.cpp:329-358; the element matrix is an array of (4 nFields)^2 doubles *)
Lemma add2_calls ba ae Ae ex ey nF nx ny :
  ba < K -> ba <> bv -> h ba = Some (OD ae) ->
  (forall j, 0 <= j < 4 * nF * (4 * nF) -> rd ae j = Ok (Ae j)) ->
  fill_result "ell_add_struct2D" [VP bm 0; VI ex; VI ey; VP ba 0; VI nF; VI nx; VI ny] Nrm
    (ell_add_struct2D m ex ey Ae nF nx ny).
Proof.
  intros La Na Ha R. unfold ell_add_struct2D, run_adds.
  eapply fill_of; [reflexivity | reflexivity | | apply add2_emits].
  apply entry_knows; [reflexivity| |].
  - cbn [In]. intros x v [[= <- <-]|[[= <- <-]|[[= <- <-]|[[= <- <-]|[[= <- <-]|[]]]]]]; reflexivity.
  - cbn [In]. intros x n g [[= <- <- <-]|[]]. exists ba, ae. split; [reflexivity|]. auto.
Qed.

(** src/ell.cpp:360-399 *)
Lemma add3_calls ba ae Ae ex ey ez nF nx ny nz :
  ba < K -> ba <> bv -> h ba = Some (OD ae) ->
  (forall j, 0 <= j < 8 * nF * (8 * nF) -> rd ae j = Ok (Ae j)) ->
  fill_result "ell_add_struct3D" [VP bm 0; VI ex; VI ey; VI ez; VP ba 0; VI nF; VI nx; VI ny; VI nz] Nrm
    (ell_add_struct3D m ex ey ez Ae nF nx ny nz).
Proof.
  intros La Na Ha R. unfold ell_add_struct3D, run_adds.
  eapply fill_of; [reflexivity | reflexivity | | apply add3_emits].
  apply entry_knows; [reflexivity| |].
  - cbn [In]. intros x v [[= <- <-]|[[= <- <-]|[[= <- <-]|[[= <- <-]|[[= <- <-]|[[= <- <-]|[[= <- <-]|[]]]]]]]]; reflexivity.
  - cbn [In]. intros x n g [[= <- <- <-]|[]]. exists ba, ae. split; [reflexivity|]. auto.
Qed.

(** src/ell.cpp:40-46 *)
Lemma zero_calls : fill_result "ell_set_zero_mat" [VP bm 0] (Ret (VI 0)) (ell_set_zero_mat m).
Proof.
  set (e := fun y : string => if String.eqb y "m" then Some (@VP T bm 0) else None).
  assert (Kn : knows bv (mkKn [] (kfm bc bv m) [] []) (mkSt e h K)).
  { apply entry_knows; [reflexivity| intros ? ? [] | intros ? ? ? []]. }
  pose proof Hm as (H1 & H2 & H3).
  pose proof (zero_emits bc bv m (mkSt e h K) (e_vals m) Kn H3) as E.
  unfold fill_result, ell_set_zero_mat, run_stores.
  change (calls ell_prog "ell_set_zero_mat" [VP bm 0] h K)
    with (runs ell_prog (f_body ast_ell_set_zero_mat) (mkSt e h K)).
  cbn [f_body ast_ell_set_zero_mat block].
  change (foldM wstep) with (foldM (fun (a : arr T) w => wr a (fst w) (snd w))) in E.
  destruct (foldM _ (zero_stores (e_nrow m) (e_nnz m)) (e_vals m)) as [a|w]; cbn [bind CliteRules.goes] in *.
  - destruct E as (s' & R & _ & (_ & X) & M). exists s'. cbn [nxt mem] in X.
    split; [eapply runs_seq; [exact R | apply runs_ret; reflexivity]|].
    split; [|intros c L N; now rewrite X].
    split; [|split]; [rewrite X by assumption; exact H1 | rewrite X by assumption; exact H2 | exact M].
  - destruct E as (w' & R). exists w'. now apply runs_seq_err.
Qed.

(** src/ell.cpp:32-38: both arrays are released; the fields keep pointing at them *)
Lemma free_calls : exists st,
  calls ell_prog "ell_free" [VP bm 0] h K (Ok (st, Nrm)) /\
  mem st bc = None /\ mem st bv = None /\ nxt st = K /\
  forall c, c <> bc -> c <> bv -> mem st c = h c.
Proof.
  intros. pose proof Hm as (H1 & H2 & H3). unfold mat_obj in H1.
  assert (Nm : bm <> bc) by (intros ->; congruence).
  set (e := fun y : string => if String.eqb y "m" then Some (@VP T bm 0) else None).
  set (s1 := set_mem (mkSt e h K) bc None).
  exists (set_mem s1 bv None).
  split; [|split; [|split; [|split]]].
  - change (calls ell_prog "ell_free" [VP bm 0] h K)
      with (runs ell_prog (f_body ast_ell_free) (mkSt e h K)).
    cbn [f_body ast_ell_free block].
    assert (E1 : eval (mkSt e h K) (EFld (EV "m") "cols") = Ok (VP bc 0)).
    { cbn [eval env e String.eqb Ascii.eqb Bool.eqb of_option bind load_fld mem]. rewrite H1. reflexivity. }
    assert (M1 : mem s1 bm = h bm) by (unfold s1; cbn; destruct (Z.eqb_spec bm bc); [contradiction|reflexivity]).
    assert (E2 : eval s1 (EFld (EV "m") "vals") = Ok (VP bv 0)).
    { cbn [eval]. change (env s1 "m") with (Some (@VP T bm 0)). cbn [of_option bind load_fld].
      rewrite M1, H1. reflexivity. }
    eapply runs_seq.
    + eapply (runs_if _ _ _ _ _ (VI 1) true); [|reflexivity|].
      * cbn [eval] in *. rewrite E1. reflexivity.
      * eapply runs_free; [exact E1 | exact H2].
    + fold s1. eapply (runs_if _ _ _ _ _ (VI 1) true); [|reflexivity|].
      * cbn [eval] in *. rewrite E2. reflexivity.
      * eapply runs_free; [exact E2|]. unfold s1. cbn. destruct (Z.eqb_spec bv bc); [congruence|exact H3].
  - cbn. destruct (bc =? bv); [reflexivity|]. now rewrite Z.eqb_refl.
  - cbn. now rewrite Z.eqb_refl.
  - reflexivity.
  - intros c N1 N2. cbn. destruct (Z.eqb_spec c bv); [contradiction|]. destruct (Z.eqb_spec c bc); [contradiction|reflexivity].
Qed.

End Fill.

(** a second call: the block is released twice *)
Lemma free_twice bm bc bv K (h : Z -> option (@obj T)) (m : ell T) :
  h bm = Some (mat_obj m bc bv) -> h bc = None ->
  calls ell_prog "ell_free" [VP bm 0] h K (Err BadPtr).
Proof.
  intros H1 H2. unfold mat_obj in H1.
  set (e := fun y : string => if String.eqb y "m" then Some (@VP T bm 0) else None).
  change (calls ell_prog "ell_free" [VP bm 0] h K)
    with (runs ell_prog (f_body ast_ell_free) (mkSt e h K)).
  cbn [f_body ast_ell_free block].
  assert (E1 : eval (mkSt e h K) (EFld (EV "m") "cols") = Ok (VP bc 0)).
  { cbn [eval env e String.eqb Ascii.eqb Bool.eqb of_option bind load_fld mem]. rewrite H1. reflexivity. }
  apply runs_seq_err. eapply (runs_if _ _ _ _ _ (VI 1) true); [|reflexivity|].
  - cbn [eval] in *. rewrite E1. reflexivity.
  - exists 1%nat. intros [|n] L; [lia|]. cbn [exec]. rewrite E1. cbn [bind mem]. now rewrite H2.
Qed.

(** ** Initialisation *)
Section Init.
Variables (bm K : Z) (h : Z -> option (@obj T)) (o1 o2 o3 o4 o5 : option (@val T)).
Hypothesis Lm : bm < K.
Hypothesis Hm : h bm = Some (OS [("nrow", o1); ("ncol", o2); ("nnz", o3); ("cols", o4); ("vals", o5)]).

(** the struct is filled in, the two new arrays are at K and K + 1, the rest is unchanged *)
Definition init_result (f : string) (vs : list (@val T)) (mo : res (ell T)) : Prop :=
  match mo with
  | Ok m' => exists st, calls ell_prog f vs h K (Ok (st, Nrm)) /\ mat_at (mem st) bm K (K + 1) m' /\
      forall c, c < K -> c <> bm -> mem st c = h c
  | Err _ => exists w, calls ell_prog f vs h K (Err w)
  end.

(** the state before the loops *)
Definition pre_mem (nnz nrow : Z) (s : state) : Prop :=
  env s "m" = Some (VP bm 0) /\ nxt s = K + 2 /\
  mem s bm = Some (OS [("nrow", Some (VI nrow)); ("ncol", Some (VI nrow)); ("nnz", Some (VI nnz));
                       ("cols", Some (VP K 0)); ("vals", Some (VP (K + 1) 0))]) /\
  mem s K = Some (OI (malloc (nnz * nrow))) /\ mem s (K + 1) = Some (OD (malloc (nnz * nrow))) /\
  forall c, c < K -> c <> bm -> mem s c = h c.

Definition alloc_code : stmt -> stmt := fun d =>
  SSeq (SFld (EV "m") "nnz" (EV "nnz")) (SSeq (SFld (EV "m") "nrow" (EV "nrow"))
 (SSeq (SFld (EV "m") "ncol" (EV "nrow"))
 (SSeq (SMalloc "new_cols" TInt (EBin Mul (EV "nnz") (EV "nrow")))
 (SSeq (SFld (EV "m") "cols" (EV "new_cols"))
 (SSeq (SMalloc "new_vals" TDbl (EBin Mul (EV "nnz") (EV "nrow")))
 (SSeq (SFld (EV "m") "vals" (EV "new_vals")) d)))))).

Lemma alloc_goes {A} s d nnz nrow (mo : res A) Q :
  env s "m" = Some (VP bm 0) -> env s "nnz" = Some (VI nnz) -> env s "nrow" = Some (VI nrow) ->
  mem s = h -> nxt s = K ->
  (forall s', pre_mem nnz nrow s' -> keeps ["new_cols"; "new_vals"] s s' -> goes ell_prog d s' mo Q) ->
  goes ell_prog (alloc_code d) s mo Q.
Proof.
  intros E1 E2 E3 M N H. unfold alloc_code. destruct s as [e me nx]. cbn [env mem nxt] in *. subst me nx.
  assert (B1 : (bm =? K) = false) by (apply Z.eqb_neq; lia).
  assert (B2 : (bm =? K + 1) = false) by (apply Z.eqb_neq; lia).
  assert (B3 : (K =? bm) = false) by (apply Z.eqb_neq; lia).
  assert (B4 : (K + 1 =? bm) = false) by (apply Z.eqb_neq; lia).
  assert (B5 : (K =? K + 1) = false) by (apply Z.eqb_neq; lia).
  Ltac s_ := cbn [eval env set_mem alloc]; cbn [String.eqb Ascii.eqb Bool.eqb].
  eapply goes_pre; [eapply runs_fld; [s_; rewrite E1; reflexivity | s_; rewrite E2; reflexivity | exact Hm | reflexivity]|].
  eapply goes_pre; [eapply runs_fld; [s_; rewrite E1; reflexivity | s_; rewrite E3; reflexivity
    | cbn [mem set_mem]; rewrite Z.eqb_refl; reflexivity | reflexivity]|].
  eapply goes_pre; [eapply runs_fld; [s_; rewrite E1; reflexivity | s_; rewrite E3; reflexivity
    | cbn [mem set_mem]; rewrite Z.eqb_refl; reflexivity | reflexivity]|].
  eapply goes_pre; [eapply runs_malloc; s_; rewrite E2, E3; reflexivity|].
  eapply goes_pre; [eapply runs_fld; [s_; rewrite E1; reflexivity | s_; reflexivity
    | cbn [mem set_mem alloc nxt]; rewrite B1, Z.eqb_refl; reflexivity | reflexivity]|].
  eapply goes_pre; [eapply runs_malloc; s_; rewrite E2, E3; reflexivity|].
  eapply goes_pre; [eapply runs_fld; [s_; rewrite E1; reflexivity | s_; reflexivity
    | cbn [mem set_mem alloc nxt]; rewrite B2, Z.eqb_refl; reflexivity | reflexivity]|].
  apply H.
  - split; [s_; exact E1|]. split; [cbn; lia|]. cbn [mem set_mem alloc nxt fset String.eqb Ascii.eqb Bool.eqb].
    split; [rewrite Z.eqb_refl; reflexivity|].
    split; [rewrite B3, B5, Z.eqb_refl; reflexivity|].
    split; [rewrite B4, Z.eqb_refl; reflexivity|].
    intros c L C. rewrite !(proj2 (Z.eqb_neq c _)) by lia. reflexivity.
  - intros x Hx. cbn [mems] in Hx. s_.
    destruct (String.eqb x "new_cols"); [discriminate|]. destruct (String.eqb x "new_vals"); [discriminate|]. reflexivity.
Qed.

Lemma loops_goes c l s nnz nrow ki :
  pre_mem nnz nrow s -> (forall x v, In (x, v) ki -> env s x = Some v) ->
  emits ell_prog K Z OI wstep (mkKn ki [("m", "cols", VP K 0)] [] []) c l ->
  goes ell_prog c s (cols <- run_stores l (malloc (nnz * nrow)) ;;
                     Ok (mkEll nrow nrow nnz cols (malloc (nnz * nrow))))
    (fun m' st => mat_at (mem st) bm K (K + 1) m' /\ forall c, c < K -> c <> bm -> mem st c = h c).
Proof.
  intros (P1 & P2 & P3 & P4 & P5 & P6) V E.
  assert (Kn : knows K (mkKn ki [("m", "cols", VP K 0)] [] []) s).
  { split; [lia|]. split; [exact V|]. split; [|split; intros ? ? *; [intros []|intros []]].
    cbn [CliteEmit.kf In]. intros x f v [[= <- <- <-]|[]].
    eexists; eexists; split; [exact P1|]. split; [lia|]. split; [lia|]. split; [exact P3|reflexivity]. }
  specialize (E s _ Kn P4). unfold run_stores.
  change (foldM wstep) with (foldM (fun (a : arr Z) w => wr a (fst w) (snd w))) in E.
  destruct (foldM _ l (malloc (nnz * nrow))) as [a|w]; cbn [bind CliteRules.goes] in *; [|exact E].
  destruct E as (s' & R & _ & (_ & X) & M). exists s'. split; [exact R|]. split.
  - split; [|split]; [rewrite X by lia; exact P3 | exact M | rewrite X by lia; exact P5].
  - intros c0 L C. rewrite X by lia. now apply P6.
Qed.

(** src/ell.cpp:707-863 *)
Lemma init2_calls nF nx ny :
  init_result "ell_init_2D" [VP bm 0; VI nF; VI nx; VI ny] (ell_init_2D nF nx ny).
Proof.
  set (e := fun y : string => if String.eqb y "ny" then Some (VI ny) else
    if String.eqb y "nx" then Some (VI nx) else if String.eqb y "nFields" then Some (VI nF) else
    if String.eqb y "m" then Some (@VP T bm 0) else None).
  assert (G : goes ell_prog (f_body ast_ell_init_2D) (mkSt e h K) (ell_init_2D nF nx ny)
    (fun m' st => mat_at (mem st) bm K (K + 1) m' /\ forall c, c < K -> c <> bm -> mem st c = h c)).
  { change (f_body ast_ell_init_2D) with
      (SSeq (SSet "nn" (EBin Mul (EV "nx") (EV "ny"))) (SSeq (SSet "nnz" (EBin Mul (EI 9) (EV "nFields")))
        (SSeq (SSet "nrow" (EBin Mul (EV "nn") (EV "nFields"))) (alloc_code init2_loop)))).
    eapply goes_pre; [apply runs_set; reflexivity|].
    eapply goes_pre; [apply runs_set; reflexivity|].
    eapply goes_pre; [apply runs_set; reflexivity|].
    eapply (alloc_goes _ _ (9 * nF) (nx * ny * nF)); try reflexivity.
    intros s' Pm Kp. unfold ell_init_2D. cbv zeta.
    eapply (loops_goes _ _ _); [exact Pm| |apply init2_emits].
    intros x v Hx. rewrite Kp.
    - cbn [In] in Hx. repeat (destruct Hx as [[= <- <-]|Hx]; [reflexivity|]). destruct Hx.
    - cbn [In] in Hx. repeat (destruct Hx as [[= <- <-]|Hx]; [reflexivity|]). destruct Hx. }
  unfold init_result. change (calls ell_prog "ell_init_2D" [VP bm 0; VI nF; VI nx; VI ny] h K)
    with (runs ell_prog (f_body ast_ell_init_2D) (mkSt e h K)).
  destruct (ell_init_2D nF nx ny); exact G.
Qed.

(** src/ell.cpp:865-1876 *)
Lemma init3_calls nF nx ny nz :
  init_result "ell_init_3D" [VP bm 0; VI nF; VI nx; VI ny; VI nz] (ell_init_3D nF nx ny nz).
Proof.
  set (e := fun y : string => if String.eqb y "nz" then Some (VI nz) else
    if String.eqb y "ny" then Some (VI ny) else
    if String.eqb y "nx" then Some (VI nx) else if String.eqb y "nFields" then Some (VI nF) else
    if String.eqb y "m" then Some (@VP T bm 0) else None).
  assert (G : goes ell_prog (f_body ast_ell_init_3D) (mkSt e h K) (ell_init_3D nF nx ny nz)
    (fun m' st => mat_at (mem st) bm K (K + 1) m' /\ forall c, c < K -> c <> bm -> mem st c = h c)).
  { change (f_body ast_ell_init_3D) with
      (SSeq (SSet "nn" (EBin Mul (EBin Mul (EV "nx") (EV "ny")) (EV "nz")))
        (SSeq (SSet "nnz" (EBin Mul (EI 27) (EV "nFields")))
        (SSeq (SSet "nrow" (EBin Mul (EV "nn") (EV "nFields"))) (SSeq (SSet "mcols" ENull) (alloc_code init3_loops))))).
    eapply goes_pre; [apply runs_set; reflexivity|].
    eapply goes_pre; [apply runs_set; reflexivity|].
    eapply goes_pre; [apply runs_set; reflexivity|].
    eapply goes_pre; [apply runs_set; reflexivity|].
    eapply (alloc_goes _ _ (27 * nF) (nx * ny * nz * nF)); try reflexivity.
    intros s' Pm Kp. unfold ell_init_3D. cbv zeta.
    eapply (loops_goes _ _ _); [exact Pm| |apply init3_emits].
    intros x v Hx. rewrite Kp.
    - cbn [In] in Hx. repeat (destruct Hx as [[= <- <-]|Hx]; [reflexivity|]). destruct Hx.
    - cbn [In] in Hx. repeat (destruct Hx as [[= <- <-]|Hx]; [reflexivity|]). destruct Hx. }
  unfold init_result. change (calls ell_prog "ell_init_3D" [VP bm 0; VI nF; VI nx; VI ny; VI nz] h K)
    with (runs ell_prog (f_body ast_ell_init_3D) (mkSt e h K)).
  destruct (ell_init_3D nF nx ny nz); exact G.
Qed.

End Init.
End Calls.
