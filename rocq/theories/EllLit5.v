(** The syntax trees of ell_init_2D and ell_init_3D (src/ell.cpp:707-1876) fill the columns as
    EllModel.v says. *)
From Coq Require Import String.
From Verif Require Import Base Scalar InitTables EllModel Clite CliteRules CliteEmit EllAst EllLit EllLit4.
Local Open Scope string_scope.
Local Open Scope Z_scope.

Section Init.
Context {T : Type} `{OT : Ops T}.
Variable b : Z.
Notation emi := (emits (T := T) ell_prog b Z OI wstep).

(** x = e1; y = e2; c; d, the rest d not using x and y *)
Lemma emits_set2 k x e1 v1 y e2 v2 c d l1 l2 :
  kval k e1 = Some v1 -> kval (add x v1 k) e2 = Some v2 -> allp (kok k e1) -> allp (kok (add x v1 k) e2) ->
  free x k = true -> free y (add x v1 k) = true ->
  emi (add y v2 (add x v1 k)) c l1 -> emi k d l2 ->
  emi k (SSeq (SSet x e1) (SSeq (SSet y e2) (SSeq c d))) (l1 ++ l2)%list.
Proof.
  intros E1 E2 C1 C2 F1 F2 H1 H2 s a K M. rewrite foldM_app.
  eapply goes_pre; [apply runs_set, (kval_ok b k s e1 _ K E1 C1)|].
  assert (K1 : knows b (add x v1 k) (set_env s x v1)) by (apply (knows_set ell_prog); assumption).
  eapply goes_pre; [apply runs_set, (kval_ok b _ _ e2 _ K1 E2 C2)|].
  eapply goes_seq.
  - apply H1; [apply (knows_set ell_prog); assumption | exact M].
  - intros a' s' (K' & E' & M'). assert (K3 : knows b k s') by (eapply knows_drop, knows_drop; exact K').
    eapply goes_weak; [exact (H2 s' a' K3 M')|].
    intros a2 s2 (K2 & X2 & M2). split; [exact K2|]. split; [|exact M2].
    exact (ext_trans b s s' s2 E' X2).
Qed.

End Init.

Ltac kl := cbv [line_i kval look lookf ki kf ka kd add adda String.eqb Ascii.eqb Bool.eqb andb kop app]; reflexivity.
Ltac kcl := cbv [line_ok kok kval look lookf ki kf ka kd add adda String.eqb Ascii.eqb Bool.eqb andb kop app allp]; exact I.
Ltac em2 :=
  lazymatch goal with
  | |- emits _ _ _ _ _ _ (SSeq (SStore (EV ?x) _ _) _) _ =>
      eapply (emits_line _ _ _ x); [kv | kl | kcl]
  | |- emits _ _ _ _ _ _ (SSeq (SSet _ _) (SSeq (SSet _ _) (SSeq _ _))) _ =>
      eapply emits_set2; [kv|kv|kc|kc|reflexivity|reflexivity| |]
  | _ => em1
  end.

(** the stores of one table, for every slot *)
Ltac tab t := unfold t;
  lazymatch goal with |- context [zrange 0 (Z.of_nat (List.length ?l))] =>
    let r := eval vm_compute in (zrange 0 (Z.of_nat (List.length l))) in
    change (zrange 0 (Z.of_nat (List.length l))) with r end;
  cbn [combine map fst snd entry_col];
  repeat (apply f_equal2; [apply f_equal2; ring|]); reflexivity.

Ltac le3 :=
  lazymatch goal with
  | |- _ = (_ ++ [])%list => rewrite app_nil_r; le3
  | |- (_ ++ _)%list = (_ ++ _)%list => apply app_cong; le3
  | |- _ = init_node _ _ _ _ _ _ => unfold init_node, nod_index;
      apply flat_map_ext; intros ?; apply flat_map_ext; intros ?; tab init_node
  | |- flat_map _ ?l = flat_map _ ?l => apply flat_map_ext; intros ?; le3
  end.

Section Init2.
Context {T : Type} `{OT : Ops T}.
Variable b : Z.
Notation emi := (emits (T := T) ell_prog b Z OI wstep).

Lemma rem_mod0 i n : n <> 0 -> (Z.rem i n =? 0) = (i mod n =? 0).
Proof.
  intros H. apply eq_true_iff_eq. rewrite !Z.eqb_eq. rewrite Z.rem_divide, Z.mod_divide by exact H. tauto.
Qed.

(** the loop of src/ell.cpp:720-861 *)
Definition init2_loop : stmt :=
  match f_body ast_ell_init_2D with
  | SSeq _ (SSeq _ (SSeq _ (SSeq _ (SSeq _ (SSeq _ (SSeq _ (SSeq _ (SSeq _ (SSeq _ c))))))))) => c
  | _ => SSkip
  end.

Lemma init2_emits nF nx ny :
  emi (mkKn [("nFields", VI nF); ("nx", VI nx); ("ny", VI ny); ("nn", VI (nx * ny)); ("nnz", VI (9 * nF))]
        [("m", "cols", VP b 0)] [] [])
    init2_loop (init2D_stores nF nx ny).
Proof.
  eapply emits_eq.
  - unfold init2_loop, ast_ell_init_2D. cbn [f_body block]. repeat em2.
    all: intros ->; lia.
  - unfold init2D_stores. apply flat_map_in. intros i Hi. apply in_zrange in Hi.
    assert (NX : nx <> 0) by (intros ->; lia). rewrite !rem_mod0 by exact NX.
    unfold table2D, init_node.
    repeat lazymatch goal with |- (if ?c then _ else _) = _ => destruct c end;
      (apply flat_map_ext; intros d1; apply flat_map_ext; intros d2).
    + tab t2_corner_00.
    + tab t2_corner_x0.
    + tab t2_corner_xy.
    + tab t2_corner_0y.
    + tab t2_bottom.
    + tab t2_top.
    + tab t2_left.
    + tab t2_right.
    + tab t2_inner.
Qed.

(** the 27 blocks of src/ell.cpp:878-1875 *)
Definition init3_loops : stmt :=
  match f_body ast_ell_init_3D with
  | SSeq _ (SSeq _ (SSeq _ (SSeq _ (SSeq _ (SSeq _ (SSeq _ (SSeq _ (SSeq _ (SSeq _ (SSeq _ c)))))))))) => c
  | _ => SSkip
  end.

Lemma init3_emits nF nx ny nz :
  emi (mkKn [("nFields", VI nF); ("nx", VI nx); ("ny", VI ny); ("nz", VI nz); ("nnz", VI (27 * nF))]
        [("m", "cols", VP b 0)] [] [])
    init3_loops (init3D_stores nF nx ny nz).
Proof.
  eapply emits_eq.
  - unfold init3_loops, ast_ell_init_3D. cbn [f_body block]. repeat em2.
  - unfold init3D_stores, t3_blocks. cbn [flat_map ax_range]. le3.
Qed.

End Init2.
