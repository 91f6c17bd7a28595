(** The syntax trees of src/assembly.cpp against the model: assembly_rhs for three dimensions,
    the whole function. *)
From Coq Require Import String.
From Verif Require Import Base Scalar Clite CliteRules EllAst AsmAst Sym SymStep SymFold Grid EllModel AssemblyModel
  EllLit2 AsmLit AsmLit2 AsmLit3 AsmLit4 AsmLit5 AsmLit6 AsmLit7 AsmLit8 AsmLit10 AsmLit11.
Local Open Scope string_scope.
Local Open Scope Z_scope.

Section Asm.
Context {T : Type} `{OT : Ops T}.
Notation val := (@val T). Notation obj := (@obj T). Notation obj1 := (@obj1 T).
Notation fields := (list (string * option val)).

(** three stores of zero *)
Definition w3 (n : Z) (b : arr T) : arr T :=
  let z : T := ofZ 0 in wrv (wrv (wrv b (n * 3 + 0) z) (n * 3 + 1) z) (n * 3 + 2) z.
Definition c3 (n : Z) (b : arr T) : list Prop :=
  let z : T := ofZ 0 in let b1 := wrv b (n * 3 + 0) z in let b2 := wrv b1 (n * 3 + 1) z in
  [wr b (n * 3 + 0) z = Ok b1; wr b1 (n * 3 + 1) z = Ok b2; wr b2 (n * 3 + 2) z = Ok (wrv b2 (n * 3 + 2) z)].
Lemma wrv_ok (a : arr T) i t a' : wr a i t = Ok a' -> wrv a i t = a'.
Proof. intros E. unfold wrv. now rewrite E. Qed.
Lemma zero_node_w3 n b b' : dec 0 1 = (ofZ 0 : T) -> run_stores (zero_node 3 n) b = Ok b' -> alls (c3 n b) /\ b' = w3 n b.
Proof.
  intros Z0. unfold zero_node. rewrite Z0. change (zrange 0 3) with [0; 1; 2]. unfold run_stores. cbn [map foldM fst snd].
  intros E. apply bind_ok in E. destruct E as (b1 & E1 & E). apply bind_ok in E. destruct E as (b2 & E2 & E).
  apply bind_ok in E. destruct E as (b3 & E3 & E). injection E as <-.
  unfold c3, w3. cbv zeta. rewrite (wrv_ok _ _ _ _ E1), (wrv_ok _ _ _ _ E2), (wrv_ok _ _ _ _ E3). cbn [alls]. auto.
Qed.

Section Gen.
Variable V : env T.
Variables (u vold : arr T) (fs : fields) (l2 : list fields).
Notation SM0 := (fun _ : string => @None (@summary T)).
Notation el_W := (el_W V u vold fs l2).
Notation nx := (v_nx V). Notation ny := (v_ny V). Notation nz := (v_nz V).

Definition nod3 (k : Z) (i j : Z) : Z :=
  if k =? 2 then nod_index nx ny i j 0 else if k =? 3 then nod_index nx ny i j (nz - 1)
  else if k =? 4 then nod_index nx ny i 0 j else if k =? 5 then nod_index nx ny i (ny - 1) j
  else if k =? 6 then nod_index nx ny 0 i j else nod_index nx ny (nx - 1) i j.
Definition bnd_names (x y : string) : list string :=
  y :: x :: ["this"; "non_linear"; "index"; "non_linear_one_elem"; "be"].
Notation stmt_ k := (for_body (for_body (nth k as_list3 SSkip))).
Notation run_ k x y i j b nl vn :=
  (cut3 11 (bnd_names x y) (out3 (execs1 asm_prog SM0 20 [stmt_ k] (with1 y j (with1 x i (el_W (b, nl, vn)))) [])) =
   Some (with1 y j (with1 x i (el_W (w3 (nod3 (Z.of_nat k) i j) b, nl, vn))), c3 (nod3 (Z.of_nat k) i j) b)).
Lemma bnd_run2 i j b nl vn : run_ 2%nat "i" "j" i j b nl vn. Proof. vmr. Qed.
Lemma bnd_run3 i j b nl vn : run_ 3%nat "i" "j" i j b nl vn. Proof. vmr. Qed.
Lemma bnd_run4 i j b nl vn : run_ 4%nat "i" "k" i j b nl vn. Proof. vmr. Qed.
Lemma bnd_run5 i j b nl vn : run_ 5%nat "i" "k" i j b nl vn. Proof. vmr. Qed.
Lemma bnd_run6 i j b nl vn : run_ 6%nat "j" "k" i j b nl vn. Proof. vmr. Qed.
Lemma bnd_run7 i j b nl vn : run_ 7%nat "j" "k" i j b nl vn. Proof. vmr. Qed.

Hypothesis D3 : v_dim V = 3.
Hypothesis Z0 : dec 0 1 = (ofZ 0 : T).
Lemma SM0_ok : forall f sm, SM0 f = Some sm -> sum_ok (T := T) asm_prog f sm.
Proof. discriminate. Qed.

(** two loops over nodes *)
Lemma bnd_loops x y l1 l2' c1 c2 h1 h2 body (N : Z -> Z -> Z) b b' nl vn :
  x <> y -> ~ In x ["this"; "non_linear"; "index"; "non_linear_one_elem"; "be"] ->
  ~ In y ["this"; "non_linear"; "index"; "non_linear_one_elem"; "be"] ->
  (forall i b, cond1 c1 (with1 x i (el_W (b, nl, vn))) (i <? h1)) ->
  (forall i j b, cond1 c2 (with1 y j (with1 x i (el_W (b, nl, vn)))) (j <? h2)) ->
  (forall i j b, cut3 11 (bnd_names x y) (out3 (execs1 asm_prog SM0 20 [body] (with1 y j (with1 x i (el_W (b, nl, vn)))) [])) =
     Some (with1 y j (with1 x i (el_W (w3 (N i j) b, nl, vn))), c3 (N i j) b)) ->
  run_stores (flat_map (fun i => flat_map (fun j => zero_node 3 (N i j)) (zrange l2' h2)) (zrange l1 h1)) b = Ok b' ->
  step asm_prog (SFor x (EI l1) c1 (SFor y (EI l2') c2 body)) (el_W (b, nl, vn)) (el_W (b', nl, vn)).
Proof.
  intros XY NX NY C1 C2 RUN E. unfold run_stores in E. rewrite foldM_flat in E.
  assert (NO : forall z st, ~ In z ["this"; "non_linear"; "index"; "non_linear_one_elem"; "be"] -> look1 z (e1 (el_W st)) = None).
  { clear. intros z st NI. cbn [In] in NI. cbn [e1 AsmLit10.el_W el_env look1]. repeat match goal with |- context [String.eqb z ?q] => destruct (String.eqb_spec z q); [subst; tauto|] end. reflexivity. }
  refine (step_fold asm_prog _ x _ _ _ (fun b => el_W (b, nl, vn)) l1 h1 _ _ E _ _ _ _); [intros; now apply NO|reflexivity|intros; apply C1|].
  clear E b b'. intros i b b' I E. rewrite foldM_flat in E.
  refine (step_fold asm_prog _ y _ _ _ (fun b => with1 x i (el_W (b, nl, vn))) l2' h2 _ _ E _ _ _ _); [|reflexivity|intros; apply C2|].
  { intros m. cbn [with1 e1 look1]. destruct (String.eqb_spec y x); [congruence|now apply NO]. }
  clear E b b'. intros j b b' J E. destruct (zero_node_w3 _ _ _ Z0 E) as (AL & ->).
  exact (step_cut asm_prog SM0 SM0_ok _ _ _ [] _ _ _ _ _ _ (RUN i j b) AL eq_refl eq_refl).
Qed.

Lemma zero_bnd_steps b b' nl vn : run_stores (zero_bnd3 V) b = Ok b' ->
  step asm_prog (block (tl (tl as_list3))) (el_W (b, nl, vn)) (el_W (b', nl, vn)).
Proof.
  intros E. unfold zero_bnd3, run_stores in E.
  rewrite foldM_app in E. apply bind_ok in E. destruct E as (b1 & E1 & E).
  rewrite foldM_app in E. apply bind_ok in E. destruct E as (b2 & E2 & E).
  rewrite foldM_app in E. apply bind_ok in E. destruct E as (b3 & E3 & E).
  rewrite foldM_app in E. apply bind_ok in E. destruct E as (b4 & E4 & E).
  rewrite foldM_app in E. apply bind_ok in E. destruct E as (b5 & E5 & E6).
  pose (st k := for_body (for_body (nth k as_list3 SSkip))).
  pose (cc := fun v f (d : Z) => EBin Lt (EV v) (if d =? 0 then EFld (EV "this") f else EBin Sub (EFld (EV "this") f) (EI d))).
  change (block (tl (tl as_list3))) with (block [
    SFor "i" (EI 0) (cc "i" "nx" 0) (SFor "j" (EI 0) (cc "j" "ny" 0) (st 2%nat));
    SFor "i" (EI 0) (cc "i" "nx" 0) (SFor "j" (EI 0) (cc "j" "ny" 0) (st 3%nat));
    SFor "i" (EI 0) (cc "i" "nx" 0) (SFor "k" (EI 1) (cc "k" "nz" 1) (st 4%nat));
    SFor "i" (EI 0) (cc "i" "nx" 0) (SFor "k" (EI 1) (cc "k" "nz" 1) (st 5%nat));
    SFor "j" (EI 1) (cc "j" "ny" 1) (SFor "k" (EI 1) (cc "k" "nz" 1) (st 6%nat));
    SFor "j" (EI 1) (cc "j" "ny" 1) (SFor "k" (EI 1) (cc "k" "nz" 1) (st 7%nat))]).
  cbn [block].
  assert (NI : forall x, In x ["i"; "j"; "k"] -> ~ In x ["this"; "non_linear"; "index"; "non_linear_one_elem"; "be"]).
  { intros x [<-|[<-|[<-|[]]]]; cbn; intuition discriminate. }
  eapply step_seq; [exact (bnd_loops "i" "j" 0 0 (cc "i" "nx" 0) (cc "j" "ny" 0) nx ny (st 2%nat) (nod3 2) _ _ nl vn ltac:(discriminate) (NI "i" ltac:(cbn; tauto)) (NI "j" ltac:(cbn; tauto)) ltac:(intros; apply cond_lt; reflexivity) ltac:(intros; apply cond_lt; reflexivity) (fun i j b => bnd_run2 i j b nl vn) E1)|].
  eapply step_seq; [exact (bnd_loops "i" "j" 0 0 (cc "i" "nx" 0) (cc "j" "ny" 0) nx ny (st 3%nat) (nod3 3) _ _ nl vn ltac:(discriminate) (NI "i" ltac:(cbn; tauto)) (NI "j" ltac:(cbn; tauto)) ltac:(intros; apply cond_lt; reflexivity) ltac:(intros; apply cond_lt; reflexivity) (fun i j b => bnd_run3 i j b nl vn) E2)|].
  eapply step_seq; [exact (bnd_loops "i" "k" 0 1 (cc "i" "nx" 0) (cc "k" "nz" 1) nx (nz - 1) (st 4%nat) (nod3 4) _ _ nl vn ltac:(discriminate) (NI "i" ltac:(cbn; tauto)) (NI "k" ltac:(cbn; tauto)) ltac:(intros; apply cond_lt; reflexivity) ltac:(intros; apply cond_lt; reflexivity) (fun i j b => bnd_run4 i j b nl vn) E3)|].
  eapply step_seq; [exact (bnd_loops "i" "k" 0 1 (cc "i" "nx" 0) (cc "k" "nz" 1) nx (nz - 1) (st 5%nat) (nod3 5) _ _ nl vn ltac:(discriminate) (NI "i" ltac:(cbn; tauto)) (NI "k" ltac:(cbn; tauto)) ltac:(intros; apply cond_lt; reflexivity) ltac:(intros; apply cond_lt; reflexivity) (fun i j b => bnd_run5 i j b nl vn) E4)|].
  eapply step_seq; [exact (bnd_loops "j" "k" 1 1 (cc "j" "ny" 1) (cc "k" "nz" 1) (ny - 1) (nz - 1) (st 6%nat) (nod3 6) _ _ nl vn ltac:(discriminate) (NI "j" ltac:(cbn; tauto)) (NI "k" ltac:(cbn; tauto)) ltac:(intros; apply cond_lt; reflexivity) ltac:(intros; apply cond_lt; reflexivity) (fun i j b => bnd_run6 i j b nl vn) E5)|].
  exact (bnd_loops "j" "k" 1 1 (cc "j" "ny" 1) (cc "k" "nz" 1) (ny - 1) (nz - 1) (st 7%nat) (nod3 7) _ _ nl vn ltac:(discriminate) (NI "j" ltac:(cbn; tauto)) (NI "k" ltac:(cbn; tauto)) ltac:(intros; apply cond_lt; reflexivity) ltac:(intros; apply cond_lt; reflexivity) (fun i j b => bnd_run7 i j b nl vn) E6).
Qed.
End Gen.
End Asm.
