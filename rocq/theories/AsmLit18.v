(** The syntax trees of src/assembly.cpp against the model: set_displ. *)
From Coq Require Import String.
From Verif Require Import Base Scalar Clite CliteRules EllAst AsmAst Sym SymStep SymFold Grid EllModel AssemblyModel
  EllLit2 AsmLit AsmLit2 AsmLit3 AsmLit4 AsmLit5 AsmLit6 AsmLit7 AsmLit8 AsmLit10 AsmLit11 AsmLit12.
Local Open Scope string_scope.
Local Open Scope Z_scope.

Section Asm.
Context {T : Type} `{OT : Ops T}.
Notation val := (@val T). Notation obj := (@obj T). Notation obj1 := (@obj1 T).
Notation fields := (list (string * option val)).

(** stores one after the other *)
Fixpoint wrs (l : list (Z * T)) (b : arr T) : arr T := match l with [] => b | (i, t) :: l => wrs l (wrv b i t) end.
Fixpoint cds (l : list (Z * T)) (b : arr T) : list Prop :=
  match l with [] => [] | (i, t) :: l => (wr b i t = Ok (wrv b i t)) :: cds l (wrv b i t) end.
Lemma stores_wrs l : forall b b', run_stores l b = Ok b' -> alls (cds l b) /\ b' = wrs l b.
Proof.
  induction l as [|[i t] l IH]; intros b b' E; unfold run_stores in E; cbn [foldM fst snd] in E.
  - injection E as <-. split; [exact I|reflexivity].
  - apply bind_ok in E. destruct E as (b1 & E1 & E). cbn [cds wrs alls]. rewrite (wrv_ok _ _ _ _ E1). destruct (IH b1 b' E) as (H1 & H2). auto.
Qed.

Definition sd_3 : stmt := Eval cbv in match f_body ast_set_displ with SIf _ _ (SIf _ b _) => b | _ => SSkip end.
Definition sd_2 : stmt := Eval cbv in match f_body ast_set_displ with SIf _ a _ => a | _ => SSkip end.
Definition sd_list3 : list stmt := Eval cbv in unblock 5 sd_3.
Definition sd_list2 : list stmt := Eval cbv in unblock 3 sd_2.

Section Gen.
Variable V : env T.
Variables (fs : fields) (eps : list T) (ae : arr T).
Notation SM0 := (fun _ : string => @None (@summary T)).
Notation nx := (v_nx V). Notation ny := (v_ny V). Notation nz := (v_nz V).
Notation dx := (v_dx V). Notation dy := (v_dy V). Notation dz := (v_dz V).

Definition sd_W (d : Z) (e : list (option T)) (u : arr T) : @st1 T :=
  mk1 [("this", VP 0 0); ("eps", VP 2 0)]
    [Some (R1 fs (this_flds d (v_type V) V None None None None (ptr 1) None None None None None)); Some (Opq u); Some (C1 ae e)].
Definition sd_names (x y : string) : list string := y :: x :: ["this"; "eps"].
Definition zro : T := ofZ 0.
Definition sd_st (k : Z) (i j : Z) : list (Z * T) :=
  if k =? 0 then displ3 eps (nod_index nx ny i j 0) (omul (ofZ i) dx) (omul (ofZ j) dy) zro
  else if k =? 1 then displ3 eps (nod_index nx ny i j (nz - 1)) (omul (ofZ i) dx) (omul (ofZ j) dy) (v_lz V)
  else if k =? 2 then displ3 eps (nod_index nx ny i 0 j) (omul (ofZ i) dx) zro (omul (ofZ j) dz)
  else if k =? 3 then displ3 eps (nod_index nx ny i (ny - 1) j) (omul (ofZ i) dx) (v_ly V) (omul (ofZ j) dz)
  else if k =? 4 then displ3 eps (nod_index nx ny 0 i j) zro (omul (ofZ i) dy) (omul (ofZ j) dz)
  else displ3 eps (nod_index nx ny (nx - 1) i j) (v_lx V) (omul (ofZ i) dy) (omul (ofZ j) dz).
Notation stmt_ k := (for_body (for_body (nth k sd_list3 SSkip))).
Notation run_ k x y i j u :=
  (cut3 3 (sd_names x y) (out3 (execs1 asm_prog SM0 20 [stmt_ k] (with1 y j (with1 x i (sd_W 3 (fc 6 (lget eps)) u))) [])) =
   Some (with1 y j (with1 x i (sd_W 3 (fc 6 (lget eps)) (wrs (sd_st (Z.of_nat k) i j) u))), cds (sd_st (Z.of_nat k) i j) u)).
Lemma sd_run0 i j u : run_ 0%nat "i" "j" i j u. Proof. vmr. Qed.
Lemma sd_run1 i j u : run_ 1%nat "i" "j" i j u. Proof. vmr. Qed.
Lemma sd_run2 i j u : run_ 2%nat "i" "k" i j u. Proof. vmr. Qed.
Lemma sd_run3 i j u : run_ 3%nat "i" "k" i j u. Proof. vmr. Qed.
Lemma sd_run4 i j u : run_ 4%nat "j" "k" i j u. Proof. vmr. Qed.
Lemma sd_run5 i j u : run_ 5%nat "j" "k" i j u. Proof. vmr. Qed.

(** two dimensions *)
Definition sd_e2 : list (option T) := [Some (lget eps 0); Some (lget eps 1); Some (lget eps 2); None; None; None].
Definition sd_st2 (k : Z) (i : Z) : list (Z * T) :=
  if k =? 0 then displ2 eps i (omul (ofZ i) dx) zro
  else if k =? 1 then displ2 eps (i + (ny - 1) * nx) (omul (ofZ i) dx) (v_ly V)
  else if k =? 2 then displ2 eps ((i + 1) * nx) zro (omul (ofZ (i + 1)) dy)
  else displ2 eps ((i + 2) * nx - 1) (v_lx V) (omul (ofZ (i + 1)) dy).
Notation stmt2_ k := (for_body (nth k sd_list2 SSkip)).
Notation run2_ k i u :=
  (cut3 3 ["i"; "this"; "eps"] (out3 (execs1 asm_prog SM0 20 [stmt2_ k] (with1 "i" i (sd_W 2 sd_e2 u)) [])) =
   Some (with1 "i" i (sd_W 2 sd_e2 (wrs (sd_st2 (Z.of_nat k) i) u)), cds (sd_st2 (Z.of_nat k) i) u)).
Lemma sd2_run0 i u : run2_ 0%nat i u. Proof. vmr. Qed.
Lemma sd2_run1 i u : run2_ 1%nat i u. Proof. vmr. Qed.
Lemma sd2_run2 i u : run2_ 2%nat i u. Proof. vmr. Qed.
Lemma sd2_run3 i u : run2_ 3%nat i u. Proof. vmr. Qed.

Hypothesis Z0 : dec 0 1 = (ofZ 0 : T).

Lemma sd_none d e z u : ~ In z ["this"; "eps"] -> look1 z (e1 (sd_W d e u)) = None.
Proof. intros NI. cbn [In] in NI. cbn [e1 sd_W look1]. repeat match goal with |- context [String.eqb z ?q] => destruct (String.eqb_spec z q); [subst; tauto|] end. reflexivity. Qed.
Lemma sd_loops x y l1 l2' c1 c2 h1 h2 body (S : Z -> Z -> list (Z * T)) u u' :
  x <> y -> ~ In x ["this"; "eps"] -> ~ In y ["this"; "eps"] ->
  (forall i u, cond1 c1 (with1 x i (sd_W 3 (fc 6 (lget eps)) u)) (i <? h1)) ->
  (forall i j u, cond1 c2 (with1 y j (with1 x i (sd_W 3 (fc 6 (lget eps)) u))) (j <? h2)) ->
  (forall i j u, cut3 3 (sd_names x y) (out3 (execs1 asm_prog SM0 20 [body] (with1 y j (with1 x i (sd_W 3 (fc 6 (lget eps)) u))) [])) =
     Some (with1 y j (with1 x i (sd_W 3 (fc 6 (lget eps)) (wrs (S i j) u))), cds (S i j) u)) ->
  run_stores (flat_map (fun i => flat_map (fun j => S i j) (zrange l2' h2)) (zrange l1 h1)) u = Ok u' ->
  step asm_prog (SFor x (EI l1) c1 (SFor y (EI l2') c2 body)) (sd_W 3 (fc 6 (lget eps)) u) (sd_W 3 (fc 6 (lget eps)) u').
Proof.
  intros XY NX NY C1 C2 RUN E. unfold run_stores in E. rewrite foldM_flat in E.
  refine (step_fold asm_prog _ x _ _ _ (fun u => sd_W 3 (fc 6 (lget eps)) u) l1 h1 _ _ E _ _ _ _); [intros; now apply sd_none|reflexivity|intros; apply C1|].
  clear E u u'. intros i u u' I E. rewrite foldM_flat in E.
  refine (step_fold asm_prog _ y _ _ _ (fun u => with1 x i (sd_W 3 (fc 6 (lget eps)) u)) l2' h2 _ _ E _ _ _ _); [|reflexivity|intros; apply C2|].
  { intros m. cbn [with1 e1 look1]. destruct (String.eqb_spec y x); [congruence|now apply sd_none]. }
  clear E u u'. intros j u u' J E. destruct (stores_wrs _ _ _ E) as (AL & ->).
  exact (step_cut asm_prog SM0 SM0_ok _ _ _ [] _ _ _ _ _ _ (RUN i j u) AL eq_refl eq_refl).
Qed.
Lemma sd_loop2 c1 h1 body (S : Z -> list (Z * T)) u u' :
  (forall i u, cond1 c1 (with1 "i" i (sd_W 2 sd_e2 u)) (i <? h1)) ->
  (forall i u, cut3 3 ["i"; "this"; "eps"] (out3 (execs1 asm_prog SM0 20 [body] (with1 "i" i (sd_W 2 sd_e2 u)) [])) =
     Some (with1 "i" i (sd_W 2 sd_e2 (wrs (S i) u)), cds (S i) u)) ->
  run_stores (flat_map S (zrange 0 h1)) u = Ok u' ->
  step asm_prog (SFor "i" (EI 0) c1 body) (sd_W 2 sd_e2 u) (sd_W 2 sd_e2 u').
Proof.
  intros C1 RUN E. unfold run_stores in E. rewrite foldM_flat in E.
  refine (step_fold asm_prog _ "i" _ _ _ (fun u => sd_W 2 sd_e2 u) 0 h1 _ _ E _ _ _ _); [intros; reflexivity|reflexivity|intros; apply C1|].
  clear E u u'. intros i u u' I E. destruct (stores_wrs _ _ _ E) as (AL & ->).
  exact (step_cut asm_prog SM0 SM0_ok _ _ _ [] _ _ _ _ _ _ (RUN i u) AL eq_refl eq_refl).
Qed.

Lemma sd_steps u u' : run_stores (set_displ3_stores V eps) u = Ok u' ->
  step asm_prog sd_3 (sd_W 3 (fc 6 (lget eps)) u) (sd_W 3 (fc 6 (lget eps)) u').
Proof.
  intros E. unfold set_displ3_stores, run_stores in E. rewrite !Z0 in E.
  rewrite foldM_app in E. apply bind_ok in E. destruct E as (b1 & E1 & E).
  rewrite foldM_app in E. apply bind_ok in E. destruct E as (b2 & E2 & E).
  rewrite foldM_app in E. apply bind_ok in E. destruct E as (b3 & E3 & E).
  rewrite foldM_app in E. apply bind_ok in E. destruct E as (b4 & E4 & E).
  rewrite foldM_app in E. apply bind_ok in E. destruct E as (b5 & E5 & E6).
  pose (st k := for_body (for_body (nth k sd_list3 SSkip))).
  pose (cc := fun v f (d : Z) => EBin Lt (EV v) (if d =? 0 then EFld (EV "this") f else EBin Sub (EFld (EV "this") f) (EI d))).
  change sd_3 with (block [
    SFor "i" (EI 0) (cc "i" "nx" 0) (SFor "j" (EI 0) (cc "j" "ny" 0) (st 0%nat));
    SFor "i" (EI 0) (cc "i" "nx" 0) (SFor "j" (EI 0) (cc "j" "ny" 0) (st 1%nat));
    SFor "i" (EI 0) (cc "i" "nx" 0) (SFor "k" (EI 1) (cc "k" "nz" 1) (st 2%nat));
    SFor "i" (EI 0) (cc "i" "nx" 0) (SFor "k" (EI 1) (cc "k" "nz" 1) (st 3%nat));
    SFor "j" (EI 1) (cc "j" "ny" 1) (SFor "k" (EI 1) (cc "k" "nz" 1) (st 4%nat));
    SFor "j" (EI 1) (cc "j" "ny" 1) (SFor "k" (EI 1) (cc "k" "nz" 1) (st 5%nat))]).
  cbn [block].
  assert (NI : forall x, In x ["i"; "j"; "k"] -> ~ In x ["this"; "eps"]).
  { intros x [<-|[<-|[<-|[]]]]; cbn; intuition discriminate. }
  eapply step_seq; [exact (sd_loops "i" "j" 0 0 (cc "i" "nx" 0) (cc "j" "ny" 0) nx ny (st 0%nat) (sd_st 0) _ _ ltac:(discriminate) (NI "i" ltac:(cbn; tauto)) (NI "j" ltac:(cbn; tauto)) ltac:(intros; apply cond_lt; reflexivity) ltac:(intros; apply cond_lt; reflexivity) (fun i j u => sd_run0 i j u) E1)|].
  eapply step_seq; [exact (sd_loops "i" "j" 0 0 (cc "i" "nx" 0) (cc "j" "ny" 0) nx ny (st 1%nat) (sd_st 1) _ _ ltac:(discriminate) (NI "i" ltac:(cbn; tauto)) (NI "j" ltac:(cbn; tauto)) ltac:(intros; apply cond_lt; reflexivity) ltac:(intros; apply cond_lt; reflexivity) (fun i j u => sd_run1 i j u) E2)|].
  eapply step_seq; [exact (sd_loops "i" "k" 0 1 (cc "i" "nx" 0) (cc "k" "nz" 1) nx (nz - 1) (st 2%nat) (sd_st 2) _ _ ltac:(discriminate) (NI "i" ltac:(cbn; tauto)) (NI "k" ltac:(cbn; tauto)) ltac:(intros; apply cond_lt; reflexivity) ltac:(intros; apply cond_lt; reflexivity) (fun i j u => sd_run2 i j u) E3)|].
  eapply step_seq; [exact (sd_loops "i" "k" 0 1 (cc "i" "nx" 0) (cc "k" "nz" 1) nx (nz - 1) (st 3%nat) (sd_st 3) _ _ ltac:(discriminate) (NI "i" ltac:(cbn; tauto)) (NI "k" ltac:(cbn; tauto)) ltac:(intros; apply cond_lt; reflexivity) ltac:(intros; apply cond_lt; reflexivity) (fun i j u => sd_run3 i j u) E4)|].
  eapply step_seq; [exact (sd_loops "j" "k" 1 1 (cc "j" "ny" 1) (cc "k" "nz" 1) (ny - 1) (nz - 1) (st 4%nat) (sd_st 4) _ _ ltac:(discriminate) (NI "j" ltac:(cbn; tauto)) (NI "k" ltac:(cbn; tauto)) ltac:(intros; apply cond_lt; reflexivity) ltac:(intros; apply cond_lt; reflexivity) (fun i j u => sd_run4 i j u) E5)|].
  exact (sd_loops "j" "k" 1 1 (cc "j" "ny" 1) (cc "k" "nz" 1) (ny - 1) (nz - 1) (st 5%nat) (sd_st 5) _ _ ltac:(discriminate) (NI "j" ltac:(cbn; tauto)) (NI "k" ltac:(cbn; tauto)) ltac:(intros; apply cond_lt; reflexivity) ltac:(intros; apply cond_lt; reflexivity) (fun i j u => sd_run5 i j u) E6).
Qed.
Lemma sd_steps2 u u' : run_stores (set_displ2_stores V eps) u = Ok u' ->
  step asm_prog sd_2 (sd_W 2 sd_e2 u) (sd_W 2 sd_e2 u').
Proof.
  intros E. unfold set_displ2_stores, run_stores in E. rewrite !Z0 in E.
  rewrite foldM_app in E. apply bind_ok in E. destruct E as (b1 & E1 & E).
  rewrite foldM_app in E. apply bind_ok in E. destruct E as (b2 & E2 & E).
  rewrite foldM_app in E. apply bind_ok in E. destruct E as (b3 & E3 & E4).
  pose (st k := for_body (nth k sd_list2 SSkip)).
  pose (cc := fun v f (d : Z) => EBin Lt (EV v) (if d =? 0 then EFld (EV "this") f else EBin Sub (EFld (EV "this") f) (EI d))).
  change sd_2 with (block [
    SFor "i" (EI 0) (cc "i" "nx" 0) (st 0%nat); SFor "i" (EI 0) (cc "i" "nx" 0) (st 1%nat);
    SFor "i" (EI 0) (cc "i" "ny" 2) (st 2%nat); SFor "i" (EI 0) (cc "i" "ny" 2) (st 3%nat)]).
  cbn [block].
  eapply step_seq; [exact (sd_loop2 (cc "i" "nx" 0) nx (st 0%nat) (sd_st2 0) _ _ ltac:(intros; apply cond_lt; reflexivity) sd2_run0 E1)|].
  eapply step_seq; [exact (sd_loop2 (cc "i" "nx" 0) nx (st 1%nat) (sd_st2 1) _ _ ltac:(intros; apply cond_lt; reflexivity) sd2_run1 E2)|].
  eapply step_seq; [exact (sd_loop2 (cc "i" "ny" 2) (ny - 2) (st 2%nat) (sd_st2 2) _ _ ltac:(intros; apply cond_lt; reflexivity) sd2_run2 E3)|].
  exact (sd_loop2 (cc "i" "ny" 2) (ny - 2) (st 3%nat) (sd_st2 3) _ _ ltac:(intros; apply cond_lt; reflexivity) sd2_run3 E4).
Qed.
End Gen.

(** set_displ, both dimensions *)
Theorem set_displ_text V A fs eps u u' ae h k be : v_dim V = 3 \/ v_dim V = 2 -> dec 0 1 = (ofZ 0 : T) ->
  NoDup [a_this A; a_u A; be] -> Forall (fun a => a < k) [a_this A; a_u A; be] ->
  h (a_this A) = Some (OS fs) -> this_in fs V A -> h (a_u A) = Some (OD u) ->
  h be = Some (OD ae) -> alen ae = 6 -> (forall i, 0 <= i < (if v_dim V =? 3 then 6 else 3) -> aget ae i = Some (lget eps i)) ->
  set_displ V eps u = Ok u' ->
  exists st, calls asm_prog "set_displ" [VP (a_this A) 0; VP be 0] h k (Ok (st, Nrm)) /\
    mem st (a_u A) = Some (OD u') /\ frame h (mem st) k [a_u A] /\ k <= nxt st.
Proof.
  intros D Z0 ND FK HT TI HU HE LE GE M. unfold set_displ in M.
  set (d := v_dim V) in *.
  assert (EX : exists e, (forall j x, nth_error e j = Some (Some x) -> aget ae (Z.of_nat j) = Some x) /\ List.length e = 6%nat /\
    gstep asm_prog (f_body ast_set_displ) (sd_W V fs ae d e u) (sd_W V fs ae d e u')).
  { destruct D as [D|D]; rewrite D in *; cbn [Z.eqb Pos.eqb] in M.
    - exists (fc 6 (lget eps)). split; [|split; [reflexivity|]].
      + intros j x E. do 6 (destruct j as [|j]; [cbn in E; injection E as <-; apply GE; cbn; lia|]). destruct j; discriminate.
      + change (f_body ast_set_displ) with (SIf (EBin Eq (EFld (EV "this") "dim") (EI 2)) sd_2 (SIf (EBin Eq (EFld (EV "this") "dim") (EI 3)) sd_3 SSkip)).
        apply (gstep_if asm_prog false); [unfold cond1; do 2 eexists; split; [reflexivity|split; [exact I|reflexivity]]|].
        apply (gstep_if asm_prog true); [unfold cond1; do 2 eexists; split; [reflexivity|split; [exact I|reflexivity]]|].
        apply gstep_step. now apply sd_steps.
    - exists (sd_e2 eps). split; [|split; [reflexivity|]].
      + intros j x E. do 6 (destruct j as [|j]; [cbn in E; first [discriminate|injection E as <-; apply GE; cbn; lia]|]). destruct j; discriminate.
      + change (f_body ast_set_displ) with (SIf (EBin Eq (EFld (EV "this") "dim") (EI 2)) sd_2 (SIf (EBin Eq (EFld (EV "this") "dim") (EI 3)) sd_3 SSkip)).
        apply (gstep_if asm_prog true); [unfold cond1; do 2 eexists; split; [reflexivity|split; [exact I|reflexivity]]|].
        apply gstep_step. now apply sd_steps2. }
  destruct EX as (e & EC & EL & GS).
  destruct (calls_gstep asm_prog "set_displ" ast_set_displ [VP 0 0; VP 2 0] [VP (a_this A) 0; VP be 0] _
    [a_this A; a_u A; be] _ h k _ (mk1 [] (m1 (sd_W V fs ae d e u'))) eq_refl eq_refl GS eq_refl) as (st & C & MS & (K1' & K2')).
  { apply atall_msim; [|exact ND|exact FK]. cbn -[this_flds]. splits; try exact I; (eexists; split; [eassumption|]); try reflexivity.
    + split; [reflexivity|]. apply (this_rfs _ fs d (v_type V) V A); auto; try exact I. eexists. split; reflexivity.
    + split; [reflexivity|]. split; [now rewrite EL|exact EC]. }
  { repeat constructor; eexists; split; reflexivity. }
  apply msim_atall0 in MS. cbn -[this_flds] in MS. destruct MS as ((o0 & M0 & (-> & _)) & (o1 & M1 & ->) & (o2 & M2 & (-> & _)) & _).
  exists st. split; [exact C|]. split; [exact M1|]. split; [|exact K1'].
  intros c LC N. cbn in N. destruct (Z.eq_dec c (a_this A)) as [->|]; [congruence|].
  destruct (Z.eq_dec c be) as [->|]; [congruence|]. apply K2'; [exact LC|]. cbn. intuition congruence.
Qed.
End Asm.
