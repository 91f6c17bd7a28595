(** The syntax trees of src/assembly.cpp against the model: assembly_rhs for three dimensions,
    the whole function. *)
From Coq Require Import String.
From Verif Require Import Base Scalar Clite CliteRules EllAst AsmAst Sym SymStep SymFold Grid EllModel AssemblyModel
  EllLit2 AsmLit AsmLit2 AsmLit3 AsmLit4 AsmLit5 AsmLit6 AsmLit7 AsmLit8 AsmLit10 AsmLit11 AsmLit12.
Local Open Scope string_scope.
Local Open Scope Z_scope.

Section Asm.
Context {T : Type} `{OT : Ops T}.
Notation val := (@val T). Notation obj := (@obj T). Notation obj1 := (@obj1 T).
Notation fields := (list (string * option val)).
Notation SM0 := (fun _ : string => @None (@summary T)).

Lemma step_weak1 P c (w w1 w2 : @st1 T) : weaker w w1 -> step P c w1 w2 -> step P c w w2.
Proof. intros K H ad s S. apply H. now apply K. Qed.

Section Gen.
Variables (V : env T) (u vold : arr T) (fs : fields) (l2 : list fields).
Hypothesis D3 : v_dim V = 3.
Hypothesis Z0 : dec 0 1 = (ofZ 0 : T).
Hypothesis WO : Wok V fs (flds_b V) (v_etype V) l2.
Notation el_W := (el_W V u vold fs l2).

(** the start and the loop that clears b *)
Definition rh_env0 : list (string * val) := [("this", VP 0 0); ("non_linear", VP 7 0)].
Definition rh_env1 : list (string * val) :=
  (rh_env0 ++ [("index", VP 8 0); ("non_linear_one_elem", VP 9 0)])%list.
Definition rh_mem1 (vn b : arr T) : list (option obj1) :=
  (pre7 V fs l2 vold vn u b ++ [Some (I1 [Some 0]); Some (I1 (nc 24)); Some (I1 [Some 0])])%list.
Lemma rh_pre vn b :
  out3 (execs1 asm_prog SM0 9 (firstn 4 as_list) (mk1 rh_env0 (pre7 V fs l2 vold vn u b ++ [Some (I1 (nc 1))])%list) []) =
  Some (mk1 rh_env1 (rh_mem1 vn b), []).
Proof. vmr. Qed.
Lemma rh_clr vn b i : let a := wrv b i (ofZ 0) in
  cut3 10 ["i"; "this"; "non_linear"; "index"; "non_linear_one_elem"]
    (out3 (execs1 asm_prog SM0 9 [for_body (nth 4 as_list SSkip)] (with1 "i" i (mk1 rh_env1 (rh_mem1 vn b))) [])) =
  Some (with1 "i" i (mk1 rh_env1 (rh_mem1 vn a)), [wr b i (ofZ 0) = Ok a]).
Proof. cbv zeta. vmr. Qed.
Lemma rh_be vn b :
  out3 (execs1 asm_prog SM0 9 [hd SSkip as_list3] (mk1 rh_env1 (rh_mem1 vn b)) []) =
  Some (mk1 el_env (rh_mem1 vn b ++ [Some (D1 (nc 24))])%list, []).
Proof. vmr. Qed.
Lemma rh_neg nl vn b i : let a := wrv b i (oopp (rdv b i)) in
  cut3 11 ["i"; "this"; "non_linear"; "index"; "non_linear_one_elem"; "be"]
    (out3 (execs1 asm_prog SM0 9 [for_body (nth 6 as_list SSkip)] (with1 "i" i (el_W (b, nl, vn))) [])) =
  Some (with1 "i" i (el_W (a, nl, vn)), [rd b i = Ok (rdv b i); wr b i (oopp (rdv b i)) = Ok a]).
Proof. cbv zeta. vmr. Qed.
Definition nm_W (nl : bool) (vn b : arr T) (t : T) : @st1 T :=
  mk1 (el_env ++ [("norm", VD t)])%list (m1 (el_W (b, nl, vn))).
Lemma rh_nrm0 nl vn b :
  out3 (execs1 asm_prog SM0 9 [nth 7 as_list SSkip] (el_W (b, nl, vn)) []) = Some (nm_W nl vn b (ofZ 0), []).
Proof. vmr. Qed.
Lemma rh_nrm nl vn b i t :
  cut3 11 ["i"; "this"; "non_linear"; "index"; "non_linear_one_elem"; "be"; "norm"]
    (out3 (execs1 asm_prog SM0 9 [for_body (nth 8 as_list SSkip)] (with1 "i" i (nm_W nl vn b t)) [])) =
  Some (with1 "i" i (nm_W nl vn b (oadd t (omul (rdv b i) (rdv b i)))), [rd b i = Ok (rdv b i); rd b i = Ok (rdv b i)]).
Proof. vmr. Qed.
Lemma rh_nrm2 nl vn b t :
  out3 (execs1 asm_prog SM0 9 [nth 9 as_list SSkip] (nm_W nl vn b t) []) = Some (nm_W nl vn b (osqrt t), []).
Proof. vmr. Qed.
Lemma nd3 : ndofs V = v_nx V * v_ny V * v_nz V * 3.
Proof. unfold ndofs, nn. now rewrite D3. Qed.
Lemma rdv_ok (a : arr T) i t : rd a i = Ok t -> rdv a i = t.
Proof. intros E. unfold rdv. now rewrite E. Qed.

Lemma rhs_rstep vnew b b' nl vn' nrm :
  assembly_rhs V u vold vnew b = Ok (b', nl, vn', nrm) ->
  exists w, rstep asm_prog (f_body ast_assembly_rhs)
    (mk1 rh_env0 (pre7 V fs l2 vold vnew u b ++ [Some (I1 (nc 1))])%list) w (VD nrm) /\
    cut 8 [] w = Some (mk1 [] (pre7 V fs l2 vold vn' u b' ++ [Some (I1 [Some (bz nl)])])%list).
Proof.
  intros E. unfold assembly_rhs in E. apply bind_ok in E. destruct E as (b1 & E1 & E).
  rewrite D3 in E. change (3 =? 2) with false in E. change (3 =? 3) with true in E. cbn match in E.
  apply bind_ok in E. destruct E as (((b3 & nl3) & vn3) & EB & E).
  apply bind_ok in EB. destruct EB as (((b2 & nl2) & vn2) & E2 & EB). cbn [fst snd] in EB.
  apply bind_ok in EB. destruct EB as (b3' & E3 & EB). injection EB as -> -> ->. cbn [fst snd] in E.
  apply bind_ok in E. destruct E as (b4 & E4 & E). apply bind_ok in E. destruct E as (n2 & E5 & E).
  injection E as <- <- <- <-.
  exists (nm_W nl3 vn3 b4 (osqrt n2)). split; [|reflexivity].
  change (f_body ast_assembly_rhs) with (seqs (firstn 4 as_list)
    (SSeq (nth 4 as_list SSkip) (SSeq (nth 5 as_list SSkip) (SSeq (nth 6 as_list SSkip)
    (SSeq (nth 7 as_list SSkip) (SSeq (nth 8 as_list SSkip) (SSeq (nth 9 as_list SSkip) (SRet (EV "norm"))))))))).
  unfold rstep. refine (rstep_execs asm_prog SM0 SM0_ok _ _ _ _ _ _ _ _ _ (rh_pre vnew b) I _).
  change (rstep asm_prog (SSeq (nth 4 as_list SSkip) (SSeq (nth 5 as_list SSkip) (SSeq (nth 6 as_list SSkip)
    (SSeq (nth 7 as_list SSkip) (SSeq (nth 8 as_list SSkip) (SSeq (nth 9 as_list SSkip) (SRet (EV "norm"))))))))
    (mk1 rh_env1 (rh_mem1 vnew b)) (nm_W nl3 vn3 b4 (osqrt n2)) (VD (osqrt n2))).
  assert (CN : forall (w : @st1 T) i, look1 "i" (e1 w) = Some (VI i) -> look1 "this" (e1 w) = Some (VP 0 0) ->
    blk w 0 = Some (R1 fs (flds_b V)) ->
    cond1 (EBin Lt (EV "i") (EBin Mul (EFld (EV "this") "nn") (EFld (EV "this") "dim"))) w (i <? ndofs V)).
  { intros w i L1 L2 B. rewrite nd3. apply cond_lt. cbn [eval1]. unfold bind1, opt1, ret1. rewrite L1, L2.
    cbn [load_fld1]. rewrite B. reflexivity. }
  (* b[i] = 0.0 *)
  eapply rstep_seq with (w2 := mk1 rh_env1 (rh_mem1 vnew b1)).
  { apply gstep_step. unfold run_stores in E1. rewrite foldM_map in E1. cbn [fst snd] in E1. rewrite Z0 in E1.
    change (nth 4 as_list SSkip) with (SFor "i" (EI 0)
      (EBin Lt (EV "i") (EBin Mul (EFld (EV "this") "nn") (EFld (EV "this") "dim"))) (for_body (nth 4 as_list SSkip))).
    refine (step_fold asm_prog _ "i" _ _ _ (fun b => mk1 rh_env1 (rh_mem1 vnew b)) 0 _ _ _ E1 _ _ _ _); [reflexivity|reflexivity| |].
    - intros i m. apply CN; reflexivity.
    - intros i m m' _ W. pose proof (rh_clr vnew m i) as RUN. cbv zeta in RUN. rewrite (wrv_ok _ _ _ _ W) in RUN.
      refine (step_cut asm_prog SM0 SM0_ok _ _ _ [] _ _ _ _ _ _ RUN _ eq_refl eq_refl). cbn [alls]. auto. }
  (* the elements and the boundary *)
  eapply rstep_seq with (w2 := el_W (b3, nl3, vn3)).
  { change (nth 5 as_list SSkip) with (SIf (EBin Eq (EFld (EV "this") "dim") (EI 2))
      (match nth 5 as_list SSkip with SIf _ a _ => a | _ => SSkip end)
      (SIf (EBin Eq (EFld (EV "this") "dim") (EI 3)) as_3 SSkip)).
    apply (gstep_if asm_prog false).
    { exists (VI 0), []. split; [reflexivity|]. split; [exact I|reflexivity]. }
    apply (gstep_if asm_prog true).
    { exists (VI 1), []. split; [reflexivity|]. split; [exact I|reflexivity]. }
    change as_3 with (seqs [hd SSkip as_list3] (SSeq (nth 1 as_list3 SSkip) (block (tl (tl as_list3))))).
    refine (gstep_execs asm_prog SM0 SM0_ok _ _ _ _ _ _ _ _ (rh_be vnew b1) I _). apply gstep_step.
    apply (step_weak1 _ _ _ (el_W (b1, false, vnew))).
    { apply weaker_less; [intros x v X; exact X|]. unfold rh_mem1, el_mem. cbn [app pre7 fst snd].
      repeat (constructor; [apply less_refl|]). constructor; [apply (less_nci [Some 0])|].
      constructor; [apply less_refl|constructor]. }
    eapply step_seq; [exact (el_loops V u vold fs l2 D3 WO (b1, false, vnew) _ E2)|].
    apply zero_bnd_steps; assumption. }
  (* the sign *)
  eapply rstep_seq with (w2 := el_W (b4, nl3, vn3)).
  { apply gstep_step.
    change (nth 6 as_list SSkip) with (SFor "i" (EI 0)
      (EBin Lt (EV "i") (EBin Mul (EFld (EV "this") "nn") (EFld (EV "this") "dim"))) (for_body (nth 6 as_list SSkip))).
    unfold upd_for in E4.
    refine (step_fold asm_prog _ "i" _ _ _ (fun b => el_W (b, nl3, vn3)) 0 _ _ _ E4 _ _ _ _); [reflexivity|reflexivity| |].
    - intros i m. apply CN; reflexivity.
    - intros i m m' _ W. apply bind_ok in W. destruct W as (v & W1 & W). apply bind_ok in W1. destruct W1 as (x & W1 & W2).
      injection W2 as <-.
      pose proof (rh_neg nl3 vn3 m i) as RUN. cbv zeta in RUN. rewrite (rdv_ok _ _ _ W1), (wrv_ok _ _ _ _ W) in RUN.
      refine (step_cut asm_prog SM0 SM0_ok _ _ _ [] _ _ _ _ _ _ RUN _ eq_refl eq_refl). cbn [alls]. auto. }
  (* the norm *)
  eapply rstep_seq; [exact (gstep_exec asm_prog SM0 SM0_ok _ _ _ _ _ _ (rh_nrm0 nl3 vn3 b4) I)|].
  eapply rstep_seq with (w2 := nm_W nl3 vn3 b4 n2).
  { apply gstep_step.
    change (nth 8 as_list SSkip) with (SFor "i" (EI 0)
      (EBin Lt (EV "i") (EBin Mul (EFld (EV "this") "nn") (EFld (EV "this") "dim"))) (for_body (nth 8 as_list SSkip))).
    unfold dotM, sumM in E5.
    refine (step_fold asm_prog _ "i" _ _ _ (nm_W nl3 vn3 b4) 0 _ _ _ E5 _ _ _ _); [reflexivity|reflexivity| |].
    - intros i m. apply CN; reflexivity.
    - intros i m m' _ W. apply bind_ok in W. destruct W as (v & W1 & W). apply bind_ok in W1. destruct W1 as (x & W1 & W2).
      apply bind_ok in W2. destruct W2 as (y & W2 & W3). injection W3 as <-. injection W as <-.
      assert (y = x) by congruence. subst y.
      pose proof (rh_nrm nl3 vn3 b4 i m) as RUN. rewrite (rdv_ok _ _ _ W1) in RUN.
      refine (step_cut asm_prog SM0 SM0_ok _ _ _ [] _ _ _ _ _ _ RUN _ eq_refl eq_refl). cbn [alls]. auto. }
  eapply rstep_seq; [exact (gstep_exec asm_prog SM0 SM0_ok _ _ _ _ _ _ (rh_nrm2 nl3 vn3 b4 n2) I)|].
  apply rstep_ret; [reflexivity|discriminate].
Qed.
End Gen.

Lemma Wok_b (V : env T) A fs l2 : this_in fs V A -> mats_in l2 V -> Wok V fs (flds_b V) (v_etype V) l2.
Proof. intros TI MI. split; [exists A; exact TI|]. splits; assumption || reflexivity. Qed.
Lemma pre7_at (V : env T) A fs l2 vold vnew u b h ad l : ad = ((body_addrs A ++ [a_b A]) ++ l)%list ->
  h (a_this A) = Some (OS fs) -> this_in fs V A -> h (a_et A) = Some (OI (v_etype V)) -> h (a_ml A) = Some (OV l2) ->
  h (a_vo A) = Some (OD vold) -> h (a_vn A) = Some (OD vnew) -> h (a_u A) = Some (OD u) -> h (a_b A) = Some (OD b) ->
  v_dim V = 3 -> atall ad (body_addrs A ++ [a_b A])%list (pre7 V fs l2 vold vnew u b) h.
Proof.
  intros -> H1 TI H2 H3 H4 H5 H6 H7 D3. unfold pre7, body_addrs, flds_b. cbn -[this_flds].
  splits; try exact I; (eexists; split; [eassumption|]); try reflexivity.
  - split; [reflexivity|]. apply (this_rfs _ fs 3 (v_type V) V A); auto; try exact I; eexists; split; reflexivity.
  - split; [reflexivity|]. intros i fs2 E. destruct i; discriminate.
Qed.
Lemma pre7_get (V : env T) A fs l2 vold vnew u b h full : mats_in l2 V -> this_in fs V A ->
  atall full (body_addrs A ++ [a_b A])%list (pre7 V fs l2 vold vnew u b) h ->
  body V A vold vnew u h /\ h (a_b A) = Some (OD b).
Proof.
  intros MI TI AT. unfold pre7, body_addrs in AT. cbn -[flds_b ro] in AT.
  destruct AT as ((o0 & M0 & R0) & (o1 & M1 & R1') & (o2 & M2 & R2) & (o3 & M3 & R3) & (o4 & M4 & R4) &
      (o5 & M5 & R5) & (o6 & M6 & R6) & _).
  cbn [ro] in *. destruct R0 as (-> & _). destruct R2 as (-> & _). subst. split; [exists fs, l2; auto 10|exact M6].
Qed.
(** the residual, its norm and the flag *)
Theorem assembly_rhs_text V A vold vnew u b h k bl fl b' nl vnew' nrm :
  v_dim V = 3 -> dec 0 1 = (ofZ 0 : T) -> NoDup (body_addrs A ++ [a_b A; bl])%list ->
  Forall (fun a => a < k) (body_addrs A ++ [a_b A; bl])%list -> body V A vold vnew u h ->
  h (a_b A) = Some (OD b) -> h bl = Some (OI fl) -> alen fl = 1 ->
  assembly_rhs V u vold vnew b = Ok (b', nl, vnew', nrm) ->
  exists st fl',
    calls asm_prog "assembly_rhs" [VP (a_this A) 0; VP bl 0] h k (Ok (st, Ret (VD nrm))) /\
    body V A vold vnew' u (mem st) /\ mem st (a_b A) = Some (OD b') /\
    mem st bl = Some (OI fl') /\ alen fl' = 1 /\ aget fl' 0 = Some (if nl then 1 else 0) /\
    frame h (mem st) k [a_vn A; a_b A; bl] /\ k <= nxt st.
Proof.
  intros D3 Z0 ND FK (fs & l2 & B0 & B1 & B2' & B3' & B4 & B5 & B6 & B7) HB HL LL M.
  destruct (rhs_rstep V u vold fs l2 D3 Z0 (Wok_b V A fs l2 B1 B4) vnew b b' nl vnew' nrm M) as (w & RS & CU).
  set (ad := (body_addrs A ++ [a_b A; bl])%list) in *.
  destruct (calls_rstep asm_prog "assembly_rhs" ast_assembly_rhs [VP 0 0; VP 7 0] [VP (a_this A) 0; VP bl 0] rh_env0
    ad (pre7 V fs l2 vold vnew u b ++ [Some (I1 (nc 1))])%list h k _ _ _ eq_refl eq_refl RS CU) as (st & C & MS & (K1' & K2')).
  { apply atall_msim; [|exact ND|exact FK]. change ad with ((body_addrs A ++ [a_b A]) ++ [bl])%list at 2.
    refine (atall_app _ _ _ _ _ _ _ _).
    - eapply pre7_at; eauto. reflexivity.
    - cbn -[nc]. split; [|exact I]. exists (OI fl). split; [exact HL|]. exists fl. split; [reflexivity|]. now apply nc_cells. }
  { repeat constructor; eexists; split; reflexivity. }
  apply msim_atall0 in MS. cbn [m1] in MS.
  change ad with ((body_addrs A ++ [a_b A]) ++ [bl])%list in MS at 2.
  apply atall_split in MS; [|reflexivity]. destruct MS as (AT1 & AT2).
  cbn in AT2. destruct AT2 as ((o2 & M2 & (fl' & -> & R2)) & _).
  destruct (pre7_get _ A _ _ _ _ _ _ _ _ B4 B1 AT1) as (BD & MB).
  exists st, fl'. split; [exact C|]. split; [exact BD|]. split; [exact MB|]. split; [exact M2|].
  destruct R2 as (L2 & R2). split; [exact L2|]. split; [exact (R2 0%nat (bz nl) eq_refl)|]. split; [|exact K1'].
  intros c LC N. destruct (in_dec Z.eq_dec c ad) as [IN|IN]; [|now apply K2'].
  clear -IN N AT1 B0 B2' B3' B5 B7. unfold pre7, body_addrs in AT1. cbn -[flds_b ro] in AT1.
  destruct AT1 as ((o0 & Q0 & R0) & (o1 & Q1 & R1') & (o2 & Q2 & R2) & (o3 & Q3 & R3) & (o4 & Q4 & R4) &
      (o5 & Q5 & R5) & _). cbn [ro] in *. destruct R0 as (-> & _). destruct R2 as (-> & _). subst.
  cbn in IN, N. repeat destruct IN as [IN|IN]; try subst c; try tauto; congruence.
Qed.
End Asm.
