(** The syntax trees of src/assembly.cpp against the model: the element loop of assembly_rhs. *)
From Coq Require Import String.
From Verif Require Import Base Scalar Clite CliteRules EllAst AsmAst Sym SymStep SymFold Grid EllModel AssemblyModel
  EllLit2 AsmLit AsmLit2 AsmLit3 AsmLit4 AsmLit5 AsmLit6 AsmLit7 AsmLit8 AsmLit10.
Local Open Scope string_scope.
Local Open Scope Z_scope.

Section Asm.
Context {T : Type} `{OT : Ops T}.
Notation val := (@val T). Notation obj := (@obj T). Notation obj1 := (@obj1 T).
Notation fields := (list (string * option val)).

Lemma SM4_ok V : v_dim V = 3 -> forall f sm,
  SM4 (Wok V) (get_elem_rhs3D V) f = Some sm -> sum_ok asm_prog f sm.
Proof.
  intros D3 f sm. unfold SM4. destruct (String.eqb_spec f "get_elem_rhs3D"); [|discriminate].
  intros [= <-]. subst f. now apply sm_rhs_ok.
Qed.

Lemma less_nci (l : list (option Z)) : less (T := T) (Some (I1 l)) (Some (I1 (nc (List.length l)))).
Proof.
  intros ad o2 (a & -> & (L & _)). exists a. split; [reflexivity|]. split; [unfold nc; now rewrite repeat_length|].
  intros i v E. apply nth_error_In, repeat_spec in E. discriminate.
Qed.
Lemma cond_lt (w : @st1 T) (e : exp) (a b : Z) : eval1 w e [] = Some (ofb (a <? b), [], []) -> cond1 e w (a <? b).
Proof. intros E. exists (ofb (a <? b)), []. split; [exact E|]. split; [exact I|]. now destruct (a <? b). Qed.

Section Loop.
Variables (V : env T) (u vold : arr T) (fs : fields) (l2 : list fields).
Hypothesis D3 : v_dim V = 3.
Hypothesis WO : Wok V fs (flds_b V) (v_etype V) l2.
Notation SM := (SM4 (Wok V) (get_elem_rhs3D V)).
Notation el_W := (el_W V u vold fs l2).

(** one element *)
Definition el_f (ex ey ez : Z) (st : arr T * bool * arr T) : res (arr T * bool * arr T) :=
  ' r <- get_elem_rhs3D V u vold (snd st) ex ey ez ;;
  b <- run_adds (rhs_adds 3 (sn3 (v_nx V) (v_ny V) ex ey ez) (fst (fst r))) (fst (fst st)) ;;
  Ok (b, (if snd (fst r) then true else snd (fst st)), snd r).

Lemma el_step ex ey ez st st' : el_f ex ey ez st = Ok st' ->
  step asm_prog (for_body (for_body (for_body (nth 1 as_list3 SSkip))))
    (with1 "ez" ez (with1 "ey" ey (with1 "ex" ex (el_W st))))
    (with1 "ez" ez (with1 "ey" ey (with1 "ex" ex (el_W st')))).
Proof.
  intros E. unfold el_f in E. apply bind_ok in E. destruct E as (((be & nl) & vn') & G & E). cbn [fst snd] in E.
  apply bind_ok in E. destruct E as (b' & RA & E). injection E as <-. destruct st as ((b & n0) & vn). cbn [fst snd] in *.
  pose proof (el_run V (Wok V) (get_elem_rhs3D V) u vold fs l2 ex ey ez vn b n0 nl) as RUN. cbv zeta in RUN.
  rewrite G in RUN. cbn [q_be q_nl q_vn] in RUN.
  change (for_body (for_body (for_body (nth 1 as_list3 SSkip)))) with (seqs (removelast el_list) (last el_list SSkip)).
  refine (step_execs asm_prog SM (SM4_ok V D3) _ _ _ _ _ _ _ _ _ _ RUN _ eq_refl _).
  { cbn [alls]. auto. }
  clear RUN. set (mem_ := fun b => el_mem V u vold fs l2 vn' b (if nl then 1 else bz n0) (el_idxs V ex ey ez) [Some (bz nl)] (fc 24 (lget be))).
  apply (step_weak _ _ _ (mk1 (el_env2 ex ey ez) (mem_ b'))).
  2:{ apply weaker_less; [intros x v X; exact X|]. unfold mem_, el_mem. cbn [app pre7 fst snd].
      repeat (constructor; [apply less_refl|]).
      constructor; [destruct nl; apply less_refl|].
      constructor; [apply (less_nci (el_idxs V ex ey ez))|].
      constructor; [apply (less_nci [Some (bz nl)])|].
      constructor; [apply (less_nc (fc 24 (lget be)))|]. constructor. }
  change (last el_list SSkip) with (SFor "i" (EI 0)
    (EBin Lt (EV "i") (EBin Mul (EFld (EV "this") "npe") (EFld (EV "this") "dim"))) (for_body (last el_list SSkip))).
  unfold run_adds, rhs_adds in RA. rewrite foldM_map in RA. cbn [fst snd] in RA.
  apply (step_fold asm_prog _ "i" _ _ _ (fun b => mk1 (el_env2 ex ey ez) (mem_ b)) 0 24 b b' RA).
  - reflexivity.
  - reflexivity.
  - intros i m. apply cond_lt. reflexivity.
  - intros i m m' I E. apply bind_ok in E. destruct E as (old & RD & WR).
    pose proof (add_run V (Wok V) (get_elem_rhs3D V) u vold fs l2 ex ey ez vn' m (if nl then 1 else bz n0) [Some (bz nl)] be i I) as RUN.
    cbv zeta in RUN.
    assert (E1 : rdv m (el_idx V ex ey ez i) = old) by (unfold rdv, el_idx; now rewrite RD).
    rewrite E1 in RUN.
    assert (E2 : wrv m (el_idx V ex ey ez i) (oadd old (lget be i)) = m') by (unfold wrv, el_idx; now rewrite WR).
    rewrite E2 in RUN.
    refine (step_cut asm_prog SM (SM4_ok V D3) _ _ _ _ _ _ _ _ _ _ RUN _ eq_refl eq_refl).
    cbn [alls]. unfold el_idx. auto.
Qed.

(** all elements *)
Lemma el_loops st st' :
  foldM (fun st e => let '(ex, ey, ez) := e in el_f ex ey ez st) (els3 V) st = Ok st' ->
  step asm_prog (nth 1 as_list3 SSkip) (el_W st) (el_W st').
Proof.
  unfold els3. rewrite foldM_flat. intros E.
  change (nth 1 as_list3 SSkip) with (SFor "ex" (EI 0) (EBin Lt (EV "ex") (EBin Sub (EFld (EV "this") "nx") (EI 1)))
    (SFor "ey" (EI 0) (EBin Lt (EV "ey") (EBin Sub (EFld (EV "this") "ny") (EI 1)))
    (SFor "ez" (EI 0) (EBin Lt (EV "ez") (EBin Sub (EFld (EV "this") "nz") (EI 1)))
      (for_body (for_body (for_body (nth 1 as_list3 SSkip))))))).
  refine (step_fold asm_prog _ "ex" _ _ _ el_W 0 _ _ _ E _ _ _ _); [reflexivity|reflexivity| |].
  { intros i m. apply cond_lt. reflexivity. }
  clear E st st'. intros ex st st' IX E. rewrite foldM_flat in E.
  refine (step_fold asm_prog _ "ey" _ _ _ (fun st => with1 "ex" ex (el_W st)) 0 _ _ _ E _ _ _ _); [reflexivity|reflexivity| |].
  { intros i m. apply cond_lt. reflexivity. }
  clear E st st'. intros ey st st' IY E. rewrite foldM_map in E.
  refine (step_fold asm_prog _ "ez" _ _ _ (fun st => with1 "ey" ey (with1 "ex" ex (el_W st))) 0 _ _ _ E _ _ _ _); [reflexivity|reflexivity| |].
  { intros i m. apply cond_lt. reflexivity. }
  clear E st st'. intros ez st st' IZ E. apply el_step. exact E.
Qed.
End Loop.
End Asm.
