(** The syntax trees of src/assembly.cpp against the model: calc_fields for three dimensions. *)
From Coq Require Import String.
From Verif Require Import Base Scalar Clite CliteRules EllAst AsmAst Sym SymStep SymFold Grid EllModel AssemblyModel
  EllLit2 AsmLit AsmLit2 AsmLit3 AsmLit4 AsmLit5 AsmLit6 AsmLit7 AsmLit8 AsmLit10 AsmLit11 AsmLit12 AsmLit13 AsmLit18 AsmLit19.
Local Open Scope string_scope.
Local Open Scope Z_scope.

Section Asm.
Context {T : Type} `{OT : Ops T}.
Notation val := (@val T). Notation obj := (@obj T). Notation obj1 := (@obj1 T).
Notation fields := (list (string * option val)).
Notation SM0 := (fun _ : string => @None (@summary T)).

Definition cf_list : list stmt := Eval cbv in unblock 1 (f_body ast_calc_fields).
Definition cf_3 : stmt := Eval cbv in match nth 1 cf_list SSkip with SIf _ _ (SIf _ b _) => b | _ => SSkip end.
Definition cf_el : stmt := Eval cbv in for_body (for_body (for_body cf_3)).

(** two lists of stores, one from each in turn *)
Fixpoint cds2 (l l' : list (Z * T)) (b b' : arr T) : list Prop :=
  match l, l' with
  | (i, t) :: l, (i', t') :: l' => (wr b i t = Ok (wrv b i t)) :: (wr b' i' t' = Ok (wrv b' i' t')) :: cds2 l l' (wrv b i t) (wrv b' i' t')
  | _, _ => []
  end.
Lemma cds2_alls l : forall l' b b', alls (cds l b) -> alls (cds l' b') -> alls (cds2 l l' b b').
Proof.
  induction l as [|[i t] l IH]; intros [|[i' t'] l'] b b'; cbn [cds cds2 alls]; auto. intros (H1 & H2) (H3 & H4). auto.
Qed.
Lemma alls_app (l l' : list Prop) : alls l -> alls l' -> alls (l ++ l')%list.
Proof. induction l as [|p l IH]; cbn [alls app]; tauto. Qed.

Section Gen.
Variable V : env T.
Variable W : fields -> fields -> arr Z -> list fields -> Prop.
Variable gst : arr T -> Z -> Z -> Z -> Z -> res (list T).
Variable gss : arr T -> arr T -> Z -> Z -> Z -> Z -> list T -> res (bool * list T * arr T).
Variables (u vold : arr T) (fs : fields) (l2 : list fields).
Definition flds_f : fields :=
  this_flds 3 (v_type V) V (ptr 1) (ptr 2) (ptr 3) (ptr 4) (ptr 5) None None None (ptr 7) (ptr 6).
Definition pre8 (vn es et : arr T) : list (option obj1) :=
  [Some (R1 fs flds_f); Some (K1 (v_etype V) 0); Some (V1 l2 []); Some (Opq vold); Some (Opq vn); Some (Opq u);
   Some (Opq es); Some (Opq et)].
Definition WF : Prop := W fs flds_f (v_etype V) l2.
Notation r1_ := (av_r1 gst u).
Definition fst3 : Type := list T * list T * arr T.
Definition cf_r2 (ex ey ez : Z) (st : fst3) (gp : Z) := gss vold (snd st) ex ey ez gp (fe (g_eps (r1_ ex ey ez gp))).
Definition cf_step (ex ey ez : Z) (st : fst3) (gp : Z) : fst3 :=
  (add_ave 6 (g_eps (r1_ ex ey ez gp)) (wg3 V) (fst (fst st)), add_ave 6 (g_sig (cf_r2 ex ey ez st gp)) (wg3 V) (snd (fst st)),
   g_vn (snd st) (cf_r2 ex ey ez st gp)).
Fixpoint cf_conds (ex ey ez : Z) (l : list Z) (st : fst3) : list Prop :=
  match l with
  | [] => []
  | gp :: l => ([0 <= gp < 8; WF; r1_ ex ey ez gp = Ok (g_eps (r1_ ex ey ez gp)); WF;
      cf_r2 ex ey ez st gp = Ok (g_nl (cf_r2 ex ey ez st gp), g_sig (cf_r2 ex ey ez st gp), g_vn (snd st) (cf_r2 ex ey ez st gp))]
      ++ cf_conds ex ey ez l (cf_step ex ey ez st gp))%list
  end.
Definition cf_end (ex ey ez : Z) (vn : arr T) : fst3 := fold_left (cf_step ex ey ez) (zrange 0 8) (zeros 6, zeros 6, vn).
Lemma cf_end_eq ex ey ez vn : cf_end ex ey ez vn = fold_left (cf_step ex ey ez) (zrange 0 8) (zeros 6, zeros 6, vn).
Proof. reflexivity. Qed.
Definition cf_lastnl (ex ey ez : Z) (vn : arr T) : bool :=
  g_nl (cf_r2 ex ey ez (fold_left (cf_step ex ey ez) (zrange 0 7) (zeros 6, zeros 6, vn)) 7).
Definition cf_env : list (string * val) := [("this", VP 0 0); ("non_linear_flag", VP 8 0)].
Definition cf_mem (st : arr T * arr T * arr T) (fl : list (option Z)) : list (option obj1) :=
  (pre8 (snd st) (fst (fst st)) (snd (fst st)) ++ [Some (I1 fl)])%list.
Definition cf_W (st : arr T * arr T * arr T) : @st1 T := mk1 cf_env (cf_mem st (nc 1)).
Definition cf_st (ex ey ez : Z) (a : list T) : list (Z * T) :=
  field_stores 6 (glo_elem3D (v_nx V) (v_ny V) ex ey ez) a (omul (omul (v_dx V) (v_dy V)) (v_dz V)).
Lemma cf_run ex ey ez st : let r := cf_end ex ey ez (snd st) in
  cut3 9 ["ez"; "ey"; "ex"; "this"; "non_linear_flag"]
    (out3 (execs1 asm_prog (SM5 W gst gss) 100 [cf_el] (with1 "ez" ez (with1 "ey" ey (with1 "ex" ex (cf_W st)))) [])) =
  Some (with1 "ez" ez (with1 "ey" ey (with1 "ex" ex (mk1 cf_env (cf_mem
          (wrs (cf_st ex ey ez (fst (fst r))) (fst (fst st)), wrs (cf_st ex ey ez (snd (fst r))) (snd (fst st)), snd r)
          [Some (if cf_lastnl ex ey ez (snd st) then 1 else 0)])))),
        (cf_conds ex ey ez (zrange 0 8) (zeros 6, zeros 6, snd st) ++
         cds2 (cf_st ex ey ez (fst (fst r))) (cf_st ex ey ez (snd (fst r))) (fst (fst st)) (snd (fst st)))%list).
Proof. cbv zeta. vmr. Qed.
Lemma cf_run0 st :
  out3 (execs1 asm_prog SM0 20 (firstn 1 cf_list) (mk1 [("this", VP 0 0)] (pre8 (snd st) (fst (fst st)) (snd (fst st)))) []) =
  Some (cf_W st, []).
Proof. vmr. Qed.
End Gen.

Section Loop.
Variables (V : env T) (u vold : arr T) (fs : fields) (l2 : list fields).
Hypothesis D3 : v_dim V = 3.
Hypothesis WO : WF V (Wok V) fs l2.
Notation SM := (SM5 (Wok V) (get_strain3D V) (get_stress3D V)).
Notation cfW := (cf_W V u vold fs l2).
Notation cf_stepV := (cf_step V (get_strain3D V) (get_stress3D V) u vold).
Notation cf_condsV := (cf_conds V (Wok V) (get_strain3D V) (get_stress3D V) u vold fs l2).

Lemma cf_foldM ex ey ez : forall l st st', Forall (fun gp => 0 <= gp < 8) l ->
  foldM (fun a gp =>
        eps <- get_strain3D V u ex ey ez gp ;;
        ' s <- get_stress3D V vold (snd a) ex ey ez gp eps ;;
        Ok (add_ave 6 eps (wg3 V) (fst (fst a)), add_ave 6 (snd (fst s)) (wg3 V) (snd (fst a)), snd s)) l st = Ok st' ->
  st' = fold_left (cf_stepV ex ey ez) l st /\ alls (cf_condsV ex ey ez l st).
Proof.
  induction l as [|gp l IH]; intros st st' F E.
  - cbn in E. injection E as <-. cbn. auto.
  - cbn [foldM] in E. apply bind_ok in E. destruct E as (st1 & E & E2).
    apply bind_ok in E. destruct E as (eps & E1 & E). apply bind_ok in E. destruct E as (((nl & s) & vn) & E3 & E).
    cbn [fst snd] in E. injection E as E. inversion F as [|? ? Hg F']; subst.
    assert (R2 : cf_r2 (get_strain3D V) (get_stress3D V) u vold ex ey ez st gp = Ok (nl, s, vn)).
    { unfold cf_r2, av_r1. rewrite E1. cbn [g_eps]. now rewrite (fe_strain _ _ _ _ _ _ _ E1). }
    assert (ST : (add_ave 6 eps (wg3 V) (fst (fst st)), add_ave 6 s (wg3 V) (snd (fst st)), vn) = cf_stepV ex ey ez st gp).
    { unfold cf_step. rewrite R2. unfold av_r1. rewrite E1. reflexivity. }
    rewrite ST in E2. destruct (IH _ _ F' E2) as (-> & AL). split; [reflexivity|].
    cbn [cf_conds app alls]. rewrite R2. cbn [g_nl g_sig g_vn]. unfold av_r1. rewrite E1. cbn [g_eps]. auto 10.
Qed.

Definition cf_f (st : arr T * arr T * arr T) (ex ey ez : Z) : res (arr T * arr T * arr T) :=
      ' a <- foldM (fun a gp =>
        eps <- get_strain3D V u ex ey ez gp ;;
        ' s <- get_stress3D V vold (snd a) ex ey ez gp eps ;;
        Ok (add_ave 6 eps (wg3 V) (fst (fst a)), add_ave 6 (snd (fst s)) (wg3 V) (snd (fst a)), snd s))
        (zrange 0 8) (zeros 6, zeros 6, snd st) ;;
      es <- run_stores (cf_st V ex ey ez (fst (fst a))) (fst (fst st)) ;;
      et <- run_stores (cf_st V ex ey ez (snd (fst a))) (snd (fst st)) ;;
      Ok (es, et, snd a).
Lemma cf_elem x y z m m' : cf_f m x y z = Ok m' ->
  step asm_prog cf_el (with1 "ez" z (with1 "ey" y (with1 "ex" x (cfW m)))) (with1 "ez" z (with1 "ey" y (with1 "ex" x (cfW m')))).
Proof.
  intros E. unfold cf_f in E. apply bind_ok in E. destruct E as (r & E & Q).
    apply bind_ok in Q. destruct Q as (es & Q1 & Q). apply bind_ok in Q. destruct Q as (et & Q2 & Q). injection Q as <-.
    destruct (cf_foldM x y z _ _ _ gps8 E) as (ER & AL). clear E.
    destruct (stores_wrs _ _ _ Q1) as (A1 & ->). destruct (stores_wrs _ _ _ Q2) as (A2 & ->). clear Q1 Q2.
    pose proof (cf_run V (Wok V) (get_strain3D V) (get_stress3D V) u vold fs l2 x y z m) as RUN. cbv zeta in RUN.
    rewrite cf_end_eq, <- ER in RUN.
    set (nl := cf_lastnl V (get_strain3D V) (get_stress3D V) u vold x y z (snd m)) in RUN. clearbody nl. clear ER.
    set (e' := wrs (cf_st V x y z (fst (fst r))) (fst (fst m))) in *.
    set (t' := wrs (cf_st V x y z (snd (fst r))) (snd (fst m))) in *.
    assert (AL2 := alls_app _ _ AL (cds2_alls _ _ _ _ A1 A2)). clear AL A1 A2.
    revert RUN AL2. generalize (cf_condsV x y z (zrange 0 8) (zeros 6, zeros 6, snd m) ++
      cds2 (cf_st V x y z (fst (fst r))) (cf_st V x y z (snd (fst r))) (fst (fst m)) (snd (fst m)))%list. intros C RUN AL2.
    clearbody e' t'.
    refine (step_weak _ _ _ _ _ (step_cut asm_prog SM (SM5_ok V D3) _ _ _ [] _ _ _ _ _ _ RUN AL2 eq_refl eq_refl) _).
    apply weaker_less; [intros q v X; exact X|]. unfold cf_W, cf_mem. cbn [app pre8 fst snd with1 m1 e1].
    repeat (constructor; [apply less_refl|]). constructor; [apply (less_nci [Some _])|constructor].
Qed.
Lemma cf_gstep vn es et es' et' vn' : calc_fields V u vold vn es et = Ok (es', et', vn') ->
  exists w, gstep asm_prog (f_body ast_calc_fields) (mk1 [("this", VP 0 0)] (pre8 V u vold fs l2 vn es et)) w /\
    cut 8 [] w = Some (mk1 [] (pre8 V u vold fs l2 vn' es' et')).
Proof.
  intros E. unfold calc_fields in E. rewrite D3 in E. change (3 =? 2) with false in E. change (3 =? 3) with true in E. cbn match in E.
  exists (cfW (es', et', vn')). split; [|reflexivity].
  change (f_body ast_calc_fields) with (seqs (firstn 1 cf_list) (nth 1 cf_list SSkip)).
  refine (gstep_execs asm_prog SM0 SM0_ok _ _ _ _ _ _ _ _ (cf_run0 V u vold fs l2 (es, et, vn)) I _). apply gstep_step.
  change (nth 1 cf_list SSkip) with (SIf (EBin Eq (EFld (EV "this") "dim") (EI 2))
      (match nth 1 cf_list SSkip with SIf _ a _ => a | _ => SSkip end)
      (SIf (EBin Eq (EFld (EV "this") "dim") (EI 3)) cf_3 SSkip)).
  apply (step_if asm_prog false). { exists (VI 0), []. split; [reflexivity|]. split; [exact I|reflexivity]. }
  apply (step_if asm_prog true). { exists (VI 1), []. split; [reflexivity|]. split; [exact I|reflexivity]. }
  change cf_3 with (SFor "ex" (EI 0) (EBin Lt (EV "ex") (EBin Sub (EFld (EV "this") "nx") (EI 1)))
      (SFor "ey" (EI 0) (EBin Lt (EV "ey") (EBin Sub (EFld (EV "this") "ny") (EI 1)))
      (SFor "ez" (EI 0) (EBin Lt (EV "ez") (EBin Sub (EFld (EV "this") "nz") (EI 1))) cf_el))).
  refine (els_loops V cf_f cfW cf_el ["this"; "non_linear_flag"] _ _ _ _ _ _ _ _ _ _ E);
      try (clear; cbn; intuition discriminate); try (clear; intros; apply cond_lt; reflexivity).
  - intros z m NI. cbn [In] in NI. cbn [e1 cf_W cf_env look1]. repeat match goal with |- context [String.eqb z ?q] => destruct (String.eqb_spec z q); [subst; tauto|] end. reflexivity.
  - intros x y z m m' E'. now apply cf_elem.
Qed.
End Loop.

(** calc_fields *)
Theorem calc_fields_text V A vold vnew u es et h k es' et' vnew' :
  v_dim V = 3 -> NoDup (body_addrs A ++ [a_en A; a_es A])%list -> Forall (fun a => a < k) (body_addrs A ++ [a_en A; a_es A])%list ->
  body V A vold vnew u h -> h (a_en A) = Some (OD es) -> h (a_es A) = Some (OD et) ->
  calc_fields V u vold vnew es et = Ok (es', et', vnew') ->
  exists st, calls asm_prog "calc_fields" [VP (a_this A) 0] h k (Ok (st, Nrm)) /\
    body V A vold vnew' u (mem st) /\ mem st (a_en A) = Some (OD es') /\ mem st (a_es A) = Some (OD et') /\
    frame h (mem st) k [a_vn A; a_en A; a_es A] /\ k <= nxt st.
Proof.
  intros D3 ND FK (fs & l2 & B0 & B1 & B2' & B3' & B4 & B5 & B6 & B7) HN HS M.
  assert (WO : WF V (Wok V) fs l2). { split; [exists A; exact B1|]. splits; assumption || reflexivity. }
  destruct (cf_gstep V u vold fs l2 D3 WO vnew es et es' et' vnew' M) as (w & GS & CU).
  set (ad := (body_addrs A ++ [a_en A; a_es A])%list) in *.
  destruct (calls_gstep asm_prog "calc_fields" ast_calc_fields [VP 0 0] [VP (a_this A) 0] _
    ad _ h k _ _ eq_refl eq_refl GS CU) as (st & C & MS & (K1' & K2')).
  { apply atall_msim; [|exact ND|exact FK]. unfold ad, pre8, body_addrs, flds_f. cbn -[this_flds].
    splits; try exact I; (eexists; split; [eassumption|]); try reflexivity.
    - split; [reflexivity|]. apply (this_rfs _ fs 3 (v_type V) V A); auto; try exact I; eexists; split; reflexivity.
    - split; [reflexivity|]. intros i fs2 E. destruct i; discriminate. }
  { repeat constructor; eexists; split; reflexivity. }
  apply msim_atall0 in MS. cbn [m1] in MS. unfold ad, body_addrs, pre8 in MS. cbn -[flds_f ro] in MS.
  destruct MS as ((o0 & Q0 & R0) & (o1 & Q1 & R1') & (o2 & Q2 & R2) & (o3 & Q3 & R3) & (o4 & Q4 & R4) &
      (o5 & Q5 & R5) & (o6 & Q6 & R6) & (o7 & Q7 & R7) & _). cbn [ro] in *. destruct R0 as (-> & _). destruct R2 as (-> & _). subst.
  exists st. split; [exact C|]. split; [exists fs, l2; auto 10|]. split; [exact Q6|]. split; [exact Q7|]. split; [|exact K1'].
  intros c LC N. destruct (in_dec Z.eq_dec c ad) as [IN|IN]; [|now apply K2'].
  clear -IN N B0 B2' B3' B5 B7 Q0 Q1 Q2 Q3 Q5. subst ad.
  cbn in IN, N. repeat destruct IN as [IN|IN]; try subst c; try tauto; congruence.
Qed.
End Asm.
