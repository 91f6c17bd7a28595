(** The syntax trees of src/assembly.cpp against the model: calc_ave_stress and calc_ave_strain
    for three dimensions. *)
From Coq Require Import String.
From Verif Require Import Base Scalar Clite CliteRules EllAst AsmAst Sym SymStep SymFold Grid EllModel AssemblyModel
  EllLit2 AsmLit AsmLit2 AsmLit3 AsmLit4 AsmLit5 AsmLit6 AsmLit7 AsmLit8 AsmLit10 AsmLit11 AsmLit12 AsmLit13 AsmLit18.
Local Open Scope string_scope.
Local Open Scope Z_scope.

Section Asm.
Context {T : Type} `{OT : Ops T}.
Notation val := (@val T). Notation obj := (@obj T). Notation obj1 := (@obj1 T).
Notation fields := (list (string * option val)).
Notation SM0 := (fun _ : string => @None (@summary T)).

Definition av_list : list stmt := Eval cbv in unblock 3 (f_body ast_calc_ave_stress).
Definition av_3 : stmt := Eval cbv in match nth 2 av_list SSkip with SIf _ _ (SIf _ b _) => b | _ => SSkip end.
Definition av_el : stmt := Eval cbv in for_body (for_body (for_body av_3)).
Definition an_list : list stmt := Eval cbv in unblock 2 (f_body ast_calc_ave_strain).
Definition an_3 : stmt := Eval cbv in match nth 1 an_list SSkip with SIf _ _ (SIf _ b _) => b | _ => SSkip end.
Definition an_el : stmt := Eval cbv in for_body (for_body (for_body an_3)).

Section Gen.
Variable V : env T.
Variable W : fields -> fields -> arr Z -> list fields -> Prop.
Variable gst : arr T -> Z -> Z -> Z -> Z -> res (list T).
Variable gss : arr T -> arr T -> Z -> Z -> Z -> Z -> list T -> res (bool * list T * arr T).
Definition SM5 : string -> option (@summary T) := fun f =>
  if String.eqb f "get_strain3D" then Some (sm_strain W gst)
  else if String.eqb f "get_stress3D" then Some (sm_stress W gss) else None.
Variables (u vold : arr T) (fs : fields) (l2 : list fields).
Definition WC : Prop := W fs (this_flds 3 (v_type V) V (ptr 1) (ptr 2) (ptr 3) (ptr 4) (ptr 5) None None None None None) (v_etype V) l2.

(** the Gauss points of an element *)
Definition av_r1 (ex ey ez gp : Z) := gst u ex ey ez gp.
Definition av_r2 (ex ey ez : Z) (st : list T * arr T) (gp : Z) := gss vold (snd st) ex ey ez gp (fe (g_eps (av_r1 ex ey ez gp))).
Definition av_step (ex ey ez : Z) (st : list T * arr T) (gp : Z) : list T * arr T :=
  (add_ave 6 (g_sig (av_r2 ex ey ez st gp)) (wg3 V) (fst st), g_vn (snd st) (av_r2 ex ey ez st gp)).
Fixpoint av_conds (ex ey ez : Z) (l : list Z) (st : list T * arr T) : list Prop :=
  match l with
  | [] => []
  | gp :: l => ([0 <= gp < 8; WC; av_r1 ex ey ez gp = Ok (g_eps (av_r1 ex ey ez gp)); WC;
      av_r2 ex ey ez st gp = Ok (g_nl (av_r2 ex ey ez st gp), g_sig (av_r2 ex ey ez st gp), g_vn (snd st) (av_r2 ex ey ez st gp))]
      ++ av_conds ex ey ez l (av_step ex ey ez st gp))%list
  end.
Definition av_lastnl (ex ey ez : Z) (vn : arr T) : bool :=
  g_nl (av_r2 ex ey ez (fold_left (av_step ex ey ez) (zrange 0 7) (zeros 6, vn)) 7).
Definition av_env : list (string * val) := [("this", VP 0 0); ("stress_ave", VP 6 0); ("non_linear_flag", VP 7 0)].
Definition av_mem (st : list T * arr T) (fl : list (option Z)) : list (option obj1) :=
  (pre6 V fs l2 vold (snd st) u ++ [Some (D1 (fc 6 (lget (fst st)))); Some (I1 fl)])%list.
Definition av_W (st : list T * arr T) : @st1 T := mk1 av_env (av_mem st (nc 1)).
Definition av_next (ex ey ez : Z) (st : list T * arr T) : list T * arr T :=
  let r := fold_left (av_step ex ey ez) (zrange 0 8) (zeros 6, snd st) in (add_vec 6 (fst r) (fst st), snd r).
Lemma av_next_eq ex ey ez st : av_next ex ey ez st =
  let r := fold_left (av_step ex ey ez) (zrange 0 8) (zeros 6, snd st) in (add_vec 6 (fst r) (fst st), snd r).
Proof. reflexivity. Qed.
Lemma av_run ex ey ez st :
  cut3 8 ["ez"; "ey"; "ex"; "this"; "stress_ave"; "non_linear_flag"]
    (out3 (execs1 asm_prog SM5 100 [av_el] (with1 "ez" ez (with1 "ey" ey (with1 "ex" ex (av_W st)))) [])) =
  Some (with1 "ez" ez (with1 "ey" ey (with1 "ex" ex (mk1 av_env (av_mem (av_next ex ey ez st)
          [Some (if av_lastnl ex ey ez (snd st) then 1 else 0)])))),
        av_conds ex ey ez (zrange 0 8) (zeros 6, snd st)).
Proof. vmr. Qed.
Definition av_pre (av : list (option T)) (vn : arr T) : @st1 T :=
  mk1 [("this", VP 0 0); ("stress_ave", VP 6 0)] (pre6 V fs l2 vold vn u ++ [Some (D1 av)])%list.
Lemma av_run0 vn :
  out3 (execs1 asm_prog SM0 20 (firstn 2 av_list) (av_pre (nc 6) vn) []) =
  Some (mk1 (av_env ++ [("v", VI 6)])%list (m1 (av_W (zeros 6, vn))), []).
Proof. vmr. Qed.
Lemma av_run1 st :
  cut3 8 [] (out3 (execs1 asm_prog SM0 20 [nth 3 av_list SSkip] (av_W st) [])) =
  Some (mk1 [] (av_mem (ltab 6 (fun v => odiv (lget (fst st) v) (omul (v_lx V) (v_ly V))), snd st) (nc 1)), []).
Proof. vmr. Qed.

(** the strain *)
Definition an_step (ex ey ez : Z) (a : list T) (gp : Z) : list T := add_ave 6 (g_eps (av_r1 ex ey ez gp)) (wg3 V) a.
Fixpoint an_conds (ex ey ez : Z) (l : list Z) : list Prop :=
  match l with
  | [] => []
  | gp :: l => ([0 <= gp < 8; WC; av_r1 ex ey ez gp = Ok (g_eps (av_r1 ex ey ez gp))] ++ an_conds ex ey ez l)%list
  end.
Definition an_W (vn : arr T) (av : list T) : @st1 T :=
  mk1 [("this", VP 0 0); ("strain_ave", VP 6 0)] (pre6 V fs l2 vold vn u ++ [Some (D1 (fc 6 (lget av)))])%list.
Lemma an_run ex ey ez vn av :
  cut3 7 ["ez"; "ey"; "ex"; "this"; "strain_ave"]
    (out3 (execs1 asm_prog SM5 100 [an_el] (with1 "ez" ez (with1 "ey" ey (with1 "ex" ex (an_W vn av)))) [])) =
  Some (with1 "ez" ez (with1 "ey" ey (with1 "ex" ex (an_W vn (add_vec 6 (fold_left (an_step ex ey ez) (zrange 0 8) (zeros 6)) av)))),
        an_conds ex ey ez (zrange 0 8)).
Proof. vmr. Qed.
Lemma an_run0 vn :
  cut3 7 ["this"; "strain_ave"] (out3 (execs1 asm_prog SM0 20 (firstn 1 an_list)
    (mk1 [("this", VP 0 0); ("strain_ave", VP 6 0)] (pre6 V fs l2 vold vn u ++ [Some (D1 (nc 6))])%list) [])) = Some (an_W vn (zeros 6), []).
Proof. vmr. Qed.
Lemma an_run1 vn av :
  cut3 7 [] (out3 (execs1 asm_prog SM0 20 [nth 2 an_list SSkip] (an_W vn av) [])) =
  Some (mk1 [] (m1 (an_W vn (ltab 6 (fun v => odiv (lget av v) (omul (v_lx V) (v_ly V)))))), []).
Proof. vmr. Qed.
End Gen.

Lemma SM5_ok V : v_dim V = 3 -> forall f sm,
  SM5 (Wok V) (get_strain3D V) (get_stress3D V) f = Some sm -> sum_ok asm_prog f sm.
Proof.
  intros D3 f sm. unfold SM5. destruct (String.eqb_spec f "get_strain3D").
  { intros [= <-]. subst f. now apply sm_strain_ok. }
  destruct (String.eqb_spec f "get_stress3D"); [|discriminate].
  intros [= <-]. subst f. now apply sm_stress_ok.
Qed.

Section Loop.
Variables (V : env T) (u vold : arr T) (fs : fields) (l2 : list fields).
Hypothesis D3 : v_dim V = 3.
Hypothesis WO : WC V (Wok V) fs l2.
Notation SM := (SM5 (Wok V) (get_strain3D V) (get_stress3D V)).
Notation avW := (av_W V u vold fs l2).
Notation av_stepV := (av_step V (get_strain3D V) (get_stress3D V) u vold).
Notation av_condsV := (av_conds V (Wok V) (get_strain3D V) (get_stress3D V) u vold fs l2).
Notation an_stepV := (an_step V (get_strain3D V) u).
Notation an_condsV := (an_conds V (Wok V) (get_strain3D V) u fs l2).

Lemma av_foldM ex ey ez : forall l st st', Forall (fun gp => 0 <= gp < 8) l ->
  foldM (fun r gp =>
        eps <- get_strain3D V u ex ey ez gp ;;
        ' s <- get_stress3D V vold (snd r) ex ey ez gp eps ;;
        Ok (add_ave 6 (snd (fst s)) (wg3 V) (fst r), snd s)) l st = Ok st' ->
  st' = fold_left (av_stepV ex ey ez) l st /\ alls (av_condsV ex ey ez l st).
Proof.
  induction l as [|gp l IH]; intros st st' F E.
  - cbn in E. injection E as <-. cbn. auto.
  - cbn [foldM] in E. apply bind_ok in E. destruct E as (st1 & E & E2).
    apply bind_ok in E. destruct E as (eps & E1 & E). apply bind_ok in E. destruct E as (((nl & s) & vn) & E3 & E).
    cbn [fst snd] in E. injection E as E. inversion F as [|? ? Hg F']; subst.
    assert (R2 : av_r2 (get_strain3D V) (get_stress3D V) u vold ex ey ez st gp = Ok (nl, s, vn)).
    { unfold av_r2, av_r1. rewrite E1. cbn [g_eps]. now rewrite (fe_strain _ _ _ _ _ _ _ E1). }
    assert (ST : (add_ave 6 s (wg3 V) (fst st), vn) = av_stepV ex ey ez st gp).
    { unfold av_step. rewrite R2. reflexivity. }
    rewrite ST in E2. destruct (IH _ _ F' E2) as (-> & AL). split; [reflexivity|].
    cbn [av_conds app alls]. rewrite R2. cbn [g_nl g_sig g_vn]. unfold av_r1. rewrite E1. cbn [g_eps]. auto 10.
Qed.
Lemma an_foldM ex ey ez : forall l st st', Forall (fun gp => 0 <= gp < 8) l ->
  foldM (fun a gp => eps <- get_strain3D V u ex ey ez gp ;; Ok (add_ave 6 eps (wg3 V) a)) l st = Ok st' ->
  st' = fold_left (an_stepV ex ey ez) l st /\ alls (an_condsV ex ey ez l).
Proof.
  induction l as [|gp l IH]; intros st st' F E.
  - cbn in E. injection E as <-. cbn. auto.
  - cbn [foldM] in E. apply bind_ok in E. destruct E as (st1 & E & E2).
    apply bind_ok in E. destruct E as (eps & E1 & E). injection E as E. inversion F as [|? ? Hg F']; subst.
    assert (ST : add_ave 6 eps (wg3 V) st = an_stepV ex ey ez st gp).
    { unfold an_step, av_r1. now rewrite E1. }
    rewrite ST in E2. destruct (IH _ _ F' E2) as (-> & AL). split; [reflexivity|].
    cbn [an_conds app alls]. unfold av_r1. rewrite E1. cbn [g_eps]. auto 10.
Qed.
Lemma gps8 : Forall (fun gp => 0 <= gp < 8) (zrange 0 8).
Proof. apply Forall_forall. intros x I. now apply in_zrange in I. Qed.

(** three nested loops over the elements *)
Lemma els_loops {M} (f : M -> Z -> Z -> Z -> res M) (Wd : M -> @st1 T) body names (m m' : M) :
  ~ In "ex" names -> ~ In "ey" names -> ~ In "ez" names ->
  (forall z m, ~ In z names -> look1 z (e1 (Wd m)) = None) ->
  (forall m i, cond1 (EBin Lt (EV "ex") (EBin Sub (EFld (EV "this") "nx") (EI 1))) (with1 "ex" i (Wd m)) (i <? v_nx V - 1)) ->
  (forall m x i, cond1 (EBin Lt (EV "ey") (EBin Sub (EFld (EV "this") "ny") (EI 1))) (with1 "ey" i (with1 "ex" x (Wd m))) (i <? v_ny V - 1)) ->
  (forall m x y i, cond1 (EBin Lt (EV "ez") (EBin Sub (EFld (EV "this") "nz") (EI 1))) (with1 "ez" i (with1 "ey" y (with1 "ex" x (Wd m)))) (i <? v_nz V - 1)) ->
  (forall x y z m m', f m x y z = Ok m' -> step asm_prog body (with1 "ez" z (with1 "ey" y (with1 "ex" x (Wd m)))) (with1 "ez" z (with1 "ey" y (with1 "ex" x (Wd m'))))) ->
  foldM (fun m e => let '(ex, ey, ez) := e in f m ex ey ez) (els3 V) m = Ok m' ->
  step asm_prog (SFor "ex" (EI 0) (EBin Lt (EV "ex") (EBin Sub (EFld (EV "this") "nx") (EI 1)))
    (SFor "ey" (EI 0) (EBin Lt (EV "ey") (EBin Sub (EFld (EV "this") "ny") (EI 1)))
    (SFor "ez" (EI 0) (EBin Lt (EV "ez") (EBin Sub (EFld (EV "this") "nz") (EI 1))) body))) (Wd m) (Wd m').
Proof.
  intros NX NY NZ NN C1 C2 C3 HB. unfold els3. rewrite foldM_flat. intros E.
  refine (step_fold asm_prog _ "ex" _ _ _ Wd 0 _ _ _ E _ _ _ _); [intros; now apply NN|reflexivity|intros; apply C1|].
  clear E m m'. intros ex m m' IX E. rewrite foldM_flat in E.
  refine (step_fold asm_prog _ "ey" _ _ _ (fun m => with1 "ex" ex (Wd m)) 0 _ _ _ E _ _ _ _); [|reflexivity|intros; apply C2|].
  { intros q. cbn. now apply NN. }
  clear E m m'. intros ey m m' IY E. rewrite foldM_map in E.
  refine (step_fold asm_prog _ "ez" _ _ _ (fun m => with1 "ey" ey (with1 "ex" ex (Wd m))) 0 _ _ _ E _ _ _ _); [|reflexivity|intros; apply C3|].
  { intros q. cbn. now apply NN. }
  clear E m m'. intros ez m m' IZ E. apply HB. exact E.
Qed.

Lemma av_gstep vn s vn' : calc_ave_stress V u vold vn = Ok (s, vn') ->
  exists w, gstep asm_prog (f_body ast_calc_ave_stress) (av_pre V u vold fs l2 (nc 6) vn) w /\
    cut 7 [] w = Some (mk1 [] (pre6 V fs l2 vold vn' u ++ [Some (D1 (fc 6 (lget s)))])%list).
Proof.
  intros E. unfold calc_ave_stress, nvoi in E. rewrite D3 in E. change (3 =? 2) with false in E. change (3 =? 3) with true in E. cbn match in E.
  apply bind_ok in E. destruct E as ((a & vn2) & E1 & E). cbn [fst snd] in E. injection E as <- <-.
  set (s := ltab 6 (fun v => odiv (lget a v) (omul (v_lx V) (v_ly V)))).
  exists (mk1 [] (av_mem V u vold fs l2 (s, vn2) (nc 1))). split; [|reflexivity].
  change (f_body ast_calc_ave_stress) with (seqs (firstn 2 av_list) (SSeq (nth 2 av_list SSkip) (nth 3 av_list SSkip))).
  refine (gstep_execs asm_prog SM0 SM0_ok _ _ _ _ _ _ _ _ (av_run0 V u vold fs l2 vn) I _). apply gstep_step.
  apply (step_weak1 _ _ _ (avW (zeros 6, vn))).
  { apply weaker_less; [|unfold av_W, av_mem; cbn [m1 app pre6]; repeat (constructor; [apply less_refl|]); constructor].
    intros x v. cbn. repeat match goal with |- context [String.eqb x ?q] => destruct (String.eqb x q); [first [discriminate|auto]|] end. try discriminate. }
  eapply step_seq with (w2 := avW (a, vn2)).
  - change (nth 2 av_list SSkip) with (SIf (EBin Eq (EFld (EV "this") "dim") (EI 2))
      (match nth 2 av_list SSkip with SIf _ a _ => a | _ => SSkip end)
      (SIf (EBin Eq (EFld (EV "this") "dim") (EI 3)) av_3 SSkip)).
    apply (step_if asm_prog false). { exists (VI 0), []. split; [reflexivity|]. split; [exact I|reflexivity]. }
    apply (step_if asm_prog true). { exists (VI 1), []. split; [reflexivity|]. split; [exact I|reflexivity]. }
    change av_3 with (SFor "ex" (EI 0) (EBin Lt (EV "ex") (EBin Sub (EFld (EV "this") "nx") (EI 1)))
      (SFor "ey" (EI 0) (EBin Lt (EV "ey") (EBin Sub (EFld (EV "this") "ny") (EI 1)))
      (SFor "ez" (EI 0) (EBin Lt (EV "ez") (EBin Sub (EFld (EV "this") "nz") (EI 1))) av_el))).
    refine (els_loops (fun st ex ey ez =>
      ' r <- foldM (fun r gp =>
        eps <- get_strain3D V u ex ey ez gp ;;
        ' s <- get_stress3D V vold (snd r) ex ey ez gp eps ;;
        Ok (add_ave 6 (snd (fst s)) (wg3 V) (fst r), snd s)) (zrange 0 8) (zeros 6, snd st) ;;
      Ok (add_vec 6 (fst r) (fst st), snd r)) avW av_el ["this"; "stress_ave"; "non_linear_flag"] _ _ _ _ _ _ _ _ _ _ E1);
      try (cbn; intuition discriminate); try (intros; apply cond_lt; reflexivity).
    + intros z m NI. cbn [In] in NI. cbn [e1 av_W av_env look1]. repeat match goal with |- context [String.eqb z ?q] => destruct (String.eqb_spec z q); [subst; tauto|] end. reflexivity.
    + intros x y z m m' E. apply bind_ok in E. destruct E as (r & E & Q). injection Q as <-.
      destruct (av_foldM x y z _ _ _ gps8 E) as (ER & AL). clear E.
      pose proof (av_run V (Wok V) (get_strain3D V) (get_stress3D V) u vold fs l2 x y z m) as RUN.
      rewrite av_next_eq, <- ER in RUN. cbv zeta in RUN. clear ER.
      revert RUN AL. generalize (av_condsV x y z (zrange 0 8) (zeros 6, snd m)) (av_lastnl V (get_strain3D V) (get_stress3D V) u vold x y z (snd m)).
      intros C nl RUN AL. generalize dependent (add_vec 6 (fst r) (fst m), snd r). intros m' RUN.
      refine (step_weak _ _ _ _ _ (step_cut asm_prog SM (SM5_ok V D3) _ _ _ [] _ _ _ _ _ _ RUN AL eq_refl eq_refl) _).
      apply weaker_less; [intros q v X; exact X|]. unfold av_W, av_mem. cbn [app pre6 fst snd with1 m1 e1].
      repeat (constructor; [apply less_refl|]). constructor; [apply (less_nci [Some _])|constructor].
  - exact (step_cut asm_prog SM0 SM0_ok _ _ _ [] _ _ _ _ _ _ (av_run1 V u vold fs l2 (a, vn2)) I eq_refl eq_refl).
Qed.
Lemma an_gstep vn s : calc_ave_strain V u = Ok s ->
  exists w, gstep asm_prog (f_body ast_calc_ave_strain)
    (mk1 [("this", VP 0 0); ("strain_ave", VP 6 0)] (pre6 V fs l2 vold vn u ++ [Some (D1 (nc 6))])%list) w /\
    cut 7 [] w = Some (mk1 [] (pre6 V fs l2 vold vn u ++ [Some (D1 (fc 6 (lget s)))])%list).
Proof.
  intros E. unfold calc_ave_strain, nvoi in E. rewrite D3 in E. change (3 =? 2) with false in E. change (3 =? 3) with true in E. cbn match in E.
  apply bind_ok in E. destruct E as (a & E1 & E). injection E as <-.
  set (s := ltab 6 (fun v => odiv (lget a v) (omul (v_lx V) (v_ly V)))).
  exists (mk1 [] (m1 (an_W V u vold fs l2 vn s))). split; [|reflexivity].
  change (f_body ast_calc_ave_strain) with (SSeq (block (firstn 1 an_list)) (SSeq (nth 1 an_list SSkip) (nth 2 an_list SSkip))).
  apply gstep_step.
  eapply step_seq; [exact (step_cut asm_prog SM0 SM0_ok _ _ _ [] _ _ _ _ _ _ (an_run0 V u vold fs l2 vn) I eq_refl eq_refl)|].
  eapply step_seq with (w2 := an_W V u vold fs l2 vn a).
  - change (nth 1 an_list SSkip) with (SIf (EBin Eq (EFld (EV "this") "dim") (EI 2))
      (match nth 1 an_list SSkip with SIf _ a _ => a | _ => SSkip end)
      (SIf (EBin Eq (EFld (EV "this") "dim") (EI 3)) an_3 SSkip)).
    apply (step_if asm_prog false). { exists (VI 0), []. split; [reflexivity|]. split; [exact I|reflexivity]. }
    apply (step_if asm_prog true). { exists (VI 1), []. split; [reflexivity|]. split; [exact I|reflexivity]. }
    change an_3 with (SFor "ex" (EI 0) (EBin Lt (EV "ex") (EBin Sub (EFld (EV "this") "nx") (EI 1)))
      (SFor "ey" (EI 0) (EBin Lt (EV "ey") (EBin Sub (EFld (EV "this") "ny") (EI 1)))
      (SFor "ez" (EI 0) (EBin Lt (EV "ez") (EBin Sub (EFld (EV "this") "nz") (EI 1))) an_el))).
    refine (els_loops (fun st ex ey ez =>
      aux <- foldM (fun aux gp => eps <- get_strain3D V u ex ey ez gp ;; Ok (add_ave 6 eps (wg3 V) aux)) (zrange 0 8) (zeros 6) ;;
      Ok (add_vec 6 aux st)) (an_W V u vold fs l2 vn) an_el ["this"; "strain_ave"] _ _ _ _ _ _ _ _ _ _ E1);
      try (cbn; intuition discriminate); try (intros; apply cond_lt; reflexivity).
    + intros z m NI. cbn [In] in NI. cbn [e1 an_W look1]. repeat match goal with |- context [String.eqb z ?q] => destruct (String.eqb_spec z q); [subst; tauto|] end. reflexivity.
    + intros x y z m m' E. apply bind_ok in E. destruct E as (r & E & Q). injection Q as <-.
      destruct (an_foldM x y z _ _ _ gps8 E) as (-> & AL).
      pose proof (an_run V (Wok V) (get_strain3D V) (get_stress3D V) u vold fs l2 x y z vn m) as RUN.
      exact (step_cut asm_prog SM (SM5_ok V D3) _ _ _ [] _ _ _ _ _ _ RUN AL eq_refl eq_refl).
  - exact (step_cut asm_prog SM0 SM0_ok _ _ _ [] _ _ _ _ _ _ (an_run1 V u vold fs l2 vn a) I eq_refl eq_refl).
Qed.
End Loop.

(** calc_ave_stress *)
Theorem calc_ave_stress_text V A vold vnew u h k bs as_ s vnew' :
  v_dim V = 3 -> NoDup (body_addrs A ++ [bs])%list -> Forall (fun a => a < k) (body_addrs A ++ [bs])%list ->
  body V A vold vnew u h -> h bs = Some (OD as_) -> alen as_ = 6 ->
  calc_ave_stress V u vold vnew = Ok (s, vnew') ->
  exists st as', calls asm_prog "calc_ave_stress" [VP (a_this A) 0; VP bs 0] h k (Ok (st, Nrm)) /\
    body V A vold vnew' u (mem st) /\ mem st bs = Some (OD as') /\ vec 6 as' s /\
    frame h (mem st) k [a_vn A; bs] /\ k <= nxt st.
Proof.
  intros D3 ND FK (fs & l2 & B0 & B1 & B2' & B3' & B4 & B5 & B6 & B7) HB LB M.
  assert (WO : WC V (Wok V) fs l2). { split; [exists A; exact B1|]. splits; assumption || reflexivity. }
  destruct (av_gstep V u vold fs l2 D3 WO vnew s vnew' M) as (w & GS & CU).
  set (ad := (body_addrs A ++ [bs])%list) in *.
  destruct (calls_gstep asm_prog "calc_ave_stress" ast_calc_ave_stress [VP 0 0; VP 6 0] [VP (a_this A) 0; VP bs 0] _
    ad (m1 (av_pre V u vold fs l2 (nc 6) vnew)) h k _ _ eq_refl eq_refl GS CU) as (st & C & MS & (K1' & K2')).
  { apply atall_msim; [|exact ND|exact FK]. change ad with (body_addrs A ++ [bs])%list at 2.
    refine (atall_app _ _ _ _ _ _ _ _).
    - eapply pre6_at; eauto. reflexivity.
    - cbn -[nc]. split; [|exact I]. eexists. split; [exact HB|]. eexists. split; [reflexivity|]. now apply nc_cells. }
  { repeat constructor; eexists; split; reflexivity. }
  apply msim_atall0 in MS. cbn [m1] in MS. change ad with (body_addrs A ++ [bs])%list in MS at 2.
  apply atall_split in MS; [|reflexivity]. destruct MS as (AT1 & AT2).
  cbn -[fc] in AT2. destruct AT2 as ((o2 & M2 & (as' & -> & R2)) & _).
  assert (BD := pre6_get _ A _ _ _ _ _ _ _ B4 B1 AT1).
  exists st, as'. split; [exact C|]. split; [exact BD|]. split; [exact M2|]. split; [now apply vec_cells|]. split; [|exact K1'].
  intros c LC N. destruct (in_dec Z.eq_dec c ad) as [IN|IN]; [|now apply K2'].
  clear -IN N AT1 B0 B2' B3' B5 B7. unfold pre6, body_addrs in AT1. cbn -[this_flds ro] in AT1.
  destruct AT1 as ((o0 & Q0 & R0) & (o1 & Q1 & R1') & (o2 & Q2 & R2) & (o3 & Q3 & R3) & (o4 & Q4 & R4) &
      (o5 & Q5 & R5) & _). cbn [ro] in *. destruct R0 as (-> & _). destruct R2 as (-> & _). subst.
  cbn in IN, N. repeat destruct IN as [IN|IN]; try subst c; try tauto; congruence.
Qed.

(** calc_ave_strain *)
Theorem calc_ave_strain_text V A vold vnew u h k bs as_ s :
  v_dim V = 3 -> NoDup (body_addrs A ++ [bs])%list -> Forall (fun a => a < k) (body_addrs A ++ [bs])%list ->
  body V A vold vnew u h -> h bs = Some (OD as_) -> alen as_ = 6 ->
  calc_ave_strain V u = Ok s ->
  exists st as', calls asm_prog "calc_ave_strain" [VP (a_this A) 0; VP bs 0] h k (Ok (st, Nrm)) /\
    body V A vold vnew u (mem st) /\ mem st bs = Some (OD as') /\ vec 6 as' s /\
    frame h (mem st) k [bs] /\ k <= nxt st.
Proof.
  intros D3 ND FK (fs & l2 & B0 & B1 & B2' & B3' & B4 & B5 & B6 & B7) HB LB M.
  assert (WO : WC V (Wok V) fs l2). { split; [exists A; exact B1|]. splits; assumption || reflexivity. }
  destruct (an_gstep V u vold fs l2 D3 WO vnew s M) as (w & GS & CU).
  set (ad := (body_addrs A ++ [bs])%list) in *.
  destruct (calls_gstep asm_prog "calc_ave_strain" ast_calc_ave_strain [VP 0 0; VP 6 0] [VP (a_this A) 0; VP bs 0] _
    ad _ h k _ _ eq_refl eq_refl GS CU) as (st & C & MS & (K1' & K2')).
  { apply atall_msim; [|exact ND|exact FK]. change ad with (body_addrs A ++ [bs])%list at 2.
    refine (atall_app _ _ _ _ _ _ _ _).
    - eapply pre6_at; eauto. reflexivity.
    - cbn -[nc]. split; [|exact I]. eexists. split; [exact HB|]. eexists. split; [reflexivity|]. now apply nc_cells. }
  { repeat constructor; eexists; split; reflexivity. }
  apply msim_atall0 in MS. cbn [m1] in MS. change ad with (body_addrs A ++ [bs])%list in MS at 2.
  apply atall_split in MS; [|reflexivity]. destruct MS as (AT1 & AT2).
  cbn -[fc] in AT2. destruct AT2 as ((o2 & M2 & (as' & -> & R2)) & _).
  assert (BD := pre6_get _ A _ _ _ _ _ _ _ B4 B1 AT1).
  exists st, as'. split; [exact C|]. split; [exact BD|]. split; [exact M2|]. split; [now apply vec_cells|]. split; [|exact K1'].
  intros c LC N. destruct (in_dec Z.eq_dec c ad) as [IN|IN]; [|now apply K2'].
  clear -IN N AT1 B0 B2' B3' B5 B6 B7. unfold pre6, body_addrs in AT1. cbn -[this_flds ro] in AT1.
  destruct AT1 as ((o0 & Q0 & R0) & (o1 & Q1 & R1') & (o2 & Q2 & R2) & (o3 & Q3 & R3) & (o4 & Q4 & R4) &
      (o5 & Q5 & R5) & _). cbn [ro] in *. destruct R0 as (-> & _). destruct R2 as (-> & _). subst.
  cbn in IN, N. repeat destruct IN as [IN|IN]; try subst c; try tauto; congruence.
Qed.
End Asm.
