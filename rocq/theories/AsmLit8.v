(** The syntax trees of src/assembly.cpp against the model: get_elem_mat3D, the whole function. *)
From Coq Require Import String.
From Verif Require Import Base Scalar Clite CliteRules EllAst AsmAst Sym SymStep Grid EllModel AssemblyModel
  AsmLit AsmLit2 AsmLit3 AsmLit4 AsmLit5 AsmLit6 AsmLit7.
Local Open Scope string_scope.
Local Open Scope Z_scope.

Lemma foldM_run {S} (f : S -> Z -> res S) (g : S -> Z -> S) n : 0 <= n ->
  (forall s a s', f s a = Ok s' -> s' = g s a) -> forall s s', foldM f (zrange 0 n) s = Ok s' ->
  s' = fold_left g (zrange 0 n) s /\
  forall i, 0 <= i < n -> f (fold_left g (zrange 0 i) s) i = Ok (g (fold_left g (zrange 0 i) s) i).
Proof.
  intros N H. revert n N. apply (natlike_ind (fun n => forall s s', foldM f (zrange 0 n) s = Ok s' ->
    s' = fold_left g (zrange 0 n) s /\
    forall i, 0 <= i < n -> f (fold_left g (zrange 0 i) s) i = Ok (g (fold_left g (zrange 0 i) s) i))).
  - intros s s' E. cbn in E. injection E as <-. split; [reflexivity|]. intros i I. lia.
  - intros n N IH s s' E. unfold Z.succ in *. rewrite zrange_snoc in * by lia.
    rewrite foldM_app in E. apply bind_ok in E. destruct E as (s1 & E1 & E2).
    destruct (IH _ _ E1) as (-> & C). cbn [foldM] in E2. apply bind_ok in E2. destruct E2 as (s2 & E2 & E3).
    injection E3 as <-. assert (E2' := E2). apply H in E2'. subst s2. rewrite fold_left_app. split; [reflexivity|].
    intros i I. destruct (Z.eq_dec i n) as [->|]; [exact E2|]. apply C. lia.
Qed.

Section Asm.
Context {T : Type} `{OT : Ops T}.
Notation val := (@val T). Notation obj := (@obj T). Notation obj1 := (@obj1 T).
Notation fields := (list (string * option val)).

Lemma SM3_ok V : v_dim V = 3 -> forall f sm,
  SM3 (Wt V) (Wok V) (B3 V) (ctan_plast_pert V) f = Some sm -> sum_ok asm_prog f sm.
Proof.
  intros D3 f sm. unfold SM3. destruct (String.eqb_spec f "calc_bmat_3D").
  { intros [= <-]. subst f. now apply sm_bmat_ok. }
  destruct (String.eqb_spec f "get_ctan_plast_pert"); [|discriminate].
  intros [= <-]. subst f. now apply sm_ctan_ok.
Qed.

Section Runs.
Variables (V : env T) (u vold : arr T) (ex ey ez : Z) (fs : fields) (l2 : list fields) (m : material T) (p : bool).
Variable SM : string -> option (@summary T).
Notation mem_ vn Ae ct := (mt_mem V u vold fs l2 m p vn Ae ct).
Lemma mt_set vn Ae ct e :
  cut3 9 mt_names (out3 (execs1 asm_prog SM 9 [SSet "gp" (EI 0)]
    (mk1 (mt_env1 ex ey ez e) (mem_ vn Ae ct)) [])) = Some (mk1 (mt_env ex ey ez 0) (mem_ vn Ae ct), []).
Proof. reflexivity. Qed.
Lemma mt_inc gp vn Ae ct :
  cut3 9 mt_names (out3 (execs1 asm_prog SM 9 [SSet "gp" (EBin Add (EV "gp") (EI 1))]
    (mk1 (mt_env ex ey ez gp) (mem_ vn Ae ct)) [])) = Some (mk1 (mt_env ex ey ez (gp + 1)) (mem_ vn Ae ct), []).
Proof. reflexivity. Qed.
Lemma mt_cond gp vn Ae ct :
  cond1 (EBin Lt (EV "gp") (EI 8)) (mk1 (mt_env ex ey ez gp) (mem_ vn Ae ct)) (gp <? 8).
Proof.
  exists (ofb (gp <? 8)), []. split; [reflexivity|]. split; [exact I|]. now destruct (gp <? 8).
Qed.
End Runs.

Definition mt_next (V : env T) u vold ex ey ez m (p : bool) (st : list T * arr T) (gp : Z) : list T * arr T :=
  let r := ctan_plast_pert V u vold (snd st) ex ey ez gp in
  let cv := if p then (g_c r, g_cv (snd st) r) else (ctan3 (m_lambda m) (m_mu m), snd st) in
  (add_mat 6 24 (B3 V gp) (fst cv) (wg3 V) (fst st), snd cv).

(** the element matrix *)
Lemma mat_gstep V u vold vnew ex ey ez fs l2 z m p st' :
  v_dim V = 3 -> v_type V = 0 \/ v_type V = 1 -> Wt V fs ->
  Wok V fs (this_flds 3 (v_type V) V (ptr 1) (ptr 2) (ptr 3) (ptr 4) (ptr 5) None None None None None) (v_etype V) l2 ->
  rd (v_etype V) (glo_elem3D (v_nx V) (v_ny V) ex ey ez) = Ok z ->
  foldM (fun st gp =>
    ' cv <- (if p : bool then ctan_plast_pert V u vold (snd st) ex ey ez gp
             else Ok (ctan3 (m_lambda m) (m_mu m), snd st)) ;;
    Ok (add_mat 6 24 (B3 V gp) (fst cv) (wg3 V) (fst st), snd cv)) (zrange 0 8) (zeros 576, vnew) = Ok st' ->
  exists e, gstep asm_prog (f_body ast_get_elem_mat3D)
    (mk1 (mt_env0 ex ey ez)
      (pre6m V (v_type V) fs l2 z (matl z (mat_flds m (Some p))) vold vnew u ++ [Some (D1 (nc 576))])%list)
    (mk1 e (mt_mem V u vold fs l2 m p (snd st') (fc 576 (lget (fst st'))) (nc 36))).
Proof.
  intros D3 TY WT WO RZ M.
  match type of M with foldM ?f _ _ = _ =>
    destruct (fun H => foldM_run f (mt_next V u vold ex ey ez m p) 8 ltac:(lia) H _ _ M) as (EQ & CO) end.
  { intros s a s' E. unfold mt_next. cbv zeta. destruct p.
    - destruct (ctan_plast_pert V u vold (snd s) ex ey ez a) as [[c v]|]; [|discriminate]. injection E as <-. reflexivity.
    - injection E as <-. reflexivity. }
  set (st0 := (zeros 576, vnew)) in *.
  set (Sg := fun i => fold_left (mt_next V u vold ex ey ez m p) (zrange 0 i) st0).
  set (SM := SM3 (Wt V) (Wok V) (B3 V) (ctan_plast_pert V)).
  pose proof (mt_pre V (Wt V) (Wok V) (B3 V) (ctan_plast_pert V) u vold ex ey ez fs l2 m p (v_type V) z vnew TY) as PRE.
  cbv zeta in PRE. exists (mt_env ex ey ez 8).
  change (f_body ast_get_elem_mat3D) with (seqs (removelast mat_list) mat_for).
  refine (gstep_execs asm_prog _ (SM3_ok V D3) _ _ _ _ _ _ _ _ PRE _ _); [cbn [alls]; auto|]. clear PRE.
  apply gstep_step.
  set (e := glo_elem3D (v_nx V) (v_ny V) ex ey ez) in *.
  change mat_for with (SFor "gp" (EI 0) (EBin Lt (EV "gp") (EI 8)) (block mat_body)).
  set (Wd := fun i => mk1 (mt_env ex ey ez i) (mt_mem V u vold fs l2 m p (snd (Sg i)) (fc 576 (lget (fst (Sg i)))) (nc 36))).
  set (cg := fun i => if p then g_c (ctan_plast_pert V u vold (snd (Sg i)) ex ey ez i) else ctan3 (m_lambda m) (m_mu m)).
  set (Wb := fun i => mk1 (mt_env ex ey ez i) (mt_mem V u vold fs l2 m p (snd (Sg (i + 1))) (fc 576 (lget (fst (Sg (i + 1))))) (fc 36 (cc (cg i))))).
  assert (NX : forall i, 0 <= i -> Sg (i + 1) = mt_next V u vold ex ey ez m p (Sg i) i).
  { intros i I. unfold Sg. rewrite zrange_snoc by lia. rewrite fold_left_app. reflexivity. }
  apply (step_for asm_prog SM (SM3_ok V D3) "gp" (EI 0) _ _ _ Wd Wb 0 8); [lia| | | | |].
  - intros ad s2 S.
    assert (S' : sat ad (mk1 (mt_env1 ex ey ez e) (mt_mem V u vold fs l2 m p vnew (fc 576 (lget (zeros 576))) (nc 36))) s2).
    { revert S. apply weaker_less; [intros x v X; exact X|].
      unfold mt_mem, pre6, pre6m. cbn [app].
      constructor; [apply less_refl|]. constructor; [apply less_K|]. constructor; [apply less_V|].
      repeat (constructor; [apply less_refl|]). constructor. }
    refine (step_cut asm_prog SM (SM3_ok V D3) _ _ _ _ _ _ _ _ _ _ (mt_set V u vold ex ey ez fs l2 m p SM _ _ _ _) I eq_refl eq_refl ad s2 S').
  - intros i _. apply mt_cond.
  - intros i I. change (block mat_body) with (SSeq (hd SSkip mat_body) (block (tl mat_body))).
    eapply step_seq with (w2 := mk1 (mt_env ex ey ez i) (mt_mem V u vold fs l2 m p (snd (Sg (i + 1))) (fc 576 (lget (fst (Sg i)))) (fc 36 (cc (cg i))))).
    + rewrite NX by lia. unfold cg, mt_next. specialize (CO i I). cbv zeta. destruct p eqn:PP.
      * refine (step_cut asm_prog SM (SM3_ok V D3) _ _ _ [] _ _ _ _ _ _
          (mt_pl V (Wt V) (Wok V) (B3 V) (ctan_plast_pert V) u vold ex ey ez fs l2 m true i (snd (Sg i)) (fst (Sg i)) eq_refl) _ eq_refl eq_refl).
        cbn [alls]. split; [exact I|]. split; [exact WO|]. split; [|exact Logic.I].
        fold (Sg i) in CO. destruct (ctan_plast_pert V u vold (snd (Sg i)) ex ey ez i) as [[c v]|]; [reflexivity|discriminate CO].
      * refine (step_cut asm_prog SM (SM3_ok V D3) _ _ _ [] _ _ _ _ _ _
          (mt_lin V (Wt V) (Wok V) (B3 V) (ctan_plast_pert V) u vold ex ey ez fs l2 m false i (snd (Sg i)) (fst (Sg i)) eq_refl) Logic.I eq_refl eq_refl).
    + assert (FX : fst (Sg (i + 1)) = add_mat 6 24 (B3 V i) (cg i) (wg3 V) (fst (Sg i))).
      { rewrite NX by lia. unfold mt_next, cg. cbv zeta. now destruct p. }
      unfold Wb. rewrite FX.
      refine (step_cut asm_prog SM (SM3_ok V D3) _ _ _ _ _ _ _ _ _ _
        (mt_acc V (Wt V) (Wok V) (B3 V) (ctan_plast_pert V) u vold ex ey ez fs l2 m p (cg i) i (snd (Sg (i + 1))) (fst (Sg i))) _ eq_refl eq_refl).
      cbn [alls]. auto.
  - intros i I. eapply step_weak.
    + refine (step_cut asm_prog SM (SM3_ok V D3) _ _ _ [] _ _ _ _ _ _ (mt_inc V u vold ex ey ez fs l2 m p SM _ _ _ _) Logic.I eq_refl eq_refl).
    + unfold Wd. apply weaker_less; [intros x v X; exact X|]. unfold mt_mem, pre6. cbn [app].
      repeat (constructor; [first [apply less_refl | apply (less_nc (fc 36 (cc (cg i))))]|]). constructor.
  - unfold Wd. rewrite EQ. reflexivity.
Qed.

(** the first six objects, with a material at hand *)
Lemma pre6m_at (V : env T) A fs l2 z m p vold vnew u h ad l : ad = (body_addrs A ++ l)%list ->
  h (a_this A) = Some (OS fs) -> this_in fs V A -> h (a_et A) = Some (OI (v_etype V)) -> h (a_ml A) = Some (OV l2) ->
  mats_in l2 V -> nth_error (v_mats V) (Z.to_nat (if z =? 0 then 0 else 1)) = Some m -> m_plast m = Some p ->
  h (a_vo A) = Some (OD vold) -> h (a_vn A) = Some (OD vnew) -> h (a_u A) = Some (OD u) ->
  v_dim V = 3 -> atall ad (body_addrs A) (pre6m V (v_type V) fs l2 z (matl z (mat_flds m (Some p))) vold vnew u) h.
Proof.
  intros -> H1 TI H2 H3 MI NM MP H4 H5 H6 D3. unfold pre6m, body_addrs. cbn -[this_flds mat_flds].
  splits; try exact I; (eexists; split; [eassumption|]); try reflexivity.
  - split; [reflexivity|]. apply (this_rfs _ fs 3 (v_type V) V A); auto; try exact I; eexists; split; reflexivity.
  - split; [reflexivity|]. eapply mats_rv; eauto.
Qed.

Theorem get_elem_mat3D_text V A vold vnew u h k ba aa ex ey ez Ae vnew' :
  v_dim V = 3 -> NoDup (body_addrs A ++ [ba])%list ->
  Forall (fun a => a < k) (body_addrs A ++ [ba])%list -> body V A vold vnew u h ->
  h ba = Some (OD aa) -> alen aa = 576 ->
  get_elem_mat3D V u vold vnew ex ey ez = Ok (Ae, vnew') ->
  exists st aa',
    calls asm_prog "get_elem_mat3D" [VP (a_this A) 0; VI ex; VI ey; VI ez; VP ba 0] h k (Ok (st, Nrm)) /\
    body V A vold vnew' u (mem st) /\ mem st ba = Some (OD aa') /\ vec 576 aa' Ae /\
    frame h (mem st) k [a_vn A; ba] /\ k <= nxt st.
Proof.
  intros D3 ND FK (fs & l2 & B0 & B1 & B2' & B3' & B4 & B5 & B6 & B7) HA LA M.
  unfold get_elem_mat3D in M. apply bind_ok in M. destruct M as ((m & p) & G & M). cbn [fst snd] in M.
  unfold get_material in G. apply bind_ok in G. destruct G as (num & GN & G).
  apply bind_ok in G. destruct G as (m' & GM & G). apply bind_ok in G. destruct G as (p' & GP & G).
  injection G as -> ->.
  destruct ((v_type V =? 0) || (v_type V =? 1)) eqn:TY; [|discriminate].
  apply bind_ok in GN. destruct GN as (z & RZ & GN). injection GN as <-.
  destruct (nth_error (v_mats V) (Z.to_nat (if z =? 0 then 0 else 1))) as [m0|] eqn:NM; [|discriminate].
  injection GM as ->. destruct (m_plast m) as [p0|] eqn:MP; [|discriminate]. injection GP as ->.
  assert (TY' : v_type V = 0 \/ v_type V = 1).
  { apply orb_prop in TY. destruct TY as [TY|TY]; apply Z.eqb_eq in TY; auto. }
  destruct (mat_gstep V u vold vnew ex ey ez fs l2 z m p _ D3 TY' (ex_intro _ A B1) (Wok_this V A fs l2 B1 B4) RZ M) as (e & GS).
  set (ad := (body_addrs A ++ [ba])%list) in *.
  destruct (calls_gstep asm_prog "get_elem_mat3D" ast_get_elem_mat3D [VP 0 0; VI ex; VI ey; VI ez; VP 6 0]
    [VP (a_this A) 0; VI ex; VI ey; VI ez; VP ba 0] (mt_env0 ex ey ez) ad
    (pre6m V (v_type V) fs l2 z (matl z (mat_flds m (Some p))) vold vnew u ++ [Some (D1 (nc 576))])%list h k
    _ (mk1 [] (pre6 V fs l2 vold vnew' u ++ [Some (D1 (fc 576 (lget Ae)))])%list) eq_refl eq_refl GS eq_refl)
    as (st & C & MS & Kp).
  { apply atall_msim; [|exact ND|exact FK]. change ad with (body_addrs A ++ [ba])%list at 2.
    refine (atall_app _ _ _ _ _ _ _ _).
    - eapply pre6m_at; eauto. reflexivity.
    - cbn -[nc]. split; [|exact I]. exists (OD aa). split; [exact HA|]. exists aa. split; [reflexivity|]. now apply nc_cells. }
  { repeat constructor; eexists; split; reflexivity. }
  destruct (body_out V A fs l2 vold vnew vnew' u h k [ba] [Some (D1 (fc 576 (lget Ae)))]
    (fun st => calls asm_prog "get_elem_mat3D" [VP (a_this A) 0; VI ex; VI ey; VI ez; VP ba 0] h k (Ok (st, Nrm))))
    as (l & st2 & C2 & BD & AT & FR & KN); auto.
  { exists [], st. rewrite app_nil_r. split; [exact C|]. split; [|exact Kp].
    apply msim_atall0 with (k := nxt st). exact MS. }
  cbn -[fc] in AT. destruct AT as ((o1 & M1 & (aa' & -> & R1')) & _).
  exists st2, aa'. split; [exact C2|]. split; [exact BD|]. split; [exact M1|]. split; [now apply vec_cells|]. auto.
Qed.
End Asm.
