(** Every answer of an object without plastic cells against the exact effective stiffness (C95). *)
From Coq Require Import Reals Lra ZifyBool.
From Verif Require Import Base Scalar EllSpec EllModel EllFinal Grid CgPure CgFinal CgProps AssemblyModel AsmPure AsmBnd AsmRun FemGen FemAve AsmMat FemMat FemMat2 FemDef FemPd FemRhs FemEquil
  AsmSpec AsmProps AsmEquil AsmCases MicroModel OutputModel NewtonBase NewtonReal ApiBase ApiRun ApiHist Build ApiExact ApiSpec ApiProps RespondReal OneCell Tangent Linear MonoBody SolveProps ApiCases LogProps.
Open Scope Z_scope.
Open Scope R_scope.

Definition good_peek (q : Z -> Z -> peek) : Prop := forall k i, exists c, q k i 1%Z = Ok c /\ (c < 40)%Z.

Lemma rsum_abs {A} (l : list A) f : Rabs (rsum l f) <= rsum l (fun x => Rabs (f x)).
Proof. induction l as [|a l IH]; cbn [rsum]; [rewrite Rabs_R0; lra|]. pose proof (Rabs_triang (f a) (rsum l f)). lra. Qed.

Lemma wok_load (V : env R) w vo : wfull V w -> full vo (nvars V) -> wok V (set_vold w vo).
Proof. intros (Wk & _) F. destruct Wk. constructor; try assumption. intros c q i Hc Hq Hi _. cbn [set_vold w_vold]. apply (proj2 F). rewrite nvars_eq. unfold intvar_ix. lia. Qed.

(** dim-independent part: sv is column v of the exact stiffness *)
Section Answers.
Variables (o0 : obj R) (v : Z) (sv : Z -> R) (X l : R).
Notation V := (o_env o0).
Hypotheses (O : is_object o0) (Hv : (0 <= v < nvoi V)%Z) (X0 : 0 < X) (l0 : 0 <= l).
Hypothesis Near : forall fuel pk eps w c, wok V w -> (2 <= fuel)%nat -> pk 1%Z = Ok c -> (c < 40)%Z ->
  exists w' er s, respond fuel pk V eps w = Ok (w', false, 0%Z, er, s) /\ X * Rabs (lget s v - rsum (zrange 0 (nvoi V)) (fun i => sv i * lget eps i)) <= 1 / 100000 * l.
Hypothesis Lin : forall i, (0 <= i < nvoi V)%Z -> exists c, aget (o_ctan o0) (v * nvoi V + i)%Z = Some c /\ X * Rabs (c - sv i) <= 1000 * l.

Lemma answers cs o fs fuel q o' fs' r id e : reaches o0 cs o fs -> last_set id e cs -> (2 <= fuel)%nat -> good_peek q -> step (Homogenize fuel q) (o, fs) = Ok (o', fs', r) ->
  exists ss cc, step (GetStress id) (o', fs') = Ok (o', fs', RBuf (Some ss)) /\ step (GetCtan id) (o', fs') = Ok (o', fs', RBuf (Some cc)) /\
    X * Rabs (lget ss v - rsum (zrange 0 (nvoi V)) (fun i => sv i * lget e i)) <= (1 / 100000 + 1000 * rsum (zrange 0 (nvoi V)) (fun i => Rabs (lget e i))) * l /\
    forall i, (0 <= i < nvoi V)%Z -> X * Rabs (lget cc (v * nvoi V + i) - sv i) <= 2000 * l.
Proof.
  intros R0 Ls Hf Hq E. destruct (reach_inv o0 cs o fs O R0) as (K & (Ev & Ec & _) & _). destruct (keyed_store o0 cs o fs O R0) as (_ & _ & _ & KS).
  destruct (KS id e Ls) as (g & L & St). apply strain_is_stored in St. pose proof (ok_sane o K) as S. pose proof (nvoi_range _ S) as Nv. rewrite Ev in S, Nv.
  assert (Se : forall i, (0 <= i < nvoi V)%Z -> oval (g_strain g) i = lget e i) by (intros i Hi; unfold oval; rewrite (St i) by (rewrite Ev; exact Hi); reflexivity).
  assert (Lc : (0 <= rsum (zrange 0 (nvoi V)) (fun i => Rabs (lget e i)))%R) by (apply rsum_nonneg; intros; apply Rabs_pos).
  assert (X1 : forall a b c, X * Rabs a <= c -> X * Rabs b <= c -> X * Rabs (a - b) <= c + c).
  { intros a b c Ha Hb. pose proof (Rabs_triang a (- b)) as T. rewrite Rabs_Ropp in T. fold (a - b) in T. assert (X * Rabs (a - b) <= X * (Rabs a + Rabs b)) by (apply Rmult_le_compat_l; lra). lra. }
  destruct (Classical_Prop.classic (g_n g = None /\ below o g)) as [(Hn & Hb)|N].
  - destruct (linear_point o0 cs o fs fuel q o' fs' r id g O R0 E L Hn Hb) as (E1 & E2 & _). rewrite Ev in E1, E2. do 2 eexists. split; [exact E1|]. split; [exact E2|]. split.
    + rewrite lget_map by exact Hv. rewrite predicted_sum, Ev, Ec.
      rewrite (rsum_ext _ _ (fun i => sv i * lget e i + (oval (o_ctan o0) (v * nvoi V + i) - sv i) * lget e i)) by (intros i Hi; apply in_zrange in Hi; rewrite Se by lia; ring).
      rewrite rsum_plus. match goal with |- X * Rabs (?a + ?b - ?a) <= _ => replace (a + b - a) with b by ring end.
      apply Rle_trans with (rsum (zrange 0 (nvoi V)) (fun i => 1000 * l * Rabs (lget e i))).
      * apply Rle_trans with (X * rsum (zrange 0 (nvoi V)) (fun i => Rabs ((oval (o_ctan o0) (v * nvoi V + i) - sv i) * lget e i))).
        { apply Rmult_le_compat_l; [lra|]. apply rsum_abs. }
        rewrite <- rsum_scal. apply rsum_le. intros i Hi. apply in_zrange in Hi. destruct (Lin i ltac:(lia)) as (c & Gc & Hc). unfold oval at 1. rewrite Gc, Rabs_mult, <- Rmult_assoc.
        apply Rmult_le_compat_r; [apply Rabs_pos|exact Hc].
      * rewrite rsum_scal. nra.
    + intros i Hi. rewrite lget_map by nia. destruct (Lin i Hi) as (c & Gc & Hc). unfold oval. rewrite Ec, Gc. lra.
  - destruct (point_solved o0 cs o fs fuel q o' fs' r id g O R0 E L) as (g1 & w & j & L1 & W & vo & w1 & nl & it & er & s & Vo & Fv & Re & Hs & _ & _ & _ & _ & Hc); [tauto|]. rewrite Ev in *.
    set (e' := map (oval (g_strain g)) (zrange 0 (nvoi V))) in *.
    assert (Ee : forall i, (0 <= i < nvoi V)%Z -> lget e' i = lget e i) by (intros i Hi; unfold e'; rewrite lget_map by exact Hi; now apply Se).
    destruct (Hq j 0%Z) as (c0 & Q0 & Q1). destruct (Near fuel (q j 0%Z) e' (set_vold w vo) c0 (wok_load _ w vo W Fv) Hf Q0 Q1) as (w2 & er2 & s2 & Re2 & B0). rewrite Re in Re2. injection Re2 as _ _ _ _ <-.
    rewrite (rsum_ext _ _ (fun i => sv i * lget e i)) in B0 by (intros i Hi; apply in_zrange in Hi; rewrite Ee by lia; ring).
    assert (Cc : forall i, (0 <= i < nvoi V)%Z -> exists c, aget (g_ctan g1) (v * nvoi V + i)%Z = Some c /\ X * Rabs (c - sv i) <= 2000 * l).
    { intros i Hi. destruct (Hc i Hi) as (w3 & w4 & nl' & it' & er' & s' & Wf & O3 & Re3 & _ & _ & G3). exists ((lget s' v - lget s v) / d_eps). split; [exact (G3 v Hv)|].
      destruct (Hq j (1 + i)%Z) as (c1 & Q2 & Q3). destruct (Near fuel (q j (1 + i)%Z) (bump (nvoi V) e' i) w3 c1 (proj1 Wf) Hf Q2 Q3) as (w5 & er5 & s5 & Re5 & B5). rewrite Re3 in Re5. injection Re5 as _ _ _ _ <-.
      rewrite (rsum_ext _ (fun k => sv k * lget (bump (nvoi V) e' i) k) (fun k => sv k * lget e k + (if (k =? i)%Z then sv i * d_eps else 0))) in B5.
      2:{ intros k Hk. apply in_zrange in Hk. unfold bump. rewrite lget_ltab by lia. rewrite !Ee by lia. destruct (Z.eqb_spec k i) as [->|]; [change (sv i * (lget e i + d_eps) = sv i * lget e i + sv i * d_eps)|]; ring. }
      rewrite rsum_plus in B5. assert (Si : rsum (zrange 0 (nvoi V)) (fun k => if (k =? i)%Z then sv i * d_eps else 0) = sv i * d_eps).
      { rewrite (rsum_single _ _ i); [now rewrite Z.eqb_refl|apply NoDup_zrange|apply in_zrange; lia|intros x _ Nx; destruct (Z.eqb_spec x i); [contradiction|reflexivity]]. }
      rewrite Si in B5.
      pose proof (X1 _ _ _ B5 B0) as B. pose proof deps_R as De. change d_eps with (@d_eps R ROps) in *. rewrite De in *.
      match type of B with X * Rabs ?a <= _ => replace ((lget s' v - lget s v) / (1 / 100000000) - sv i) with (100000000 * a) by field end.
      rewrite Rabs_mult, (Rabs_right 100000000) by lra. lra. }
    assert (Id : In id (set_ids (cs ++ [Homogenize fuel q]))).
    { destruct Ls as (a & b & -> & _). apply in_set_ids. exists e. apply in_or_app. left. apply in_or_app. right. now left. }
    pose proof (reach_step _ _ _ _ _ _ _ _ R0 E) as R1. destruct (results_defined o0 _ o' fs' id O R1 Id) as (Df & _).
    destruct Df as ((ss & E1 & _) & (cc & E2 & _)).
    { destruct Ls as (a & b & -> & _). exists a, e, (b ++ [Homogenize fuel q])%list, fuel, q. split; [now rewrite <- app_assoc|]. apply in_or_app. right. now left. }
    destruct (reach_inv o0 _ o' fs' O R1) as (_ & (Ev' & _) & _).
    exists ss, cc. split; [exact E1|]. split; [exact E2|]. cbn [step] in E1, E2. unfold get_macro_stress, get_macro_ctan in E1, E2. rewrite L1, Ev' in E1, E2.
    rewrite rdl_ok in E1 by (intros i Hi; rewrite (Hs i Hi); eauto). cbn [bind] in E1. injection E1 as <-. split.
    + rewrite lget_map by exact Hv. unfold oval. rewrite (Hs v Hv). nra.
    + destruct (rdl (g_ctan g1) (nvoi V * nvoi V)) as [c2|] eqn:Er; cbn [bind] in E2; [|discriminate]. injection E2 as <-. destruct (rdl_inv _ _ _ Er) as (_ & ->).
      intros i Hi. destruct (Cc i Hi) as (c & Gc & Hc'). rewrite lget_map by nia. unfold oval. rewrite Gc. exact Hc'.
Qed.
End Answers.

(** ** homogenize completes when every response does *)
Section Total.
Variables (V : env R) (fuel : nat) (q : Z -> Z -> peek).
Hypothesis Sn : sane V.
Hypothesis Resp : forall k i eps w, wok V w -> exists r, respond fuel (q k i) V eps w = Ok r.
Lemma ctan_total k eps s0 w ctan its ers : wfull V w -> alen ctan = 36%Z -> alen its = 7%Z -> alen ers = 7%Z ->
  exists r, homog_ctan fuel (q k) V eps s0 w ctan its ers = Ok r.
Proof.
  intros W Lc Li Le. pose proof (nvoi_range V Sn) as Nv. unfold homog_ctan.
  pose (P := fun (n : Z) (st : work R * arr R * arr Z * arr R) => let '(w', ctan', its', ers') := st in
    wfull V w' /\ alen ctan' = 36%Z /\ alen its' = 7%Z /\ alen ers' = 7%Z).
  match goal with |- exists r, foldM ?f _ _ = _ => pose proof (foldM_iter f P (fun _ => False) (nvoi V) ltac:(lia)) as X end.
  specialize (X (w, ctan, its, ers)). cbv beta in X.
  match type of X with ?A -> ?B -> ?C => assert (HA : A); [|assert (HB : B)] end.
  - unfold P. auto.
  - intros i (((w1, c1), i1), e1) Hi (W1 & Lc1 & Li1 & Le1).
    destruct (Resp k (1 + i)%Z (bump (nvoi V) eps i) w1 (proj1 W1)) as (r & E). rewrite E. cbn [bind].
    pose proof (wfull_respond V _ _ _ _ _ Sn W1 E) as H. destruct r as ((((w2, nl), it), er), s1). destruct H as (W2 & _).
    destruct (wr_col_ok V c1 i (ltab (nvoi V) (fun v => odiv (osub (lget s1 v) (lget s0 v)) d_eps)) Sn Lc1 Hi) as (c2 & Ec & Lc2 & _). rewrite Ec. cbn [bind].
    destruct (wr_ok i1 (1 + i) it) as (i2 & Ei & Li2 & _); [lia|]. rewrite Ei. cbn [bind].
    destruct (wr_ok e1 (1 + i) er) as (e2 & Ee & Le2 & _); [lia|]. rewrite Ee. cbn [bind]. unfold P. split; [exact W2|]. split; [exact Lc2|]. lia.
  - specialize (X HA HB). destruct foldM as [r|e]; [eauto|contradiction].
Qed.
Lemma gp_total k c w g : wfull V w -> pfull c (nvoi V * nvoi V) -> gp_ok V g -> exists r, homog_gp fuel (q k) V c w g = Ok r.
Proof.
  intros W C G. pose proof (nvoi_range V Sn) as Nv. unfold homog_gp. pose proof W as (K & Fo & Fn).
  destruct (load_ok V (g_n g) (w_vold w) Sn (full_alen _ _ Fo)) as (vo & Eo & Fo' & _).
  { intros v Ev. pose proof (go_vars V g G) as Gv. rewrite Ev in Gv. destruct (g_k g); [tauto|contradiction]. }
  rewrite Eo. cbn [bind].
  assert (W1 : wfull V (set_vold w vo)).
  { split; [|split; assumption]. destruct K as [A1 A2 A3 A4 A5 A6]. constructor; try assumption. cbn.
    intros e p i He Hp Hi _. apply (proj2 Fo'). rewrite nvars_eq. unfold intvar_ix. lia. }
  rewrite (is_linear_ok V c _ _ Sn C (go_e V g G)). cbn [bind fst snd]. match goal with |- context [if ?b then _ else _] => destruct b end.
  - match goal with |- context [homog_linear V c g ?i] => destruct (homog_linear_ok V c g i Sn C G) as (g' & E & _) end. rewrite E. cbn [bind]. eauto.
  - rewrite (rdl_ok _ _ (go_e V g G)). cbn [bind]. destruct (Resp k 0%Z (map (oval (g_strain g)) (zrange 0 (nvoi V))) (set_vold w vo) (proj1 W1)) as (r & E). rewrite E. cbn [bind].
    pose proof (wfull_respond V _ _ _ _ _ Sn W1 E) as H. destruct r as ((((w2, nl), it), er), s). destruct H as (W2 & _ & _ & D2).
    unfold wrl. destruct (fill_ok (lget s) (nvoi V) (g_stress g)) as (st & Es & _); [rewrite (go_stress V g G); lia|]. rewrite Es. cbn [bind].
    destruct (keep_ok V nl (w_vnew w2) g Sn G (proj2 (proj2 W2)) D2) as (n' & k' & Ek & _). rewrite Ek. cbn [bind fst snd].
    destruct (wr_ok (g_its g) 0 it) as (i1 & Ei & Li & _); [rewrite (go_its V g G); lia|]. rewrite Ei. cbn [bind].
    destruct (wr_ok (g_err g) 0 er) as (e1 & Ee & Le & _); [rewrite (go_err V g G); lia|]. rewrite Ee. cbn [bind].
    destruct (ctan_total k (map (oval (g_strain g)) (zrange 0 (nvoi V))) s w2 (g_ctan g) i1 e1 W2 (go_ctan V g G)) as ((((w3, c3), i3), e3) & ->); [rewrite Li; exact (go_its V g G)|rewrite Le; exact (go_err V g G)|].
    cbn [bind]. eauto.
Qed.
Lemma list_total c l : forall w inv d j, wfull V w -> pfull c (nvoi V * nvoi V) -> Forall (gp_ok V) l ->
  exists r, foldM (fun st g => let '(w, _, done, j) := st in ' r <- homog_gp fuel (q j) V c w g ;; let '(w, inv, g) := r in Ok (w, Some inv, (done ++ [g])%list, (j + 1)%Z)) l (w, inv, d, j) = Ok r.
Proof.
  induction l as [|g l IH]; intros w inv d j W C F; cbn [foldM]; [eauto|]. inversion F; subst.
  destruct (gp_total j c w g W C) as (((w1, i1), g1) & E); [assumption|]. rewrite E. cbn [bind].
  pose proof (homog_gp_ok V fuel (q j) c w g Sn W C) as X. rewrite E in X. apply IH; [exact (proj1 (X ltac:(assumption)))|exact C|assumption].
Qed.
End Total.
Lemma homogenize_total o0 cs o fs fuel q : is_object o0 -> reaches o0 cs o fs -> (forall k i eps w, wok (o_env o0) w -> exists r, respond fuel (q k i) (o_env o0) eps w = Ok r) ->
  exists o', step (Homogenize fuel q) (o, fs) = Ok (o', fs, RUnit).
Proof.
  intros O R0 H. destruct (reach_inv o0 cs o fs O R0) as (K & (Ev & _) & _). rewrite <- Ev in H. pose proof (ok_sane o K) as S.
  assert (F : Forall (gp_ok (o_env o)) (o_gps o)) by (pose proof (ok_gps o K) as F; rewrite Forall_forall in *; intros g Hg; exact (proj1 (F g Hg))).
  destruct (list_total (o_env o) fuel q S H (o_ctan o) (o_gps o) (o_work o) (o_inv_max o) [] 0%Z (ok_work o K) (ok_ctan o K) F) as ((((w, inv), l), j) & E).
  cbn [step]. unfold homogenize, homog_list. rewrite E. cbn [bind]. eauto.
Qed.

(** ** objects without plastic cells *)
(** the flag of a response *)
Lemma loop_nl V fuel pk cell : sane V -> v_dim V = 3%Z -> linear V -> forall k w w' nl it er, wok V w -> newton_loop fuel pk V cell k w = Ok (w', nl, it, er) -> nl = false.
Proof.
  intros S D L. induction fuel as [|fuel IH]; intros k w w' nl it er K E; cbn [newton_loop] in E; [discriminate|].
  destruct (body_ok V w S K) as (w1 & nl1 & er1 & brk & E1 & K1 & _).
  assert (N1 : nl1 = false).
  { unfold newton_body in E1. destruct (assembly_rhs V (w_u w) (w_vold w) (w_vnew w) (w_b w)) as [(((b, nl2), vn), er2)|] eqn:Ea; cbn [bind] in E1; [|discriminate].
    destruct (lin_rhs V _ _ _ _ _ _ _ _ S D L (wk_u _ _ K) (wok_vars3 V w D K) (wk_b _ _ K) Ea) as (_ & ->). destruct (oltb er2 nr_tol); [now injection E1|].
    destruct assembly_mat; cbn [bind] in E1; [|discriminate]. destruct run_stores; cbn [bind] in E1; [|discriminate]. destruct solve; cbn [bind] in E1; [|discriminate].
    destruct upd_for; cbn [bind] in E1; [|discriminate]. now injection E1. }
  rewrite E1 in E. cbn [bind] in E. destruct brk; [injection E as _ <- _ _; exact N1|]. destruct (if (k + 1 =? 0)%Z then Ok cell else pk (k + 1)%Z) as [i|]; cbn [bind] in E; [|discriminate].
  destruct (_ && _)%bool in E; [exact (IH _ _ _ _ _ _ K1 E)|]. injection E as _ <- _ _. exact N1.
Qed.
Lemma respond_nl V fuel pk eps w w' nl it er s : sane V -> v_dim V = 3%Z -> linear V -> wok V w -> respond fuel pk V eps w = Ok (w', nl, it, er, s) -> nl = false.
Proof.
  intros S D L K E. destruct (respond_parts _ _ _ _ _ _ _ _ _ _ E) as (u & w1 & vn & Eu & En & _ & _).
  destruct (displ_ok V eps (w_u w) S (wk_u _ _ K)) as (u2 & Eu2 & Fu). rewrite Eu in Eu2. injection Eu2 as <-.
  assert (K1 : wok V (set_u w u)) by (destruct K; constructor; assumption). exact (loop_nl V fuel pk 0 S D L 0 _ _ _ _ _ K1 En).
Qed.
Lemma linear_forever o0 : is_object o0 -> v_dim (o_env o0) = 3%Z -> linear (o_env o0) -> forall cs o fs, reaches o0 cs o fs -> forall id g, lookup id (o_gps o) = Some g -> g_n g = None.
Proof.
  intros O D Li cs. induction cs as [|c cs IH] using rev_ind; intros o fs R0.
  - destruct (keyed_store o0 [] o fs O R0) as (M & _). intros id g L. apply lookup_in in L. destruct L as (I & _). apply (in_map g_id) in I. rewrite M in I. destruct I.
  - apply reach_last in R0. destruct R0 as (o1 & fs1 & r & R1 & E). specialize (IH o1 fs1 R1). destruct (reach_inv o0 cs o1 fs1 O R1) as (K & (Ev & _) & _). pose proof (ok_sane o1 K) as S.
    assert (Same : o_gps o = o_gps o1 -> forall id g, lookup id (o_gps o) = Some g -> g_n g = None) by (intros ->; exact IH).
    destruct c as [id' eps|id'|id'|id'|f orc| |f pk t id'|].
    + pose proof (step_ok (SetStrain id' eps) o1 fs1 K) as H. rewrite E in H. destruct H as (_ & _ & (_ & Oth & g1 & L1 & _ & X)). intros id g L.
      destruct (Z.eq_dec id id') as [->|N]; [|rewrite (Oth id N) in L; exact (IH id g L)]. rewrite L1 in L. injection L as <-. destruct (lookup id' (o_gps o1)) as [g2|] eqn:L2.
      * rewrite X. exact (IH id' g2 L2).
      * now destruct X as ((_ & _ & _ & _ & N1 & _) & _).
    + destruct (queries_pure o1 fs1 (GetStress id') o fs r ltac:(exists id'; auto) E) as (-> & _). now apply Same.
    + destruct (queries_pure o1 fs1 (GetCtan id') o fs r ltac:(exists id'; auto) E) as (-> & _). now apply Same.
    + destruct (queries_pure o1 fs1 (NlFlag id') o fs r ltac:(exists id'; auto) E) as (-> & _). now apply Same.
    + destruct (homogenize_keeps o0 cs o1 fs1 f orc o fs r O R1 E) as (Ids & H). intros id g' L'.
      destruct (lookup id (o_gps o1)) as [g|] eqn:L.
      2:{ exfalso. apply (proj1 (lookup_none id (o_gps o1))) in L. apply lookup_in in L'. destruct L' as (I & <-). apply L. rewrite <- Ids. now apply in_map. }
      destruct (Classical_Prop.classic (below o1 g)) as [Hb|Nb].
      * destruct (linear_point o0 cs o1 fs1 f orc o fs r id g O R1 E L (IH id g L) Hb) as (_ & _ & F). cbn [step] in F. injection F as F. unfold get_nl_flag in F. rewrite L' in F. now destruct (g_n g').
      * destruct (point_solved o0 cs o1 fs1 f orc o fs r id g O R1 E L (or_intror Nb)) as (g1 & w & jj & L1 & W & vo & w1 & nl & it & er & s & _ & Fv & Re & _ & _ & _ & Nf & _).
        rewrite L' in L1. injection L1 as <-. rewrite <- Ev in D, Li. destruct (Nf (respond_nl _ _ _ _ _ _ _ _ _ _ S D Li (wok_load _ w vo W Fv) Re)) as (-> & _). exact (IH id g L).
    + destruct (update_frame o0 cs o1 fs1 O R1) as (o2 & E2 & _ & _ & Ids & H). rewrite E in E2. injection E2 as <- _ _. intros id g' L'.
      destruct (lookup id (o_gps o1)) as [g|] eqn:L.
      2:{ exfalso. apply (proj1 (lookup_none id (o_gps o1))) in L. apply lookup_in in L'. destruct L' as (I & <-). apply L. rewrite <- Ids. now apply in_map. }
      destruct (H id g L) as (g2 & L2 & _ & _ & _ & _ & _ & _ & Hf). rewrite L' in L2. injection L2 as <-. unfold get_nl_flag in Hf. rewrite L, L', (IH id g L) in Hf. now destruct (g_n g').
    + destruct (output_keeps o0 cs o1 fs1 _ o fs r O R1 ltac:(right; eauto) E) as (Q & _). now apply Same.
    + destruct (output_keeps o0 cs o1 fs1 _ o fs r O R1 ltac:(left; reflexivity) E) as (Q & _). now apply Same.
Qed.

Section Objects.
Variables (fuel0 : nat) (q0 : Z -> peek) (j : junk R) (nx ny nz mtype : Z) (mp : list R) (mt : list Z) (ps : list R) (o0 : obj R).
Hypotheses (J : total_junk j) (F0 : (2 <= fuel0)%nat) (Q0 : forall i, exists k, q0 i 1%Z = Ok k /\ (k < 40)%Z).
(** C95 *)
Theorem linear_answers3 : valid_args 3 nx ny nz mtype mp mt ps -> body_args 3 mp ps -> no_plastic mt -> construct fuel0 q0 j 3 [nx; ny; nz] mtype mp mt ps = Ok o0 -> (nx * ny * nz * 3 < 2000)%Z ->
  forall cs o fs fuel q id e, reaches o0 cs o fs -> last_set id e cs -> (2 <= fuel)%nat -> (forall k i, exists c, q k i 1%Z = Ok c /\ (c < 40)%Z) ->
  exists o', step (Homogenize fuel q) (o, fs) = Ok (o', fs, RUnit) /\
  exists ss cc, step (GetStress id) (o', fs) = Ok (o', fs, RBuf (Some ss)) /\ step (GetCtan id) (o', fs) = Ok (o', fs, RBuf (Some cc)) /\ step (NlFlag id) (o', fs) = Ok (o', fs, RInt 0) /\
  forall v u vo b s a, (0 <= v < 6)%Z -> state3 (o_env o0) (unit 6 v) u vo b 0 s -> affine_all3 (o_env o0) (unit 6 v) a ->
    let l := len (ndofs (o_env o0)) (fun r => val u r - a r) in
    lget mp 0 * lget mp 1 * Rabs (lget ss v - dot 6 (lget s) (lget e)) <= (1 / 100000 + 1000 * rsum (zrange 0 6) (fun i => Rabs (lget e i))) * l /\
    forall i, (0 <= i < 6)%Z -> lget mp 0 * lget mp 1 * Rabs (lget cc (v * 6 + i) - lget s i) <= 2000 * l.
Proof.
  intros A B NP C Hn cs o fs fuel q id e R0 Ls Hf Hq. destruct (columns fuel0 q0 j 3 nx ny nz mtype mp mt ps o0 A J C) as (S & (tol & EV) & _).
  destruct (tangent_states3 fuel0 q0 j nx ny nz mtype mp mt ps o0 A B NP J C Hn F0 Q0) as (BD & L & Ad & _). pose proof BD as (_ & G & D).
  assert (O : is_object o0) by (exists 3%Z, nx, ny, nz, mtype, mp, mt, ps, fuel0, q0, j; auto).
  assert (Nd : (ndofs (o_env o0) < 2000)%Z) by (rewrite (ndofs3 _ D), (eo_nx _ _ _ _ _ _ _ _ _ _ EV), (eo_ny _ _ _ _ _ _ _ _ _ _ EV), (eo_nz _ _ _ _ _ _ _ _ _ _ EV); exact Hn).
  assert (Nv : nvoi (o_env o0) = 6%Z) by (unfold nvoi; now rewrite D).
  destruct (homogenize_total o0 cs o fs fuel q O R0) as (o' & E).
  { intros k i eps w K. destruct (Hq k i) as (c & H1 & H2). destruct (respond_linear3 (o_env o0) fuel (q k i) eps w c BD L Ad K Nd Hf H1 H2) as (w2 & er2 & s2 & _ & _ & Re & _). eauto. }
  exists o'. split; [exact E|]. pose proof (reach_step _ _ _ _ _ _ _ _ R0 E) as R1. destruct (geom_pos (o_env o0) S G) as (Px & Py).
  assert (PX : 0 < v_lx (o_env o0) * v_ly (o_env o0)) by now apply Rmult_lt_0_compat.
  assert (Main : forall v u vo b s a, (0 <= v < 6)%Z -> state3 (o_env o0) (unit 6 v) u vo b 0 s -> affine_all3 (o_env o0) (unit 6 v) a -> let l := len (ndofs (o_env o0)) (fun r => val u r - a r) in
    exists ss cc, step (GetStress id) (o', fs) = Ok (o', fs, RBuf (Some ss)) /\ step (GetCtan id) (o', fs) = Ok (o', fs, RBuf (Some cc)) /\
      lget mp 0 * lget mp 1 * Rabs (lget ss v - dot 6 (lget s) (lget e)) <= (1 / 100000 + 1000 * rsum (zrange 0 6) (fun i => Rabs (lget e i))) * l /\
      forall i, (0 <= i < 6)%Z -> lget mp 0 * lget mp 1 * Rabs (lget cc (v * 6 + i) - lget s i) <= 2000 * l).
  { intros v u vo b s a Hv St Aa l. assert (l0 : 0 <= l) by apply sqrt_pos. rewrite <- (eo_lx _ _ _ _ _ _ _ _ _ _ EV), <- (eo_ly _ _ _ _ _ _ _ _ _ _ EV).
    pose proof (answers o0 v (lget s) (v_lx (o_env o0) * v_ly (o_env o0)) l O) as Q. rewrite Nv in Q.
    apply (Q Hv PX l0) with (cs := cs) (o := o) (fs := fs) (fuel := fuel) (q := q) (r := RUnit); try assumption.
    - intros f pk eps w c K Hf' H1 H2. destruct (respond_linear3 (o_env o0) f pk eps w c BD L Ad K Nd Hf' H1 H2) as (w2 & er2 & s2 & b2 & n & Re & _ & S2 & Hn2). exists w2, er2, s2. split; [exact Re|].
      pose proof (reciprocity_body3 _ _ _ _ _ _ _ _ _ _ _ _ _ _ _ BD L S2 St (affine_field3 (o_env o0) eps BD) Aa) as H. fold l in H. rewrite Rmult_0_l, Rplus_0_r, (dot_unit 6 (lget s2) v Hv), Rabs_mult, (Rabs_right (_ * _)) in H by lra.
      apply Rle_trans with (n * l); [exact H|]. apply Rmult_le_compat_r; lra.
    - intros i Hi. destruct (linear_tangent3 fuel0 q0 j nx ny nz mtype mp mt ps o0 A B NP J C Hn F0 Q0 v i u vo b s a Hv Hi St Aa) as (c & Gc & Hc). exists c. split; [exact Gc|].
      fold l in Hc. rewrite Rabs_mult, (Rabs_right (_ * _)) in Hc by lra. exact Hc. }
  assert (Id : In id (set_ids (cs ++ [Homogenize fuel q]))).
  { destruct Ls as (a & b & -> & _). apply in_set_ids. exists e. apply in_or_app. left. apply in_or_app. right. now left. }
  destruct (results_defined o0 _ o' fs id O R1 Id) as (Df & _). destruct Df as ((ss & E1 & _) & (cc & E2 & _)).
  { destruct Ls as (a & b & -> & _). exists a, e, (b ++ [Homogenize fuel q])%list, fuel, q. split; [now rewrite <- app_assoc|]. apply in_or_app. right. now left. }
  exists ss, cc. split; [exact E1|]. split; [exact E2|]. split.
  - cbn [step]. unfold get_nl_flag. destruct (lookup id (o_gps o')) as [g|] eqn:Lg; [|reflexivity]. now rewrite (linear_forever o0 O D L _ o' fs R1 id g Lg).
  - intros v u vo b s a Hv St Aa. destruct (Main v u vo b s a Hv St Aa) as (s2 & c2 & E3 & E4 & H). rewrite E1 in E3. rewrite E2 in E4. injection E3 as <-. injection E4 as <-. exact H.
Qed.
Theorem linear_answers2 : valid_args 2 nx ny nz mtype mp mt ps -> body_args 2 mp ps -> construct fuel0 q0 j 2 [nx; ny; nz] mtype mp mt ps = Ok o0 -> (nx * ny * 2 < 2000)%Z ->
  forall cs o fs fuel q id e, reaches o0 cs o fs -> last_set id e cs -> (2 <= fuel)%nat -> (forall k i, exists c, q k i 1%Z = Ok c /\ (c < 40)%Z) ->
  exists o', step (Homogenize fuel q) (o, fs) = Ok (o', fs, RUnit) /\
  exists ss cc, step (GetStress id) (o', fs) = Ok (o', fs, RBuf (Some ss)) /\ step (GetCtan id) (o', fs) = Ok (o', fs, RBuf (Some cc)) /\ step (NlFlag id) (o', fs) = Ok (o', fs, RInt 0) /\
  forall v u b s a, (0 <= v < 3)%Z -> state2 (o_env o0) (unit 3 v) u b 0 s -> affine_all2 (o_env o0) (unit 3 v) a ->
    let l := len (ndofs (o_env o0)) (fun r => val u r - a r) in
    lget mp 0 * lget mp 1 * Rabs (lget ss v - dot 3 (lget s) (lget e)) <= (1 / 100000 + 1000 * rsum (zrange 0 3) (fun i => Rabs (lget e i))) * l /\
    forall i, (0 <= i < 3)%Z -> lget mp 0 * lget mp 1 * Rabs (lget cc (v * 3 + i) - lget s i) <= 2000 * l.
Proof.
  intros A B C Hn cs o fs fuel q id e R0 Ls Hf Hq. destruct (columns fuel0 q0 j 2 nx ny nz mtype mp mt ps o0 A J C) as (S & (tol & EV) & _).
  destruct (tangent_states2 fuel0 q0 j nx ny nz mtype mp mt ps o0 A B J C Hn F0 Q0) as (BD & Ad & _). pose proof BD as (_ & G & D).
  assert (O : is_object o0) by (exists 2%Z, nx, ny, nz, mtype, mp, mt, ps, fuel0, q0, j; auto).
  assert (Nd : (ndofs (o_env o0) < 2000)%Z) by (rewrite (ndofs2 _ S D), (eo_nx _ _ _ _ _ _ _ _ _ _ EV), (eo_ny _ _ _ _ _ _ _ _ _ _ EV); exact Hn).
  assert (Nv : nvoi (o_env o0) = 3%Z) by (unfold nvoi; now rewrite D).
  destruct (homogenize_total o0 cs o fs fuel q O R0) as (o' & E).
  { intros k i eps w K. destruct (Hq k i) as (c & H1 & H2). destruct (respond_linear2 (o_env o0) fuel (q k i) eps w c BD Ad K Nd Hf H1 H2) as (w2 & er2 & s2 & _ & _ & Re & _). eauto. }
  exists o'. split; [exact E|]. pose proof (reach_step _ _ _ _ _ _ _ _ R0 E) as R1. destruct (geom_pos (o_env o0) S G) as (Px & Py).
  assert (PX : 0 < v_lx (o_env o0) * v_ly (o_env o0)) by now apply Rmult_lt_0_compat.
  assert (Main : forall v u b s a, (0 <= v < 3)%Z -> state2 (o_env o0) (unit 3 v) u b 0 s -> affine_all2 (o_env o0) (unit 3 v) a -> let l := len (ndofs (o_env o0)) (fun r => val u r - a r) in
    exists ss cc, step (GetStress id) (o', fs) = Ok (o', fs, RBuf (Some ss)) /\ step (GetCtan id) (o', fs) = Ok (o', fs, RBuf (Some cc)) /\
      lget mp 0 * lget mp 1 * Rabs (lget ss v - dot 3 (lget s) (lget e)) <= (1 / 100000 + 1000 * rsum (zrange 0 3) (fun i => Rabs (lget e i))) * l /\
      forall i, (0 <= i < 3)%Z -> lget mp 0 * lget mp 1 * Rabs (lget cc (v * 3 + i) - lget s i) <= 2000 * l).
  { intros v u b s a Hv St Aa l. assert (l0 : 0 <= l) by apply sqrt_pos. rewrite <- (eo_lx _ _ _ _ _ _ _ _ _ _ EV), <- (eo_ly _ _ _ _ _ _ _ _ _ _ EV).
    pose proof (answers o0 v (lget s) (v_lx (o_env o0) * v_ly (o_env o0)) l O) as Q. rewrite Nv in Q.
    apply (Q Hv PX l0) with (cs := cs) (o := o) (fs := fs) (fuel := fuel) (q := q) (r := RUnit); try assumption.
    - intros f pk eps w c K Hf' H1 H2. destruct (respond_linear2 (o_env o0) f pk eps w c BD Ad K Nd Hf' H1 H2) as (w2 & er2 & s2 & b2 & n & Re & _ & S2 & Hn2). exists w2, er2, s2. split; [exact Re|].
      pose proof (reciprocity_body2 _ _ _ _ _ _ _ _ _ _ _ _ _ BD S2 St (affine_field2 (o_env o0) eps BD) Aa) as H. fold l in H. rewrite Rmult_0_l, Rplus_0_r, (dot_unit 3 (lget s2) v Hv), Rabs_mult, (Rabs_right (_ * _)) in H by lra.
      apply Rle_trans with (n * l); [exact H|]. apply Rmult_le_compat_r; lra.
    - intros i Hi. destruct (linear_tangent2 fuel0 q0 j nx ny nz mtype mp mt ps o0 A B J C Hn F0 Q0 v i u b s a Hv Hi St Aa) as (c & Gc & Hc). exists c. split; [exact Gc|].
      fold l in Hc. rewrite Rabs_mult, (Rabs_right (_ * _)) in Hc by lra. exact Hc. }
  assert (Id : In id (set_ids (cs ++ [Homogenize fuel q]))).
  { destruct Ls as (a & b & -> & _). apply in_set_ids. exists e. apply in_or_app. left. apply in_or_app. right. now left. }
  destruct (results_defined o0 _ o' fs id O R1 Id) as (Df & _). destruct Df as ((ss & E1 & _) & (cc & E2 & _)).
  { destruct Ls as (a & b & -> & _). exists a, e, (b ++ [Homogenize fuel q])%list, fuel, q. split; [now rewrite <- app_assoc|]. apply in_or_app. right. now left. }
  exists ss, cc. split; [exact E1|]. split; [exact E2|]. split.
  - exact (proj1 (always_linear_2D o0 _ o' fs O R1 D) id).
  - intros v u b s a Hv St Aa. destruct (Main v u b s a Hv St Aa) as (s2 & c2 & E3 & E4 & H). rewrite E1 in E3. rewrite E2 in E4. injection E3 as <-. injection E4 as <-. exact H.
Qed.
End Objects.

(** C38 *)
Theorem always_linear_3D fuel0 q0 (j : junk R) nx ny nz mtype mp mt ps o0 : valid_args 3 nx ny nz mtype mp mt ps -> no_plastic mt -> total_junk j ->
  construct fuel0 q0 j 3 [nx; ny; nz] mtype mp mt ps = Ok o0 -> forall cs o fs, reaches o0 cs o fs ->
  (forall id, step (NlFlag id) (o, fs) = Ok (o, fs, RInt 0)) /\ forall g, In g (o_gps o) -> g_n g = None.
Proof.
  intros A NP J C cs o fs R0. destruct (columns fuel0 q0 j 3 nx ny nz mtype mp mt ps o0 A J C) as (S & (tol & EV) & _).
  assert (O : is_object o0) by (exists 3%Z, nx, ny, nz, mtype, mp, mt, ps, fuel0, q0, j; auto).
  pose proof (linear_forever o0 O (eo_dim _ _ _ _ _ _ _ _ _ _ EV) (built_linear _ _ _ _ _ _ _ _ _ _ EV NP) cs o fs R0) as H. split.
  - intros id. cbn [step]. unfold get_nl_flag. destruct (lookup id (o_gps o)) as [g|] eqn:L; [now rewrite (H id g L)|reflexivity].
  - intros g I. destruct (reach_inv o0 cs o fs O R0) as (K & _). exact (H (g_id g) g (in_lookup o g K I)).
Qed.

(** the hypotheses are met: a composite of linear and damage cells after a story of calls *)
Lemma linear_story3 : exists (j : junk R) o0 o fs, valid_args 3 4 5 3 0 mp5 [0; 2]%Z ps20 /\ body_args 3 mp5 ps20 /\ no_plastic [0; 2]%Z /\ total_junk j /\
  construct fuel40 (fun _ => counting) j 3 [4; 5; 3]%Z 0 mp5 [0; 2]%Z ps20 = Ok o0 /\ (4 * 5 * 3 * 3 < 2000)%Z /\ (2 <= fuel40)%nat /\
  (forall i : Z, exists k, (fun _ => counting) i 1%Z = Ok k /\ (k < 40)%Z) /\ (forall k i : Z, exists c, (fun _ _ => counting) k i 1%Z = Ok c /\ (c < 40)%Z) /\
  reaches o0 story o fs /\ last_set 7 (eps6 2) story /\ (exists i, lget (eps6 2) i <> 0) /\
  forall e, exists u vo b s a, state3 (o_env o0) e u vo b 0 s /\ affine_all3 (o_env o0) e a.
Proof.
  destruct linear_object3 as (j & o0 & A & B & NP & J & C & N & F & Q & _ & St). assert (O : is_object o0) by (exists 3%Z, 4%Z, 5%Z, 3%Z, 0%Z, mp5, [0; 2]%Z, ps20, fuel40, (fun _ => counting), j; auto).
  destruct (harmless_runs o0 (mkFiles [] [] [] [] []) story O (story_harmless _)) as (o & fs & R0). exists j, o0, o, fs. repeat (split; [assumption|]).
  split; [intros k i; exists 1%Z; split; [reflexivity|lia]|]. split; [exact R0|]. split; [exact (proj1 (proj2 (proj2 story_facts)))|]. split; [exists 0%Z; change (2 <> 0); lra|exact St].
Qed.
Lemma linear_story2 : exists (j : junk R) o0 o fs, valid_args 2 4 5 1 1 mp5 [1; 0]%Z ps20 /\ body_args 2 mp5 ps20 /\ total_junk j /\
  construct fuel40 (fun _ => counting) j 2 [4; 5; 1]%Z 1 mp5 [1; 0]%Z ps20 = Ok o0 /\ (4 * 5 * 2 < 2000)%Z /\ (2 <= fuel40)%nat /\
  (forall i : Z, exists k, (fun _ => counting) i 1%Z = Ok k /\ (k < 40)%Z) /\ (forall k i : Z, exists c, (fun _ _ => counting) k i 1%Z = Ok c /\ (c < 40)%Z) /\
  reaches o0 story o fs /\ last_set 7 (eps6 2) story /\ (exists i, lget (eps6 2) i <> 0) /\
  forall e, exists u b s a, state2 (o_env o0) e u b 0 s /\ affine_all2 (o_env o0) e a.
Proof.
  destruct linear_object2 as (j & o0 & A & B & J & C & N & F & Q & _ & St). assert (O : is_object o0) by (exists 2%Z, 4%Z, 5%Z, 1%Z, 1%Z, mp5, [1; 0]%Z, ps20, fuel40, (fun _ => counting), j; auto).
  destruct (harmless_runs o0 (mkFiles [] [] [] [] []) story O (story_harmless _)) as (o & fs & R0). exists j, o0, o, fs. repeat (split; [assumption|]).
  split; [intros k i; exists 1%Z; split; [reflexivity|lia]|]. split; [exact R0|]. split; [exact (proj1 (proj2 (proj2 story_facts)))|]. split; [exists 0%Z; change (2 <> 0); lra|exact St].
Qed.
