(** What homogenize computes for one Gauss point, and update_vars twice. *)
From Coq Require Import ZifyBool FMapPositive.
From Verif Require Import Base Scalar EllSpec EllModel EllFinal Grid AssemblyModel AsmPure AsmRun MicroModel OutputModel NewtonBase ApiBase ApiRun ApiHist.

Section Exact.
Context {T : Type} `{OT : Ops T}.
Implicit Types (V : env T) (w : work T) (g : gp T) (o : obj T).

Definition prev_max V (c : arr T) g : T :=
  if oltb inv_min (oabs (inv_val V c (g_strain g))) then oabs (inv_val V c (g_strain g)) else inv_min.

Lemma homog_gp_linear V fuel orc c w g : sane V -> wfull V w -> pfull c (nvoi V * nvoi V) -> gp_ok V g -> takes_linear V c g ->
  exists vo g', homog_gp fuel orc V c w g = Ok (set_vold w vo, prev_max V c g, g') /\ full vo (nvars V) /\
    g_n g' = None /\ g_k g' = g_k g /\
    (forall i, 0 <= i < nvoi V -> aget (g_stress g') i = Some (lin_val V c (g_strain g) i)) /\
    (forall i, 0 <= i < nvoi V * nvoi V -> aget (g_ctan g') i = aget c i).
Proof.
  intros S (K & Fo & Fn) C G (E1 & E2). unfold homog_gp.
  destruct (load_ok V (g_n g) (w_vold w) S (full_alen _ _ Fo)) as (vo & Eo & Fo' & _); [rewrite E2; discriminate|].
  rewrite Eo. cbn [bind]. rewrite (is_linear_ok V c _ _ S C (go_e V g G)). cbn [bind fst snd]. rewrite E1, E2. cbn [andb].
  destruct (homog_linear_ok V c g (prev_max V c g) S C G) as (g' & E & _ & _ & _ & _ & H3 & H4 & _ & H5 & H6 & _).
  unfold prev_max in E at 1. rewrite E. cbn [bind]. exists vo, g'. split; [reflexivity|]. split; [exact Fo'|]. split; [congruence|]. auto.
Qed.

(** columns of the tangent: forward differences *)
Lemma homog_ctan_cols V fuel orc eps s0 w ctan its ers w' ctan' its' ers' : sane V -> wfull V w -> alen ctan = 36 -> alen its = 7 -> alen ers = 7 ->
  homog_ctan fuel orc V eps s0 w ctan its ers = Ok (w', ctan', its', ers') ->
  (forall i, 0 <= i < nvoi V -> exists w1 w2 nl it er s, wfull V w1 /\ w_vold w1 = w_vold w /\
        respond fuel (orc (1 + i)) V (bump (nvoi V) eps i) w1 = Ok (w2, nl, it, er, s) /\
        aget its' (1 + i) = Some it /\ aget ers' (1 + i) = Some er /\
        forall v, 0 <= v < nvoi V -> aget ctan' (v * nvoi V + i) = Some (odiv (osub (lget s v) (lget s0 v)) d_eps)) /\
  aget its' 0 = aget its 0 /\ aget ers' 0 = aget ers 0.
Proof.
  intros S W Lc Li Le. pose proof (nvoi_range V S) as Nv. unfold homog_ctan.
  pose (P := fun (n : Z) (st : work T * arr T * arr Z * arr T) => let '(wx, cx, ix, ex) := st in
    wfull V wx /\ w_vold wx = w_vold w /\ alen cx = 36 /\ alen ix = 7 /\ alen ex = 7 /\
    (forall i, 0 <= i < n -> exists w1 w2 nl it er s, wfull V w1 /\ w_vold w1 = w_vold w /\
        respond fuel (orc (1 + i)) V (bump (nvoi V) eps i) w1 = Ok (w2, nl, it, er, s) /\
        aget ix (1 + i) = Some it /\ aget ex (1 + i) = Some er /\
        forall v, 0 <= v < nvoi V -> aget cx (v * nvoi V + i) = Some (odiv (osub (lget s v) (lget s0 v)) d_eps)) /\
    aget ix 0 = aget its 0 /\ aget ex 0 = aget ers 0).
  match goal with |- foldM ?f _ _ = _ -> _ => pose proof (foldM_iter f P (fun _ => True) (nvoi V) ltac:(lia)) as X end.
  specialize (X (w, ctan, its, ers)). cbv beta in X.
  match type of X with ?A -> ?B -> ?C => assert (HA : A); [|assert (HB : B)] end.
  - unfold P. repeat (split; [first [assumption|reflexivity]|]). split; [intros; lia|]. auto.
  - intros i (((w1, c1), i1), e1) Hi (W1 & O1 & Lc1 & Li1 & Le1 & H1 & Z1 & Y1).
    destruct (respond fuel (orc (1 + i)) V (bump (nvoi V) eps i) w1) as [r|e] eqn:E; cbn [bind]; [|exact I].
    pose proof (wfull_respond V _ _ _ _ _ S W1 E) as H. destruct r as ((((w2, nl), it), er), s1). destruct H as (W2 & _ & O2 & _).
    destruct (wr_col_ok V c1 i (ltab (nvoi V) (fun v => odiv (osub (lget s1 v) (lget s0 v)) d_eps)) S Lc1 Hi) as (c2 & Ec & Lc2 & Hc2).
    rewrite Ec. cbn [bind].
    destruct (wr_ok i1 (1 + i) it) as (i2 & Ei & Li2 & Gi2); [lia|]. rewrite Ei. cbn [bind].
    destruct (wr_ok e1 (1 + i) er) as (e2 & Ee & Le2 & Ge2); [lia|]. rewrite Ee. cbn [bind].
    unfold P. split; [exact W2|]. split; [congruence|]. split; [exact Lc2|]. split; [lia|]. split; [lia|]. split; [|split].
    + intros j Hj. destruct (Z.eq_dec j i) as [->|Hne].
      * exists w1, w2, nl, it, er, s1. split; [exact W1|]. split; [exact O1|]. split; [exact E|]. rewrite Gi2, Ge2, Z.eqb_refl.
        do 2 (split; [reflexivity|]). intros v Hv. rewrite (Hc2 v i Hv Hi), Z.eqb_refl, lget_ltab by exact Hv. reflexivity.
      * destruct (H1 j ltac:(lia)) as (a1 & a2 & a3 & a4 & a5 & a6 & B1 & B2 & B3 & B4 & B5 & B6). exists a1, a2, a3, a4, a5, a6.
        split; [exact B1|]. split; [exact B2|]. split; [exact B3|]. rewrite Gi2, Ge2. destruct (Z.eqb_spec (1 + j) (1 + i)); [lia|].
        split; [exact B4|]. split; [exact B5|]. intros v Hv. rewrite (Hc2 v j Hv ltac:(lia)). destruct (Z.eqb_spec j i); [lia|]. now apply B6.
    + rewrite Gi2. destruct (Z.eqb_spec 0 (1 + i)); [lia|exact Z1].
    + rewrite Ge2. destruct (Z.eqb_spec 0 (1 + i)); [lia|exact Y1].
  - specialize (X HA HB). intros E. rewrite E in X. destruct X as (_ & _ & _ & _ & _ & X). exact X.
Qed.

(** the full problem was solved: stress of the solution at the stored strain, tangent by
    forward differences, trial variables kept when the solve was non-linear *)
Definition solved V fuel (orc : Z -> peek) w g (g' : gp T) : Prop :=
  exists vo w1 nl it er s,
    (forall i, 0 <= i < nvars V -> aget vo i = committed V g i) /\ full vo (nvars V) /\
    respond fuel (orc 0) V (map (oval (g_strain g)) (zrange 0 (nvoi V))) (set_vold w vo) = Ok (w1, nl, it, er, s) /\
    (forall i, 0 <= i < nvoi V -> aget (g_stress g') i = Some (lget s i)) /\
    aget (g_its g') 0 = Some it /\ aget (g_err g') 0 = Some er /\
    (nl = false -> g_n g' = g_n g /\ g_k g' = g_k g) /\
    (nl = true -> g_n g' <> None /\ exists k, g_k g' = Some k /\ forall i, aget k i = aget (w_vnew w1) i) /\
    forall i, 0 <= i < nvoi V -> exists w2 w3 nl' it' er' s', wfull V w2 /\ w_vold w2 = vo /\
      respond fuel (orc (1 + i)) V (bump (nvoi V) (map (oval (g_strain g)) (zrange 0 (nvoi V))) i) w2 = Ok (w3, nl', it', er', s') /\
      aget (g_its g') (1 + i) = Some it' /\ aget (g_err g') (1 + i) = Some er' /\
      forall v, 0 <= v < nvoi V -> aget (g_ctan g') (v * nvoi V + i) = Some (odiv (osub (lget s' v) (lget s v)) d_eps).
Lemma homog_gp_solved V fuel orc c w g w' inv g' : sane V -> wfull V w -> pfull c (nvoi V * nvoi V) -> gp_ok V g -> ~ takes_linear V c g ->
  homog_gp fuel orc V c w g = Ok (w', inv, g') -> solved V fuel orc w g g'.
Proof.
  intros S (K & Fo & Fn) C G NL. pose proof (nvoi_range V S) as Nv. unfold homog_gp.
  destruct (load_ok V (g_n g) (w_vold w) S (full_alen _ _ Fo)) as (vo & Eo & Fo' & Vo).
  { intros v Ev. pose proof (go_vars V g G) as Gv. rewrite Ev in Gv. destruct (g_k g); [tauto|contradiction]. }
  rewrite Eo. cbn [bind].
  assert (W1 : wfull V (set_vold w vo)).
  { split; [|split; assumption]. destruct K as [A1 A2 A3 A4 A5 A6]. constructor; try assumption. cbn.
    intros e q i He Hq Hi _. apply (proj2 Fo'). rewrite nvars_eq. unfold intvar_ix. lia. }
  rewrite (is_linear_ok V c _ _ S C (go_e V g G)). cbn [bind fst snd]. fold (prev_max V c g).
  replace (oltb (oabs (inv_val V c (g_strain g))) (v_inv_tol V) && match g_n g with None => true | Some _ => false end)%bool with false.
  2:{ symmetry. apply Bool.not_true_is_false. intros H. apply andb_prop in H. destruct H as (H1 & H2). apply NL. split; [exact H1|]. now destruct (g_n g). }
  rewrite (rdl_ok _ _ (go_e V g G)). cbn [bind].
  destruct (respond fuel (orc 0) V (map (oval (g_strain g)) (zrange 0 (nvoi V))) (set_vold w vo)) as [r|e] eqn:E; cbn [bind]; [|discriminate].
  pose proof (wfull_respond V _ _ _ _ _ S W1 E) as H. destruct r as ((((w2, nl), it), er), s). destruct H as (W2 & I2 & O2 & D2).
  unfold wrl. destruct (fill_ok (lget s) (nvoi V) (g_stress g)) as (st & Es & Ls & Ps & Hs & _); [rewrite (go_stress V g G); lia|].
  rewrite Es. cbn [bind].
  destruct (keep_ok V nl (w_vnew w2) g S G (proj2 (proj2 W2)) D2) as (n' & k' & Ek & Vk & K2 & Nf & Kf & Kt). rewrite Ek. cbn [bind fst snd].
  destruct (wr_ok (g_its g) 0 it) as (i1 & Ei & Li & Gi); [rewrite (go_its V g G); lia|]. rewrite Ei. cbn [bind].
  destruct (wr_ok (g_err g) 0 er) as (e1 & Ee & Le & Ge); [rewrite (go_err V g G); lia|]. rewrite Ee. cbn [bind].
  destruct (homog_ctan fuel orc V (map (oval (g_strain g)) (zrange 0 (nvoi V))) s w2 (g_ctan g) i1 e1) as [(((w3, c3), i3), e3)|e] eqn:Et; cbn [bind]; [|discriminate].
  intros [= <- <- <-].
  destruct (homog_ctan_cols _ _ _ _ _ _ _ _ _ _ _ _ _ S W2 (go_ctan V g G) ltac:(rewrite Li; exact (go_its V g G)) ltac:(rewrite Le; exact (go_err V g G)) Et) as (H1 & H2 & H3).
  exists vo, w2, nl, it, er, s. cbn. split; [exact Vo|]. split; [exact Fo'|]. split; [exact E|]. split; [exact Hs|].
  split; [rewrite H2, Gi; reflexivity|]. split; [rewrite H3, Ge; reflexivity|]. split; [exact Kf|]. split.
  - intros Hn. destruct (Kt Hn) as (k & -> & Nn & Hk). split; [exact Nn|]. exists k. auto.
  - intros i Hi. destruct (H1 i Hi) as (a1 & a2 & a3 & a4 & a5 & a6 & B1 & B2 & B3). exists a1, a2, a3, a4, a5, a6.
    split; [exact B1|]. split; [rewrite B2; exact O2|exact B3].
Qed.

(** ** update_vars twice *)
Lemma pm_add_same {A} (k : positive) (v : A) m : PositiveMap.find k m = Some v -> PositiveMap.add k v m = m.
Proof.
  revert m. induction k as [k IH|k IH|]; intros [|l o r]; cbn; intros H; try discriminate.
  - now rewrite IH.
  - now rewrite IH.
  - now rewrite H.
Qed.
Lemma wr_same {A} (a : arr A) i v : aget a i = Some v -> wr a i v = Ok a.
Proof.
  unfold aget, wr. destruct (inb a i); [|discriminate]. intros H. rewrite pm_add_same by exact H. now destruct a.
Qed.
Lemma copy_same V src dst : (forall i, 0 <= i < nvars V -> exists x, aget src i = Some x /\ aget dst i = Some x) -> copy_vars V src dst = Ok dst.
Proof.
  intros H. unfold copy_vars, upd_for.
  assert (Hl : forall i, In i (zrange 0 (nvars V)) -> 0 <= i < nvars V) by (intros i Hi; now apply in_zrange).
  revert Hl. generalize (zrange 0 (nvars V)) as l. induction l as [|i l IH]; intros Hl; [reflexivity|]. cbn [foldM].
  destruct (H i) as (x & E1 & E2); [apply Hl; now left|]. rewrite (rd_aget _ _ _ E1). cbn [bind]. rewrite (wr_same _ _ _ E2). cbn [bind].
  apply IH. intros k Hk. apply Hl. now right.
Qed.
Lemma update_twice o o' : obj_ok o -> update_vars o = Ok o' -> update_vars o' = Ok o'.
Proof.
  intros K E. destruct (update_vars_ok o K) as (l' & E' & R & F). rewrite E in E'. injection E' as ->. unfold update_vars. cbn [o_env o_gps set_gps].
  assert (X : mapM (update_gp (o_env o)) l' = Ok l').
  { clear E K. induction R as [|g g' l l' Rg R IH]; [reflexivity|]. inversion F as [|a b (Gg & _) F' ]; subst. cbn [mapM].
    assert (Eg : update_gp (o_env o) g' = Ok g').
    { destruct Rg as (_ & _ & _ & _ & _ & _ & _ & R8 & R9). unfold update_gp. destruct (g_n g') as [n'|] eqn:En; [|reflexivity].
      pose proof (go_vars _ g' Gg) as Gv. rewrite En in Gv. destruct (g_k g') as [k'|] eqn:Ek; [|contradiction]. destruct Gv as (Fn & Fk).
      cbn [of_option bind]. rewrite <- R8 in R9. destruct (g_n g); [|destruct R9; discriminate].
      destruct R9 as (n1 & [= ->] & _ & H). rewrite copy_same; [cbn [bind]; destruct g'; cbn in *; congruence|].
      intros i Hi. destruct (proj2 Fk i Hi) as (x & Ex). exists x. split; [exact Ex|]. now rewrite H. }
    rewrite Eg. cbn [bind]. rewrite (IH F'). reflexivity. }
  rewrite X. reflexivity.
Qed.
End Exact.
