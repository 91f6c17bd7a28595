(** NaN in objects computed with IEEE doubles. *)
From Coq Require Import ZifyBool ZifyNat Floats.SpecFloat.
From Verif Require Import Base Scalar EllSpec EllModel Grid AssemblyModel AsmPure AsmRun Grid MicroModel OutputModel NewtonBase ApiBase ApiRun ApiHist Build ApiSpec ApiProps ApiCases
  FloatInst NanBase NanRun.
Open Scope Z_scope.

Definition is_nan (x : double) : Prop := x = NaN.
Lemma f64_nan : nan_like is_nan.
Proof.
  unfold is_nan, NaN. constructor; cbn [F64 oadd osub omul odiv oopp osqrt oabs oltb]; intros; subst; try reflexivity;
    match goal with |- context [?y] => is_var y; destruct y as [[]|[]| |[]] end; reflexivity.
Qed.

Lemma all_nan (a : arr double) n : (forall i, 0 <= i < n -> exists x, aget a i = Some x /\ is_nan x) -> rdl a n = Ok (repeat NaN (Z.to_nat n)).
Proof.
  intros H. rewrite (rdl_ok a n) by (intros i Hi; destruct (H i Hi) as (x & E & _); eauto). f_equal.
  assert (L : length (zrange 0 n) = Z.to_nat n) by (unfold zrange; rewrite map_length, seq_length; f_equal; lia). rewrite <- L.
  assert (X : forall i, In i (zrange 0 n) -> oval a i = NaN).
  { intros i Hi. apply in_zrange in Hi. destruct (H i Hi) as (x & E & Hx). unfold oval. rewrite E. exact Hx. }
  revert X. clear. induction (zrange 0 n) as [|i l IH]; intros X; [reflexivity|]. cbn [map length repeat]. rewrite X by now left. f_equal. apply IH. intros j Hj. apply X. now right.
Qed.
Definition answers_nan (o : obj double) (fs : files double) (id : Z) : Prop :=
  step (GetStress id) (o, fs) = Ok (o, fs, RBuf (Some (repeat NaN (Z.to_nat (nvoi (o_env o)))))) /\
  step (GetCtan id) (o, fs) = Ok (o, fs, RBuf (Some (repeat NaN (Z.to_nat (nvoi (o_env o) * nvoi (o_env o)))))).
Lemma answers o fs id g : lookup id (o_gps o) = Some g -> str_nan is_nan (o_env o) (g_stress g) -> col_nan is_nan (o_env o) (g_ctan g) -> answers_nan o fs id.
Proof. intros L A B. unfold answers_nan. cbn [step]. unfold get_macro_stress, get_macro_ctan. rewrite L, (all_nan _ _ A), (all_nan _ _ B). split; reflexivity. Qed.

Lemma strain_nan_set o g eps k : strain_is (o_env o) g eps -> 0 <= k < nvoi (o_env o) -> lget eps k = NaN -> strain_nan is_nan (o_env o) g.
Proof. intros H Hk E. exists k. split; [exact Hk|]. unfold oval. now rewrite (H k Hk). Qed.

(** *** C74 *)
Lemma nan_answer o0 cs o fs f orc id eps k : is_object o0 -> reaches o0 (cs ++ [Homogenize f orc]) o fs -> last_set id eps cs ->
  0 <= k < nvoi (o_env o0) -> lget eps k = NaN -> answers_nan o fs id.
Proof.
  intros O (fs0 & rs & E) L Hk Hn. apply run_snoc in E. destruct E as ((o1, fs1) & rs1 & r & E1 & E2 & _).
  assert (R1 : reaches o0 cs o1 fs1) by (exists fs0, rs1; exact E1). destruct (reach_inv o0 cs o1 fs1 O R1) as (K1 & (Ev & _) & _ & Hg).
  assert (I : In id (set_ids cs)). { destruct L as (a & b & -> & _). apply in_set_ids. exists eps. apply in_or_app. right. now left. }
  destruct (lookup_set o0 cs o1 fs1 id O R1 I) as (g & Lg). destruct (Hg id g Lg) as (Hs & _). rewrite <- Ev in Hk.
  pose proof (strain_nan_set o1 g eps k (Hs eps L) Hk Hn) as Sn.
  destruct (step_homog is_nan f64_nan f orc o1 fs1 o fs r K1 E2) as (Hh & _). pose proof (step_ok (Homogenize f orc) o1 fs1 K1) as Q. rewrite E2 in Q. destruct Q as (_ & (Ev2 & _) & G).
  cbn [gps_rel] in G. pose proof (rel_lookup _ _ _ id (homog_rel_id _ _ _ _) G) as RL. rewrite Lg in RL. destruct (lookup id (o_gps o)) as [g'|] eqn:L'; [|contradiction].
  destruct (Hh id g' L') as (g2 & L2 & _ & Rn). rewrite Lg in L2. injection L2 as <-. destruct (Rn (or_introl Sn)) as [(Tl & _)|(A & B)].
  - elim (strain_nan_nl is_nan f64_nan _ _ g (ok_sane o1 K1) Sn Tl).
  - rewrite <- Ev2 in A, B. exact (answers o fs id g' L' A B).
Qed.

(** *** C75 *)
Lemma inner_exists (V : env double) : sane V -> 3 <= v_nx V -> 3 <= v_ny V -> (v_dim V = 3 -> 3 <= v_nz V) -> exists a, inner V a.
Proof.
  intros S Hx Hy Hz. destruct (dim_cases V S) as [D|D].
  - exists (node (v_nx V) (v_ny V) 1 1 0 * v_dim V + 0), 1, 1, 0, 0. rewrite D. cbn. lia.
  - specialize (Hz D). exists (node (v_nx V) (v_ny V) 1 1 1 * v_dim V + 0), 1, 1, 1, 0. rewrite D. cbn. lia.
Qed.
(** once the displacements inside are NaN, every answer without the shortcut is *)
Lemma spoiled o fs f orc o' fs' r id g : obj_ok o -> step (Homogenize f orc) (o, fs) = Ok (o', fs', r) ->
  (exists a, inner (o_env o) a /\ is_nan (oval (w_u (o_work o)) a)) -> lookup id (o_gps o) = Some g -> ~ (below o g /\ g_n g = None) -> answers_nan o' fs' id.
Proof.
  intros K E P L Nb. destruct (step_homog is_nan f64_nan f orc o fs o' fs' r K E) as (Hh & _). pose proof (step_ok (Homogenize f orc) o fs K) as Q. rewrite E in Q.
  destruct Q as (_ & (Ev2 & _) & G). cbn [gps_rel] in G. pose proof (rel_lookup _ _ _ id (homog_rel_id _ _ _ _) G) as RL. rewrite L in RL.
  destruct (lookup id (o_gps o')) as [g'|] eqn:L'; [|contradiction].
  destruct (Hh id g' L') as (g2 & L2 & _ & Rn). rewrite L in L2. injection L2 as <-. destruct (Rn (or_intror P)) as [(Tl & _)|(A & B)].
  - elim Nb. exact Tl.
  - rewrite <- Ev2 in A, B. exact (answers o' fs' id g' L' A B).
Qed.
Lemma nan_spreads o0 cs1 f1 orc1 cs2 o fs f orc o' fs' r id0 eps k : is_object o0 ->
  3 <= v_nx (o_env o0) -> 3 <= v_ny (o_env o0) -> (v_dim (o_env o0) = 3 -> 3 <= v_nz (o_env o0)) ->
  last_set id0 eps cs1 -> 0 <= k < nvoi (o_env o0) -> lget eps k = NaN ->
  reaches o0 (cs1 ++ Homogenize f1 orc1 :: cs2) o fs -> step (Homogenize f orc) (o, fs) = Ok (o', fs', r) ->
  forall id g, lookup id (o_gps o) = Some g -> ~ (below o g /\ g_n g = None) -> answers_nan o' fs' id.
Proof.
  intros O Hx Hy Hz L Hk Hn (fs0 & rs & E) Eh id g Lg Nb. rewrite run_app in E.
  apply bind_ok in E. destruct E as (((o1, fs1), rs1) & E1 & E). cbn [fst snd] in E. apply bind_ok in E. destruct E as (((o9, fs9), rs9) & E2 & E). injection E as -> -> _.
  cbn [run] in E2. apply bind_ok in E2. destruct E2 as (((o2, fs2), r2) & Eh1 & E2). cbn [fst snd] in E2.
  apply bind_ok in E2. destruct E2 as (((o3, fs3), rs3) & E3 & E2). injection E2 as <- <- _.
  assert (R1 : reaches o0 cs1 o1 fs1) by (exists fs0, rs1; exact E1). destruct (reach_inv o0 cs1 o1 fs1 O R1) as (K1 & (Ev & _) & _ & Hg).
  assert (I : In id0 (set_ids cs1)). { destruct L as (a & b & -> & _). apply in_set_ids. exists eps. apply in_or_app. right. now left. }
  destruct (lookup_set o0 cs1 o1 fs1 id0 O R1 I) as (g0 & L0). destruct (Hg id0 g0 L0) as (Hs & _). rewrite <- Ev in *.
  pose proof (strain_nan_set o1 g0 eps k (Hs eps L) Hk Hn) as Sn. pose proof (inner_exists _ (ok_sane o1 K1) Hx Hy Hz) as In1.
  destruct (step_homog is_nan f64_nan f1 orc1 o1 fs1 o2 fs2 r2 K1 Eh1) as (_ & Po).
  assert (Pn : poisoned is_nan (o_env o1) (o_work o2)). { apply Po; [exact In1|]. exists g0. split; [apply (lookup_in _ _ _ L0)|exact Sn]. }
  pose proof (step_ok (Homogenize f1 orc1) o1 fs1 K1) as Q. rewrite Eh1 in Q. destruct Q as (K2 & (Ev2 & _) & _).
  destruct (run_keeps is_nan f64_nan cs2 _ _ _ _ _ K2 E3) as (K3 & (Ev3 & _) & Kp).
  apply (spoiled o3 fs3 f orc o' fs' r id g K3 Eh); [|exact Lg|exact Nb]. destruct In1 as (a & Ha). exists a. rewrite Ev3, Ev2. split; [exact Ha|].
  apply Kp; [now rewrite Ev2|]. now apply Pn.
Qed.

(** *** C52 *)
Lemma nan_memory fuel orc (j : junk double) dim nx ny nz mtype mp mt ps o0 a : valid_args dim nx ny nz mtype mp mt ps -> total_junk j ->
  construct fuel orc j dim [nx; ny; nz] mtype mp mt ps = Ok o0 -> inner_dof dim nx ny nz a -> j_u j a = Some NaN ->
  (forall i, 0 <= i < nvoi (o_env o0) * nvoi (o_env o0) -> aget (o_ctan o0) i = Some NaN) /\
  forall cs f q o fs id, reaches o0 (cs ++ [Homogenize f q]) o fs -> In id (set_ids cs) -> answers_nan o fs id.
Proof.
  intros A J E Ha Hj. pose proof (construct_ok fuel orc j dim nx ny nz mtype mp mt ps A J) as H. rewrite E in H.
  destruct H as (Fr & (tol & _ & EV) & _ & _ & _ & A0 & EA & Ec). destruct Fr as (K0 & G0). pose proof (ok_sane o0 K0) as S.
  assert (Hin : inner (o_env o0) a).
  { unfold inner. rewrite (eo_dim _ _ _ _ _ _ _ _ _ _ EV), (eo_nx _ _ _ _ _ _ _ _ _ _ EV), (eo_ny _ _ _ _ _ _ _ _ _ _ EV), (eo_nz _ _ _ _ _ _ _ _ _ _ EV).
    destruct Ha as (i & jj & k & c & Hi & Hj' & Hk & Hc & ->). exists i, jj, k, c. repeat split; try lia. destruct (dim =? 2); [exact Hk|lia]. }
  pose proof (inner_range (o_env o0) a S Hin) as Hr.
  set (w := mkWork (alloc (j_u j) (ndofs (o_env o0))) (malloc (ndofs (o_env o0))) (malloc (ndofs (o_env o0))) A0
           (alloc (j_vold j) (nvars (o_env o0))) (alloc (j_vnew j) (nvars (o_env o0)))) in *.
  assert (W : wfull (o_env o0) w).
  { pose proof (alloc_full (j_vold j) (nvars (o_env o0)) (tj_old j J)) as Fo. pose proof (alloc_full (j_vnew j) (nvars (o_env o0)) (tj_new j J)) as Fn.
    split; [|split; assumption]. constructor; cbn; try reflexivity; [exact (alloc_full (j_u j) _ (tj_u j J))| |].
    - unfold is_mat. rewrite (eo_dim _ _ _ _ _ _ _ _ _ _ EV), (eo_nx _ _ _ _ _ _ _ _ _ _ EV), (eo_ny _ _ _ _ _ _ _ _ _ _ EV), (eo_nz _ _ _ _ _ _ _ _ _ _ EV).
      destruct (dim =? 2); exists A0, (e_vals A0); (split; [exact EA|]); (split; [reflexivity|now destruct A0]).
    - intros e g i He Hg Hi _. apply (proj2 Fo). rewrite nvars_eq. unfold intvar_ix. lia. }
  assert (Hn : is_nan (oval (w_u w) a)). { unfold oval, w. cbn [w_u]. rewrite alloc_get by exact Hr. now rewrite Hj. }
  destruct (ctan_lin_nan is_nan f64_nan (o_env o0) fuel orc w (malloc 36) _ _ S W eq_refl Ec (ex_intro _ a (conj Hin Hn))) as (Kp & Cn). split.
  - intros i Hi. destruct (Cn i Hi) as (x & Ex & Hx). rewrite Ex, Hx. reflexivity.
  - intros cs f q o fs id (fs0 & rs & R) I. apply run_snoc in R. destruct R as ((o1, fs1) & rs1 & r & R1 & R2 & _).
    destruct (run_keeps is_nan f64_nan cs _ _ _ _ _ K0 R1) as (K1 & (Ev & Ect & _) & Kp1).
    assert (O : is_object o0) by (exists dim, nx, ny, nz, mtype, mp, mt, ps, fuel, orc, j; auto).
    destruct (lookup_set o0 cs o1 fs1 id O (ex_intro _ fs0 (ex_intro _ rs1 R1)) I) as (g & Lg).
    apply (spoiled o1 fs1 f q o fs r id g K1 R2); [|exact Lg|].
    + exists a. rewrite Ev. split; [exact Hin|]. apply Kp1; [exact Hin|]. now apply Kp.
    + intros (B & _). unfold below in B. pose proof (nvoi_range _ S) as Nv.
      assert (P : forall i, 0 <= i < nvoi (o_env o0) -> is_nan (predicted o1 g i)).
      { intros i Hi. unfold predicted. rewrite Ev, Ect. apply (sumf_nan is_nan f64_nan _ _ 0); [apply in_zrange; lia|]. apply (nan_mul_l is_nan f64_nan).
        destruct (Cn (i * nvoi (o_env o0) + 0)) as (x & Ex & Hx); [nia|]. unfold oval. now rewrite Ex. }
      assert (X : is_nan (oabs (predicted_trace o1 g))).
      { apply (nan_abs is_nan f64_nan). unfold predicted_trace. destruct (v_dim (o_env o1) =? 2).
        - apply (nan_add_l is_nan f64_nan), P. lia.
        - apply (nan_add_l is_nan f64_nan), (nan_add_l is_nan f64_nan), P. lia. }
      rewrite (nan_lt_l is_nan f64_nan _ _ X) in B. discriminate.
Qed.
