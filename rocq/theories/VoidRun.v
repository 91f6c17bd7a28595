(** The life of an object with a node surrounded by cells without stiffness: the displacements
    inside stay what they were, or become NaN. *)
From Coq Require Import ZifyBool ZifyNat.
From Verif Require Import Base Scalar EllSpec EllInit EllModel EllAsm EllOp EllFinal Grid CgPure CgFinal CgProps AssemblyModel AsmPure AsmBnd
  AsmRun MicroModel OutputModel NewtonBase ApiBase ApiRun ApiHist Build NanBase NanRun VoidBase Untouched.
Open Scope Z_scope.

Section Void.
Context {T : Type} `{OT : Ops T}.
Variables N Zn : T -> Prop.
Hypothesis HN : nan_like N.
Hypothesis HZ : zero_like N Zn.
Implicit Types (V : env T) (w : work T) (g : gp T) (o : obj T).

Definition moved V (u u' : arr T) : Prop :=
  (forall a, inner V a -> aget u' a = aget u a) \/ (forall a, inner V a -> N (oval u' a)).
Lemma moved_refl V u : moved V u u.
Proof. left. auto. Qed.
Lemma moved_trans V u1 u2 u3 : moved V u1 u2 -> moved V u2 u3 -> moved V u1 u3.
Proof.
  intros H [K|P]; [|right; exact P]. destruct H as [K0|P0]; [left|right]; intros a Ha.
  - rewrite K by exact Ha. auto.
  - rewrite (oval_get _ _ a (K a Ha)). auto.
Qed.
Lemma moved_respond V pk fuel eps w w' nl it er s : sane V -> wok V w -> (exists a, void_dof Zn V a) -> respond fuel pk V eps w = Ok (w', nl, it, er, s) ->
  moved V (w_u w) (w_u w') /\ (oltb er nr_tol = true \/ alln N (nvoi V) s).
Proof.
  intros S K Hv E. destruct (respond_void N Zn HN HZ V pk fuel eps w w' nl it er s S K Hv E) as [(Et & Eu)|(P & A)].
  - split; [|left; exact Et]. left. intros a Ha. exact (displ_keeps V eps _ _ a S Eu Ha).
  - split; [|right; exact A]. right. intros a Ha. apply P. now apply inner_range.
Qed.

Lemma moved_ctan V fuel orc eps s0 w ctan its ers w' ctan' its' ers' : sane V -> wfull V w -> (exists a, void_dof Zn V a) -> alen ctan = 36 -> alen its = 7 -> alen ers = 7 ->
  homog_ctan fuel orc V eps s0 w ctan its ers = Ok (w', ctan', its', ers') -> moved V (w_u w) (w_u w') /\ aget ers' 0 = aget ers 0.
Proof.
  intros S W Hv Lc Li Le E. pose proof (nvoi_range V S) as Nv. unfold homog_ctan in E.
  pose (P := fun (n : Z) (st : work T * arr T * arr Z * arr T) => let '(w', ctan', its', ers') := st in
    wfull V w' /\ alen ctan' = 36 /\ alen its' = 7 /\ alen ers' = 7 /\ moved V (w_u w) (w_u w') /\ aget ers' 0 = aget ers 0).
  match type of E with foldM ?f _ _ = _ => pose proof (foldM_iter f P (fun _ => True) (nvoi V) ltac:(lia)) as X end.
  specialize (X (w, ctan, its, ers)). cbv beta in X.
  match type of X with ?A -> ?B -> ?C => assert (HA : A); [|assert (HB : B)] end.
  - unfold P. repeat (split; [assumption|]). split; [apply moved_refl|reflexivity].
  - intros i (((w1, c1), i1), e1) Hi (W1 & Lc1 & Li1 & Le1 & K1 & C1).
    destruct (respond fuel (orc (1 + i)) V (bump (nvoi V) eps i) w1) as [r|e] eqn:Er; cbn [bind]; [|exact I].
    pose proof (wfull_respond V _ _ _ _ _ S W1 Er) as H. destruct r as ((((w2, nl), it), er), s1). destruct H as (W2 & I2 & O2 & _).
    destruct (moved_respond V _ _ _ _ _ _ _ _ _ S (proj1 W1) Hv Er) as (Kp & _).
    destruct (wr_col_ok V c1 i (ltab (nvoi V) (fun v => odiv (osub (lget s1 v) (lget s0 v)) d_eps)) S Lc1 Hi) as (c2 & Ec & Lc2 & Hc2).
    rewrite Ec. cbn [bind].
    destruct (wr_ok i1 (1 + i) it) as (i2 & Ei & Li2 & Gi2); [lia|]. rewrite Ei. cbn [bind].
    destruct (wr_ok e1 (1 + i) er) as (e2 & Ee & Le2 & Ge2); [lia|]. rewrite Ee. cbn [bind].
    unfold P. split; [exact W2|]. split; [exact Lc2|]. split; [lia|]. split; [lia|]. split; [now apply (moved_trans V _ (w_u w1))|].
    rewrite Ge2. destruct (Z.eqb_spec 0 (1 + i)); [lia|exact C1].
  - specialize (X HA HB). rewrite E in X. unfold P in X. tauto.
Qed.
Lemma moved_gp V fuel orc c w g w' inv g' : sane V -> wfull V w -> (exists a, void_dof Zn V a) -> pfull c (nvoi V * nvoi V) -> gp_ok V g ->
  homog_gp fuel orc V c w g = Ok (w', inv, g') ->
  moved V (w_u w) (w_u w') /\
  (takes_linear V c g \/ (exists er, aget (g_err g') 0 = Some er /\ oltb er nr_tol = true) \/ str_nan N V (g_stress g') /\ col_nan N V (g_ctan g')).
Proof.
  intros S W Hv C G E. pose proof (nvoi_range V S) as Nv. unfold homog_gp in E. destruct W as (K & Fo & Fn).
  destruct (load_ok V (g_n g) (w_vold w) S (full_alen _ _ Fo)) as (vo & Eo & Fo' & _).
  { intros v Ev. pose proof (go_vars V g G) as Gv. rewrite Ev in Gv. destruct (g_k g); [tauto|contradiction]. }
  rewrite Eo in E. cbn [bind] in E.
  assert (W1 : wfull V (set_vold w vo)).
  { split; [|split; assumption]. destruct K as [A1 A2 A3 A4 A5 A6]. constructor; try assumption. cbn.
    intros e q i He Hq Hi _. apply (proj2 Fo'). rewrite nvars_eq. unfold intvar_ix. lia. }
  rewrite (is_linear_ok V c _ _ S C (go_e V g G)) in E. cbn [bind fst snd] in E.
  destruct (oltb (oabs (inv_val V c (g_strain g))) (v_inv_tol V) && match g_n g with None => true | Some _ => false end)%bool eqn:EL.
  - assert (Tl : takes_linear V c g) by (apply andb_prop in EL; destruct EL; split; [assumption|now destruct (g_n g)]).
    match type of E with context [homog_linear V c g ?x] => destruct (homog_linear_ok V c g x S C G) as (g2 & E2 & _ & _ & _ & _ & Hn & _) end.
    rewrite E2 in E. cbn [bind] in E. injection E as <- _ <-. cbn [set_vold w_u]. split; [apply moved_refl|left; exact Tl].
  - rewrite (rdl_ok _ _ (go_e V g G)) in E. cbn [bind] in E. set (eps := map (oval (g_strain g)) (zrange 0 (nvoi V))) in *.
    apply bind_ok in E. destruct E as (r & Er & E). pose proof (wfull_respond V _ _ _ _ _ S W1 Er) as H.
    destruct r as ((((w2, nl), it), er), s). destruct H as (W2 & _).
    destruct (moved_respond V _ _ _ _ _ _ _ _ _ S (proj1 W1) Hv Er) as (Kp & Sn). cbn [set_vold w_u] in Kp.
    unfold wrl in E. destruct (fill_ok (lget s) (nvoi V) (g_stress g)) as (st & Es & Ls & Ps & Hs & _); [rewrite (go_stress V g G); lia|].
    rewrite Es in E. cbn [bind] in E. apply bind_ok in E. destruct E as ((n', k') & _ & E). cbn [fst snd] in E.
    destruct (wr_ok (g_its g) 0 it) as (i1 & Ei & Li & Gi); [rewrite (go_its V g G); lia|]. rewrite Ei in E. cbn [bind] in E.
    destruct (wr_ok (g_err g) 0 er) as (e1 & Ee & Le & Ge); [rewrite (go_err V g G); lia|]. rewrite Ee in E. cbn [bind] in E.
    apply bind_ok in E. destruct E as ((((w3, c3), i3), e3) & Et & E). injection E as <- _ <-. cbn [g_stress g_ctan g_err].
    assert (Li' : alen i1 = 7) by (rewrite Li; exact (go_its V g G)). assert (Le' : alen e1 = 7) by (rewrite Le; exact (go_err V g G)).
    destruct (moved_ctan V fuel orc eps s w2 (g_ctan g) i1 e1 _ _ _ _ S W2 Hv (go_ctan V g G) Li' Le' Et) as (Kp3 & E0).
    destruct (homog_ctan_nan N HN V fuel orc eps s w2 (g_ctan g) i1 e1 _ _ _ _ S W2 (go_ctan V g G) Li' Le' Et) as (_ & Cn).
    split; [now apply (moved_trans V _ (w_u w2))|]. right. destruct Sn as [Sn|Sn].
    + left. exists er. split; [|exact Sn]. rewrite E0, Ge, Z.eqb_refl. reflexivity.
    + right. split; [|now apply Cn]. intros i Hi. exists (lget s i). split; [now apply Hs|now apply Sn].
Qed.

Definition void_rel V c g g' : Prop := takes_linear V c g \/ (exists er, aget (g_err g') 0 = Some er /\ oltb er nr_tol = true) \/ str_nan N V (g_stress g') /\ col_nan N V (g_ctan g').
Lemma moved_list V fuel orc c l w inv w' inv' l' j' : sane V -> wfull V w -> (exists a, void_dof Zn V a) -> pfull c (nvoi V * nvoi V) ->
  Forall (fun g => gp_ok V g) l -> homog_list fuel orc V c l w inv = Ok (w', inv', l', j') ->
  moved V (w_u w) (w_u w') /\ Forall2 (void_rel V c) l l'.
Proof.
  intros S W Hv C F E. unfold homog_list in E.
  match type of E with foldM ?f _ _ = _ => set (ff := f) in * end.
  assert (X : forall l w inv dn j w' inv' l' j', wfull V w -> Forall (fun g => gp_ok V g) l -> foldM ff l (w, inv, dn, j) = Ok (w', inv', l', j') ->
    moved V (w_u w) (w_u w') /\ exists d2, l' = dn ++ d2 /\ Forall2 (void_rel V c) l d2).
  { clear l w inv w' inv' l' j' W F E. induction l as [|g l IH]; intros w inv dn j w' inv' l' j' W F E; cbn [foldM] in E.
    - injection E as <- <- <- <-. split; [apply moved_refl|]. exists []. rewrite app_nil_r. auto.
    - inversion F as [|g0 l0 Gg Fl]; subst. unfold ff at 1 in E.
      pose proof (homog_gp_ok V fuel (orc j) c w g S W C Gg) as H.
      destruct (homog_gp fuel (orc j) V c w g) as [((w1, inv1), g1)|e] eqn:E1; cbn [bind] in E; [|discriminate].
      destruct (moved_gp V fuel (orc j) c w g w1 inv1 g1 S W Hv C Gg E1) as (Kp & Rl).
      destruct (IH _ _ _ _ _ _ _ _ (proj1 H) Fl E) as (Kp2 & (d2 & -> & R2)). split; [now apply (moved_trans V _ (w_u w1))|].
      exists (g1 :: d2). rewrite <- app_assoc. split; [reflexivity|]. constructor; assumption. }
  destruct (X l w inv [] 0 w' inv' l' j' W F E) as (Kp & (d2 & -> & R)). auto.
Qed.

Lemma moved_step c o fs o' fs' r : obj_ok o -> (exists a, void_dof Zn (o_env o) a) -> step c (o, fs) = Ok (o', fs', r) -> moved (o_env o) (w_u (o_work o)) (w_u (o_work o')).
Proof.
  intros K Hv E. pose proof (ok_sane o K) as S. pose proof (ok_gps o K) as F. pose proof (moved_refl (o_env o) (w_u (o_work o))) as Re. destruct c; cbn [step] in E.
  - destruct (Z.of_nat (length eps) <? nvoi (o_env o)); [discriminate|]. apply bind_ok in E. destruct E as (l & _ & E). injection E as <- _ _. exact Re.
  - apply bind_ok in E. destruct E as (l & _ & E). injection E as <- _ _. exact Re.
  - apply bind_ok in E. destruct E as (l & _ & E). injection E as <- _ _. exact Re.
  - injection E as <- _ _. exact Re.
  - apply bind_ok in E. destruct E as (o1 & E1 & E). injection E as <- _ _. unfold homogenize in E1.
    apply bind_ok in E1. destruct E1 as ((((w', inv'), l'), j') & El & E1). injection E1 as <-. cbn [o_work].
    assert (F1 : Forall (fun g => gp_ok (o_env o) g) (o_gps o)) by (eapply Forall_impl; [|exact F]; cbv beta; tauto).
    exact (proj1 (moved_list _ _ _ _ _ _ _ _ _ _ _ S (ok_work o K) Hv (ok_ctan o K) F1 El)).
  - apply bind_ok in E. destruct E as (o1 & E1 & E). injection E as <- _ _. unfold update_vars in E1.
    apply bind_ok in E1. destruct E1 as (l' & _ & E1). injection E1 as <-. exact Re.
  - apply bind_ok in E. destruct E as ((o1, fs1) & E1 & E). injection E as <- _ _. unfold output in E1.
    destruct (lookup id (o_gps o)) as [g|] eqn:L; [|injection E1 as <- _; exact Re].
    destruct (lookup_ok o id g K L) as (Gg & _). destruct (ok_work o K) as (W & Fo & Fn).
    destruct (load_ok (o_env o) (g_n g) (w_vold (o_work o)) S (full_alen _ _ Fo)) as (vo & Eo & Fo' & _).
    { intros v Ev. pose proof (go_vars _ g Gg) as Gv. rewrite Ev in Gv. destruct (g_k g); [tauto|contradiction]. }
    rewrite Eo in E1. cbn [bind] in E1. apply bind_ok in E1. destruct E1 as (eps & _ & E1).
    apply bind_ok in E1. destruct E1 as (u & Eu & E1). destruct (displ_ok (o_env o) eps _ S (wk_u _ _ W)) as (u2 & Eu2 & Fu).
    rewrite Eu in Eu2. injection Eu2 as <-.
    assert (W1 : wok (o_env o) (set_u (set_vold (o_work o) vo) u)).
    { destruct W as [A1 A2 A3 A4 A5 A6]. constructor; try assumption. cbn.
      intros e q i He Hq Hi _. apply (proj2 Fo'). rewrite nvars_eq. unfold intvar_ix. lia. }
    apply bind_ok in E1. destruct E1 as (r1 & En & E1). apply bind_ok in E1. destruct E1 as (f & _ & E1).
    apply bind_ok in E1. destruct E1 as (t & _ & E1). injection E1 as <- _. cbn [with_work o_work set_vnew w_u].
    destruct r1 as (((w2, nl2), it2), er2). cbn [fst].
    destruct (newton_void N Zn HN HZ _ pk fuel _ _ _ _ _ S W1 Hv En) as [(_ & Ew)|P].
    + left. intros a Ha. rewrite Ew. cbn [set_u w_u]. exact (displ_keeps _ eps _ _ a S Eu Ha).
    + right. intros a Ha. apply P. now apply inner_range.
  - apply bind_ok in E. destruct E as ((o1, fs1) & E1 & E). injection E as <- _ _.
    pose proof (write_info_ok o fs K) as H. rewrite E1 in H. destruct H as (-> & _). exact Re.
Qed.
Lemma moved_run cs : forall o fs o' fs' rs, obj_ok o -> (exists a, void_dof Zn (o_env o) a) -> run cs (o, fs) = Ok (o', fs', rs) -> obj_ok o' /\ same_obj o o' /\
  moved (o_env o) (w_u (o_work o)) (w_u (o_work o')).
Proof.
  induction cs as [|c cs IH]; intros o fs o' fs' rs K Hv E; cbn [run] in E.
  - injection E as <- _ _. split; [exact K|]. split; [repeat split|apply moved_refl].
  - apply bind_ok in E. destruct E as (((o1, fs1), r) & E1 & E). cbn [fst snd] in E.
    apply bind_ok in E. destruct E as (((o2, fs2), rs2) & E2 & E). cbn [fst snd] in E. injection E as <- _ _.
    pose proof (step_ok c o fs K) as H. rewrite E1 in H. destruct H as (K1 & S1 & _). pose proof S1 as (Ev & _).
    assert (Hv1 : exists a, void_dof Zn (o_env o1) a) by now rewrite Ev.
    destruct (IH _ _ _ _ _ K1 Hv1 E2) as (K2 & S2 & Kp). rewrite Ev in Kp.
    split; [exact K2|]. split; [destruct S1 as (?&?&?), S2 as (?&?&?); repeat split; congruence|].
    exact (moved_trans _ _ _ _ (moved_step c _ _ _ _ _ K Hv E1) Kp).
Qed.
Lemma step_homog_void fuel orc o fs o' fs' r : obj_ok o -> (exists a, void_dof Zn (o_env o) a) -> step (Homogenize fuel orc) (o, fs) = Ok (o', fs', r) ->
  forall id g', lookup id (o_gps o') = Some g' -> exists g, lookup id (o_gps o) = Some g /\ void_rel (o_env o) (o_ctan o) g g'.
Proof.
  intros K Hv E. pose proof (ok_sane o K) as S. pose proof (ok_gps o K) as F.
  assert (F1 : Forall (fun g => gp_ok (o_env o) g) (o_gps o)) by (eapply Forall_impl; [|exact F]; cbv beta; tauto).
  cbn [step] in E. apply bind_ok in E. destruct E as (o1 & E1 & E). injection E as <- _ _. unfold homogenize in E1.
  apply bind_ok in E1. destruct E1 as ((((w', inv'), l'), j') & El & E1). injection E1 as <-. cbn [o_work o_gps].
  destruct (moved_list _ _ _ _ _ _ _ _ _ _ _ S (ok_work o K) Hv (ok_ctan o K) F1 El) as (_ & R).
  pose proof (homog_list_ok (o_env o) fuel orc (o_ctan o) (o_gps o) (o_work o) (o_inv_max o) S (ok_work o K) (ok_ctan o K) F1) as H. rewrite El in H.
  destruct H as (_ & R2 & _). intros id g' L'.
  assert (X : forall l l' P, Forall2 P l l' -> Forall2 (homog_rel fuel orc (o_env o) (o_ctan o)) l l' -> lookup id l' = Some g' ->
    exists g, lookup id l = Some g /\ P g g').
  { clear. intros l l' P FP FR. induction FP as [|x y l l' p FP IH]; cbn [lookup]; [discriminate|]. inversion FR as [|x0 y0 l0 l0' h FR' Q1 Q2]; subst.
    rewrite (homog_rel_id _ _ _ _ _ _ h). destruct (g_id x =? id); [|now apply IH]. intros [= <-]. exists x. auto. }
  exact (X _ _ _ R R2 L').
Qed.

(** ** Construction *)
Lemma moved_lin V fuel orc w c w' c' : sane V -> wfull V w -> (exists a, void_dof Zn V a) -> alen c = 36 -> calc_ctan_lin fuel orc V w c = Ok (w', c') ->
  moved V (w_u w) (w_u w').
Proof.
  intros S W Hv Lc E. pose proof (nvoi_range V S) as Nv. unfold calc_ctan_lin in E.
  pose (P := fun (n : Z) (st : work T * arr T) => wfull V (fst st) /\ alen (snd st) = 36 /\ moved V (w_u w) (w_u (fst st))).
  match type of E with foldM ?f _ _ = _ => pose proof (foldM_iter f P (fun _ => True) (nvoi V) ltac:(lia) (w, c)) as X end.
  match type of X with ?A -> ?B -> ?C => assert (HA : A); [|assert (HB : B)] end.
  - unfold P. split; [exact W|]. split; [exact Lc|apply moved_refl].
  - intros i (w1, c1) Hi (W1 & Lc1 & K1). cbn [fst snd] in *.
    destruct (respond fuel (orc i) V (bump (nvoi V) (zeros (nvoi V)) i) w1) as [r|e] eqn:Er; cbn [bind]; [|exact I].
    pose proof (wfull_respond V _ _ _ _ _ S W1 Er) as H. destruct r as ((((w2, nl), it), er), s). destruct H as (W2 & I2 & O2 & _).
    destruct (moved_respond V _ _ _ _ _ _ _ _ _ S (proj1 W1) Hv Er) as (Kp & _).
    destruct (wr_col_ok V c1 i (ltab (nvoi V) (fun v => odiv (lget s v) d_eps)) S Lc1 Hi) as (c2 & Ec & Lc2 & Hc2). rewrite Ec. cbn [bind].
    unfold P. cbn [fst snd]. split; [exact W2|]. split; [exact Lc2|]. now apply (moved_trans V _ (w_u w1)).
  - specialize (X HA HB). rewrite E in X. exact (proj2 (proj2 X)).
Qed.
(** the residual of the first pass of the Newton loop is not accepted *)
Definition rejected V (w : work T) (eps : list T) : Prop :=
  exists u b nl vn er, set_displ V eps (w_u w) = Ok u /\ assembly_rhs V u (w_vold w) (w_vnew w) (w_b w) = Ok (b, nl, vn, er) /\ oltb er nr_tol = false.
Lemma respond_rejected V pk fuel eps w w' nl it er s : sane V -> wok V w -> (exists a, void_dof Zn V a) -> rejected V w eps -> respond fuel pk V eps w = Ok (w', nl, it, er, s) ->
  (forall a, 0 <= a < ndofs V -> N (oval (w_u w') a)) /\ alln N (nvoi V) s.
Proof.
  intros S K Hv (u & b0 & nl0 & vn0 & er0 & Eu & Eb & Et) E. unfold respond in E. rewrite Eu in E. cbn [bind] in E.
  destruct (displ_ok V eps (w_u w) S (wk_u _ _ K)) as (u2 & Eu2 & Fu). rewrite Eu in Eu2. injection Eu2 as <-.
  assert (K1 : wok V (set_u w u)) by (destruct K; constructor; assumption).
  apply bind_ok in E. destruct E as (r & En & E). pose proof (newton_ok V pk fuel (set_u w u) S K1) as H. rewrite En in H.
  destruct r as (((w2, nl2), it2), er2). destruct H as (_ & K2 & _). apply bind_ok in E. destruct E as ((s2, vn2) & Es & E). injection E as <- _ _ _ <-.
  cbn [fst snd set_vnew w_u].
  assert (P : forall a, 0 <= a < ndofs V -> N (oval (w_u w2) a)).
  { unfold newton in En. destruct fuel as [|fuel]; cbn [newton_loop] in En; [discriminate|].
    destruct (body_ok V _ S K1) as (w1 & nl1 & er1 & brk & E1 & Kw & _). rewrite E1 in En. cbn [bind] in En.
    destruct (body_void N Zn HN HZ V _ w1 nl1 er1 brk S K1 Hv E1) as [(-> & Et' & _)|(-> & P)].
    - unfold newton_body in E1. cbn [set_u w_u w_vold w_vnew w_b] in E1. rewrite Eb in E1. cbn [bind] in E1. rewrite Et in E1.
      repeat (apply bind_ok in E1; destruct E1 as (? & _ & E1)). discriminate.
    - intros a Ha. apply bind_ok in En. destruct En as (i & _ & En). destruct (_ && _)%bool; [|injection En as <- _ _ _; now apply P].
      exact (loop_nan N HN V pk fuel a S Ha _ _ _ _ Kw En (P a Ha)). }
  split; [exact P|]. apply (ave_stress_nan N HN V _ _ _ _ _ S (wk_u _ _ K2) (wk_old _ _ K2) (wk_new _ _ K2) Es).
  exists 0. pose proof (ndofs_pos V S) as Hp. destruct Hv as (a0 & Ha0). pose proof (inner_range V a0 S (void_inner Zn V a0 Ha0)). split; [lia|]. apply P. lia.
Qed.
Lemma lin_rejected V fuel orc w c w' c' : sane V -> wfull V w -> (exists a, void_dof Zn V a) -> alen c = 36 -> rejected V w (bump (nvoi V) (zeros (nvoi V)) 0) ->
  calc_ctan_lin fuel orc V w c = Ok (w', c') -> (forall a, inner V a -> N (oval (w_u w') a)) /\ col_nan N V c'.
Proof.
  intros S W Hv Lc Hr E. pose proof (nvoi_range V S) as Nv. unfold calc_ctan_lin in E.
  pose (P := fun (n : Z) (st : work T * arr T) => wfull V (fst st) /\ alen (snd st) = 36 /\
    (if n =? 0 then fst st = w else forall a, inner V a -> N (oval (w_u (fst st)) a)) /\
    forall v j, 0 <= v < nvoi V -> 0 <= j < n -> exists x, aget (snd st) (v * nvoi V + j) = Some x /\ N x).
  match type of E with foldM ?f _ _ = _ => pose proof (foldM_iter f P (fun _ => True) (nvoi V) ltac:(lia) (w, c)) as X end.
  match type of X with ?A -> ?B -> ?C => assert (HA : A); [|assert (HB : B)] end.
  - unfold P. split; [exact W|]. split; [exact Lc|]. split; [reflexivity|]. intros; lia.
  - intros i (w1, c1) Hi (W1 & Lc1 & K1 & C1). cbn [fst snd] in *.
    destruct (respond fuel (orc i) V (bump (nvoi V) (zeros (nvoi V)) i) w1) as [r|e] eqn:Er; cbn [bind]; [|exact I].
    pose proof (wfull_respond V _ _ _ _ _ S W1 Er) as H. destruct r as ((((w2, nl), it), er), s). destruct H as (W2 & I2 & O2 & _).
    assert (Q : (forall a, inner V a -> N (oval (w_u w2) a)) /\ alln N (nvoi V) s).
    { destruct (Z.eqb_spec i 0) as [->|n].
      - subst w1. destruct (respond_rejected V _ _ _ _ _ _ _ _ _ S (proj1 W) Hv Hr Er) as (Pa & Ps). split; [|exact Ps]. intros a Ha. apply Pa. now apply inner_range.
      - destruct (respond_nan N HN V _ _ _ _ _ _ _ _ _ S (proj1 W1) Er) as (Kp & Sn & _). split; [auto|]. apply Sn. right. destruct Hv as (a0 & Ha0). exists a0.
        pose proof (void_inner Zn V a0 Ha0) as Hin. auto. }
    destruct Q as (Qa & Qs).
    destruct (wr_col_ok V c1 i (ltab (nvoi V) (fun v => odiv (lget s v) d_eps)) S Lc1 Hi) as (c2 & Ec & Lc2 & Hc2). rewrite Ec. cbn [bind].
    unfold P. cbn [fst snd]. split; [exact W2|]. split; [exact Lc2|]. split; [destruct (Z.eqb_spec (i + 1) 0); [lia|exact Qa]|].
    intros v j Hv' Hj. rewrite (Hc2 v j Hv' ltac:(lia)). destruct (Z.eqb_spec j i); [|apply C1; lia].
    eexists. split; [reflexivity|]. rewrite lget_ltab by lia. apply (nan_div_l N HN). apply Qs. lia.
  - specialize (X HA HB). rewrite E in X. destruct X as (_ & _ & Kp & C). cbn [fst snd] in *. split; [destruct (Z.eqb_spec (nvoi V) 0); [lia|exact Kp]|]. intros i Hi.
    replace i with ((i / nvoi V) * nvoi V + i mod nvoi V) by (rewrite (Z.div_mod i (nvoi V)) at 3 by lia; ring).
    apply C; [|apply Z.mod_pos_bound; lia]. split; [apply Z.div_pos; lia|]. apply Z.div_lt_upper_bound; lia.
Qed.
End Void.
