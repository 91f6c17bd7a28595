(** What update_vars commits, for every arithmetic. *)
From Verif Require Import Base Scalar EllSpec EllModel EllFinal AssemblyModel MicroModel OutputModel NewtonBase ApiBase ApiRun ApiHist Build ApiExact ApiSpec ApiProps.

Section Commit.
Context {T : Type} `{OT : Ops T}.
Implicit Types (V : env T) (g : gp T) (o : obj T) (c : call T).

(** calls other than homogenize *)
Definition no_homogenize (cs : list (call T)) : Prop := forall f orc, ~ In (Homogenize f orc) cs.

(** a call other than homogenize keeps the trial variables *)
Lemma trial_frame o0 cs o fs c o' fs' r id g : is_object o0 -> reaches o0 cs o fs -> (forall f orc, c <> Homogenize f orc) ->
  step c (o, fs) = Ok (o', fs', r) -> lookup id (o_gps o) = Some g ->
  exists g', lookup id (o_gps o') = Some g' /\ g_k g' = g_k g /\ (g_n g' = None <-> g_n g = None).
Proof.
  intros O R N E L.
  assert (Same : o_gps o' = o_gps o -> exists g', lookup id (o_gps o') = Some g' /\ g_k g' = g_k g /\ (g_n g' = None <-> g_n g = None)).
  { intros Q. exists g. rewrite Q. split; [exact L|]. split; [reflexivity|tauto]. }
  destruct c as [id' eps|id'|id'|id'|f orc| |f pk t id'|].
  - destruct (set_only_one o0 cs o fs id' eps o' fs' r O R E) as (H1 & H2 & _). destruct (Z.eq_dec id id') as [<-|D].
    + destruct (H2 g L) as (g' & L' & _ & _ & Hn & Hk & _). exists g'. rewrite Hn. split; [exact L'|]. split; [exact Hk|tauto].
    + exists g. rewrite H1 by exact D. split; [exact L|]. split; [reflexivity|tauto].
  - destruct (queries_pure o fs (GetStress id') o' fs' r ltac:(exists id'; auto) E) as (-> & _). now apply Same.
  - destruct (queries_pure o fs (GetCtan id') o' fs' r ltac:(exists id'; auto) E) as (-> & _). now apply Same.
  - destruct (queries_pure o fs (NlFlag id') o' fs' r ltac:(exists id'; auto) E) as (-> & _). now apply Same.
  - elim (N f orc eq_refl).
  - destruct (update_frame o0 cs o fs O R) as (o2 & E2 & _ & _ & _ & H). rewrite E in E2. injection E2 as -> _ _.
    destruct (H id g L) as (g' & L' & _ & _ & _ & _ & _ & Hk & Hf). exists g'. split; [exact L'|]. split; [exact Hk|].
    unfold get_nl_flag in Hf. rewrite L, L' in Hf. destruct (g_n g'), (g_n g); try discriminate; split; congruence.
  - destruct (output_keeps o0 cs o fs _ o' fs' r O R ltac:(right; eauto) E) as (Q & _). now apply Same.
  - destruct (output_keeps o0 cs o fs _ o' fs' r O R ltac:(left; reflexivity) E) as (Q & _). now apply Same.
Qed.
Lemma trials_frame bs : forall o0 cs o fs o' fs' rs id g, is_object o0 -> reaches o0 cs o fs -> no_homogenize bs ->
  run bs (o, fs) = Ok (o', fs', rs) -> lookup id (o_gps o) = Some g ->
  reaches o0 (cs ++ bs) o' fs' /\ exists g', lookup id (o_gps o') = Some g' /\ g_k g' = g_k g /\ (g_n g' = None <-> g_n g = None).
Proof.
  induction bs as [|c bs IH]; intros o0 cs o fs o' fs' rs id g O R N E L.
  - cbn [run] in E. injection E as <- <- _. rewrite app_nil_r. split; [exact R|]. exists g. split; [exact L|]. split; [reflexivity|tauto].
  - cbn [run] in E. destruct (step c (o, fs)) as [((o1, fs1), r)|] eqn:E1; cbn [bind fst snd] in E; [|discriminate].
    destruct (run bs (o1, fs1)) as [((o2, fs2), rs2)|] eqn:E2; cbn [bind fst snd] in E; [|discriminate]. injection E as -> -> _.
    pose proof (reach_step _ _ _ _ _ _ _ _ R E1) as R1.
    destruct (trial_frame o0 cs o fs c o1 fs1 r id g O R) as (g1 & L1 & K1 & N1); [|exact E1|exact L|].
    { intros f orc ->. apply (N f orc). now left. }
    destruct (IH o0 (cs ++ [c]) o1 fs1 o' fs' rs2 id g1 O R1) as (R2 & g2 & L2 & K2 & N2); [|exact E2|exact L1|].
    { intros f orc I. apply (N f orc). now right. }
    rewrite <- app_assoc in R2. split; [exact R2|]. exists g2. split; [exact L2|]. rewrite K2, K1. split; [reflexivity|tauto].
Qed.

(** what update_vars does with the committed and the trial variables *)
Lemma commit_pair o0 cs o fs o' fs' r id g : is_object o0 -> reaches o0 cs o fs -> step UpdateVars (o, fs) = Ok (o', fs', r) ->
  lookup id (o_gps o) = Some g -> exists g', lookup id (o_gps o') = Some g' /\
    (g_n g = None -> forall i, committed (o_env o) g' i = Some (dec 0 1)) /\
    (g_n g <> None -> exists k, g_k g = Some k /\ forall i, 0 <= i < nvars (o_env o) -> committed (o_env o) g' i = aget k i).
Proof.
  intros O R E L. destruct (update_commits o0 cs o fs o' fs' r id g O R E L) as (g' & L' & H). exists g'. split; [exact L'|].
  destruct (reach_inv o0 cs o fs O R) as (K & _). destruct (lookup_ok o id g K L) as (Gg & _). pose proof (go_vars _ g Gg) as Gv.
  destruct (g_n g) as [n|] eqn:En.
  - split; [discriminate|]. intros _. destruct (g_k g) as [k|]; [|contradiction]. exists k. split; [reflexivity|exact H].
  - split; [|now intros []]. intros _ i. unfold committed. destruct H as (-> & _). reflexivity.
Qed.

(** set, homogenize, anything but homogenize, update: what is committed *)
Lemma commit_last o0 cs o fs fuel orc o1 fs1 r1 bs o2 fs2 rs o3 fs3 r3 id g : is_object o0 -> reaches o0 cs o fs ->
  step (Homogenize fuel orc) (o, fs) = Ok (o1, fs1, r1) -> no_homogenize bs -> run bs (o1, fs1) = Ok (o2, fs2, rs) -> step UpdateVars (o2, fs2) = Ok (o3, fs3, r3) ->
  lookup id (o_gps o) = Some g -> exists g3, lookup id (o_gps o3) = Some g3 /\
    (g_n g = None -> below o g -> forall i, committed (o_env o) g3 i = Some (dec 0 1)) /\
    (g_n g <> None \/ ~ below o g -> exists w vo w' nl it er s j, wfull (o_env o) w /\
       (forall i, 0 <= i < nvars (o_env o) -> aget vo i = committed (o_env o) g i) /\
       respond fuel (orc j 0) (o_env o) (map (oval (g_strain g)) (zrange 0 (nvoi (o_env o)))) (set_vold w vo) = Ok (w', nl, it, er, s) /\
       (nl = true -> forall i, 0 <= i < nvars (o_env o) -> committed (o_env o) g3 i = aget (w_vnew w') i) /\
       (nl = false -> g_n g = None -> forall i, committed (o_env o) g3 i = Some (dec 0 1)) /\
       (nl = false -> g_n g <> None -> exists k, g_k g = Some k /\ forall i, 0 <= i < nvars (o_env o) -> committed (o_env o) g3 i = aget k i)).
Proof.
  intros O R E1 N E2 E3 L. pose proof (reach_step _ _ _ _ _ _ _ _ R E1) as R1.
  assert (EV : forall ds o' fs', reaches o0 ds o' fs' -> o_env o' = o_env o).
  { intros ds o' fs' R'. destruct (reach_inv o0 ds o' fs' O R') as (_ & (Q & _) & _). destruct (reach_inv o0 cs o fs O R) as (_ & (Q' & _) & _). congruence. }
  assert (Lk1 : exists g1, lookup id (o_gps o1) = Some g1) by (destruct (homogenize_keeps o0 cs o fs fuel orc o1 fs1 r1 O R E1) as (_ & H); destruct (H id g L) as (g1 & L1 & _); eauto).
  destruct Lk1 as (g1 & L1).
  destruct (trials_frame bs o0 _ o1 fs1 o2 fs2 rs id g1 O R1 N E2 L1) as (R2 & g2 & L2 & K2 & N2).
  destruct (commit_pair o0 _ o2 fs2 o3 fs3 r3 id g2 O R2 E3 L2) as (g3 & L3 & C1 & C2). rewrite (EV _ _ _ R2) in C1, C2.
  exists g3. split; [exact L3|]. split.
  - intros Hn B. apply C1, N2. destruct (linear_point o0 cs o fs fuel orc o1 fs1 r1 id g O R E1 L Hn B) as (_ & _ & F).
    cbn [step] in F. injection F as F. unfold get_nl_flag in F. rewrite L1 in F. destruct (g_n g1); [discriminate|reflexivity].
  - intros H. destruct (point_solved o0 cs o fs fuel orc o1 fs1 r1 id g O R E1 L H) as (g1' & w & j & L1' & W & vo & w1 & nl & it & er & s & Vo & _ & Re & _ & _ & _ & Nf & Nt & _).
    rewrite L1 in L1'. injection L1' as <-. exists w, vo, w1, nl, it, er, s, j. split; [exact W|]. split; [exact Vo|]. split; [exact Re|]. split; [|split].
    + intros Et. destruct (Nt Et) as (Hn & k & Ek & Hk). destruct C2 as (k2 & Ek2 & Hk2); [tauto|]. rewrite K2, Ek in Ek2. injection Ek2 as <-.
      intros i Hi. rewrite Hk2 by exact Hi. apply Hk.
    + intros Ef Hn. apply C1, N2. destruct (Nf Ef) as (-> & _). exact Hn.
    + intros Ef Hn. destruct (Nf Ef) as (Q & Qk). destruct C2 as (k2 & Ek2 & Hk2); [rewrite N2, Q; exact Hn|]. exists k2. split; [congruence|exact Hk2].
Qed.
(** micro_params[4] only reaches the copy printed by the object *)
Lemma threshold_ignored (a b c d x y : T) r fuel orc j dim size mtype mt ps :
  construct fuel orc j dim size mtype (a :: b :: c :: d :: y :: r) mt ps =
  (o <- construct fuel orc j dim size mtype (a :: b :: c :: d :: x :: r) mt ps ;;
   Ok (mkObj (o_env o) (o_work o) [a; b; c; d; y] (o_ctan o) (o_gps o) (o_estrain o) (o_estress o) (o_inv_max o) (o_header o))).
Proof.
  unfold construct. change (make_env j dim size mtype (a :: b :: c :: d :: y :: r)) with (make_env j dim size mtype (a :: b :: c :: d :: x :: r)).
  destruct (make_env j dim size mtype (a :: b :: c :: d :: x :: r)) as [V|]; [cbn [bind]|reflexivity].
  destruct (negb ((dim =? 2) || (dim =? 3))%Z); [reflexivity|]. destruct (negb ((mtype =? 0) || (mtype =? 1))%Z); [reflexivity|].
  change (mapM (arg (a :: b :: c :: d :: y :: r)) (zrange 0 5)) with (Ok [a; b; c; d; y]). change (mapM (arg (a :: b :: c :: d :: x :: r)) (zrange 0 5)) with (Ok [a; b; c; d; x]). cbn [bind].
  destruct (mapM (make_material mt ps) (zrange 0 2)) as [m|]; [cbn [bind]|reflexivity].
  match goal with |- context [fill_types ?v] => destruct (fill_types v) as [et|] end; [cbn [bind]|reflexivity].
  match goal with |- context [A <- ?v ;; _] => destruct v as [A|] end; [cbn [bind]|reflexivity].
  match goal with |- context [calc_ctan_lin ?f ?o ?v ?w ?c] => destruct (calc_ctan_lin f o v w c) as [(w', c')|] end; reflexivity.
Qed.
End Commit.
