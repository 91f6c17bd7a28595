(** Proofs of the object properties. *)
From Coq Require Import ZifyBool.
From Verif Require Import Base Scalar EllSpec EllModel EllFinal Grid AssemblyModel AsmPure MicroModel OutputModel NewtonBase ApiBase ApiRun ApiHist ApiExact Build ApiSpec.

Section P.
Context {T : Type} `{OT : Ops T}.
Implicit Types (V : env T) (o : obj T) (cs : list (call T)) (g : gp T).

Lemma is_object_fresh o : is_object o -> fresh_obj o.
Proof.
  intros (dim & nx & ny & nz & mtype & mp & mt & ps & fuel & orc & j & A & J & E).
  pose proof (construct_ok fuel orc j dim nx ny nz mtype mp mt ps A J) as H. rewrite E in H. tauto.
Qed.
Lemma reach_inv o0 cs o fs : is_object o0 -> reaches o0 cs o fs -> obj_ok o /\ same_obj o0 o /\ hist cs o.
Proof. intros O (fs0 & rs & E). exact (run_hist o0 fs0 cs (is_object_fresh o0 O) o fs rs E). Qed.
Lemma reach_step o0 cs o fs c o' fs' r : reaches o0 cs o fs -> step c (o, fs) = Ok (o', fs', r) -> reaches o0 (cs ++ [c]) o' fs'.
Proof.
  intros (fs0 & rs & E) H. exists fs0, (rs ++ [r]). rewrite run_app, E. cbn [bind fst snd run]. rewrite H. reflexivity.
Qed.
Lemma lookup_set o0 cs o fs id : is_object o0 -> reaches o0 cs o fs -> In id (set_ids cs) ->
  exists g, lookup id (o_gps o) = Some g.
Proof.
  intros O R H. destruct (reach_inv o0 cs o fs O R) as (K & _ & M & _). destruct (lookup id (o_gps o)) as [g|] eqn:L; [eauto|].
  apply lookup_none in L. rewrite M, first_use_in in L. contradiction.
Qed.
Lemma lookup_unset o0 cs o fs id : is_object o0 -> reaches o0 cs o fs -> ~ In id (set_ids cs) -> lookup id (o_gps o) = None.
Proof.
  intros O R H. destruct (reach_inv o0 cs o fs O R) as (K & _ & M & _). apply lookup_none. rewrite M, first_use_in. exact H.
Qed.

(** *** C38 *)
Lemma always_linear_2D o0 cs o fs : is_object o0 -> reaches o0 cs o fs -> v_dim (o_env o0) = 2 ->
  (forall id, step (NlFlag id) (o, fs) = Ok (o, fs, RInt 0)) /\ forall g, In g (o_gps o) -> g_n g = None /\ g_k g = None.
Proof.
  intros O R D. destruct (reach_inv o0 cs o fs O R) as (K & (Ev & _) & _). rewrite <- Ev in D. split.
  - intros id. cbn [step]. change (get_nl_flag id (o_gps o)) with (flag id o). now rewrite (flag_2d o id K D).
  - intros g Hg. pose proof (ok_gps o K) as F. rewrite Forall_forall in F. destruct (F g Hg) as (Gg & _).
    pose proof (go_2d _ g Gg D) as E. split; [exact E|]. pose proof (go_vars _ g Gg) as Gv. rewrite E in Gv. destruct (g_k g); [contradiction|reflexivity].
Qed.

(** *** C40 *)
Lemma strain_is_stored V g eps : strain_is V g eps <-> stored V g eps.
Proof.
  unfold strain_is, stored, entries. split.
  - intros H. apply map_ext_in. intros i Hi. apply in_zrange in Hi. now apply H.
  - intros H i Hi. assert (Hi' : In i (zrange 0 (nvoi V))) by (now apply in_zrange). revert Hi'. clear Hi. revert H. generalize (zrange 0 (nvoi V)) as l.
    induction l as [|a l IH]; intros H Hi; [destruct Hi|]. cbn [map] in H. injection H as H1 H2. destruct Hi as [->|Hi]; auto.
Qed.
Lemma keyed_store o0 cs o fs : is_object o0 -> reaches o0 cs o fs ->
  map g_id (o_gps o) = first_use (set_ids cs) /\ NoDup (map g_id (o_gps o)) /\
  (forall id, ~ In id (set_ids cs) -> lookup id (o_gps o) = None) /\
  forall id eps, last_set id eps cs -> exists g, lookup id (o_gps o) = Some g /\ stored (o_env o) g eps.
Proof.
  intros O R. destruct (reach_inv o0 cs o fs O R) as (K & (Ev & _) & M & H). split; [exact M|]. split; [exact (ok_ids o K)|].
  split; [intros id; exact (lookup_unset o0 cs o fs id O R)|]. intros id eps L.
  assert (I : In id (set_ids cs)). { destruct L as (a & b & -> & _). apply in_set_ids. exists eps. apply in_or_app. right. now left. }
  destruct (lookup_set o0 cs o fs id O R I) as (g & Lg). exists g. split; [exact Lg|]. apply strain_is_stored, (H id g Lg), L.
Qed.
Lemma set_only_one o0 cs o fs id eps o' fs' r : is_object o0 -> reaches o0 cs o fs -> step (SetStrain id eps) (o, fs) = Ok (o', fs', r) ->
  (forall id', id' <> id -> lookup id' (o_gps o') = lookup id' (o_gps o)) /\
  (forall g, lookup id (o_gps o) = Some g -> exists g', lookup id (o_gps o') = Some g' /\
     g_stress g' = g_stress g /\ g_ctan g' = g_ctan g /\ g_n g' = g_n g /\ g_k g' = g_k g /\ g_its g' = g_its g /\ g_err g' = g_err g) /\
  fs' = fs.
Proof.
  intros O R E. destruct (reach_inv o0 cs o fs O R) as (K & _). pose proof (step_ok (SetStrain id eps) o fs K) as H. rewrite E in H.
  destruct H as (_ & _ & G). cbn [gps_rel] in G. destruct G as (_ & Oth & g' & L' & _ & X). split; [exact Oth|]. split.
  - intros g L. exists g'. split; [exact L'|]. rewrite L in X. rewrite X. repeat split.
  - cbn [step] in E. destruct (_ <? _); [discriminate|]. destruct set_strain; cbn [bind] in E; [|discriminate]. now injection E.
Qed.

(** *** C41 *)
Lemma unknown_queries o0 cs o fs id : is_object o0 -> reaches o0 cs o fs -> ~ In id (set_ids cs) ->
  step (GetStress id) (o, fs) = Ok (o, fs, RBuf None) /\ step (GetCtan id) (o, fs) = Ok (o, fs, RBuf None) /\
  step (NlFlag id) (o, fs) = Ok (o, fs, RInt 0) /\ forall fuel pk t, step (Output fuel pk t id) (o, fs) = Ok (o, fs, RUnit).
Proof.
  intros O R H. pose proof (lookup_unset o0 cs o fs id O R H) as L. cbn [step]. unfold get_macro_stress, get_macro_ctan, get_nl_flag, output. rewrite L. cbn [bind]. auto.
Qed.
Lemma queries_pure o fs c o' fs' r : (exists id, c = GetStress id \/ c = GetCtan id \/ c = NlFlag id) ->
  step c (o, fs) = Ok (o', fs', r) -> o' = o /\ fs' = fs.
Proof.
  intros (id & [->|[->| ->]]); cbn [step]; intros E.
  - destruct get_macro_stress; cbn [bind] in E; [|discriminate]. now injection E.
  - destruct get_macro_ctan; cbn [bind] in E; [|discriminate]. now injection E.
  - now injection E.
Qed.

(** *** C42 *)
Lemma results_defined o0 cs o fs id : is_object o0 -> reaches o0 cs o fs -> In id (set_ids cs) ->
  (homogenised id cs ->
     (exists l, step (GetStress id) (o, fs) = Ok (o, fs, RBuf (Some l)) /\ Z.of_nat (length l) = nvoi (o_env o)) /\
     (exists l, step (GetCtan id) (o, fs) = Ok (o, fs, RBuf (Some l)) /\ Z.of_nat (length l) = nvoi (o_env o) * nvoi (o_env o))) /\
  (~ homogenised id cs -> step (GetStress id) (o, fs) = Err Uninit /\ step (GetCtan id) (o, fs) = Err Uninit).
Proof.
  intros O R Hi. destruct (reach_inv o0 cs o fs O R) as (K & _ & M & H). destruct (lookup_set o0 cs o fs id O R Hi) as (g & L).
  pose proof (ok_sane o K) as S. pose proof (nvoi_range _ S) as Nv. pose proof (nvoi2_range _ S) as N2.
  destruct (H id g L) as (_ & D). destruct (lookup_ok o id g K L) as (Gg & _). cbn [step]. unfold get_macro_stress, get_macro_ctan. rewrite L. split.
  - intros Ho. destruct D as [(_ & D)|(N & _)]; [|contradiction]. destruct D as (D1 & D2 & _). rewrite (rdl_ok _ _ D1), (rdl_ok _ _ D2). cbn [bind].
    split; eexists; (split; [reflexivity|]); rewrite map_length, length_zrange, Z2Nat.id by lia; lia.
  - intros N. destruct D as [(Ho & _)|(_ & Fr)]; [contradiction|]. destruct Fr as (F1 & F2 & _).
    destruct (gets_dich (o_env o) (g_stress g) (nvoi (o_env o))) as [(P & _)|(_ & E1)]; [lia|right; now rewrite F1|rewrite F1; cbn; lia| |].
    + destruct (P 0) as (x & Ex); [lia|]. rewrite F1, aget_malloc in Ex. discriminate.
    + destruct (gets_dich (o_env o) (g_ctan g) (nvoi (o_env o) * nvoi (o_env o))) as [(P & _)|(_ & E2)]; [nia|right; now rewrite F2|rewrite F2; cbn; lia| |].
      * destruct (P 0) as (x & Ex); [nia|]. rewrite F2, aget_malloc in Ex. discriminate.
      * rewrite E1, E2. split; reflexivity.
Qed.

(** *** C43 *)
Lemma predicted_lin o g i : predicted o g i = lin_val (o_env o) (o_ctan o) (g_strain g) i.
Proof. reflexivity. Qed.
Lemma below_takes o g : below o g -> g_n g = None -> takes_linear (o_env o) (o_ctan o) g.
Proof. intros B N. split; [exact B|exact N]. Qed.
Lemma linear_point o0 cs o fs fuel orc o' fs' r id g : is_object o0 -> reaches o0 cs o fs ->
  step (Homogenize fuel orc) (o, fs) = Ok (o', fs', r) -> lookup id (o_gps o) = Some g -> g_n g = None -> below o g ->
  step (GetStress id) (o', fs') = Ok (o', fs', RBuf (Some (map (predicted o g) (zrange 0 (nvoi (o_env o)))))) /\
  step (GetCtan id) (o', fs') = Ok (o', fs', RBuf (Some (map (oval (o_ctan o)) (zrange 0 (nvoi (o_env o) * nvoi (o_env o)))))) /\
  step (NlFlag id) (o', fs') = Ok (o', fs', RInt 0).
Proof.
  intros O R E L N B. destruct (reach_inv o0 cs o fs O R) as (K & _). pose proof (ok_sane o K) as S. pose proof (step_ok (Homogenize fuel orc) o fs K) as H. rewrite E in H.
  destruct H as (K' & (Ev & _) & G). cbn [gps_rel] in G. pose proof (rel_lookup _ _ _ id (homog_rel_id _ _ _ _) G) as X. rewrite L in X.
  destruct (lookup id (o_gps o')) as [g'|] eqn:L'; [|contradiction]. destruct X as (jj & w1 & w2 & inv & W & Gg & E1 & _).
  destruct (homog_gp_linear (o_env o) fuel (orc jj) (o_ctan o) w1 g S W (ok_ctan o K) Gg (below_takes o g B N)) as (vo & g1 & E2 & _ & N' & _ & Hs & Hc).
  rewrite E1 in E2. injection E2 as _ _ ->.
  assert (Ps : pfull (g_stress g1) (nvoi (o_env o))) by (intros i Hi; rewrite (Hs i Hi); eauto).
  assert (Pc : pfull (g_ctan g1) (nvoi (o_env o) * nvoi (o_env o))) by (intros i Hi; rewrite (Hc i Hi); exact (ok_ctan o K i Hi)).
  cbn [step]. unfold get_macro_stress, get_macro_ctan, get_nl_flag. rewrite L', Ev, (rdl_ok _ _ Ps), (rdl_ok _ _ Pc), N'. cbn [bind]. split; [|split; [|reflexivity]].
  - do 4 f_equal. apply map_ext_in. intros i Hi. apply in_zrange in Hi. unfold oval. now rewrite (Hs i Hi).
  - do 4 f_equal. apply map_ext_in. intros i Hi. apply in_zrange in Hi. unfold oval. now rewrite (Hc i Hi).
Qed.
Lemma all_linear o0 cs o fs fuel orc : is_object o0 -> reaches o0 cs o fs ->
  (forall g, In g (o_gps o) -> g_n g = None /\ below o g) ->
  exists o' r, step (Homogenize fuel orc) (o, fs) = Ok (o', fs, r) /\ w_u (o_work o') = w_u (o_work o) /\ w_vnew (o_work o') = w_vnew (o_work o).
Proof.
  intros O R H. destruct (reach_inv o0 cs o fs O R) as (K & _). pose proof (ok_sane o K) as S. cbn [step]. unfold homogenize, homog_list.
  match goal with |- context [foldM ?f _ _] => set (ff := f) end.
  assert (X : forall l w inv d j, wfull (o_env o) w -> (forall g, In g l -> gp_ok (o_env o) g /\ takes_linear (o_env o) (o_ctan o) g) ->
    exists w' inv' d' j', foldM ff l (w, inv, d, j) = Ok (w', inv', d', j') /\ w_u w' = w_u w /\ w_vnew w' = w_vnew w).
  { induction l as [|g l IH]; intros w inv d j W Hl; cbn [foldM]; [do 4 eexists; split; [reflexivity|auto]|].
    destruct (Hl g) as (Gg & TL); [now left|].
    destruct (homog_gp_linear (o_env o) fuel (orc j) (o_ctan o) w g S W (ok_ctan o K) Gg TL) as (vo & g' & E & Fv & _).
    unfold ff at 1. rewrite E. cbn [bind].
    destruct (IH (set_vold w vo) (Some (prev_max (o_env o) (o_ctan o) g)) (d ++ [g']) (j + 1)) as (w' & inv' & d' & j' & E' & U & Vn).
    - pose proof (homog_gp_ok (o_env o) fuel (orc j) (o_ctan o) w g S W (ok_ctan o K) Gg) as Q. rewrite E in Q. exact (proj1 Q).
    - intros q Hq. apply Hl. now right.
    - rewrite E'. exists w', inv', d', j'. auto. }
  destruct (X (o_gps o) (o_work o) (o_inv_max o) [] 0 (ok_work o K)) as (w' & inv' & d' & j' & E & U & Vn).
  { intros g Hg. pose proof (ok_gps o K) as F. rewrite Forall_forall in F. destruct (F g Hg) as (Gg & _), (H g Hg). split; [exact Gg|]. now apply below_takes. }
  rewrite E. cbn [bind]. do 2 eexists. split; [reflexivity|]. cbn. auto.
Qed.

(** *** C44 *)
Lemma homogenize_keeps o0 cs o fs fuel orc o' fs' r : is_object o0 -> reaches o0 cs o fs ->
  step (Homogenize fuel orc) (o, fs) = Ok (o', fs', r) ->
  map g_id (o_gps o') = map g_id (o_gps o) /\
  forall id g, lookup id (o_gps o) = Some g -> exists g', lookup id (o_gps o') = Some g' /\ g_strain g' = g_strain g /\
    forall i, 0 <= i < nvars (o_env o) -> committed (o_env o) g' i = committed (o_env o) g i.
Proof.
  intros O R E. destruct (reach_inv o0 cs o fs O R) as (K & _). pose proof (step_ok (Homogenize fuel orc) o fs K) as H. rewrite E in H.
  destruct H as (K' & _ & G). cbn [gps_rel] in G. split; [exact (rel_ids _ _ _ (homog_rel_id _ _ _ _) G)|]. intros id g L.
  pose proof (rel_lookup _ _ _ id (homog_rel_id _ _ _ _) G) as X. rewrite L in X. destruct (lookup id (o_gps o')) as [g'|]; [|contradiction].
  destruct X as (jj & w1 & w2 & inv & _ & _ & _ & (_ & _ & _ & _ & Es & N & _)). exists g'. split; [reflexivity|]. split; [exact Es|].
  exact (nframe_committed _ _ _ N).
Qed.
(** only update_vars changes committed variables *)
Lemma committed_frame o0 cs o fs c o' fs' r id g g' : is_object o0 -> reaches o0 cs o fs -> c <> UpdateVars ->
  step c (o, fs) = Ok (o', fs', r) -> lookup id (o_gps o) = Some g -> lookup id (o_gps o') = Some g' ->
  forall i, 0 <= i < nvars (o_env o) -> committed (o_env o) g' i = committed (o_env o) g i.
Proof.
  intros O R Hc E L L'. destruct (reach_inv o0 cs o fs O R) as (K & _). pose proof (step_ok c o fs K) as H. rewrite E in H.
  destruct H as (K' & _ & G).
  destruct c; cbn [gps_rel] in G; try (rewrite G, L in L'; now injection L' as <-).
  - destruct G as (_ & Oth & g1 & L1 & _ & X). destruct (Z.eq_dec id id0) as [->|Hne].
    + rewrite L1 in L'. injection L' as <-. rewrite L in X. rewrite X. reflexivity.
    + rewrite (Oth id Hne), L in L'. now injection L' as <-.
  - destruct (homogenize_keeps o0 cs o fs fuel orc o' fs' r O R E) as (_ & Q). destruct (Q id g L) as (g2 & L2 & _ & X). rewrite L' in L2. now injection L2 as <-.
  - congruence.
Qed.

(** *** C45 *)
Lemma update_commits o0 cs o fs o' fs' r id g : is_object o0 -> reaches o0 cs o fs -> step UpdateVars (o, fs) = Ok (o', fs', r) ->
  lookup id (o_gps o) = Some g -> exists g', lookup id (o_gps o') = Some g' /\
    match g_n g, g_k g with
    | Some _, Some k => forall i, 0 <= i < nvars (o_env o) -> committed (o_env o) g' i = aget k i
    | _, _ => g_n g' = None /\ g_n g = None /\ g_k g = None
    end.
Proof.
  intros O R E L. destruct (reach_inv o0 cs o fs O R) as (K & _). pose proof (step_ok UpdateVars o fs K) as H. rewrite E in H.
  destruct H as (K' & _ & G). cbn [gps_rel] in G. pose proof (rel_lookup (upd_rel (o_env o)) _ _ id ltac:(now intros g1 g2 (H & _)) G) as X.
  rewrite L in X. destruct (lookup id (o_gps o')) as [g'|]; [|contradiction]. exists g'. split; [reflexivity|].
  destruct X as (_ & _ & _ & _ & _ & _ & _ & _ & X). destruct (lookup_ok o id g K L) as (Gg & _). pose proof (go_vars _ g Gg) as Gv.
  destruct (g_n g), (g_k g); try contradiction.
  - destruct X as (n' & En & _ & Hn). intros i Hi. unfold committed. now rewrite En.
  - destruct X. auto.
Qed.

(** *** C46 *)
Lemma update_idem o0 cs o fs o' fs' r : is_object o0 -> reaches o0 cs o fs -> step UpdateVars (o, fs) = Ok (o', fs', r) ->
  step UpdateVars (o', fs') = Ok (o', fs', r) /\ fs' = fs.
Proof.
  intros O R E. destruct (reach_inv o0 cs o fs O R) as (K & _). cbn [step] in *. destruct (update_vars o) as [o1|] eqn:E1; cbn [bind] in E; [|discriminate].
  injection E as -> -> <-. rewrite (update_twice o o' K E1). cbn [bind]. auto.
Qed.
Lemma update_frame o0 cs o fs : is_object o0 -> reaches o0 cs o fs ->
  exists o', step UpdateVars (o, fs) = Ok (o', fs, RUnit) /\ o_work o' = o_work o /\ o_ctan o' = o_ctan o /\
  map g_id (o_gps o') = map g_id (o_gps o) /\
  forall id g, lookup id (o_gps o) = Some g -> exists g', lookup id (o_gps o') = Some g' /\
    g_strain g' = g_strain g /\ g_stress g' = g_stress g /\ g_ctan g' = g_ctan g /\ g_its g' = g_its g /\ g_err g' = g_err g /\
    g_k g' = g_k g /\ get_nl_flag id (o_gps o') = get_nl_flag id (o_gps o).
Proof.
  intros O R. destruct (reach_inv o0 cs o fs O R) as (K & _). destruct (update_vars_ok o K) as (l' & E & G & _). cbn [step]. rewrite E. cbn [bind].
  eexists. split; [reflexivity|]. cbn. do 2 (split; [reflexivity|]). split; [apply (rel_ids (upd_rel (o_env o))); [now intros g1 g2 (H & _)|exact G]|].
  intros id g L. pose proof (rel_lookup (upd_rel (o_env o)) _ _ id ltac:(now intros g1 g2 (H & _)) G) as X. rewrite L in X.
  destruct (lookup id l') as [g'|] eqn:L'; [|contradiction]. exists g'. split; [reflexivity|].
  destruct X as (_ & X2 & X3 & X4 & X5 & X6 & _ & X8 & X9). do 6 (split; [assumption|]). unfold get_nl_flag. rewrite L, L'.
  destruct (lookup_ok o id g K L) as (Gg & _). pose proof (go_vars _ g Gg) as Gv.
  destruct (g_n g), (g_k g); try contradiction; [destruct X9 as (n' & -> & _); reflexivity|]. destruct (g_n g'); [destruct X9; congruence|reflexivity].
Qed.

(** *** C47 *)
Lemma flag_permanent o0 cs1 cs2 o1 fs1 o2 fs2 id : is_object o0 -> reaches o0 cs1 o1 fs1 -> (exists rs, run cs2 (o1, fs1) = Ok (o2, fs2, rs)) ->
  get_nl_flag id (o_gps o1) = 1 -> get_nl_flag id (o_gps o2) = 1.
Proof.
  intros O R (rs & E) F. revert o1 fs1 cs1 rs R E F. induction cs2 as [|c cs IH]; intros o1 fs1 cs1 rs R E F; cbn [run] in E; [now injection E as <- _ _|].
  destruct (step c (o1, fs1)) as [((o3, fs3), r)|] eqn:Es; cbn [bind fst snd] in E; [|discriminate].
  destruct (run cs (o3, fs3)) as [((o4, fs4), rs4)|] eqn:Er; cbn [bind fst snd] in E; [|discriminate]. injection E as -> -> _.
  destruct (reach_inv o0 cs1 o1 fs1 O R) as (K & _).
  apply (IH o3 fs3 (cs1 ++ [c]) rs4); [exact (reach_step _ _ _ _ _ _ _ _ R Es)|exact Er|]. exact (flag_step c o1 fs1 o3 fs3 r id K Es F).
Qed.
(** a Gauss point with the flag, or whose predicted stress is not below the threshold, is solved *)
Lemma point_solved o0 cs o fs fuel orc o' fs' r id g : is_object o0 -> reaches o0 cs o fs ->
  step (Homogenize fuel orc) (o, fs) = Ok (o', fs', r) -> lookup id (o_gps o) = Some g -> g_n g <> None \/ ~ below o g ->
  exists g' w j, lookup id (o_gps o') = Some g' /\ wfull (o_env o) w /\ solved (o_env o) fuel (orc j) w g g'.
Proof.
  intros O R E L N. destruct (reach_inv o0 cs o fs O R) as (K & _). pose proof (ok_sane o K) as S. pose proof (step_ok (Homogenize fuel orc) o fs K) as H. rewrite E in H.
  destruct H as (K' & (Ev & _) & G). cbn [gps_rel] in G. pose proof (rel_lookup _ _ _ id (homog_rel_id _ _ _ _) G) as X. rewrite L in X.
  destruct (lookup id (o_gps o')) as [g'|] eqn:L'; [|contradiction]. destruct X as (jj & w1 & w2 & inv & W & Gg & E1 & _).
  exists g', w1, jj. split; [reflexivity|]. split; [exact W|]. apply (homog_gp_solved (o_env o) fuel (orc jj) (o_ctan o) w1 g w2 inv g' S W (ok_ctan o K) Gg); [|exact E1].
  intros (B & Nn). destruct N as [N|N]; [contradiction|apply N; exact B].
Qed.

(** *** C56 *)
Lemma output_keeps o0 cs o fs c o' fs' r : is_object o0 -> reaches o0 cs o fs ->
  (c = WriteInfo \/ exists fuel pk t id, c = Output fuel pk t id) -> step c (o, fs) = Ok (o', fs', r) ->
  o_gps o' = o_gps o /\ o_env o' = o_env o /\ o_ctan o' = o_ctan o.
Proof.
  intros O R Hc E. destruct (reach_inv o0 cs o fs O R) as (K & _). pose proof (step_ok c o fs K) as H. rewrite E in H. destruct H as (_ & (H1 & H2 & _) & G).
  destruct Hc as [->|(fuel & pk & t & id & ->)]; cbn [gps_rel] in G; auto.
Qed.

(** *** C68 *)
Lemma safe o0 fs0 cs e : is_object o0 -> run cs (o0, fs0) = Err e ->
  exists a c b, cs = a ++ c :: b /\
  match c with
  | SetStrain id eps => e = OOB /\ Z.of_nat (length eps) < nvoi (o_env o0)
  | GetStress id | GetCtan id => e = Uninit /\ In id (set_ids a) /\ ~ homogenised id a
  | NlFlag _ | UpdateVars => False
  | Homogenize fuel orc => exists j i, nbad fuel (orc j i) e
  | Output fuel pk _ id => nbad fuel pk e /\ In id (set_ids a)
  | WriteInfo => e = Uninit /\ exists id, In id (set_ids a) /\ (v_dim (o_env o0) = 2 \/ ~ homogenised id a)
  end.
Proof.
  intros O E. destruct (run_err o0 fs0 cs e (is_object_fresh o0 O) E) as (a & c & b & o & fs & rs & -> & Ra & K & (M & H) & (Ev & _) & A & Es).
  assert (L0 : forall id g, lookup id (o_gps o) = Some g -> In id (set_ids a)).
  { intros id g L. apply first_use_in. rewrite <- M. apply lookup_in in L. destruct L as (L & <-). now apply in_map. }
  assert (G0 : forall id, (exists g, lookup id (o_gps o) = Some g /\ gp_fresh g) -> In id (set_ids a) /\ ~ homogenised id a).
  { intros id (g & L & F). split; [exact (L0 id g L)|]. destruct (H id g L) as (_ & [(_ & D)|(N & _)]); [|exact N].
    elim (fresh_not_done _ g (ok_sane o K) F D). }
  exists a, c, b. split; [reflexivity|]. destruct c; cbn [allowed] in A; rewrite <- ?Ev; try exact A.
  - destruct A as (-> & A). auto.
  - destruct A as (-> & A). auto.
  - split; [exact A|]. destruct (lookup id (o_gps o)) as [g|] eqn:L; [exact (L0 id g L)|].
    cbn [step] in Es. unfold output in Es. rewrite L in Es. discriminate.
  - destruct A as (-> & g & Hg & A). split; [reflexivity|]. exists (g_id g). split; [apply first_use_in; rewrite <- M; now apply in_map|].
    destruct A as [A|A]; [now left|]. right. intros Ho. apply A.
    destruct (lookup (g_id g) (o_gps o)) as [g'|] eqn:L.
    + destruct (H _ _ L) as (_ & [(_ & D)|(N & _)]); [|contradiction].
      assert (g' = g); [|now subst]. apply lookup_in in L. destruct L as (L & Eq). pose proof (ok_ids o K) as ND.
      clear -L Hg ND Eq. revert L Hg ND. generalize (o_gps o) as l. induction l as [|x l IH]; intros L Hg ND; [destruct L|].
      cbn [map] in ND. inversion ND as [|? ? N1 N2]; subst. destruct L as [->|L], Hg as [->|Hg]; [reflexivity| | |now apply IH].
      * elim N1. rewrite Eq. now apply in_map.
      * elim N1. rewrite <- Eq. now apply in_map.
    + apply lookup_none in L. elim L. now apply in_map.
Qed.
End P.
