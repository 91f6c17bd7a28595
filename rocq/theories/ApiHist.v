(** What any sequence of calls on one object leaves in it, over any arithmetic. *)
From Coq Require Import ZifyBool.
From Verif Require Import Base Scalar EllSpec EllModel EllFinal Grid AssemblyModel AsmPure AsmRun MicroModel OutputModel NewtonBase ApiBase ApiRun.

Section Hist.
Context {T : Type} `{OT : Ops T}.
Implicit Types (V : env T) (w : work T) (g : gp T) (o : obj T) (c : call T) (cs : list (call T)).

(** ** Reading a call sequence *)
Definition set_ids cs : list Z := flat_map (fun c => match c with SetStrain id _ => [id] | _ => [] end) cs.
(** distinct entries in order of first occurrence *)
Definition first_use (l : list Z) : list Z := rev (nodup Z.eq_dec (rev l)).
Definition last_set (id : Z) (eps : list T) cs : Prop :=
  exists a b, cs = a ++ SetStrain id eps :: b /\ forall e, ~ In (SetStrain id e) b.
Definition homogenised (id : Z) cs : Prop :=
  exists a eps b f orc, cs = a ++ SetStrain id eps :: b /\ In (Homogenize f orc) b.

Lemma first_use_snoc l x : first_use (l ++ [x]) = if in_dec Z.eq_dec x l then first_use l else first_use l ++ [x].
Proof.
  unfold first_use. rewrite rev_app_distr. cbn [rev app nodup].
  destruct (in_dec Z.eq_dec x (rev l)) as [I|N], (in_dec Z.eq_dec x l) as [I'|N']; try reflexivity; rewrite <- in_rev in *; contradiction.
Qed.
Lemma first_use_in l x : In x (first_use l) <-> In x l.
Proof. unfold first_use. rewrite <- in_rev, nodup_In, <- in_rev. tauto. Qed.
Lemma first_use_nodup l : NoDup (first_use l).
Proof. unfold first_use. apply NoDup_rev, NoDup_nodup. Qed.
Lemma set_ids_app a b : set_ids (a ++ b) = set_ids a ++ set_ids b.
Proof. apply flat_map_app. Qed.
Lemma snoc_cases {A} (l : list A) (c : A) a x b : l ++ [c] = a ++ x :: b -> (b = [] /\ c = x /\ a = l) \/ exists b', b = b' ++ [c] /\ l = a ++ x :: b'.
Proof.
  intros E. destruct b as [|y b] using rev_ind.
  - left. change (a ++ [x]) with (a ++ [x]) in E. apply app_inj_tail in E. destruct E as (-> & ->). auto.
  - right. clear IHb. exists b. rewrite app_comm_cons, app_assoc in E. apply app_inj_tail in E. destruct E as (-> & ->). auto.
Qed.
Lemma last_set_snoc id eps cs c : last_set id eps (cs ++ [c]) <-> c = SetStrain id eps \/ ((forall e, c <> SetStrain id e) /\ last_set id eps cs).
Proof.
  split.
  - intros (a & b & E & H). apply snoc_cases in E. destruct E as [(-> & -> & _)|(b' & -> & ->)]; [now left|].
    right. split.
    + intros e ->. apply (H e). apply in_or_app. right. now left.
    + exists a, b'. split; [reflexivity|]. intros e He. apply (H e). apply in_or_app. now left.
  - intros [->|(N & a & b & -> & H)].
    + exists cs, []. split; [reflexivity|]. intros e [].
    + exists a, (b ++ [c]). split; [now rewrite <- app_assoc|]. intros e He. apply in_app_or in He. destruct He as [He|[He|[]]]; [now apply (H e)|now apply (N e)].
Qed.
Lemma in_set_ids id cs : In id (set_ids cs) <-> exists eps, In (SetStrain id eps) cs.
Proof.
  unfold set_ids. rewrite in_flat_map. split.
  - intros (c & Hc & H). destruct c; cbn in H; try contradiction. destruct H as [->|[]]. eauto.
  - intros (eps & H). exists (SetStrain id eps). split; [exact H|now left].
Qed.
Lemma homogenised_snoc id cs c : homogenised id (cs ++ [c]) <->
  homogenised id cs \/ (In id (set_ids cs) /\ exists f orc, c = Homogenize f orc).
Proof.
  split.
  - intros (a & eps & b & f & orc & E & H). apply snoc_cases in E. destruct E as [(-> & _)|(b' & -> & ->)]; [destruct H|].
    apply in_app_or in H. destruct H as [H|[H|[]]].
    + left. exists a, eps, b', f, orc. auto.
    + right. split; [|eauto]. apply in_set_ids. exists eps. apply in_or_app. right. now left.
  - intros [(a & eps & b & f & orc & -> & H)|(Hi & f & orc & ->)].
    + exists a, eps, (b ++ [c]), f, orc. split; [now rewrite <- app_assoc|]. apply in_or_app. now left.
    + apply in_set_ids in Hi. destruct Hi as (eps & Hi). apply in_split in Hi. destruct Hi as (a & b & ->).
      exists a, eps, (b ++ [Homogenize f orc]), f, orc. split; [now rewrite <- app_assoc|]. apply in_or_app. right. now left.
Qed.

Lemma run_app a b s : run (a ++ b) s = (' r <- run a s ;; ' q <- run b (fst r) ;; Ok (fst q, snd r ++ snd q)).
Proof.
  revert s. induction a as [|c a IH]; intros s; cbn [run app].
  - cbn [bind fst snd]. destruct (run b s) as [q|]; cbn [bind]; [|reflexivity]. now destruct q.
  - destruct (step c s) as [r|]; cbn [bind]; [|reflexivity]. rewrite IH.
    destruct (run a (fst r)) as [q|]; cbn [bind fst snd]; [|reflexivity].
    destruct (run b (fst q)) as [p|]; cbn [bind fst snd]; reflexivity.
Qed.
Lemma run_snoc cs c s s' rs : run (cs ++ [c]) s = Ok (s', rs) ->
  exists s1 rs1 r, run cs s = Ok (s1, rs1) /\ step c s1 = Ok (s', r) /\ rs = rs1 ++ [r].
Proof.
  rewrite run_app. destruct (run cs s) as [(s1, rs1)|]; cbn [bind fst snd]; [|discriminate]. cbn [run].
  destruct (step c s1) as [(s2, r)|] eqn:E; cbn [bind fst snd]; [|discriminate]. intros [= <- <-]. eauto 6.
Qed.

(** ** The invariant *)
Definition hist cs o : Prop :=
  map g_id (o_gps o) = first_use (set_ids cs) /\
  forall id g, lookup id (o_gps o) = Some g ->
    (forall eps, last_set id eps cs -> strain_is (o_env o) g eps) /\
    ((homogenised id cs /\ gp_done (o_env o) g) \/ (~ homogenised id cs /\ gp_fresh g)).

Lemma fresh_not_done V g : sane V -> gp_fresh g -> ~ gp_done V g.
Proof.
  intros S (E & _) (P & _). pose proof (nvoi_range V S). destruct (P 0) as (x & Ex); [lia|]. rewrite E in Ex.
  unfold aget, malloc in Ex. cbn in Ex. discriminate.
Qed.
Lemma not_last_set id eps cs : ~ In id (set_ids cs) -> ~ last_set id eps cs.
Proof. intros N (a & b & -> & _). apply N, in_set_ids. exists eps. apply in_or_app. right. now left. Qed.
Lemma not_homogenised id cs : ~ In id (set_ids cs) -> ~ homogenised id cs.
Proof. intros N (a & e & b & f & orc & -> & _). apply N, in_set_ids. exists e. apply in_or_app. right. now left. Qed.

Lemma hist_step cs c o o' : obj_ok o -> obj_ok o' -> same_obj o o' -> gps_rel (o_env o) (o_ctan o) c (o_gps o) (o_gps o') ->
  hist cs o -> hist (cs ++ [c]) o'.
Proof.
  intros K K' (Ev & _ & _) G (Hi & Hg). unfold hist. rewrite set_ids_app. pose proof (ok_sane o K) as S. pose proof (ok_sane o' K') as S'.
  assert (U : (forall id eps, c <> SetStrain id eps) -> (forall f orc, c <> Homogenize f orc) ->
     forall l', map g_id l' = map g_id (o_gps o) ->
     (forall id, match lookup id (o_gps o), lookup id l' with
                 | Some g, Some g' => g_strain g' = g_strain g /\ (gp_done (o_env o) g -> gp_done (o_env o) g') /\ (gp_fresh g -> gp_fresh g')
                 | None, None => True | _, _ => False end) ->
     l' = o_gps o' -> map g_id (o_gps o') = first_use (set_ids cs ++ set_ids [c]) /\
     forall id g, lookup id (o_gps o') = Some g ->
      (forall eps, last_set id eps (cs ++ [c]) -> strain_is (o_env o') g eps) /\
      ((homogenised id (cs ++ [c]) /\ gp_done (o_env o') g) \/ (~ homogenised id (cs ++ [c]) /\ gp_fresh g))).
  { intros N1 N2 l' M R ->. assert (E0 : set_ids [c] = []) by (destruct c; try reflexivity; now elim (N1 id eps)).
    rewrite E0, app_nil_r, M. split; [exact Hi|]. intros id g' L'. specialize (R id). rewrite L' in R.
    destruct (lookup id (o_gps o)) as [g|] eqn:L; [|contradiction]. destruct R as (R1 & R2 & R3). destruct (Hg id g L) as (A & B). rewrite Ev. split.
    - intros eps H. apply last_set_snoc in H. destruct H as [H|(_ & H)]; [now elim (N1 id eps)|]. unfold strain_is. rewrite R1. now apply A.
    - rewrite homogenised_snoc. destruct B as [(B & C)|(B & C)]; [left; auto|right]. split; [|auto].
      intros [X|(_ & f & orc & X)]; [contradiction|now elim (N2 f orc)]. }
  assert (Q : (forall id eps, c <> SetStrain id eps) -> (forall f orc, c <> Homogenize f orc) -> o_gps o' = o_gps o -> map g_id (o_gps o') = first_use (set_ids cs ++ set_ids [c]) /\
     forall id g, lookup id (o_gps o') = Some g ->
      (forall eps, last_set id eps (cs ++ [c]) -> strain_is (o_env o') g eps) /\
      ((homogenised id (cs ++ [c]) /\ gp_done (o_env o') g) \/ (~ homogenised id (cs ++ [c]) /\ gp_fresh g))).
  { intros N1 N2 E. apply (U N1 N2 (o_gps o)); [reflexivity| |now symmetry]. intros id. destruct (lookup id (o_gps o)); auto. }
  destruct c; cbn [gps_rel] in G; try (apply Q; [discriminate|discriminate|exact G]).
  - (* SetStrain *)
    destruct G as (M & Oth & g' & L' & St & X). cbn [set_ids flat_map app]. rewrite first_use_snoc, M, Hi. split.
    + destruct (in_dec Z.eq_dec id (first_use (set_ids cs))) as [I|N], (in_dec Z.eq_dec id (set_ids cs)) as [I'|N']; try reflexivity; rewrite first_use_in in *; contradiction.
    + intros id' g1 L1. destruct (Z.eq_dec id' id) as [->|Hne].
      * rewrite L' in L1. injection L1 as <-. split.
        -- intros e H. apply last_set_snoc in H. destruct H as [[= <-]|(N & _)]; [now rewrite Ev|now elim (N eps)].
        -- rewrite homogenised_snoc. rewrite Ev in *. destruct (lookup id (o_gps o)) as [g|] eqn:L.
           ++ destruct (Hg id g L) as (_ & [(B & C)|(B & C)]).
              ** left. split; [now left|]. rewrite X. exact C.
              ** right. split; [intros [Y|(_ & f & orc & Y)]; [contradiction|discriminate]|]. rewrite X. exact C.
           ++ right. split; [|tauto]. intros [Y|(_ & f & orc & Y)]; [|discriminate]. apply (not_homogenised id cs); [|exact Y].
              apply lookup_none in L. rewrite Hi, first_use_in in L. exact L.
      * rewrite (Oth id' Hne) in L1. destruct (Hg id' g1 L1) as (A & B). rewrite Ev. split.
        -- intros e H. apply last_set_snoc in H. destruct H as [[= Y _]|(_ & H)]; [congruence|now apply A].
        -- rewrite homogenised_snoc. destruct B as [(B & C)|(B & C)]; [left; auto|right]. split; [|exact C].
           intros [Y|(_ & f & orc' & Y)]; [contradiction|discriminate].
  - (* Homogenize *)
    cbn [set_ids flat_map app]. rewrite app_nil_r, (rel_ids _ _ _ (homog_rel_id _ _ _ _) G). split; [exact Hi|].
    intros id g' L'. pose proof (rel_lookup _ _ _ id (homog_rel_id _ _ _ _) G) as R. rewrite L' in R.
    destruct (lookup id (o_gps o)) as [g|] eqn:L; [|contradiction]. destruct (Hg id g L) as (A & B).
    destruct R as (jj & w & w' & inv & _ & _ & _ & (_ & _ & D & _ & Es & _)). rewrite Ev. split.
    + intros e H. apply last_set_snoc in H. destruct H as [H|(_ & H)]; [discriminate|]. unfold strain_is. rewrite Es. now apply A.
    + left. split; [|exact D]. apply homogenised_snoc. right. split; [|eauto].
      apply first_use_in. rewrite <- Hi. apply lookup_in in L. destruct L as (L & <-). now apply in_map.
  - (* UpdateVars *)
    apply (U ltac:(discriminate) ltac:(discriminate) (o_gps o')); [|intros id|reflexivity].
    + apply (rel_ids (upd_rel (o_env o))); [|exact G]. intros g g' (H & _). exact H.
    + pose proof (rel_lookup (upd_rel (o_env o)) _ _ id ltac:(now intros g g' (H & _)) G) as R.
      destruct (lookup id (o_gps o)) as [g|], (lookup id (o_gps o')) as [g'|]; try contradiction; [|exact I].
      destruct R as (R1 & R2 & R3 & R4 & R5 & R6 & R7 & R8 & R9). split; [exact R3|]. split.
      * intros (D1 & D2 & D3 & D4). unfold gp_done. rewrite R2, R4, R5, R6. auto.
      * intros (D1 & D2 & D3 & D4 & D5 & D6). unfold gp_fresh. rewrite R2, R4, R5, R6, R8. rewrite D5, D6 in *. destruct R9. repeat split; auto.
Qed.

(** a new object *)
Definition fresh_obj o : Prop := obj_ok o /\ o_gps o = [].
Lemma run_hist o0 fs0 cs : fresh_obj o0 -> forall o fs rs, run cs (o0, fs0) = Ok (o, fs, rs) ->
  obj_ok o /\ same_obj o0 o /\ hist cs o.
Proof.
  intros (K0 & E0). induction cs as [|c cs IH] using rev_ind; intros o fs rs H.
  - cbn [run] in H. injection H as <- <- <-. split; [exact K0|]. split; [repeat split|]. unfold hist. rewrite E0. split; [reflexivity|]. discriminate.
  - apply run_snoc in H. destruct H as ((o1, fs1) & rs1 & r & H1 & H2 & _). destruct (IH _ _ _ H1) as (K1 & S1 & I1).
    pose proof (step_ok c o1 fs1 K1) as Q. rewrite H2 in Q. destruct Q as (K & S & G).
    split; [exact K|]. split; [destruct S1 as (?&?&?), S as (?&?&?); repeat split; congruence|].
    exact (hist_step cs c o1 o K1 K S G I1).
Qed.
(** no call of a sequence fails for another reason than its own *)
Lemma run_err o0 fs0 cs e : fresh_obj o0 -> run cs (o0, fs0) = Err e ->
  exists a c b o fs rs, cs = a ++ c :: b /\ run a (o0, fs0) = Ok (o, fs, rs) /\ obj_ok o /\ hist a o /\ same_obj o0 o /\ allowed o c e /\ step c (o, fs) = Err e.
Proof.
  intros F0 H. assert (X : exists a c b s rs, cs = a ++ c :: b /\ run a (o0, fs0) = Ok (s, rs) /\ step c s = Err e).
  { clear F0. revert o0 fs0 H. induction cs as [|c cs IH]; intros o0 fs0 H; cbn [run] in H; [discriminate|].
    destruct (step c (o0, fs0)) as [((o1, fs1), r)|e1] eqn:E; cbn [bind fst snd] in H.
    - destruct (run cs (o1, fs1)) as [q|e2] eqn:E2; cbn [bind] in H; [discriminate|]. injection H as ->.
      destruct (IH _ _ E2) as (a & c' & b & s & rs & -> & Ha & Hs). exists (c :: a), c', b, s, (r :: rs).
      split; [reflexivity|]. split; [|exact Hs]. cbn [run]. rewrite E. cbn [bind fst snd]. rewrite Ha. reflexivity.
    - injection H as ->. exists [], c, cs, (o0, fs0), []. auto. }
  destruct X as (a & c & b & (o, fs) & rs & -> & Ha & Hs). destruct (run_hist o0 fs0 a F0 o fs rs Ha) as (K & S & I).
  pose proof (step_ok c o fs K) as Q. rewrite Hs in Q. exists a, c, b, o, fs, rs. auto 8.
Qed.

(** ** Flags and committed variables *)
Definition flag id o : Z := get_nl_flag id (o_gps o).
Lemma flag_range id o : flag id o = 0 \/ flag id o = 1.
Proof. unfold flag, get_nl_flag. destruct lookup as [g|]; [|auto]. destruct (g_n g); auto. Qed.
Lemma flag_step c o fs o' fs' r id : obj_ok o -> step c (o, fs) = Ok (o', fs', r) -> flag id o = 1 -> flag id o' = 1.
Proof.
  intros K E. pose proof (step_ok c o fs K) as H. rewrite E in H. destruct H as (K' & _ & G). unfold flag, get_nl_flag.
  destruct (lookup id (o_gps o)) as [g|] eqn:L; [|discriminate]. destruct (g_n g) as [n|] eqn:En; [|discriminate]. intros _.
  destruct c; cbn [gps_rel] in G; try (rewrite G, L, En; reflexivity).
  - destruct G as (_ & O & g' & L' & _ & X). destruct (Z.eq_dec id id0) as [->|Hne].
    + rewrite L', L in *. rewrite X. cbn. now rewrite En.
    + rewrite (O id Hne), L, En. reflexivity.
  - pose proof (rel_lookup _ _ _ id (homog_rel_id _ _ _ _) G) as R. rewrite L in R. destruct (lookup id (o_gps o')) as [g'|]; [|contradiction].
    destruct R as (jj & w & w' & inv & _ & _ & _ & (_ & _ & _ & _ & _ & N & _)). unfold nframe in N. rewrite En in N. now rewrite N.
  - pose proof (rel_lookup (upd_rel (o_env o)) _ _ id ltac:(now intros g1 g2 (H & _)) G) as R. rewrite L in R.
    destruct (lookup id (o_gps o')) as [g'|]; [|contradiction]. destruct R as (_ & _ & _ & _ & _ & _ & _ & _ & R). rewrite En in R.
    destruct (lookup_ok o id g K L) as (Gg & _). pose proof (go_vars _ g Gg) as Gv. rewrite En in Gv. destruct (g_k g); [|contradiction].
    destruct R as (n' & -> & _). reflexivity.
Qed.
Lemma flag_2d o id : obj_ok o -> v_dim (o_env o) = 2 -> flag id o = 0.
Proof.
  intros K D. unfold flag, get_nl_flag. destruct (lookup id (o_gps o)) as [g|] eqn:L; [|reflexivity].
  destruct (lookup_ok o id g K L) as (Gg & _). now rewrite (go_2d _ g Gg D).
Qed.
(** committed variables; absent is zero *)
Definition committed V g (i : Z) : option T := match g_n g with Some n => aget n i | None => Some (dec 0 1) end.
Lemma nframe_committed V g g' : nframe V (g_n g) (g_n g') -> forall i, 0 <= i < nvars V -> committed V g' i = committed V g i.
Proof.
  unfold nframe, committed. destruct (g_n g) as [n|]; intros H i Hi; [now rewrite H|].
  destruct H as [->|(v & -> & R)]; [reflexivity|]. exact (proj2 R i Hi).
Qed.
End Hist.
