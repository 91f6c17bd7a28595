(** The ledger: erasure, what is held at any time, and what the destructor leaves. *)
From Coq Require Import Permutation ZifyBool.
From Verif Require Import Base Scalar EllSpec Grid EllModel AssemblyModel MicroModel OutputModel LedgerModel.
Open Scope Z_scope.

(** ** Heaps *)
Definition heap_ok (h : heap) : Prop := NoDup (h_live h) /\ forall b, In b (h_live h) -> b < h_next h.
(** the live blocks are those of [bl] and of [base] *)
Definition holds (base bl : list Z) (h : heap) : Prop := heap_ok h /\ Permutation (h_live h) (bl ++ base).

Lemma holds_start h : heap_ok h -> holds (h_live h) [] h.
Proof. intros H. split; [exact H|apply Permutation_refl]. Qed.
Lemma holds_perm base bl bl' h : Permutation bl bl' -> holds base bl h -> holds base bl' h.
Proof. intros P (H & Q). split; [exact H|]. etransitivity; [exact Q|]. now apply Permutation_app_tail. Qed.
Lemma holds_malloc base bl h : holds base bl h -> holds base (fst (hmalloc h) :: bl) (snd (hmalloc h)).
Proof.
  intros ((N & F) & P). unfold hmalloc. cbn [fst snd]. split; [split|]; cbn [h_live h_next].
  - constructor; [intros K; apply F in K; lia|exact N].
  - intros b [<-|K]; [lia|]. apply F in K. lia.
  - cbn [app]. now constructor.
Qed.
Lemma filter_remove (b : Z) l l' : NoDup l -> Permutation l (b :: l') -> Permutation (filter (fun x => negb (x =? b)) l) l'.
Proof.
  intros N P. assert (N' : NoDup (b :: l')) by (eapply Permutation_NoDup; eauto). inversion_clear N' as [|? ? Nb Nl].
  assert (E : filter (fun x => negb (x =? b)) l' = l').
  { clear - Nb. induction l' as [|a l IH]; [reflexivity|]. cbn [filter]. destruct (Z.eqb_spec a b) as [->|_]; [destruct Nb; now left|].
    cbn [negb]. rewrite IH; [reflexivity|]. intros K. apply Nb. now right. }
  assert (G : forall a c : list Z, Permutation a c -> Permutation (filter (fun x => negb (x =? b)) a) (filter (fun x => negb (x =? b)) c)).
  { induction 1 as [|x a c _ IH|x y a|a c e _ IH1 _ IH2]; cbn [filter]; [constructor| | |etransitivity; eauto].
    - destruct (x =? b); cbn [negb]; [exact IH|now constructor].
    - destruct (x =? b), (y =? b); cbn [negb]; try apply Permutation_refl; apply perm_swap. }
  etransitivity; [apply G, P|]. cbn [filter]. rewrite Z.eqb_refl. cbn [negb]. now rewrite E.
Qed.
Lemma holds_free base b bl h : holds base (b :: bl) h -> exists h', hfree (Some b) h = Ok h' /\ holds base bl h'.
Proof.
  intros ((N & F) & P). unfold hfree.
  assert (I : In b (h_live h)) by (eapply Permutation_in; [symmetry; exact P|now left]).
  replace (existsb (Z.eqb b) (h_live h)) with true.
  - eexists. split; [reflexivity|]. split; [split|]; cbn [h_live h_next].
    + now apply NoDup_filter.
    + intros x K. apply filter_In in K. now apply F.
    + now apply filter_remove.
  - symmetry. apply existsb_exists. exists b. split; [exact I|apply Z.eqb_refl].
Qed.

Definition blk (p : option Z) : list Z := match p with Some b => [b] | None => [] end.
Definition blks (ps : list (option Z)) : list Z := flat_map blk ps.
Lemma blks_some l : blks (map Some l) = l.
Proof. induction l as [|a l IH]; [reflexivity|]. cbn. f_equal. exact IH. Qed.
Lemma holds_frees base ps : forall bl h, holds base (blks ps ++ bl) h -> exists h', frees ps h = Ok h' /\ holds base bl h'.
Proof.
  unfold frees. induction ps as [|p ps IH]; intros bl h H; cbn [foldM].
  - exists h. split; [reflexivity|exact H].
  - destruct p as [b|]; cbn [blks flat_map blk app] in H.
    + destruct (holds_free base b _ h H) as (h1 & E & H1). cbn [hfree] in *. rewrite E. cbn [bind]. apply IH, H1.
    + cbn [hfree bind]. apply IH, H.
Qed.
Lemma holds_mallocs base n : forall bl h, holds base bl h ->
  holds base (fst (mallocs n h) ++ bl) (snd (mallocs n h)) /\ length (fst (mallocs n h)) = n.
Proof.
  induction n as [|n IH]; intros bl h H; cbn [mallocs]; [split; [exact H|reflexivity]|].
  assert (H1 := holds_malloc base bl h H). destruct (hmalloc h) as (b, h1). cbn [fst snd] in H1.
  destruct (IH _ _ H1) as (H2 & L). destruct (mallocs n h1) as (l, h2). cbn [fst snd] in *. split; [|cbn; now rewrite L].
  eapply holds_perm; [|exact H2]. cbn [app]. symmetry. apply Permutation_middle.
Qed.
Lemma holds_cg base bl h : holds base bl h -> exists h', cg_blocks h = Ok h' /\ holds base bl h'.
Proof.
  intros H. unfold cg_blocks. destruct (holds_mallocs base 5 bl h H) as (H1 & _). destruct (mallocs 5 h) as (l, h1). cbn [fst snd] in H1.
  apply holds_frees. now rewrite blks_some.
Qed.
Lemma holds_len base bl h : holds base bl h -> length (h_live h) = (length bl + length base)%nat.
Proof. intros (_ & P). now rewrite (Permutation_length P), app_length. Qed.

(** ** Computations that free what they allocate *)
(** [lm] computes what [m] computes and leaves the ledger with the same blocks *)
Definition tracks {A} (base bl : list Z) (m : res A) (lm : res (A * heap)) : Prop :=
  match m with
  | Ok a => exists h, lm = Ok (a, h) /\ holds base bl h
  | Err e => lm = Err e
  end.
Section Track.
Context {base bl : list Z}.
Notation tracks := (tracks base bl).
Lemma tracks_ok {A} (a : A) h : holds base bl h -> tracks (Ok a) (Ok (a, h)).
Proof. intros H. exists h. split; [reflexivity|exact H]. Qed.
Lemma tracks_pure {A B} (m : res A) (k : A -> res B) lk : (forall a, tracks (k a) (lk a)) -> tracks (bind m k) (bind m lk).
Proof. intros H. destruct m as [a|e]; cbn [bind]; [apply H|reflexivity]. Qed.
Lemma tracks_bind {A B} (m : res A) lm (k : A -> res B) lk : tracks m lm -> (forall a h, holds base bl h -> tracks (k a) (lk (a, h))) ->
  tracks (bind m k) (bind lm lk).
Proof.
  intros H K. unfold LedgerProps.tracks in H. destruct m as [a|e]; [destruct H as (h & -> & H)|rewrite H]; cbn [bind]; [now apply K|reflexivity].
Qed.
Lemma tracks_fold {A St} (f : St -> A -> res St) lf (l : list A) : (forall st h x, holds base bl h -> tracks (f st x) (lf (st, h) x)) ->
  forall st h, holds base bl h -> tracks (foldM f l st) (foldM lf l (st, h)).
Proof.
  intros H. induction l as [|x l IH]; intros st h Hh; cbn [foldM]; [now apply tracks_ok|].
  apply tracks_bind; [now apply H|]. intros a h' H'. now apply IH.
Qed.

Context {T : Type} `{OT : Ops T}.
Lemma tr_newton_loop fuel pk (V : env T) cell : forall k w h, holds base bl h ->
  tracks (newton_loop fuel pk V cell k w) (l_newton_loop fuel pk V cell k w h).
Proof.
  induction fuel as [|fuel IH]; intros k w h H; cbn [newton_loop l_newton_loop]; [reflexivity|].
  apply tracks_pure. intros (((w1 & nl) & er) & brk). destruct brk; [now apply tracks_ok|].
  destruct (holds_cg base bl h H) as (h1 & -> & H1). cbn [bind]. apply tracks_pure. intros i.
  destruct (_ && _)%bool; [now apply IH|now apply tracks_ok].
Qed.
Lemma tr_newton fuel pk (V : env T) w h : holds base bl h -> tracks (newton fuel pk V w) (l_newton fuel pk V w h).
Proof. apply tr_newton_loop. Qed.
Lemma tr_respond fuel pk (V : env T) eps w h : holds base bl h -> tracks (respond fuel pk V eps w) (l_respond fuel pk V eps w h).
Proof.
  intros H. unfold respond, l_respond. apply tracks_pure. intros u. apply tracks_bind; [now apply tr_newton|].
  intros (((w1 & nl) & its) & er) h1 H1. apply tracks_pure. intros s. now apply tracks_ok.
Qed.
Lemma tr_ctan_lin fuel orc (V : env T) w c h : holds base bl h -> tracks (calc_ctan_lin fuel orc V w c) (l_ctan_lin fuel orc V w c h).
Proof.
  intros H. unfold calc_ctan_lin, l_ctan_lin. apply tracks_fold; [|exact H]. clear. intros (w & c) h i H.
  cbn [fst snd]. apply tracks_bind; [now apply tr_respond|]. intros ((((w1 & nl) & its) & er) & s) h1 H1.
  apply tracks_pure. intros c1. now apply tracks_ok.
Qed.
Lemma tr_homog_ctan fuel orc (V : env T) eps s0 w ctan its ers h : holds base bl h ->
  tracks (homog_ctan fuel orc V eps s0 w ctan its ers) (l_homog_ctan fuel orc V eps s0 w ctan its ers h).
Proof.
  intros H. unfold homog_ctan, l_homog_ctan. apply tracks_fold; [|exact H]. clear. intros (((w & ctan) & its) & ers) h i H.
  apply tracks_bind; [now apply tr_respond|]. intros ((((w1 & nl) & it) & er) & s) h1 H1.
  do 3 (apply tracks_pure; intros ?). now apply tracks_ok.
Qed.
End Track.

(** ** The object *)
Section Object.
Context {T : Type} `{OT : Ops T}.
(** the pointers of a Gauss point are both NULL or both set, as its buffers are *)
Definition paired (g : gp T) (p : option Z * option Z) : Prop :=
  match g_n g, p with None, (None, None) => True | Some _, (Some _, Some _) => True | _, _ => False end.
Definition gblks (ps : list (option Z * option Z)) : list Z := blks (flat_map (fun q => [fst q; snd q]) ps).
Definition pblks (p : ptrs) : list Z := p_own p ++ gblks (p_gps p).
Definition owned (base : list Z) (o : obj T) (p : ptrs) (h : heap) : Prop :=
  length (p_own p) = 10%nat /\ Forall2 paired (o_gps o) (p_gps p) /\ holds base (pblks p) h.

Lemma gblks_cons p ps : gblks (p :: ps) = blk (fst p) ++ blk (snd p) ++ gblks ps.
Proof. unfold gblks, blks. cbn [flat_map app]. reflexivity. Qed.
Lemma gblks_app a b : gblks (a ++ b) = gblks a ++ gblks b.
Proof. unfold gblks, blks. rewrite flat_map_app. apply flat_map_app. Qed.

Lemma keep_paired V nl vnew g nk p base bl h : keep_vars V nl vnew g = Ok nk -> paired g p -> holds base (blk (fst p) ++ blk (snd p) ++ bl) h ->
  let p' := fst (l_keep nl p h) in
  holds base (blk (fst p') ++ blk (snd p') ++ bl) (snd (l_keep nl p h)) /\
  forall g', g_n g' = fst nk -> paired g' p'.
Proof.
  unfold keep_vars, l_keep. intros K P H. destruct nl; cycle 1.
  { injection K as <-. cbn [fst snd]. split; [exact H|]. intros g' E. unfold paired in *. now rewrite E. }
  destruct p as (pn, pk). unfold paired in P. destruct (g_n g) as [n|] eqn:En.
  - destruct pn as [pn|]; [|contradiction]. destruct pk as [pk|]; [|contradiction]. cbn [fst snd]. split; [exact H|].
    intros g' E. unfold paired. rewrite E. apply bind_ok in K. destruct K as (k0 & _ & K). apply bind_ok in K. destruct K as (k & _ & K).
    injection K as <-. exact I.
  - destruct pn; [contradiction|]. destruct pk; [contradiction|]. cbn [fst snd blk app] in H |- *.
    assert (H1 := holds_malloc _ _ _ H). assert (H2 := holds_malloc _ _ _ H1).
    destruct (hmalloc h) as (k, h1). cbn [fst snd] in *. destruct (hmalloc h1) as (n, h2). cbn [fst snd blk app] in *. split.
    + exact H2.
    + intros g' E. unfold paired. rewrite E. apply bind_ok in K. destruct K as (k0 & _ & K). apply bind_ok in K. destruct K as (k1 & _ & K).
      injection K as <-. exact I.
Qed.

Lemma tr_homog_gp base bl fuel orc V c (w : work T) g p h : paired g p -> holds base (blk (fst p) ++ blk (snd p) ++ bl) h ->
  match homog_gp fuel orc V c w g with
  | Ok (w', inv, g') => exists p' h', l_homog_gp fuel orc V c w g p h = Ok (w', inv, g', p', h') /\ paired g' p' /\ holds base (blk (fst p') ++ blk (snd p') ++ bl) h'
  | Err e => l_homog_gp fuel orc V c w g p h = Err e
  end.
Proof.
  intros P H. unfold homog_gp, l_homog_gp.
  destruct (load_vars V (g_n g) (w_vold w)) as [vold|e]; cbn [bind]; [|reflexivity].
  destruct (is_linear V c (g_strain g) inv_min) as [li|e]; cbn [bind]; [|reflexivity].
  destruct (fst li && _)%bool.
  { destruct (homog_linear V c g (snd li)) as [g'|e] eqn:L; cbn [bind]; [|reflexivity]. exists p, h. split; [reflexivity|]. split; [|exact H].
    unfold homog_linear in L. repeat (apply bind_ok in L; destruct L as (? & _ & L)). injection L as <-. exact P. }
  destruct (rdl (g_strain g) (nvoi V)) as [eps|e]; cbn [bind]; [|reflexivity].
  assert (R := tr_respond (base := base) fuel (orc 0) V eps (set_vold w vold) h H). unfold tracks in R.
  destruct (respond fuel (orc 0) V eps (set_vold w vold)) as [((((w1 & nl) & it) & er) & s)|e]; [destruct R as (h1 & -> & H1)|rewrite R]; cbn [bind]; [|reflexivity].
  destruct (wrl (g_stress g) s (nvoi V)) as [stress|e]; cbn [bind]; [|reflexivity].
  destruct (keep_vars V nl (w_vnew w1) g) as [nk|e] eqn:Kp; cbn [bind]; [|reflexivity].
  assert (K := keep_paired V nl (w_vnew w1) g nk p base bl h1 Kp P H1). cbn zeta in K.
  destruct (l_keep nl p h1) as (p2, h2). cbn [fst snd] in K. destruct K as (H2 & P2).
  destruct (wr (g_its g) 0 it) as [its|e]; cbn [bind]; [|reflexivity].
  destruct (wr (g_err g) 0 er) as [ers|e]; cbn [bind]; [|reflexivity].
  assert (R := tr_homog_ctan (base := base) fuel orc V eps s w1 (g_ctan g) its ers h2 H2). unfold tracks in R.
  destruct (homog_ctan fuel orc V eps s w1 (g_ctan g) its ers) as [(((w3 & ctan) & its3) & ers3)|e]; [destruct R as (h3 & -> & H3)|rewrite R]; cbn [bind]; [|reflexivity].
  exists p2, h3. split; [reflexivity|]. split; [apply P2; reflexivity|exact H3].
Qed.

Lemma rot {A} (a b g o q : list A) : Permutation (a ++ b ++ g ++ o ++ q) (g ++ o ++ q ++ a ++ b).
Proof. rewrite (app_assoc a b), (app_assoc o q), (app_assoc g (o ++ q)), (Permutation_app_comm (a ++ b)). rewrite <- !app_assoc. apply Permutation_refl. Qed.

Lemma tr_homog_fold base fuel orc V c (l : list (gp T)) : forall own (ps : list (option Z * option Z)) w inv done j qs h,
  Forall2 paired l ps -> Forall2 paired done qs -> holds base (gblks ps ++ own ++ gblks qs) h ->
  match foldM (fun st g => let '(w, _, done, j) := st in
    ' r <- homog_gp fuel (orc j) V c w g ;; let '(w, inv, g) := r in Ok (w, Some inv, done ++ [g], (j + 1)%Z)) l (w, inv, done, j) with
  | Ok (w', inv', l', j') => exists qs' h', foldM (fun st gq => let '(w, _, done, j, ps, h) := st in
      ' r <- l_homog_gp fuel (orc j) V c w (fst gq) (snd gq) h ;;
      let '(w, inv, g, p, h) := r in
      Ok (w, Some inv, done ++ [g], (j + 1)%Z, ps ++ [p], h)) (combine l ps) (w, inv, done, j, qs, h) = Ok (w', inv', l', j', qs', h') /\
      Forall2 paired l' qs' /\ holds base (own ++ gblks qs') h'
  | Err e => foldM (fun st gq => let '(w, _, done, j, ps, h) := st in
      ' r <- l_homog_gp fuel (orc j) V c w (fst gq) (snd gq) h ;;
      let '(w, inv, g, p, h) := r in
      Ok (w, Some inv, done ++ [g], (j + 1)%Z, ps ++ [p], h)) (combine l ps) (w, inv, done, j, qs, h) = Err e
  end.
Proof.
  induction l as [|g l IH]; intros own ps w inv done j qs h F D H; (destruct ps as [|p ps']; [try solve [inversion F]|try solve [inversion F]]); cbn [foldM combine].
  - exists qs, h. split; [reflexivity|]. split; [exact D|exact H].
  - assert (P : paired g p) by (inversion F; assumption). assert (F' : Forall2 paired l ps') by (inversion F; assumption).
    cbn [fst snd]. rewrite gblks_cons, <- !app_assoc in H.
    assert (R := tr_homog_gp base _ fuel (orc j) V c w g p h P H).
    destruct (homog_gp fuel (orc j) V c w g) as [((w1 & inv1) & g1)|e]; [destruct R as (p1 & h1 & -> & P1 & H1)|rewrite R]; cbn [bind]; [|reflexivity].
    apply IH; [exact F'|apply Forall2_app; [exact D|repeat constructor; exact P1]|].
    eapply holds_perm; [|exact H1]. rewrite gblks_app, gblks_cons. unfold gblks at 4. cbn [flat_map blks]. rewrite app_nil_r. apply rot.
Qed.

Lemma paired_new (V : env T) id eps g : new_gp V id eps = Ok g -> paired g (None, None).
Proof. unfold new_gp. intros E. apply bind_ok in E. destruct E as (e & _ & E). injection E as <-. exact I. Qed.
Lemma paired_set V id eps : forall (l l' : list (gp T)) ps, set_strain V id eps l = Ok l' -> Forall2 paired l ps -> Forall2 paired l' (l_set id l ps).
Proof.
  unfold l_set. induction l as [|g l IH]; intros l' ps E F.
  - cbn [set_strain] in E. apply bind_ok in E. destruct E as (g & E & E'). injection E' as <-. inversion F. subst ps. cbn [lookup app]. constructor; [eapply paired_new; eauto|constructor].
  - destruct ps as [|p ps]; [inversion F|]. assert (P : paired g p) by (inversion F; assumption). assert (F' : Forall2 paired l ps) by (inversion F; assumption).
    cbn [set_strain] in E. cbn [lookup]. destruct (g_id g =? id) eqn:Ei.
    + apply bind_ok in E. destruct E as (e & _ & E). injection E as <-. constructor; [exact P|exact F'].
    + apply bind_ok in E. destruct E as (l1 & E & E'). injection E' as <-. specialize (IH l1 ps E F').
      destruct (lookup id l); cbn [app]; constructor; assumption.
Qed.
Lemma gblks_set id (l : list (gp T)) ps : gblks (l_set id l ps) = gblks ps.
Proof. unfold l_set. destruct (lookup id l); [reflexivity|]. rewrite gblks_app. cbn. apply app_nil_r. Qed.
Lemma paired_update V : forall (l l' : list (gp T)) ps, mapM (update_gp V) l = Ok l' -> Forall2 paired l ps -> Forall2 paired l' ps.
Proof.
  induction l as [|g l IH]; intros l' ps E F; cbn [mapM] in E.
  - injection E as <-. exact F.
  - destruct ps as [|p ps]; [inversion F|]. assert (P : paired g p) by (inversion F; assumption). assert (F' : Forall2 paired l ps) by (inversion F; assumption).
    apply bind_ok in E. destruct E as (g1 & E1 & E). apply bind_ok in E. destruct E as (l1 & E2 & E). injection E as <-. constructor; [|eapply IH; eauto].
    unfold update_gp in E1. destruct (g_n g) as [n|] eqn:En; [|injection E1 as <-; exact P].
    apply bind_ok in E1. destruct E1 as (k & _ & E1). apply bind_ok in E1. destruct E1 as (n1 & _ & E1). injection E1 as <-.
    unfold paired in *. rewrite En in P. cbn [g_n]. exact P.
Qed.

(** every call computes what [step] computes and keeps the ledger in order *)
Theorem l_step_ok base c (o : obj T) fs p h : owned base o p h ->
  match step c (o, fs) with
  | Ok (o', fs', r) => exists p' h', l_step c (o, fs) p h = Ok (o', fs', r, p', h') /\ owned base o' p' h'
  | Err e => l_step c (o, fs) p h = Err e
  end.
Proof.
  intros W. destruct W as (L & F & H).
  assert (same : forall o' (fs' : files T) (r : reply T), o_gps o' = o_gps o -> exists p' h', Ok (o', fs', r, p, h) = Ok (o', fs', r, p', h') /\ owned base o' p' h').
  { intros o' fs' r E. exists p, h. split; [reflexivity|]. split; [exact L|split; [now rewrite E|exact H]]. }
  destruct c as [id eps|id|id|id|fuel orc| |fuel pk t id|]; cbn [step l_step].
  - destruct (_ <? _); cbn [bind]; [reflexivity|].
    destruct (set_strain (o_env o) id eps (o_gps o)) as [l|e] eqn:E; cbn [bind]; [|reflexivity].
    eexists _, _. split; [reflexivity|].
    split; [exact L|]. split; [cbn [p_gps]; eapply paired_set; eauto|]. unfold pblks. cbn [p_own p_gps]. rewrite gblks_set. exact H.
  - destruct (get_macro_stress (o_env o) id (o_gps o)) as [b|e]; cbn [bind]; [|reflexivity]. now apply same.
  - destruct (get_macro_ctan (o_env o) id (o_gps o)) as [b|e]; cbn [bind]; [|reflexivity]. now apply same.
  - cbn [bind]. now apply same.
  - unfold homogenize, homog_list, l_homog_list. set (own := p_own p) in *.
    assert (R := tr_homog_fold base fuel orc (o_env o) (o_ctan o) (o_gps o) own (p_gps p) (o_work o) (o_inv_max o) [] 0 [] h F (Forall2_nil _)).
    assert (H' : holds base (gblks (p_gps p) ++ own ++ gblks []) h).
    { eapply holds_perm; [|exact H]. unfold pblks, gblks at 3. cbn [flat_map blks]. rewrite app_nil_r. apply Permutation_app_comm. }
    specialize (R H'). destruct (foldM _ (o_gps o) _) as [(((w & inv) & l) & j)|e]; [|rewrite R; reflexivity].
    destruct R as (qs & h' & E & P & H2). cbn [bind]. rewrite E. cbn [bind].
    eexists _, _. split; [reflexivity|]. split; [exact L|split; [exact P|exact H2]].
  - destruct (update_vars o) as [o1|e] eqn:E; cbn [bind]; [|reflexivity]. exists p, h. split; [reflexivity|].
    unfold update_vars in E. apply bind_ok in E. destruct E as (l & E & E'). injection E' as <-. split; [exact L|]. split; [|exact H]. cbn [set_gps o_gps]. eapply paired_update; eauto.
  - unfold output. destruct (lookup id (o_gps o)) as [g|]; [|cbn [bind]; now apply same].
    destruct (load_vars _ _ _) as [vold|e]; cbn [bind]; [|reflexivity].
    destruct (rdl _ _) as [eps|e]; cbn [bind]; [|reflexivity].
    destruct (set_displ _ _ _) as [u|e]; cbn [bind]; [|reflexivity].
    assert (R := tr_newton (base := base) fuel pk (o_env o) (set_u (set_vold (o_work o) vold) u) h H). unfold tracks in R.
    destruct (newton _ _ _ _) as [r|e]; [destruct R as (h1 & -> & H1)|rewrite R]; cbn [bind fst snd]; [|reflexivity].
    destruct (calc_fields _ _ _ _ _ _) as [f|e]; cbn [bind]; [|reflexivity].
    destruct (write_vtu _) as [t'|e]; cbn [bind]; [|reflexivity].
    exists p, h1. split; [reflexivity|]. split; [exact L|split; [exact F|exact H1]].
  - destruct (write_info_files o fs) as [(o1 & fs1)|e] eqn:E; cbn [bind]; [|reflexivity]. apply same.
    unfold write_info_files in E. destruct (if o_header o then _ else _) as (h1, h2). repeat (apply bind_ok in E; destruct E as (? & _ & E)). injection E as <- _. reflexivity.
Qed.

Theorem l_run_ok base cs : forall (o : obj T) fs p h, owned base o p h ->
  match run cs (o, fs) with
  | Ok (o', fs', rs) => exists p' h', l_run cs (o, fs) p h = Ok (o', fs', rs, p', h') /\ owned base o' p' h'
  | Err e => l_run cs (o, fs) p h = Err e
  end.
Proof.
  induction cs as [|c cs IH]; intros o fs p h W; cbn [run l_run].
  - exists p, h. split; [reflexivity|exact W].
  - assert (R := l_step_ok base c o fs p h W). destruct (step c (o, fs)) as [((o1 & fs1) & r)|e]; [destruct R as (p1 & h1 & -> & W1)|rewrite R]; cbn [bind fst snd]; [|reflexivity].
    specialize (IH o1 fs1 p1 h1 W1). destruct (run cs (o1, fs1)) as [((o2 & fs2) & rs)|e]; [destruct IH as (p2 & h2 & -> & W2)|rewrite IH]; cbn [bind fst snd]; [|reflexivity].
    exists p2, h2. split; [reflexivity|exact W2].
Qed.

Theorem l_construct_ok fuel orc (j : junk T) dim size mtype mp mt ps h base : holds base [] h ->
  match construct fuel orc j dim size mtype mp mt ps with
  | Ok o => exists p h', l_construct fuel orc j dim size mtype mp mt ps h = Ok (o, p, h') /\ owned base o p h' /\ o_gps o = []
  | Err e => l_construct fuel orc j dim size mtype mp mt ps h = Err e
  end.
Proof.
  intros H. unfold construct, l_construct. destruct (make_env j dim size mtype mp) as [V|e]; cbn [bind]; [|reflexivity].
  destruct (negb _); [reflexivity|].
  destruct (holds_mallocs base 8 [] h H) as (H1 & L1). destruct (mallocs 8 h) as (own, h1). cbn [fst snd] in H1, L1. rewrite app_nil_r in H1.
  destruct (negb _); [reflexivity|].
  destruct (mapM (arg mp) _) as [prm|e]; cbn [bind]; [|reflexivity].
  destruct (mapM (make_material mt ps) _) as [mats|e]; cbn [bind]; [|reflexivity].
  destruct (fill_types _) as [et|e]; cbn [bind]; [|reflexivity].
  destruct (holds_mallocs base 2 own h1 H1) as (H2 & L2). destruct (mallocs 2 h1) as (mat, h2). cbn [fst snd] in H2, L2.
  cbn [v_nx v_ny v_nz v_dim] in *.
  match goal with |- context [bind ?m _] => destruct m as [A|e] end; cbn [bind]; [|reflexivity].
  match goal with |- context [calc_ctan_lin _ _ ?V ?w ?c] => assert (R := tr_ctan_lin (base := base) fuel orc V w c h2 H2) end. unfold tracks in R.
  match goal with |- context [calc_ctan_lin ?a ?b ?V ?w ?c] => destruct (calc_ctan_lin a b V w c) as [(w3 & c3)|e] end; [destruct R as (h3 & -> & H3)|rewrite R]; cbn [bind fst snd]; [|reflexivity].
  eexists _, _. split; [reflexivity|]. split; [|reflexivity]. split; [cbn [p_own]; rewrite app_length, L1, L2; reflexivity|]. split; [constructor|].
  unfold pblks. cbn [p_own p_gps gblks flat_map blks]. change (gblks []) with (@nil Z). rewrite app_nil_r. exact H3.
Qed.

Theorem l_destroy_ok base (o : obj T) p h : owned base o p h -> exists h', l_destroy p h = Ok h' /\ Permutation (h_live h') base.
Proof.
  intros (_ & _ & H). unfold l_destroy, pblks in *.
  destruct (holds_frees base (map Some (p_own p)) (gblks (p_gps p)) h) as (h1 & -> & H1); [now rewrite blks_some|]. cbn [bind].
  destruct (holds_frees base (flat_map (fun q => [fst q; snd q]) (p_gps p)) [] h1) as (h2 & E & _ & P); [rewrite app_nil_r; exact H1|].
  exists h2. split; [exact E|exact P].
Qed.

(** the points with internal variables *)
Definition nonlinear (g : gp T) : bool := match g_n g with Some _ => true | None => false end.
Lemma gblks_count (l : list (gp T)) ps : Forall2 paired l ps -> length (gblks ps) = (2 * length (filter nonlinear l))%nat.
Proof.
  induction 1 as [|g p l ps P _ IH]; [reflexivity|]. rewrite gblks_cons, !app_length, IH. cbn [filter]. unfold paired in P. unfold nonlinear at 2.
  destruct (g_n g), p as ([|] & [|]); try contradiction; cbn [fst snd blk length]; lia.
Qed.
Lemma owned_len base (o : obj T) p h : owned base o p h -> length (h_live h) = (length base + 10 + 2 * length (filter nonlinear (o_gps o)))%nat.
Proof. intros (L & F & H). rewrite (holds_len _ _ _ H). unfold pblks. rewrite app_length, L, (gblks_count _ _ F). lia. Qed.

(** construction, any calls, destruction *)
Theorem ledger fuel orc (j : junk T) dim size mtype mp mt ps h0 cs fs : heap_ok h0 ->
  match construct fuel orc j dim size mtype mp mt ps with
  | Err e => l_construct fuel orc j dim size mtype mp mt ps h0 = Err e
  | Ok o => exists p h, l_construct fuel orc j dim size mtype mp mt ps h0 = Ok (o, p, h) /\
      match run cs (o, fs) with
      | Err e => l_run cs (o, fs) p h = Err e
      | Ok (o', fs', rs) => exists p' h' h'', l_run cs (o, fs) p h = Ok (o', fs', rs, p', h') /\
          length (h_live h') = (length (h_live h0) + 10 + 2 * length (filter nonlinear (o_gps o')))%nat /\
          l_destroy p' h' = Ok h'' /\ Permutation (h_live h'') (h_live h0)
      end
  end.
Proof.
  intros H. assert (R := l_construct_ok fuel orc j dim size mtype mp mt ps h0 _ (holds_start h0 H)).
  destruct (construct fuel orc j dim size mtype mp mt ps) as [o|e]; [|exact R]. destruct R as (p & h & E & W & _). exists p, h. split; [exact E|].
  assert (R := l_run_ok _ cs o fs p h W). destruct (run cs (o, fs)) as [((o' & fs') & rs)|e]; [|exact R]. destruct R as (p' & h' & E' & W').
  destruct (l_destroy_ok _ _ _ _ W') as (h'' & E'' & P). exists p', h', h''. split; [exact E'|]. split; [now apply owned_len with (p := p')|]. split; [exact E''|exact P].
Qed.

(** ** The wrapper *)
Definition is_new (c : wcall T) : bool := match c with WConstruct _ _ _ _ _ _ _ _ _ => true | _ => false end.
(** at least [n] blocks are live whatever the object does *)
Definition at_least (n : nat) (oo : option (obj T)) (p : ptrs) (h : heap) : Prop :=
  heap_ok h /\ match oo with Some o => exists base, owned base o p h /\ (n <= length base + 10)%nat | None => (n <= length (h_live h))%nat end.
Lemma at_least_len n oo p h : at_least n oo p h -> (n <= length (h_live h))%nat.
Proof. intros (_ & H). destruct oo as [o|]; [|exact H]. destruct H as (base & W & L). rewrite (owned_len _ _ _ _ W). lia. Qed.
Lemma l_wrun_leaks ws : forall (s : option (obj T) * files T) p h n, at_least n (fst s) p h ->
  match wrun ws s with
  | Ok (s', rs) => exists p' h', l_wrun ws s p h = Ok (s', rs, p', h') /\ (n + 11 * length (filter is_new ws) <= length (h_live h'))%nat
  | Err e => l_wrun ws s p h = Err e
  end.
Proof.
  induction ws as [|c ws IH]; intros s p h n H; cbn [wrun l_wrun].
  - destruct s as (oo & fs). exists p, h. split; [reflexivity|]. cbn [filter length]. apply at_least_len in H. lia.
  - destruct s as (oo & fs). destruct c as [fuel orc j dim size mtype mp mt ps|c]; cbn [l_wstep wstep].
    + assert (Hl := at_least_len _ _ _ _ H). destruct H as (Hh & _).
      assert (H1 := holds_malloc _ _ _ (holds_start h Hh)). destruct (hmalloc h) as (b, hb). cbn [fst snd] in H1.
      assert (H1' : holds (b :: h_live h) [] hb) by (destruct H1 as (A & B); split; [exact A|exact B]).
      assert (R := l_construct_ok fuel orc j dim size mtype mp mt ps hb _ H1').
      destruct (construct fuel orc j dim size mtype mp mt ps) as [o|e]; [|rewrite R; reflexivity].
      destruct R as (p4 & h4 & -> & W & _). cbn [bind fst snd].
      specialize (IH (Some o, construct_files o fs) p4 h4 (n + 11)%nat).
      assert (G : at_least (n + 11) (Some o) p4 h4) by (split; [apply W|eexists; split; [exact W|cbn [length]; lia]]). specialize (IH G).
      destruct (wrun ws _) as [((oo2 & fs2) & qs)|e]; [|rewrite IH; reflexivity]. destruct IH as (p2 & h2 & -> & L). cbn [bind fst snd].
      exists p2, h2. split; [reflexivity|]. cbn [filter is_new length]. lia.
    + destruct oo as [o|]; cbn [bind]; [|reflexivity]. destruct H as (Hh & base & W & L). assert (R := l_step_ok base c o fs p h W).
      destruct (step c (o, fs)) as [((o4 & fs4) & q4)|e]; [|rewrite R; reflexivity]. destruct R as (p4 & h4 & -> & W4). cbn [bind fst snd].
      assert (G : at_least n (Some o4) p4 h4) by (split; [apply W4|exists base; split; [exact W4|exact L]]). specialize (IH (Some o4, fs4) p4 h4 n G).
      destruct (wrun ws _) as [((oo2 & fs2) & qs)|e]; [|rewrite IH; reflexivity]. destruct IH as (p2 & h2 & -> & L2). cbn [bind fst snd].
      exists p2, h2. split; [reflexivity|]. cbn [filter is_new]. exact L2.
Qed.
Theorem wrapper_leaks ws fs h0 : heap_ok h0 ->
  match wrun ws (None, fs) with
  | Ok (s', rs) => exists p' h', l_wrun ws (None, fs) (mkPtrs [] []) h0 = Ok (s', rs, p', h') /\
      (length (h_live h0) + 11 * length (filter is_new ws) <= length (h_live h'))%nat
  | Err e => l_wrun ws (None, fs) (mkPtrs [] []) h0 = Err e
  end.
Proof. intros H. apply l_wrun_leaks. split; [exact H|]. cbn [fst]. lia. Qed.

(** ** The solvers *)
Theorem cg_releases slot (s : solver T) m nF nn b x h r h' : heap_ok h -> l_cg slot s m nF nn b x h = Ok (r, h') ->
  cgpd slot s m nF nn b x = Ok r /\ Permutation (h_live h') (h_live h).
Proof.
  intros H E. unfold l_cg in E. apply bind_ok in E. destruct E as (r1 & E1 & E). destruct (holds_cg _ _ _ (holds_start h H)) as (h1 & E2 & _ & P).
  rewrite E2 in E. injection E as <- <-. split; [exact E1|exact P].
Qed.
Theorem jacobi_leaks (s : solver T) m nF nx ny b x h r h' : heap_ok h -> l_jacobi s m nF nx ny b x h = Ok (r, h') ->
  ell_solve_jacobi_2D s m nF nx ny b x = Ok r /\ exists k e, ~ In k (h_live h) /\ ~ In e (h_live h) /\ k <> e /\ h_live h' = k :: e :: h_live h.
Proof.
  intros (_ & F) E. unfold l_jacobi, jacobi_blocks in E. cbn in E. apply bind_ok in E. destruct E as (r1 & E1 & E). injection E as <- <-. split; [exact E1|].
  exists (h_next h + 1), (h_next h). cbn [h_live]. repeat split; try lia; intros K; apply F in K; lia.
Qed.
End Object.
