(** Homogenisation over any arithmetic: invariants of the object, errors that can occur,
    and what each call leaves alone. *)
From Coq Require Import ZifyBool.
From Verif Require Import Base Scalar EllSpec EllModel EllFinal Grid AssemblyModel AsmPure AsmRun MicroModel OutputModel NewtonBase.

Lemma mapM_ok {A B} (f : A -> res B) (g : A -> B) l : (forall x, In x l -> f x = Ok (g x)) -> mapM f l = Ok (map g l).
Proof.
  intros H. induction l as [|a l IH]; [reflexivity|]. cbn [mapM map]. rewrite (H a) by now left. cbn [bind].
  rewrite IH; [reflexivity|]. intros x Hx. apply H. now right.
Qed.

Section Api.
Context {T : Type} `{OT : Ops T}.
Implicit Types (V : env T) (w : work T) (g : gp T) (o : obj T).

(** the first n entries initialised *)
Definition pfull {A} (a : arr A) (n : Z) : Prop := forall i, 0 <= i < n -> exists x, aget a i = Some x.
Record gp_ok V g : Prop := {
  go_its : alen (g_its g) = 7; go_strain : alen (g_strain g) = 6; go_e : pfull (g_strain g) (nvoi V);
  go_stress : alen (g_stress g) = 6; go_ctan : alen (g_ctan g) = 36; go_err : alen (g_err g) = 7;
  go_vars : match g_n g, g_k g with
            | None, None => True
            | Some n, Some k => full n (nvars V) /\ full k (nvars V)
            | _, _ => False end;
  go_2d : v_dim V = 2 -> g_n g = None }.
(** homogenised at least once; never *)
Definition gp_done V g : Prop := pfull (g_stress g) (nvoi V) /\ pfull (g_ctan g) (nvoi V * nvoi V) /\
  pfull (g_its g) (1 + nvoi V) /\ pfull (g_err g) (1 + nvoi V).
Definition gp_fresh g : Prop := g_stress g = malloc 6 /\ g_ctan g = malloc 36 /\ g_its g = malloc 7 /\ g_err g = malloc 7 /\
  g_n g = None /\ g_k g = None.
Definition wfull V w : Prop := wok V w /\ full (w_vold w) (nvars V) /\ full (w_vnew w) (nvars V).

Lemma nvoi_cases V : sane V -> v_dim V = 2 /\ nvoi V = 3 \/ v_dim V = 3 /\ nvoi V = 6.
Proof. intros S. unfold nvoi. destruct (dim_cases V S) as [D|D]; rewrite D; auto. Qed.
Lemma nvoi_range V : sane V -> 3 <= nvoi V <= 6.
Proof. intros S. destruct (nvoi_cases V S) as [(_ & E)|(_ & E)]; lia. Qed.
Lemma nvoi2_range V : sane V -> 0 <= nvoi V * nvoi V <= 36.
Proof. intros S. destruct (nvoi_cases V S) as [(_ & E)|(_ & E)]; rewrite E; lia. Qed.
Lemma nvars_pos V : sane V -> 0 <= nvars V.
Proof.
  intros S. rewrite nvars_eq. unfold ncells, nelem. pose proof (sa_nx V S). pose proof (sa_ny V S).
  destruct (dim_cases V S) as [D|D]; rewrite D; cbn [Z.eqb Pos.eqb]; [nia|]. pose proof (sane_nz V S D).
  assert (0 <= (v_nx V - 1) * (v_ny V - 1)) by nia. nia.
Qed.

Lemma pfull_rd {A} (a : arr A) n i : pfull a n -> 0 <= i < n -> exists x, rd a i = Ok x /\ aget a i = Some x.
Proof. intros P Hi. destruct (P i Hi) as (x & E). exists x. split; [now apply rd_aget|exact E]. Qed.
Lemma pfull_oval a n i : pfull a n -> 0 <= i < n -> rd a i = Ok (oval a i).
Proof. intros P Hi. destruct (P i Hi) as (x & E). unfold oval. rewrite E. now apply rd_aget. Qed.
Lemma rdl_ok (a : arr T) n : pfull a n -> rdl a n = Ok (map (oval a) (zrange 0 n)).
Proof. intros P. apply mapM_ok. intros i Hi. apply in_zrange in Hi. now apply (pfull_oval a n). Qed.
Lemma full_pfull {A} (a : arr A) n : full a n -> pfull a n.
Proof. intros (_ & F); exact F. Qed.

(** stores at all indices below n *)
Lemma fill_ok {A} (f : Z -> A) n (a : arr A) : 0 <= n <= alen a ->
  exists a', run_stores (map (fun i => (i, f i)) (zrange 0 n)) a = Ok a' /\ alen a' = alen a /\ pfull a' n /\
    (forall i, 0 <= i < n -> aget a' i = Some (f i)) /\ (forall i, ~ 0 <= i < n -> aget a' i = aget a i).
Proof.
  intros H. destruct (run_stores_ok (map (fun i => (i, f i)) (zrange 0 n)) a) as (a' & E & L & G).
  { intros j v Hj. apply in_map_iff in Hj. destruct Hj as (i & [= <- <-] & Hi). apply in_zrange in Hi. lia. }
  assert (X : forall i, 0 <= i < n -> aget a' i = Some (f i)).
  { intros i Hi. rewrite G, (last_write_unique _ i (f i)); [reflexivity| |].
    - apply in_map_iff. exists i. split; [reflexivity|now apply in_zrange].
    - intros v Hv. apply in_map_iff in Hv. destruct Hv as (k & [= -> <-] & _). reflexivity. }
  exists a'. split; [exact E|]. split; [exact L|]. split; [intros i Hi; eauto|]. split; [exact X|].
  intros i Hi. rewrite G, last_write_none; [reflexivity|]. intros v Hv. apply in_map_iff in Hv.
  destruct Hv as (k & [= -> _] & Hk). apply in_zrange in Hk. contradiction.
Qed.
Lemma pfull_wr {A} (a a' : arr A) n i (v : A) : pfull a n -> wr a i v = Ok a' -> pfull a' n.
Proof. intros P E. apply wr_inv in E. destruct E as (_ & _ & G). intros j Hj. rewrite G. destruct (j =? i); [eauto|now apply P]. Qed.
Lemma upd_pre n (f : arr T -> Z -> res T) (h : Z -> T) a : 0 <= n <= alen a ->
  (forall a' i, 0 <= i < n -> f a' i = Ok (h i)) ->
  exists a', upd_for n f a = Ok a' /\ alen a' = alen a /\ pfull a' n /\
    (forall i, 0 <= i < n -> aget a' i = Some (h i)) /\ (forall i, ~ 0 <= i < n -> aget a' i = aget a i).
Proof.
  intros H Hf. destruct (fill_ok h n a H) as (a' & E & R). exists a'. split; [|exact R]. rewrite <- E.
  unfold upd_for, run_stores. clear E R. assert (Hl : forall i, In i (zrange 0 n) -> 0 <= i < n) by (intros i Hi; now apply in_zrange).
  revert a H Hl. generalize (zrange 0 n) as l. induction l as [|i l IH]; intros a H Hl; [reflexivity|].
  cbn [foldM map fst snd]. rewrite (Hf a i) by (apply Hl; now left). cbn [bind].
  destruct (wr a i (h i)) as [a1|] eqn:E; [|reflexivity]. cbn [bind]. apply wr_inv in E. apply IH; [lia|].
  intros j Hj. apply Hl. now right.
Qed.

Lemma load_ok V n vold : sane V -> alen vold = nvars V -> (forall v, n = Some v -> full v (nvars V)) ->
  exists v', load_vars V n vold = Ok v' /\ full v' (nvars V) /\
    forall i, 0 <= i < nvars V -> aget v' i = match n with Some v => aget v i | None => Some (dec 0 1) end.
Proof.
  intros S L F. pose proof (nvars_pos V S) as Hn. destruct n as [v|]; cbn [load_vars].
  - specialize (F v eq_refl). pose proof (full_oval _ _ F) as R.
    destruct (upd_pre (nvars V) (fun _ i => rd v i) (oval v) vold) as (v' & E & L' & P & G & _); [lia| |].
    + intros _ i Hi. exact (rep_rd _ _ _ _ R Hi).
    + exists v'. split; [exact E|]. split; [split; [congruence|exact P]|]. intros i Hi. rewrite (G i Hi). symmetry. exact (proj2 R i Hi).
  - destruct (upd_pre (nvars V) (fun _ _ => Ok (dec 0 1)) (fun _ => dec 0 1) vold) as (v' & E & L' & P & G & _); [lia|reflexivity|].
    exists v'. split; [exact E|]. split; [split; [congruence|exact P]|exact G].
Qed.
Lemma copy_ok V src dst : sane V -> full src (nvars V) -> alen dst = nvars V ->
  exists v', copy_vars V src dst = Ok v' /\ full v' (nvars V) /\ forall i, aget v' i = aget src i.
Proof.
  intros S F L. pose proof (nvars_pos V S) as Hn. pose proof (full_oval _ _ F) as R.
  destruct (upd_pre (nvars V) (fun _ i => rd src i) (oval src) dst) as (v' & E & L' & P & G & _); [lia| |].
  - intros _ i Hi. exact (rep_rd _ _ _ _ R Hi).
  - exists v'. split; [exact E|]. split; [split; [congruence|exact P]|]. intros i.
    assert (D : 0 <= i < nvars V \/ ~ 0 <= i < nvars V) by lia. destruct D as [Hi|Hi].
    + rewrite (G i Hi). symmetry. exact (proj2 R i Hi).
    + rewrite !aget_out; [reflexivity| |]; [rewrite (full_alen _ _ F)|rewrite L', L]; exact Hi.
Qed.

(** ctan_lin * strain *)
Definition lin_val V (c e : arr T) (i : Z) : T :=
  sumf (zrange 0 (nvoi V)) (fun j => omul (oval c (i * nvoi V + j)) (oval e j)).
Lemma sumM_ok {A} (l : list A) (f : A -> res T) (h : A -> T) : (forall a, In a l -> f a = Ok (h a)) -> sumM l f = Ok (sumf l h).
Proof.
  unfold sumM, sumf. intros H. generalize (ofZ 0 : T) as x. induction l as [|a l IH]; intros x; [reflexivity|].
  cbn [foldM fold_left]. rewrite (H a) by now left. cbn [bind]. apply IH. intros b Hb. apply H. now right.
Qed.
Lemma lin_stress_ok V c e : sane V -> pfull c (nvoi V * nvoi V) -> pfull e (nvoi V) ->
  lin_stress V c e = Ok (ltab (nvoi V) (lin_val V c e)).
Proof.
  intros S C E. apply mapM_ok. intros i Hi. apply in_zrange in Hi. apply sumM_ok. intros j Hj. apply in_zrange in Hj.
  rewrite (pfull_oval c (nvoi V * nvoi V)) by (try assumption; nia). cbn [bind]. rewrite (pfull_oval e (nvoi V)) by assumption. reflexivity.
Qed.
Definition inv_val V (c e : arr T) : T :=
  if v_dim V =? 2 then oadd (lin_val V c e 0) (lin_val V c e 1)
  else oadd (oadd (lin_val V c e 0) (lin_val V c e 1)) (lin_val V c e 2).
Lemma is_linear_ok V c e m : sane V -> pfull c (nvoi V * nvoi V) -> pfull e (nvoi V) ->
  is_linear V c e m = Ok (oltb (oabs (inv_val V c e)) (v_inv_tol V),
                          if oltb m (oabs (inv_val V c e)) then oabs (inv_val V c e) else m).
Proof.
  intros S C E. unfold is_linear. rewrite (lin_stress_ok V c e S C E). cbn [bind]. unfold get_inv_1, inv_val.
  destruct (nvoi_cases V S) as [(D & N)|(D & N)]; rewrite D; cbn [Z.eqb Pos.eqb bind]; rewrite !lget_ltab by lia; reflexivity.
Qed.

(** ** One Gauss point *)
Lemma homog_linear_ok V c g inv : sane V -> pfull c (nvoi V * nvoi V) -> gp_ok V g ->
  exists g', homog_linear V c g inv = Ok g' /\ gp_ok V g' /\ gp_done V g' /\ g_id g' = g_id g /\ g_strain g' = g_strain g /\
    g_n g' = g_n g /\ g_k g' = g_k g /\ g_inv g' = inv /\
    (forall i, 0 <= i < nvoi V -> aget (g_stress g') i = Some (lin_val V c (g_strain g) i)) /\
    (forall i, 0 <= i < nvoi V * nvoi V -> aget (g_ctan g') i = aget c i) /\
    (forall i, 0 <= i < 1 + nvoi V -> aget (g_its g') i = Some 0 /\ aget (g_err g') i = Some (dec 0 1)).
Proof.
  intros S C G. pose proof (nvoi_range V S) as Nv. pose proof (nvoi2_range V S) as Nv2. destruct G as [Gi Gs Ge Gt Gc Gr Gv G2].
  unfold homog_linear. rewrite (lin_stress_ok V c _ S C Ge). cbn [bind]. unfold wrl.
  destruct (fill_ok (lget (ltab (nvoi V) (lin_val V c (g_strain g)))) (nvoi V) (g_stress g)) as (st & Es & Ls & Ps & Hs & _); [lia|].
  rewrite Es. cbn [bind].
  destruct (upd_pre (nvoi V * nvoi V) (fun _ i => rd c i) (oval c) (g_ctan g)) as (ct & Ec & Lc & Pc & Hc & _); [lia| |].
  { intros _ i Hi. now apply (pfull_oval c (nvoi V * nvoi V)). }
  rewrite Ec. cbn [bind].
  destruct (fill_ok (fun _ => 0) (1 + nvoi V) (g_its g)) as (it & Ei & Li & Pi & Hi & _); [lia|]. rewrite Ei. cbn [bind].
  destruct (fill_ok (fun _ => dec 0 1) (1 + nvoi V) (g_err g)) as (er & Er & Lr & Pr & Hr & _); [lia|]. rewrite Er. cbn [bind].
  eexists. split; [reflexivity|]. split; [constructor; cbn; try assumption; lia|]. split; [repeat split; assumption|].
  cbn. do 5 (split; [reflexivity|]). split.
  - intros i H. rewrite (Hs i H), lget_ltab by assumption. reflexivity.
  - split; [|auto]. intros i H. rewrite (Hc i H). unfold oval. destruct (C i H) as (x & ->). reflexivity.
Qed.

Definition nframe V (n n' : option (arr T)) : Prop :=
  match n with
  | Some v => n' = Some v
  | None => n' = None \/ exists v, n' = Some v /\ rep v (nvars V) (fun _ => dec 0 1)
  end.
Lemma keep_ok V nl vnew g : sane V -> gp_ok V g -> full vnew (nvars V) -> (v_dim V = 2 -> nl = false) ->
  exists n' k', keep_vars V nl vnew g = Ok (n', k') /\
    match n', k' with None, None => True | Some n, Some k => full n (nvars V) /\ full k (nvars V) | _, _ => False end /\
    (v_dim V = 2 -> n' = None) /\ nframe V (g_n g) n' /\
    (nl = false -> n' = g_n g /\ k' = g_k g) /\
    (nl = true -> exists k, k' = Some k /\ n' <> None /\ forall i, aget k i = aget vnew i).
Proof.
  intros S G Fv D2. unfold keep_vars. pose proof (go_vars V g G) as Gv. destruct nl.
  - destruct (g_n g) as [n|], (g_k g) as [k0|]; try contradiction; cbn [of_option bind].
    + destruct Gv as (Fn & Fk). destruct (copy_ok V vnew k0 S Fv (full_alen _ _ Fk)) as (k & E & F & Hk). rewrite E. cbn [bind].
      do 2 eexists. split; [reflexivity|]. split; [auto|]. split; [intros D; specialize (D2 D); discriminate|]. split; [reflexivity|].
      split; [discriminate|]. intros _. exists k. split; [reflexivity|]. split; [discriminate|exact Hk].
    + pose proof (nvars_pos V S) as Hn.
      destruct (upd_pre (nvars V) (fun _ _ => Ok (dec 0 1)) (fun _ => dec 0 1) (malloc (nvars V))) as (n & En & Ln & Pn & Hz & _);
        [cbn; lia|reflexivity|]. rewrite En. cbn [bind].
      destruct (copy_ok V vnew (malloc (nvars V)) S Fv eq_refl) as (k & E & F & Hk). rewrite E. cbn [bind].
      do 2 eexists. split; [reflexivity|]. split; [split; [split; assumption|exact F]|]. split; [intros D; specialize (D2 D); discriminate|].
      split; [right; exists n; split; [reflexivity|split; [exact Ln|exact Hz]]|].
      split; [discriminate|]. intros _. exists k. split; [reflexivity|]. split; [discriminate|exact Hk].
  - do 2 eexists. split; [reflexivity|]. split; [exact Gv|]. split; [exact (go_2d V g G)|]. split.
    + unfold nframe. destruct (g_n g); auto.
    + split; [auto|discriminate].
Qed.

Lemma wr_col_ok V (c : arr T) i col : sane V -> alen c = 36 -> 0 <= i < nvoi V ->
  exists c', wr_col V c i col = Ok c' /\ alen c' = 36 /\
    (forall v j, 0 <= v < nvoi V -> 0 <= j < nvoi V -> aget c' (v * nvoi V + j) = if j =? i then Some (lget col v) else aget c (v * nvoi V + j)).
Proof.
  intros S L Hi. pose proof (nvoi_range V S) as Nv. pose proof (nvoi2_range V S) as Nv2. unfold wr_col.
  destruct (run_stores_ok (map (fun v => (v * nvoi V + i, lget col v)) (zrange 0 (nvoi V))) c) as (c' & E & L' & G).
  { intros j v Hj. apply in_map_iff in Hj. destruct Hj as (k & [= <- <-] & Hk). apply in_zrange in Hk. rewrite L. nia. }
  exists c'. split; [exact E|]. split; [congruence|]. intros v j Hv Hj. rewrite G.
  destruct (Z.eqb_spec j i) as [->|Hne].
  - rewrite (last_write_unique _ _ (lget col v)); [reflexivity| |].
    + apply in_map_iff. exists v. split; [reflexivity|now apply in_zrange].
    + intros x Hx. apply in_map_iff in Hx. destruct Hx as (k & [= Ek <-] & Hk). f_equal. nia.
  - rewrite last_write_none; [reflexivity|]. intros x Hx. apply in_map_iff in Hx. destruct Hx as (k & [= Ek _] & Hk). apply in_zrange in Hk.
    assert (k = v) by nia. subst. lia.
Qed.

(** a loop over the strain components *)
Lemma foldM_iter {St} (f : St -> Z -> res St) (P : Z -> St -> Prop) (Bad : err -> Prop) m : 0 <= m -> forall s,
  P 0 s -> (forall i s, 0 <= i < m -> P i s -> match f s i with Ok s' => P (i + 1) s' | Err e => Bad e end) ->
  match foldM f (zrange 0 m) s with Ok s' => P m s' | Err e => Bad e end.
Proof.
  intros Hm s P0 H.
  assert (X : forall n a s, 0 <= a -> P a s -> a + Z.of_nat n <= m ->
    match foldM f (zrange a (a + Z.of_nat n)) s with Ok s' => P (a + Z.of_nat n) s' | Err e => Bad e end).
  { induction n as [|n IH]; intros a s0 Ha Pa Hb.
    - replace (a + Z.of_nat 0) with a by lia. rewrite zrange_empty by lia. exact Pa.
    - rewrite zrange_cons by lia. cbn [foldM]. specialize (H a s0 ltac:(lia) Pa). destruct (f s0 a) as [s1|e]; cbn [bind]; [|exact H].
      specialize (IH (a + 1) s1 ltac:(lia) H ltac:(lia)). replace (a + 1 + Z.of_nat n) with (a + Z.of_nat (S n)) in IH by lia. exact IH. }
  specialize (X (Z.to_nat m) 0 s ltac:(lia) P0 ltac:(lia)). rewrite Z2Nat.id in X by lia. exact X.
Qed.

Definition bad (fuel : nat) (orc : Z -> peek) (e : err) : Prop := exists i, nbad fuel (orc i) e.

Lemma wfull_respond V pk fuel eps w r : sane V -> wfull V w -> respond fuel pk V eps w = Ok r ->
  let '(w', nl, its, er, s) := r in wfull V w' /\ its = 0 /\ w_vold w' = w_vold w /\ (v_dim V = 2 -> nl = false).
Proof.
  intros S (K & Fo & Fn) E. pose proof (respond_ok V pk fuel eps w S K) as H. rewrite E in H.
  destruct r as ((((w', nl), its), er), s). destruct H as (I & K' & O & F & D). split; [|split; [exact I|split; [exact O|intros D2; now destruct (D D2)]]].
  split; [exact K'|]. split; [now rewrite O|auto].
Qed.

Lemma homog_ctan_ok V fuel orc eps s0 w ctan its ers : sane V -> wfull V w -> alen ctan = 36 -> alen its = 7 -> alen ers = 7 ->
  pfull its 1 -> pfull ers 1 ->
  match homog_ctan fuel orc V eps s0 w ctan its ers with
  | Ok (w', ctan', its', ers') => wfull V w' /\ w_vold w' = w_vold w /\ alen ctan' = 36 /\ alen its' = 7 /\ alen ers' = 7 /\
      pfull ctan' (nvoi V * nvoi V) /\ pfull its' (1 + nvoi V) /\ pfull ers' (1 + nvoi V) /\
      (aget its 0 = Some 0 -> forall i, 0 <= i < 1 + nvoi V -> aget its' i = Some 0)
  | Err e => bad fuel orc e
  end.
Proof.
  intros S W Lc Li Le Pi Pe. pose proof (nvoi_range V S) as Nv. pose proof (nvoi2_range V S) as Nv2. unfold homog_ctan.
  pose (P := fun (n : Z) (st : work T * arr T * arr Z * arr T) => let '(w', ctan', its', ers') := st in
    wfull V w' /\ w_vold w' = w_vold w /\ alen ctan' = 36 /\ alen its' = 7 /\ alen ers' = 7 /\
    (forall v j, 0 <= v < nvoi V -> 0 <= j < n -> exists x, aget ctan' (v * nvoi V + j) = Some x) /\
    pfull its' (1 + n) /\ pfull ers' (1 + n) /\ (aget its 0 = Some 0 -> forall i, 0 <= i < 1 + n -> aget its' i = Some 0)).
  match goal with |- match foldM ?f _ _ with _ => _ end => pose proof (foldM_iter f P (bad fuel orc) (nvoi V) ltac:(lia)) as X end.
  specialize (X (w, ctan, its, ers)). cbv beta in X.
  match type of X with ?A -> ?B -> ?C => assert (HA : A); [|assert (HB : B)] end.
  - unfold P. split; [exact W|]. split; [reflexivity|]. split; [exact Lc|]. split; [exact Li|]. split; [exact Le|]. split; [intros; lia|].
    split; [exact Pi|]. split; [exact Pe|]. intros H i Hi. now replace i with 0 by lia.
  - intros i (((w1, c1), i1), e1) Hi (W1 & O1 & Lc1 & Li1 & Le1 & Pc1 & Pi1 & Pe1 & Z1).
    destruct (respond fuel (orc (1 + i)) V (bump (nvoi V) eps i) w1) as [r|e] eqn:E; cbn [bind].
    + pose proof (wfull_respond V _ _ _ _ _ S W1 E) as H. destruct r as ((((w2, nl), it), er), s1). destruct H as (W2 & I2 & O2 & _).
      destruct (wr_col_ok V c1 i (ltab (nvoi V) (fun v => odiv (osub (lget s1 v) (lget s0 v)) d_eps)) S Lc1 Hi) as (c2 & Ec & Lc2 & Hc2).
      rewrite Ec. cbn [bind].
      destruct (wr_ok i1 (1 + i) it) as (i2 & Ei & Li2 & Gi2); [lia|]. rewrite Ei. cbn [bind].
      destruct (wr_ok e1 (1 + i) er) as (e2 & Ee & Le2 & Ge2); [lia|]. rewrite Ee. cbn [bind].
      unfold P. split; [exact W2|]. split; [congruence|]. split; [exact Lc2|]. split; [lia|]. split; [lia|]. split; [|split; [|split]].
      * intros v j Hv Hj. rewrite (Hc2 v j Hv ltac:(lia)). destruct (Z.eqb_spec j i); [eauto|]. apply Pc1; lia.
      * intros j Hj. rewrite Gi2. destruct (Z.eqb_spec j (1 + i)); [eauto|]. apply Pi1. lia.
      * intros j Hj. rewrite Ge2. destruct (Z.eqb_spec j (1 + i)); [eauto|]. apply Pe1. lia.
      * intros H0 j Hj. rewrite Gi2. destruct (Z.eqb_spec j (1 + i)); [now rewrite I2|]. apply Z1; [exact H0|lia].
    + destruct W1 as (K1 & _). pose proof (respond_ok V (orc (1 + i)) fuel (bump (nvoi V) eps i) w1 S K1) as H. rewrite E in H.
      exists (1 + i). exact H.
  - specialize (X HA HB). destruct foldM as [(((w', c'), i'), e')|e]; [|exact X].
    destruct X as (W' & O' & Lc' & Li' & Le' & Pc & Pi' & Pe' & Z'). split; [exact W'|]. split; [exact O'|]. split; [exact Lc'|].
    split; [exact Li'|]. split; [exact Le'|]. split; [|split; [exact Pi'|split; [exact Pe'|exact Z']]].
    intros i Hi. replace i with ((i / nvoi V) * nvoi V + i mod nvoi V) by (rewrite (Z.div_mod i (nvoi V)) at 3 by lia; ring).
    apply Pc; [|apply Z.mod_pos_bound; lia]. split; [apply Z.div_pos; lia|]. apply Z.div_lt_upper_bound; lia.
Qed.

(** the linear branch is taken *)
Definition takes_linear V (c : arr T) g : Prop := oltb (oabs (inv_val V c (g_strain g))) (v_inv_tol V) = true /\ g_n g = None.

Definition homog_post V c w g (r : work T * T * gp T) : Prop :=
  let '(w', inv, g') := r in
  wfull V w' /\ gp_ok V g' /\ gp_done V g' /\ g_id g' = g_id g /\ g_strain g' = g_strain g /\ nframe V (g_n g) (g_n g') /\
  g_inv g' = inv /\ inv = (if oltb inv_min (oabs (inv_val V c (g_strain g))) then oabs (inv_val V c (g_strain g)) else inv_min) /\
  (forall i, 0 <= i < 1 + nvoi V -> aget (g_its g') i = Some 0).
Lemma homog_gp_ok V fuel orc c w g : sane V -> wfull V w -> pfull c (nvoi V * nvoi V) -> gp_ok V g ->
  match homog_gp fuel orc V c w g with
  | Ok r => homog_post V c w g r
  | Err e => bad fuel orc e
  end.
Proof.
  intros S W C G. pose proof (nvoi_range V S) as Nv. unfold homog_gp. destruct W as (K & Fo & Fn).
  destruct (load_ok V (g_n g) (w_vold w) S (full_alen _ _ Fo)) as (vo & Eo & Fo' & _).
  { intros v Ev. pose proof (go_vars V g G) as Gv. rewrite Ev in Gv. destruct (g_k g); [tauto|contradiction]. }
  rewrite Eo. cbn [bind].
  assert (W1 : wfull V (set_vold w vo)).
  { split; [|split; assumption]. destruct K as [A1 A2 A3 A4 A5 A6]. constructor; try assumption. cbn.
    intros e q i He Hq Hi _. apply (proj2 Fo'). rewrite nvars_eq. unfold intvar_ix. lia. }
  rewrite (is_linear_ok V c _ _ S C (go_e V g G)). cbn [bind fst snd].
  set (inv := if oltb inv_min (oabs (inv_val V c (g_strain g))) then oabs (inv_val V c (g_strain g)) else inv_min).
  destruct (oltb (oabs (inv_val V c (g_strain g))) (v_inv_tol V) && match g_n g with None => true | Some _ => false end)%bool eqn:EL.
  - destruct (homog_linear_ok V c g inv S C G) as (g' & E & G' & D' & H1 & H2 & H3 & H4 & H5 & _ & _ & H6). rewrite E. cbn [bind].
    split; [exact W1|]. split; [exact G'|]. split; [exact D'|]. split; [exact H1|]. split; [exact H2|]. split.
    + rewrite H3. unfold nframe. destruct (g_n g); auto.
    + split; [exact H5|]. split; [reflexivity|]. intros i Hi. apply H6, Hi.
  - rewrite (rdl_ok _ _ (go_e V g G)). cbn [bind].
    destruct (respond fuel (orc 0) V (map (oval (g_strain g)) (zrange 0 (nvoi V))) (set_vold w vo)) as [r|e] eqn:E; cbn [bind].
    + pose proof (wfull_respond V _ _ _ _ _ S W1 E) as H. destruct r as ((((w2, nl), it), er), s). destruct H as (W2 & I2 & O2 & D2).
      unfold wrl. destruct (fill_ok (lget s) (nvoi V) (g_stress g)) as (st & Es & Ls & Ps & Hs & _); [rewrite (go_stress V g G); lia|].
      rewrite Es. cbn [bind].
      destruct (keep_ok V nl (w_vnew w2) g S G (proj2 (proj2 W2)) D2) as (n' & k' & Ek & Vk & K2 & Nf & _). rewrite Ek. cbn [bind fst snd].
      destruct (wr_ok (g_its g) 0 it) as (i1 & Ei & Li & Gi); [rewrite (go_its V g G); lia|]. rewrite Ei. cbn [bind].
      destruct (wr_ok (g_err g) 0 er) as (e1 & Ee & Le & Ge); [rewrite (go_err V g G); lia|]. rewrite Ee. cbn [bind].
      pose proof (homog_ctan_ok V fuel orc (map (oval (g_strain g)) (zrange 0 (nvoi V))) s w2 (g_ctan g) i1 e1 S W2 (go_ctan V g G)) as X.
      rewrite Li, Le in X. specialize (X (go_its V g G) (go_err V g G)).
      assert (P1 : pfull i1 1) by (intros j Hj; rewrite Gi; replace j with 0 by lia; cbn; eauto).
      assert (P2 : pfull e1 1) by (intros j Hj; rewrite Ge; replace j with 0 by lia; cbn; eauto).
      specialize (X P1 P2).
      destruct (homog_ctan fuel orc V (map (oval (g_strain g)) (zrange 0 (nvoi V))) s w2 (g_ctan g) i1 e1) as [(((w3, c3), i3), e3)|e]; cbn [bind]; [|exact X].
      destruct X as (W3 & O3 & Lc & Li3 & Le3 & Pc & Pi & Pe & Z3).
      split; [exact W3|]. split; [constructor; cbn; try assumption; [exact (go_strain V g G)|exact (go_e V g G)|rewrite Ls; exact (go_stress V g G)]|].
      split; [repeat split; assumption|]. split; [reflexivity|]. split; [reflexivity|]. split; [exact Nf|]. split; [reflexivity|]. split; [reflexivity|].
      cbn. apply Z3. rewrite Gi. cbn. now rewrite I2.
    + destruct W1 as (K1 & _). pose proof (respond_ok V (orc 0) fuel (map (oval (g_strain g)) (zrange 0 (nvoi V))) (set_vold w vo) S K1) as H. rewrite E in H.
      exists 0. exact H.
Qed.
End Api.
