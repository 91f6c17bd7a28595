(** Proofs about ell_set_bc_2D. *)
From Coq Require Import ZifyBool.
From Verif Require Import Base Scalar InitTables EllModel EllSpec EllInit EllAsm EllOp EllBc.
Ltac Zify.zify_post_hook ::= Z.div_mod_to_equations.

Section Bc2.
Context {T : Type} `{OT : Ops T}.

Definition rows2 (nF : Z) (g : Z -> Z) (cnt : Z) : list (Z * T) :=
  flat_map (fun d => flat_map (fun n => ident_row nF (9 * nF) 4 (g n) d) (zrange 0 cnt)) (zrange 0 nF).
Definition line2 (nF n0 step cnt : Z) (slots : list Z) : list (Z * T) :=
  flat_map (fun d => flat_map (fun i => zero_slots nF (9 * nF) slots (n0 + i * step) d)
                              (zrange 0 cnt)) (zrange 0 nF).
Definition corn2 (nF n : Z) (slots : list Z) : list (Z * T) :=
  flat_map (fun d => zero_slots nF (9 * nF) slots n d) (zrange 0 nF).

Definition bc2_rows nF nx ny : list (Z * T) :=
  rows2 nF (fun n => n) nx ++ rows2 nF (fun n => n + (ny - 1) * nx) nx
  ++ rows2 nF (fun n => (n + 1) * nx) (ny - 2) ++ rows2 nF (fun n => (n + 2) * nx - 1) (ny - 2).
Definition bc2_near nF nx ny : list (Z * T) :=
  line2 nF (nx + 2) 1 (nx - 4) [0; 1; 2]
  ++ line2 nF ((ny - 2) * nx + 2) 1 (nx - 4) [6; 6; 6]
  ++ line2 nF (2 * nx + 1) nx (ny - 4) [0; 3; 6]
  ++ line2 nF (4 * nx - 1) nx (ny - 4) [2; 5; 8]
  ++ corn2 nF (nx + 1) [0; 1; 2; 3; 6]
  ++ corn2 nF (2 * nx - 2) [0; 1; 2; 5; 8]
  ++ corn2 nF ((ny - 1) * nx - 1) [2; 5; 6; 7; 8]
  ++ corn2 nF ((ny - 2) * nx + 1) [0; 3; 6; 7; 8].

Lemma bc2D_split nF nx ny :
  bc2D_stores nF (9 * nF) nx ny = bc2_rows nF nx ny ++ bc2_near nF nx ny.
Proof. unfold bc2D_stores, bc2_rows, bc2_near. rewrite <- !app_assoc. reflexivity. Qed.

Lemma slots9 : slots_ok 9 [0; 1; 2] /\ slots_ok 9 [6; 6; 6] /\ slots_ok 9 [0; 3; 6] /\
  slots_ok 9 [2; 5; 8] /\ slots_ok 9 [0; 1; 2; 3; 6] /\ slots_ok 9 [0; 1; 2; 5; 8] /\
  slots_ok 9 [2; 5; 6; 7; 8] /\ slots_ok 9 [0; 3; 6; 7; 8].
Proof. repeat (split; [apply slots_check; reflexivity|]); apply slots_check; reflexivity. Qed.

Lemma in_line2 nF n0 step cnt slots n d1 s d2 v : slots_ok 9 slots ->
  0 <= d1 < nF -> 0 <= s < 9 -> 0 <= d2 < nF ->
  In (cell 9 nF n d1 s d2, v) (line2 nF n0 step cnt slots) <->
  v = ofZ 0 /\ In s slots /\ exists i, In i (zrange 0 cnt) /\ n0 + i * step = n.
Proof. intros. unfold line2. now apply (in_zeros (zrange 0 cnt) (fun i => n0 + i * step)). Qed.

Lemma in_corn2 nF n' slots n d1 s d2 v : slots_ok 9 slots ->
  0 <= d1 < nF -> 0 <= s < 9 -> 0 <= d2 < nF ->
  In (cell 9 nF n d1 s d2, v) (corn2 nF n' slots) <-> v = ofZ 0 /\ In s slots /\ n = n'.
Proof.
  intros. replace (corn2 nF n' slots) with
    (flat_map (fun d => flat_map (fun x : Z => zero_slots nF (9 * nF) slots x d) [n']) (zrange 0 nF) : list (Z * T)).
  - rewrite (in_zeros [n'] (fun x => x)) by assumption. simpl. split.
    + intros (-> & Hs & x & [<-|[]] & <-). auto.
    + intros (-> & Hs & ->). eauto 6.
  - unfold corn2. apply flat_map_ext_in. intros. simpl. apply app_nil_r.
Qed.

(** the set of (node, slot) pairs zeroed by the "next to the boundary" part *)
Definition near2 (nx ny n s : Z) : Prop :=
  (In s [0; 1; 2] /\ exists i, 0 <= i < nx - 4 /\ n = nx + 2 + i) \/
  (s = 6 /\ exists i, 0 <= i < nx - 4 /\ n = (ny - 2) * nx + 2 + i) \/
  (In s [0; 3; 6] /\ exists i, 0 <= i < ny - 4 /\ n = (i + 2) * nx + 1) \/
  (In s [2; 5; 8] /\ exists i, 0 <= i < ny - 4 /\ n = (i + 4) * nx - 1) \/
  (In s [0; 1; 2; 3; 6] /\ n = nx + 1) \/
  (In s [0; 1; 2; 5; 8] /\ n = 2 * nx - 2) \/
  (In s [2; 5; 6; 7; 8] /\ n = (ny - 1) * nx - 1) \/
  (In s [0; 3; 6; 7; 8] /\ n = (ny - 2) * nx + 1).

Lemma in_bc2_near nF nx ny n d1 s d2 v :
  0 <= d1 < nF -> 0 <= s < 9 -> 0 <= d2 < nF ->
  In (cell 9 nF n d1 s d2, v) (bc2_near nF nx ny) <-> v = ofZ 0 /\ near2 nx ny n s.
Proof.
  intros H1 Hs H2. destruct slots9 as (S1 & S2 & S3 & S4 & S5 & S6 & S7 & S8).
  unfold bc2_near. rewrite !in_app_iff.
  rewrite !in_line2, !in_corn2 by assumption. unfold near2.
  assert (L : forall n0 step cnt, (exists i, In i (zrange 0 cnt) /\ n0 + i * step = n) <->
     exists i, 0 <= i < cnt /\ n = n0 + i * step).
  { intros. split; intros (i & Hi & E); exists i; rewrite in_zrange in *; auto. }
  rewrite !L. clear L S1 S2 S3 S4 S5 S6 S7 S8.
  assert (L1 : (exists i, 0 <= i < nx - 4 /\ n = nx + 2 + i * 1) <-> (exists i, 0 <= i < nx - 4 /\ n = nx + 2 + i))
    by (split; intros (i & ? & ?); exists i; lia).
  assert (L2 : (exists i, 0 <= i < nx - 4 /\ n = (ny - 2) * nx + 2 + i * 1) <-> (exists i, 0 <= i < nx - 4 /\ n = (ny - 2) * nx + 2 + i))
    by (split; intros (i & ? & ?); exists i; lia).
  assert (L3 : (exists i, 0 <= i < ny - 4 /\ n = 2 * nx + 1 + i * nx) <-> (exists i, 0 <= i < ny - 4 /\ n = (i + 2) * nx + 1))
    by (split; intros (i & ? & ?); exists i; lia).
  assert (L4 : (exists i, 0 <= i < ny - 4 /\ n = 4 * nx - 1 + i * nx) <-> (exists i, 0 <= i < ny - 4 /\ n = (i + 4) * nx - 1))
    by (split; intros (i & ? & ?); exists i; lia).
  rewrite L1, L2, L3, L4.
  assert (L6 : In s [6; 6; 6] <-> s = 6) by (simpl; intuition lia).
  rewrite L6. clear. tauto.
Qed.

Lemma near2_bnd nx ny i j s : 2 <= nx -> 2 <= ny -> 0 <= i < nx -> 0 <= j < ny ->
  0 <= s < 9 -> near2 nx ny (node nx ny i j 0) s -> ~ bnd2 nx ny i j ->
  bnd2 nx ny (i + off_x s) (j + off_y s).
Proof.
  intros Hx Hy Hi Hj Hs H NB.
  assert (NBi : 1 <= i <= nx - 2 /\ 1 <= j <= ny - 2) by (unfold bnd2, on_bnd in NB; lia). clear NB.
  assert (En : node nx ny i j 0 = j * nx + i) by (unfold node; ring). rewrite En in H. clear En.
  assert (U : forall q r, 0 <= r < nx -> j * nx + i = q * nx + r -> i = r /\ j = q).
  { intros q r Hr E. destruct (radix_inj nx j i q r); lia. }
  unfold bnd2, on_bnd, off_x, off_y.
  destruct H as [(S & x & Hx' & E)|[(S & x & Hx' & E)|[(S & x & Hx' & E)|[(S & x & Hx' & E)|[(S & E)|[(S & E)|[(S & E)|(S & E)]]]]]]].
  - destruct (U 1 (2 + x)) as (-> & ->); try lia. cbn [In] in S.
    assert (s / 3 = 0) as -> by lia. right; left. reflexivity.
  - destruct (U (ny - 2) (2 + x)) as (-> & ->); lia.
  - destruct (U (x + 2) 1) as (-> & ->); try lia. cbn [In] in S.
    assert (s mod 3 = 0) as -> by lia. left; left; reflexivity.
  - destruct (U (x + 3) (nx - 1)) as (-> & ->); try lia.
  - destruct (U 1 1) as (-> & ->); try lia. cbn [In] in S.
    destruct S as [<-|[<-|[<-|[<-|[<-|[]]]]]]; simpl; lia.
  - destruct (U 1 (nx - 2)) as (-> & ->); try lia. cbn [In] in S.
    destruct S as [<-|[<-|[<-|[<-|[<-|[]]]]]]; simpl; lia.
  - destruct (U (ny - 2) (nx - 1)) as (-> & ->); try lia.
  - destruct (U (ny - 2) 1) as (-> & ->); try lia. cbn [In] in S.
    destruct S as [<-|[<-|[<-|[<-|[<-|[]]]]]]; simpl; lia.
Qed.

Lemma near2_not4 nx ny n : ~ near2 nx ny n 4.
Proof. unfold near2. simpl. intros H. intuition lia. Qed.

Lemma bc2_rows_spec nF nx ny i j d1 s d2 :
  2 <= nx -> 2 <= ny -> 1 <= nF -> 0 <= i < nx -> 0 <= j < ny ->
  0 <= d1 < nF -> 0 <= s < 9 -> 0 <= d2 < nF ->
  (bnd2 nx ny i j ->
   last_write (bc2_rows nF nx ny) (cell 9 nF (node nx ny i j 0) d1 s d2) = Some (idv 4 s d1 d2)) /\
  (~ bnd2 nx ny i j ->
   last_write (bc2_rows nF nx ny) (cell 9 nF (node nx ny i j 0) d1 s d2) = None).
Proof.
  intros Hx Hy HF Hi Hj H1 Hs H2.
  set (c := cell 9 nF (node nx ny i j 0) d1 s d2).
  assert (G : forall g cnt, lw_or (rows2 nF g cnt) c (idv 4 s d1 d2) /\
     ((exists v, In (c, v) (rows2 nF g cnt)) <-> exists x, In x (zrange 0 cnt) /\ g x = node nx ny i j 0)).
  { intros g cnt. unfold rows2, c. apply lw_rows; auto; lia. }
  assert (O : lw_or (bc2_rows nF nx ny) c (idv 4 s d1 d2)).
  { unfold bc2_rows. repeat apply lw_or_app; apply G. }
  assert (En : node nx ny i j 0 = j * nx + i) by (unfold node; ring).
  assert (U : forall q r, 0 <= r < nx -> j * nx + i = q * nx + r -> i = r /\ j = q).
  { intros q r Hr E. destruct (radix_inj nx j i q r); lia. }
  assert (X : (exists v, In (c, v) (bc2_rows nF nx ny)) <-> bnd2 nx ny i j).
  { unfold bc2_rows. setoid_rewrite in_app_iff. setoid_rewrite in_app_iff. setoid_rewrite in_app_iff. split.
    - intros (v & H). unfold bnd2, on_bnd.
      destruct H as [H|[H|[H|H]]];
      (match goal with H : In (c, v) (rows2 nF ?g ?n) |- _ =>
        destruct (proj1 (proj2 (G g n)) (ex_intro _ v H)) as (x & Hin & E) end);
        rewrite in_zrange in Hin; rewrite En in E.
      + destruct (U 0 x); lia.
      + destruct (U (ny - 1) x); lia.
      + destruct (U (x + 1) 0); lia.
      + destruct (U (x + 1) (nx - 1)); lia.
    - intros H.
      assert (W : forall g cnt, (exists x, In x (zrange 0 cnt) /\ g x = node nx ny i j 0) ->
        exists v, In (c, v) (rows2 nF g cnt)) by (intros g cnt; apply (proj2 (G g cnt))).
      assert (Hc : j = 0 \/ j = ny - 1 \/ (i = 0 /\ 1 <= j <= ny - 2) \/ (i = nx - 1 /\ 1 <= j <= ny - 2)).
      { unfold bnd2, on_bnd in H. lia. } clear H.
      destruct Hc as [C|[C|[C|C]]].
      + destruct (W (fun n => n) nx) as (v & H); [|exists v; tauto].
        exists i. rewrite in_zrange, En. subst. lia.
      + destruct (W (fun n => n + (ny - 1) * nx) nx) as (v & H); [|exists v; tauto].
        exists i. rewrite in_zrange, En. subst. lia.
      + destruct (W (fun n => (n + 1) * nx) (ny - 2)) as (v & H); [|exists v; tauto].
        exists (j - 1). rewrite in_zrange, En. destruct C as (-> & C). split; [lia|ring].
      + destruct (W (fun n => (n + 2) * nx - 1) (ny - 2)) as (v & H); [|exists v; tauto].
        exists (j - 1). rewrite in_zrange, En. destruct C as (-> & C). split; [lia|ring]. }
  split.
  - intros B. apply lw_or_some; [exact O|]. now apply X.
  - intros B. apply last_write_none. intros v H. apply B, X. eauto.
Qed.

Lemma bc2D_in_range nF nx ny a v : 2 <= nx -> 2 <= ny -> 1 <= nF ->
  In (a, v) (bc2D_stores nF (9 * nF) nx ny) -> 0 <= a < (9 * nF) * (nx * ny * nF).
Proof.
  intros Hx Hy HF. rewrite bc2D_split. unfold bc2_rows, bc2_near. rewrite !in_app_iff.
  destruct slots9 as (S1 & S2 & S3 & S4 & S5 & S6 & S7 & S8).
  assert (GR : forall g cnt, (forall x, In x (zrange 0 cnt) -> 0 <= g x < nx * ny) ->
     In (a, v) (rows2 nF g cnt) -> 0 <= a < (9 * nF) * (nx * ny * nF)).
  { intros g cnt Hl H. unfold rows2 in H. eapply in_rows_range in H; [exact H|lia|lia|]. exact Hl. }
  assert (GZ : forall n0 step cnt slots, slots_ok 9 slots ->
     (forall x, In x (zrange 0 cnt) -> 0 <= n0 + x * step < nx * ny) ->
     In (a, v) (line2 nF n0 step cnt slots) -> 0 <= a < (9 * nF) * (nx * ny * nF)).
  { intros n0 step cnt slots Hsl Hl H. unfold line2 in H.
    apply (in_zeros_range (zrange 0 cnt) (fun x => n0 + x * step) nF 9 slots (nx * ny)) in H; assumption. }
  assert (GC : forall n slots, slots_ok 9 slots -> 0 <= n < nx * ny ->
     In (a, v) (corn2 nF n slots) -> 0 <= a < (9 * nF) * (nx * ny * nF)).
  { intros n slots Hsl Hl H. unfold corn2 in H. apply in_flat_map in H. destruct H as (d & Hd & H).
    apply in_zrange in Hd. apply in_zero_slots in H; [|exact Hsl].
    destruct H as (_ & s & d2 & Hs & H2 & ->). apply cell_range; auto. }
  intros [[H|[H|[H|H]]]|[H|[H|[H|[H|[H|[H|[H|H]]]]]]]]; revert H;
    [apply GR|apply GR|apply GR|apply GR|apply GZ; [assumption|]|apply GZ; [assumption|]
    |apply GZ; [assumption|]|apply GZ; [assumption|]
    |apply GC; [assumption|]|apply GC; [assumption|]|apply GC; [assumption|]|apply GC; [assumption|]];
    try (intros x Hxr; apply in_zrange in Hxr); nia.
Qed.

Theorem set_bc_2D_ok (m : ell T) nF nx ny :
  2 <= nx -> 2 <= ny -> 1 <= nF -> struct2 m nF nx ny ->
  exists v, ell_set_bc_2D m nF nx ny = Ok (set_vals m v) /\
    alen v = (9 * nF) * (nx * ny * nF) /\
    forall i j d1 s d2, 0 <= i < nx -> 0 <= j < ny ->
      0 <= d1 < nF -> 0 <= s < 9 -> 0 <= d2 < nF ->
      let c := cell 9 nF (node nx ny i j 0) d1 s d2 in
      (bnd2 nx ny i j -> aget v c = Some (idv 4 s d1 d2)) /\
      (~ bnd2 nx ny i j ->
         (near2 nx ny (node nx ny i j 0) s -> aget v c = Some (ofZ 0)) /\
         (~ near2 nx ny (node nx ny i j 0) s -> aget v c = aget (e_vals m) c)).
Proof.
  intros Hx Hy HF M. unfold ell_set_bc_2D. rewrite (s2_nnz _ _ _ _ M).
  destruct (run_stores_ok (bc2D_stores nF (9 * nF) nx ny) (e_vals m)) as (v & E & L & G).
  { intros a x Hin. apply bc2D_in_range in Hin; try assumption. now rewrite (s2_vlen _ _ _ _ M). }
  rewrite E. cbn [bind]. exists v. split; [reflexivity|].
  split; [rewrite L; now destruct M|].
  intros i j d1 s d2 Hi Hj H1 Hs H2.
  set (c := cell 9 nF (node nx ny i j 0) d1 s d2).
  rewrite G, bc2D_split, last_write_app.
  destruct (bc2_rows_spec nF nx ny i j d1 s d2) as (RB & RI); try assumption. fold c in RB, RI.
  assert (Z : forall v, In (c, v) (bc2_near nF nx ny) <-> v = ofZ 0 /\ near2 nx ny (node nx ny i j 0) s)
    by (intros v0; unfold c; now apply in_bc2_near).
  split.
  - intros B. rewrite (RB B).
    destruct (last_write (bc2_near nF nx ny) c) eqn:E1; [|reflexivity].
    apply last_write_in in E1. apply Z in E1. destruct E1 as (-> & E1).
    f_equal. unfold idv. destruct (Z.eqb_spec s 4); [|reflexivity].
    exfalso. subst s. now apply near2_not4 in E1.
  - intros NB. rewrite (RI NB). split.
    + intros B. rewrite last_write_zeros; [reflexivity| |].
      * intros v0 H. now apply Z in H.
      * exists (ofZ 0). now apply Z.
    + intros B. rewrite last_write_none; [reflexivity|].
      intros v0 H. apply Z in H. tauto.
Qed.

(** on any grid with an interior other than 3x3, an interior row keeps a
    coupling to a boundary node *)
Lemma near2_gap nx ny : 3 <= nx -> 3 <= ny -> ~ (nx = 3 /\ ny = 3) ->
  exists i j s, 0 < i < nx - 1 /\ 0 < j < ny - 1 /\ 0 <= s < 9 /\
    bnd2 nx ny (i + off_x s) (j + off_y s) /\ ~ near2 nx ny (node nx ny i j 0) s.
Proof.
  intros Hx Hy N.
  destruct (Z.le_gt_cases 4 nx).
  - exists (nx - 2), (ny - 2), 7. repeat (split; [lia|]).
    split; [right; right; unfold off_y; simpl; lia|].
    assert (En : node nx ny (nx - 2) (ny - 2) 0 = (ny - 2) * nx + (nx - 2)) by (unfold node; ring).
    rewrite En. unfold near2. cbn [In].
    intros [Q|[Q|[Q|[Q|[Q|[Q|[Q|Q]]]]]]]; try lia.
  - exists 1, (ny - 2), 5. repeat (split; [lia|]).
    split; [left; right; unfold off_x; simpl; lia|].
    assert (nx = 3) by lia. subst nx.
    assert (En : node 3 ny 1 (ny - 2) 0 = (ny - 2) * 3 + 1) by (unfold node; ring).
    rewrite En. unfold near2. cbn [In].
    intros [Q|[Q|[Q|[Q|[Q|[Q|[Q|Q]]]]]]]; try lia.
    destruct Q as (_ & i & Hi & E). lia.
Qed.

Lemma near2_33 s : 0 <= s < 9 -> s <> 4 -> near2 3 3 4 s.
Proof.
  intros H N. unfold near2. cbn [In].
  assert (C : s = 0 \/ s = 1 \/ s = 2 \/ s = 3 \/ s = 5 \/ s = 6 \/ s = 7 \/ s = 8) by lia.
  destruct C as [->|[->|[->|[->|[->|[->|[->| ->]]]]]]].
  - do 4 right; left; lia.
  - do 4 right; left; lia.
  - do 4 right; left; lia.
  - do 4 right; left; lia.
  - do 5 right; left; lia.
  - do 4 right; left; lia.
  - do 7 right; lia.
  - do 7 right; lia.
Qed.
End Bc2.
