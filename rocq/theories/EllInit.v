(** Proofs about ell_init_2D / ell_init_3D. *)
From Coq Require Import ZifyBool.
From Verif Require Import Base Scalar InitTables EllModel EllSpec.
Ltac Zify.zify_post_hook ::= Z.div_mod_to_equations.

(** ** Numbering *)
Lemma node_range nx ny nz i j k :
  0 <= i < nx -> 0 <= j < ny -> 0 <= k < nz -> 0 <= node nx ny i j k < nx * ny * nz.
Proof.
  intros. unfold node.
  assert (0 <= j + ny * k < ny * nz) by nia. nia.
Qed.

Lemma node_inj nx ny i j k i' j' k' :
  0 <= i < nx -> 0 <= j < ny -> 0 <= i' < nx -> 0 <= j' < ny ->
  node nx ny i j k = node nx ny i' j' k' -> i = i' /\ j = j' /\ k = k'.
Proof.
  unfold node. intros Hi Hj Hi' Hj' E.
  destruct (radix_inj nx (j + ny * k) i (j' + ny * k') i') as (E1 & E2); try lia.
  destruct (radix_inj ny k j k' j') as (E3 & E4); try lia.
Qed.

Lemma node_surj nx ny nz n : 0 < nx -> 0 < ny -> 0 <= n < nx * ny * nz ->
  exists i j k, 0 <= i < nx /\ 0 <= j < ny /\ 0 <= k < nz /\ node nx ny i j k = n.
Proof.
  intros Hx Hy Hn. exists (n mod nx), ((n / nx) mod ny), (n / nx / ny).
  assert (0 <= n mod nx < nx) by (apply Z.mod_pos_bound; lia).
  assert (0 <= (n / nx) mod ny < ny) by (apply Z.mod_pos_bound; lia).
  pose proof (Z.div_mod n nx ltac:(lia)). pose proof (Z.div_mod (n / nx) ny ltac:(lia)).
  assert (0 <= n / nx) by (apply Z.div_pos; lia).
  assert (0 <= n / nx / ny) by (apply Z.div_pos; lia).
  repeat split; try lia.
  - apply Z.div_lt_upper_bound; [lia|]. apply Z.div_lt_upper_bound; [lia|]. nia.
  - unfold node. nia.
Qed.

Lemma nod_index_node nx ny i j k : nod_index nx ny i j k = node nx ny i j k.
Proof. unfold nod_index, node. ring. Qed.

(** ** Addresses *)
Lemma cell_inj S nF n d1 s d2 n' d1' s' d2' :
  0 <= d1 < nF -> 0 <= d1' < nF -> 0 <= s < S -> 0 <= s' < S ->
  0 <= d2 < nF -> 0 <= d2' < nF ->
  cell S nF n d1 s d2 = cell S nF n' d1' s' d2' ->
  n = n' /\ d1 = d1' /\ s = s' /\ d2 = d2'.
Proof.
  unfold cell. intros H1 H1' Hs Hs' H2 H2' E.
  assert (0 <= s * nF + d2 < S * nF) by nia.
  assert (0 <= s' * nF + d2' < S * nF) by nia.
  destruct (radix_inj (S * nF) (n * nF + d1) (s * nF + d2) (n' * nF + d1') (s' * nF + d2'))
    as (E1 & E2); try lia.
  destruct (radix_inj nF n d1 n' d1'); try lia.
  destruct (radix_inj nF s d2 s' d2'); try lia.
Qed.

Lemma cell_range S nF nn n d1 s d2 :
  0 <= n < nn -> 0 <= d1 < nF -> 0 <= s < S -> 0 <= d2 < nF ->
  0 <= cell S nF n d1 s d2 < (S * nF) * (nn * nF).
Proof.
  intros. unfold cell.
  assert (0 <= n * nF + d1 < nn * nF) by nia.
  assert (0 <= s * nF + d2 < S * nF) by nia. nia.
Qed.

Lemma cell_surj S nF nn a : 0 < S -> 0 < nF ->
  0 <= a < (S * nF) * (nn * nF) ->
  exists n d1 s d2, 0 <= n < nn /\ 0 <= d1 < nF /\ 0 <= s < S /\ 0 <= d2 < nF /\
    a = cell S nF n d1 s d2.
Proof.
  intros HS HF Ha. set (r := a / (S * nF)). set (c := a mod (S * nF)).
  assert (HSF : 0 < S * nF) by nia.
  pose proof (Z.div_mod a (S * nF) ltac:(lia)). fold r c in H.
  assert (0 <= c < S * nF) by (apply Z.mod_pos_bound; lia).
  assert (0 <= r) by (apply Z.div_pos; lia).
  assert (r < nn * nF) by (apply Z.div_lt_upper_bound; nia).
  exists (r / nF), (r mod nF), (c / nF), (c mod nF).
  pose proof (Z.div_mod r nF ltac:(lia)). pose proof (Z.div_mod c nF ltac:(lia)).
  assert (0 <= r mod nF < nF) by (apply Z.mod_pos_bound; lia).
  assert (0 <= c mod nF < nF) by (apply Z.mod_pos_bound; lia).
  assert (0 <= r / nF) by (apply Z.div_pos; lia).
  assert (0 <= c / nF) by (apply Z.div_pos; lia).
  assert (r / nF < nn) by (apply Z.div_lt_upper_bound; nia).
  assert (c / nF < S) by (apply Z.div_lt_upper_bound; nia).
  repeat split; try lia.
  unfold cell. nia.
Qed.

(** ** Stores of one node *)
Lemma in_combine_zrange {A} (t : list A) s e :
  In (s, e) (combine (zrange 0 (Z.of_nat (length t))) t) <->
  0 <= s < Z.of_nat (length t) /\ nth_error t (Z.to_nat s) = Some e.
Proof.
  assert (G : forall (t : list A) a s, In (s, e) (combine (zrange a (a + Z.of_nat (length t))) t) <->
     a <= s < a + Z.of_nat (length t) /\ nth_error t (Z.to_nat (s - a)) = Some e).
  { clear. induction t as [|x t IH]; intros a s.
    - rewrite zrange_empty by (simpl; lia). simpl. split; [tauto|]. lia.
    - rewrite zrange_cons by (simpl; lia). cbn [combine In].
      replace (a + Z.of_nat (length (x :: t))) with ((a + 1) + Z.of_nat (length t)) by (simpl; lia).
      rewrite IH. split.
      + intros [[= <- <-]|(R & E)].
        * split; [lia|]. now rewrite Z.sub_diag.
        * split; [lia|]. replace (Z.to_nat (s - a)) with (S (Z.to_nat (s - (a + 1)))) by lia. exact E.
      + intros (R & E). destruct (Z.eq_dec s a).
        * subst. rewrite Z.sub_diag in E. left. simpl in E. congruence.
        * right. split; [lia|]. replace (Z.to_nat (s - a)) with (S (Z.to_nat (s - (a + 1)))) in E by lia. exact E. }
  specialize (G t 0 s). rewrite Z.sub_0_r in G. exact G.
Qed.

Lemma in_init_node nF S nx ny t n a v : length t = Z.to_nat S -> 0 <= S ->
  In (a, v) (init_node nF (S * nF) nx ny t n) <->
  exists d1 d2 s e, 0 <= d1 < nF /\ 0 <= d2 < nF /\ 0 <= s < S /\
    nth_error t (Z.to_nat s) = Some e /\
    a = cell S nF n d1 s d2 /\ v = entry_col nF nx ny n d2 e.
Proof.
  intros L HS. unfold init_node. rewrite in_flat_map. split.
  - intros (d1 & R1 & H). apply in_flat_map in H. destruct H as (d2 & R2 & H).
    apply in_map_iff in H. destruct H as ((s, e) & E & I).
    apply in_combine_zrange in I. apply in_zrange in R1. apply in_zrange in R2.
    injection E as <- <-. simpl in *. exists d1, d2, s, e. repeat split; try tauto; try lia.
    unfold cell. ring.
  - intros (d1 & d2 & s & e & R1 & R2 & R3 & E & -> & ->).
    exists d1; split; [now apply in_zrange|]. apply in_flat_map.
    exists d2; split; [now apply in_zrange|]. apply in_map_iff. exists (s, e). split.
    + simpl. f_equal. unfold cell. ring.
    + apply in_combine_zrange. split; [lia|exact E].
Qed.

(** ** 3D *)
Definition allowed (c : axcls) (o : Z) : bool :=
  match c with Lo => 0 <=? o | Mid => true | Hi => o <=? 0 end.

Definition expect3 (c : axcls * axcls * axcls) (s : Z) : entry :=
  let '(cx, cy, cz) := c in
  if allowed cx (off_x s) && allowed cy (off_y s) && allowed cz (off_z s)
  then Some (off_x s, off_y s, off_z s) else None.

Definition entry_eqb (e e' : entry) : bool :=
  match e, e' with
  | None, None => true
  | Some (a, b, c), Some (a', b', c') => (a =? a') && (b =? b') && (c =? c')
  | _, _ => false
  end.

Lemma entry_eqb_ok e e' : entry_eqb e e' = true -> e = e'.
Proof.
  destruct e as [[[a b] c]|], e' as [[[a' b'] c']|]; simpl; try discriminate; auto.
  intros. repeat f_equal; lia.
Qed.

Definition check_block (b : (axcls * axcls * axcls) * list entry) : bool :=
  Nat.eqb (length (snd b)) 27 &&
  forallb (fun s => match nth_error (snd b) (Z.to_nat s) with
                    | Some e => entry_eqb e (expect3 (fst b) s) | None => false end)
          (zrange 0 27).

Lemma blocks_checked : forallb check_block t3_blocks = true.
Proof. vm_compute. reflexivity. Qed.

Definition axcls_eqb (a b : axcls) : bool :=
  match a, b with Lo, Lo | Mid, Mid | Hi, Hi => true | _, _ => false end.

Lemma block_spec c t : In (c, t) t3_blocks ->
  length t = 27%nat /\ forall s, 0 <= s < 27 -> nth_error t (Z.to_nat s) = Some (expect3 c s).
Proof.
  intros H. pose proof (proj1 (forallb_forall _ _) blocks_checked _ H) as C.
  unfold check_block in C. cbn [fst snd] in C. apply andb_true_iff in C. destruct C as (C1 & C2).
  split; [now apply Nat.eqb_eq|]. intros s Hs.
  assert (Hin : In s (zrange 0 27)) by now apply in_zrange.
  pose proof (proj1 (forallb_forall _ _) C2 s Hin) as C. cbv beta in C.
  destruct (nth_error t (Z.to_nat s)); [|discriminate]. f_equal. now apply entry_eqb_ok.
Qed.

Lemma block_exists cx cy cz : exists t, In ((cx, cy, cz), t) t3_blocks.
Proof.
  assert (G : forall c, existsb (fun b : (axcls * axcls * axcls) * list entry =>
      let '((a, b), d) := fst b in let '((cx, cy), cz) := c in
      axcls_eqb a cx && axcls_eqb b cy && axcls_eqb d cz) t3_blocks = true).
  { intros [[[] []] []]; vm_compute; reflexivity. }
  specialize (G (cx, cy, cz)). apply existsb_exists in G.
  destruct G as ([[[a b] d] t] & Hin & E). simpl in E.
  apply andb_true_iff in E. destruct E as (E & E3). apply andb_true_iff in E. destruct E as (E1 & E2).
  exists t. destruct a, cx; try discriminate; destruct b, cy; try discriminate;
    destruct d, cz; try discriminate; exact Hin.
Qed.

Definition cls (n i : Z) : axcls := if i =? 0 then Lo else if i =? n - 1 then Hi else Mid.

Lemma ax_range_cls n i c : 2 <= n -> In i (ax_range c n) -> 0 <= i < n /\ cls n i = c.
Proof.
  intros Hn. unfold cls. destruct c; simpl.
  - intros [<-|[]]. split; [lia|reflexivity].
  - rewrite in_zrange. intros. split; [lia|].
    destruct (Z.eqb_spec i 0); [lia|]. destruct (Z.eqb_spec i (n - 1)); [lia|reflexivity].
  - intros [<-|[]]. split; [lia|]. destruct (Z.eqb_spec (n - 1) 0); [lia|]. now rewrite Z.eqb_refl.
Qed.

Lemma cls_ax_range n i : 2 <= n -> 0 <= i < n -> In i (ax_range (cls n i) n).
Proof.
  intros. unfold cls. destruct (Z.eqb_spec i 0); [simpl; lia|].
  destruct (Z.eqb_spec i (n - 1)); [simpl; lia|]. simpl. apply in_zrange. lia.
Qed.

Lemma allowed_inside n i o : 2 <= n -> 0 <= i < n -> -1 <= o <= 1 ->
  allowed (cls n i) o = insideb n (i + o).
Proof.
  intros. unfold cls, insideb. destruct (Z.eqb_spec i 0); [simpl; lia|].
  destruct (Z.eqb_spec i (n - 1)); simpl; lia.
Qed.

Lemma offs_bound s : 0 <= s < 27 -> -1 <= off_x s <= 1 /\ -1 <= off_y s <= 1 /\ -1 <= off_z s <= 1.
Proof. unfold off_x, off_y, off_z. intros. lia. Qed.

Lemma entry_col_nbr3 nF nx ny nz i j k d2 s :
  2 <= nx -> 2 <= ny -> 2 <= nz -> 0 <= i < nx -> 0 <= j < ny -> 0 <= k < nz -> 0 <= s < 27 ->
  entry_col nF nx ny (node nx ny i j k) d2 (expect3 (cls nx i, cls ny j, cls nz k) s)
  = col_of nF d2 (nbr3 nx ny nz i j k s).
Proof.
  intros. destruct (offs_bound s) as (Bx & By & Bz); [assumption|].
  unfold expect3, nbr3. rewrite !allowed_inside by assumption.
  destruct (insideb nx (i + off_x s) && insideb ny (j + off_y s) && insideb nz (k + off_z s));
    [|reflexivity].
  simpl. unfold node. ring.
Qed.

Lemma in_init3D nF nx ny nz a v : 2 <= nx -> 2 <= ny -> 2 <= nz ->
  In (a, v) (init3D_stores nF nx ny nz) <->
  exists i j k d1 s d2, 0 <= i < nx /\ 0 <= j < ny /\ 0 <= k < nz /\
    0 <= d1 < nF /\ 0 <= s < 27 /\ 0 <= d2 < nF /\
    a = cell 27 nF (node nx ny i j k) d1 s d2 /\
    v = col_of nF d2 (nbr3 nx ny nz i j k s).
Proof.
  intros Hx Hy Hz. unfold init3D_stores. rewrite in_flat_map. split.
  - intros ([[[cx cy] cz] t] & Hb & H). destruct (block_spec _ _ Hb) as (L & Ht).
    apply in_flat_map in H. destruct H as (i & Hi & H).
    apply in_flat_map in H. destruct H as (j & Hj & H).
    apply in_flat_map in H. destruct H as (k & Hk & H).
    apply in_init_node in H; [|exact L|lia].
    destruct H as (d1 & d2 & s & e & R1 & R2 & Rs & E & -> & ->).
    rewrite Ht in E by exact Rs. injection E as <-.
    destruct (ax_range_cls _ _ _ Hx Hi) as (Ri & <-).
    destruct (ax_range_cls _ _ _ Hy Hj) as (Rj & <-).
    destruct (ax_range_cls _ _ _ Hz Hk) as (Rk & <-).
    exists i, j, k, d1, s, d2. rewrite nod_index_node. repeat (split; [assumption || reflexivity|]).
    now apply entry_col_nbr3.
  - intros (i & j & k & d1 & s & d2 & Ri & Rj & Rk & R1 & Rs & R2 & -> & ->).
    destruct (block_exists (cls nx i) (cls ny j) (cls nz k)) as (t & Hb).
    destruct (block_spec _ _ Hb) as (L & Ht).
    exists (cls nx i, cls ny j, cls nz k, t). split; [exact Hb|].
    apply in_flat_map. exists i. split; [now apply cls_ax_range|].
    apply in_flat_map. exists j. split; [now apply cls_ax_range|].
    apply in_flat_map. exists k. split; [now apply cls_ax_range|].
    apply in_init_node; [exact L|lia|].
    exists d1, d2, s, (expect3 (cls nx i, cls ny j, cls nz k) s).
    rewrite nod_index_node. repeat (split; [assumption || reflexivity || (now apply Ht)|]).
    symmetry. now apply entry_col_nbr3.
Qed.

Lemma init_3D_ok {T} nF nx ny nz : 2 <= nx -> 2 <= ny -> 2 <= nz -> 1 <= nF ->
  exists m : ell T, ell_init_3D nF nx ny nz = Ok m /\
    e_nrow m = nx * ny * nz * nF /\ e_ncol m = nx * ny * nz * nF /\ e_nnz m = 27 * nF /\
    alen (e_cols m) = (27 * nF) * (nx * ny * nz * nF) /\
    e_vals m = malloc ((27 * nF) * (nx * ny * nz * nF)) /\
    forall i j k d1 s d2, 0 <= i < nx -> 0 <= j < ny -> 0 <= k < nz ->
      0 <= d1 < nF -> 0 <= s < 27 -> 0 <= d2 < nF ->
      aget (e_cols m) (cell 27 nF (node nx ny i j k) d1 s d2)
      = Some (col_of nF d2 (nbr3 nx ny nz i j k s)).
Proof.
  intros Hx Hy Hz HF. unfold ell_init_3D.
  destruct (run_stores_ok (init3D_stores nF nx ny nz)
              (malloc (27 * nF * (nx * ny * nz * nF)))) as (c & E & L & G).
  { intros a v Hin. apply in_init3D in Hin; try assumption.
    destruct Hin as (i & j & k & d1 & s & d2 & ? & ? & ? & ? & ? & ? & -> & ->).
    simpl. apply cell_range; try assumption. now apply node_range. }
  rewrite E. cbn [bind]. eexists. split; [reflexivity|]. cbn [e_nrow e_ncol e_nnz e_cols e_vals].
  repeat (split; [reflexivity || exact L|]).
  intros i j k d1 s d2 Ri Rj Rk R1 Rs R2. rewrite G.
  rewrite (last_write_unique _ _ (col_of nF d2 (nbr3 nx ny nz i j k s))); [reflexivity| |].
  - apply in_init3D; try assumption. exists i, j, k, d1, s, d2. auto 10.
  - intros v' H. apply in_init3D in H; try assumption.
    destruct H as (i' & j' & k' & d1' & s' & d2' & Ri' & Rj' & Rk' & R1' & Rs' & R2' & E' & ->).
    apply cell_inj in E'; try assumption. destruct E' as (En & -> & -> & ->).
    apply node_inj in En; try assumption. destruct En as (-> & -> & ->). reflexivity.
Qed.

Lemma nbr3_range nx ny nz i j k s n : nbr3 nx ny nz i j k s = Some n -> 0 <= n < nx * ny * nz.
Proof.
  unfold nbr3, insideb. destruct (_ && _) eqn:E; [|discriminate]. intros [= <-].
  apply node_range; lia.
Qed.

Lemma col_of_range nF d2 nn o : 1 <= nF -> 0 < nn -> 0 <= d2 < nF ->
  (forall n, o = Some n -> 0 <= n < nn) -> 0 <= col_of nF d2 o < nn * nF.
Proof.
  intros. destruct o as [n|]; simpl; [|nia]. specialize (H2 n eq_refl). nia.
Qed.

(** ** 2D *)
Lemma table2D_length nx ny i : length (table2D nx ny i) = 9%nat.
Proof. unfold table2D. repeat destruct (_ : bool); reflexivity. Qed.

Lemma in_init2D nF nx ny a v :
  In (a, v) (init2D_stores nF nx ny) <->
  exists n d1 d2 s e, 0 <= n < nx * ny /\ 0 <= d1 < nF /\ 0 <= d2 < nF /\ 0 <= s < 9 /\
    nth_error (table2D nx ny n) (Z.to_nat s) = Some e /\
    a = cell 9 nF n d1 s d2 /\ v = entry_col nF nx ny n d2 e.
Proof.
  unfold init2D_stores. rewrite in_flat_map. setoid_rewrite in_zrange. split.
  - intros (n & Hn & H). apply in_init_node in H; [|apply table2D_length|lia].
    destruct H as (d1 & d2 & s & e & H). exists n, d1, d2, s, e. tauto.
  - intros (n & d1 & d2 & s & e & Hn & H). exists n. split; [exact Hn|].
    apply in_init_node; [apply table2D_length|lia|]. exists d1, d2, s, e. tauto.
Qed.

Definition expect2 (cx cy : axcls) (s : Z) : entry :=
  if allowed cx (off_x s) && allowed cy (off_y s)
  then Some (off_x s, off_y s, 0) else None.

(** the column the code stores in slot s of node (i,j): the neighbour, except in
    slot 7 of the right edge (src/ell.cpp:840) *)
Definition col2_code (nF nx ny i j s d2 : Z) : Z :=
  if (i =? nx - 1) && (0 <? j) && (j <? ny - 1) && (s =? 7)
  then node nx ny i j 0 * nF + d2
  else col_of nF d2 (nbr2 nx ny i j s).

Lemma nth_check9 (t : list entry) (g : Z -> entry) :
  length t = 9%nat ->
  forallb (fun s => match nth_error t (Z.to_nat s) with
                    | Some e => entry_eqb e (g s) | None => false end) (zrange 0 9) = true ->
  forall s, 0 <= s < 9 -> nth_error t (Z.to_nat s) = Some (g s).
Proof.
  intros L C s Hs. assert (Hin : In s (zrange 0 9)) by now apply in_zrange.
  pose proof (proj1 (forallb_forall _ _) C s Hin) as C'. cbv beta in C'.
  destruct (nth_error t (Z.to_nat s)); [|discriminate]. f_equal. now apply entry_eqb_ok.
Qed.

Lemma table2D_spec nx ny i j s :
  2 <= nx -> 2 <= ny -> 0 <= i < nx -> 0 <= j < ny -> 0 <= s < 9 ->
  nth_error (table2D nx ny (node nx ny i j 0)) (Z.to_nat s) =
  Some (if (i =? nx - 1) && (0 <? j) && (j <? ny - 1) && (s =? 7)
        then Some (0, 0, 0) else expect2 (cls nx i) (cls ny j) s).
Proof.
  intros Hx Hy Hi Hj Hs. unfold table2D, cls.
  assert (Hn : node nx ny i j 0 = j * nx + i) by (unfold node; ring). rewrite Hn.
  assert (Hm : (j * nx + i) mod nx = i).
  { rewrite Z.add_comm, Z.mod_add by lia. apply Z.mod_small; lia. }
  assert (Hm1 : (j * nx + i + 1) mod nx = if i =? nx - 1 then 0 else i + 1).
  { destruct (Z.eqb_spec i (nx - 1)).
    - replace (j * nx + i + 1) with (0 + (j + 1) * nx) by (subst; ring).
      rewrite Z.mod_add by lia. apply Z.mod_small; lia.
    - replace (j * nx + i + 1) with ((i + 1) + j * nx) by ring.
      rewrite Z.mod_add by lia. apply Z.mod_small; lia. }
  rewrite Hm, Hm1. clear Hm Hm1 Hn.
  (* decide the coordinate classes *)
  destruct (Z.eqb_spec i 0) as [Ei|Ei].
  - subst i. replace (0 =? nx - 1) with false by lia. simpl andb.
    destruct (Z.eqb_spec j 0) as [Ej|Ej].
    + subst j. simpl. revert s Hs. apply nth_check9; reflexivity.
    + replace (j * nx + 0 =? 0) with false by nia.
      replace (j * nx + 0 =? nx - 1) with false by nia.
      replace (j * nx + 0 =? nx * ny - 1) with false by nia.
      destruct (Z.eqb_spec j (ny - 1)) as [Ej'|Ej'].
      * subst j. replace ((ny - 1) * nx + 0 =? (ny - 1) * nx) with true by lia.
        revert s Hs. apply nth_check9; reflexivity.
      * replace (j * nx + 0 =? (ny - 1) * nx) with false by nia.
        replace (j * nx + 0 <? nx) with false by nia.
        replace ((ny - 1) * nx <? j * nx + 0) with false by nia.
        revert s Hs. apply nth_check9; reflexivity.
  - destruct (Z.eqb_spec i (nx - 1)) as [Ei'|Ei'].
    + subst i. replace (j * nx + (nx - 1) =? 0) with false by nia.
      destruct (Z.eqb_spec j 0) as [Ej|Ej].
      * subst j. replace (0 * nx + (nx - 1) =? nx - 1) with true by lia.
        simpl. revert s Hs. apply nth_check9; reflexivity.
      * replace (j * nx + (nx - 1) =? nx - 1) with false by nia.
        destruct (Z.eqb_spec j (ny - 1)) as [Ej'|Ej'].
        -- subst j. replace ((ny - 1) * nx + (nx - 1) =? nx * ny - 1) with true by nia.
           replace (ny - 1 <? ny - 1) with false by lia. rewrite andb_false_r. simpl andb.
           revert s Hs. apply nth_check9; reflexivity.
        -- replace (j * nx + (nx - 1) =? nx * ny - 1) with false by nia.
           replace (j * nx + (nx - 1) =? (ny - 1) * nx) with false by nia.
           replace (j * nx + (nx - 1) <? nx) with false by nia.
           replace ((ny - 1) * nx <? j * nx + (nx - 1)) with false by nia.
           replace (nx - 1 =? 0) with false by lia. simpl (0 =? 0).
           replace (0 <? j) with true by lia. replace (j <? ny - 1) with true by lia.
           simpl andb.
           revert s Hs. apply (nth_check9 t2_right (fun s => if s =? 7 then Some (0,0,0) else expect2 InitTables.Hi Mid s)); reflexivity.
    + simpl andb. replace (j * nx + i =? 0) with false by nia.
      destruct (Z.eqb_spec j 0) as [Ej|Ej].
      * subst j. replace (0 * nx + i =? nx - 1) with false by lia.
        replace (0 * nx + i =? nx * ny - 1) with false by nia.
        replace (0 * nx + i =? (ny - 1) * nx) with false by nia.
        replace (0 * nx + i <? nx) with true by lia.
        revert s Hs. apply nth_check9; reflexivity.
      * replace (j * nx + i =? nx - 1) with false by nia.
        replace (j * nx + i =? nx * ny - 1) with false by nia.
        replace (j * nx + i =? (ny - 1) * nx) with false
          by (symmetry; apply Z.eqb_neq; intros C; destruct (radix_inj nx j i (ny - 1) 0); lia).
        replace (j * nx + i <? nx) with false by nia.
        destruct (Z.eqb_spec j (ny - 1)) as [Ej'|Ej'].
        -- subst j. replace ((ny - 1) * nx <? (ny - 1) * nx + i) with true by lia.
           revert s Hs. apply nth_check9; reflexivity.
        -- replace ((ny - 1) * nx <? j * nx + i) with false by nia.
           replace (i + 1 =? 0) with false by lia.
           revert s Hs. apply nth_check9; reflexivity.
Qed.

Lemma entry_col_nbr2 nF nx ny i j d2 s :
  2 <= nx -> 2 <= ny -> 0 <= i < nx -> 0 <= j < ny -> 0 <= s < 9 ->
  entry_col nF nx ny (node nx ny i j 0) d2 (expect2 (cls nx i) (cls ny j) s)
  = col_of nF d2 (nbr2 nx ny i j s).
Proof.
  intros. destruct (offs_bound s) as (Bx & By & _); [lia|].
  unfold expect2, nbr2. rewrite !allowed_inside by assumption.
  destruct (insideb nx (i + off_x s) && insideb ny (j + off_y s)); [|reflexivity].
  simpl. unfold node. ring.
Qed.

Lemma init_2D_ok {T} nF nx ny : 2 <= nx -> 2 <= ny -> 1 <= nF ->
  exists m : ell T, ell_init_2D nF nx ny = Ok m /\
    e_nrow m = nx * ny * nF /\ e_ncol m = nx * ny * nF /\ e_nnz m = 9 * nF /\
    alen (e_cols m) = (9 * nF) * (nx * ny * nF) /\
    e_vals m = malloc ((9 * nF) * (nx * ny * nF)) /\
    forall i j d1 s d2, 0 <= i < nx -> 0 <= j < ny ->
      0 <= d1 < nF -> 0 <= s < 9 -> 0 <= d2 < nF ->
      aget (e_cols m) (cell 9 nF (node nx ny i j 0) d1 s d2)
      = Some (col2_code nF nx ny i j s d2).
Proof.
  intros Hx Hy HF. unfold ell_init_2D.
  destruct (run_stores_ok (init2D_stores nF nx ny)
              (malloc (9 * nF * (nx * ny * nF)))) as (c & E & L & G).
  { intros a v Hin. apply in_init2D in Hin.
    destruct Hin as (n & d1 & d2 & s & e & ? & ? & ? & ? & ? & -> & ->).
    simpl. now apply cell_range. }
  rewrite E. cbn [bind]. eexists. split; [reflexivity|]. cbn [e_nrow e_ncol e_nnz e_cols e_vals].
  repeat (split; [reflexivity || exact L|]).
  intros i j d1 s d2 Ri Rj R1 Rs R2. rewrite G.
  pose proof (table2D_spec nx ny i j s Hx Hy Ri Rj Rs) as Ht.
  assert (Rn : 0 <= node nx ny i j 0 < nx * ny).
  { pose proof (node_range nx ny 1 i j 0 Ri Rj ltac:(lia)). lia. }
  rewrite (last_write_unique _ _ (col2_code nF nx ny i j s d2)); [reflexivity| |].
  - apply in_init2D. do 5 eexists. split; [exact Rn|]. split; [exact R1|]. split; [exact R2|].
    split; [exact Rs|]. split; [exact Ht|]. split; [reflexivity|].
    unfold col2_code. destruct (_ && _); [simpl; ring|]. symmetry. now apply entry_col_nbr2.
  - intros v' H. apply in_init2D in H.
    destruct H as (n' & d1' & d2' & s' & e' & Rn' & R1' & R2' & Rs' & E' & Ec & ->).
    apply cell_inj in Ec; try assumption. destruct Ec as (<- & -> & -> & ->).
    rewrite Ht in E'. injection E' as <-.
    unfold col2_code. destruct (_ && _); [simpl; ring|]. now apply entry_col_nbr2.
Qed.

Lemma nbr2_range nx ny i j s n : nbr2 nx ny i j s = Some n -> 0 <= n < nx * ny.
Proof.
  unfold nbr2, insideb. destruct (_ && _) eqn:E; [|discriminate]. intros [= <-].
  pose proof (node_range nx ny 1 (i + off_x s) (j + off_y s) 0). lia.
Qed.
