(** Proofs about reset, element assembly and product. *)
From Coq Require Import Reals Lra ZifyBool.
From Verif Require Import Base Scalar InitTables EllModel EllSpec EllInit.
Ltac Zify.zify_post_hook ::= Z.div_mod_to_equations.

Lemma rep_of_total {T} (a : arr T) n d :
  alen a = n -> (forall i, 0 <= i < n -> exists v, aget a i = Some v) ->
  rep a n (fun i => match aget a i with Some v => v | None => d end).
Proof. intros L H. split; [exact L|]. intros i Hi. destruct (H i Hi) as (v & ->). reflexivity. Qed.

(** a matrix whose arrays are allocated and initialised *)
Record ell_rep {T} (m : ell T) (nrow nnz : Z) (cf : Z -> Z) (vf : Z -> T) : Prop := {
  er_nrow : e_nrow m = nrow;
  er_nnz : e_nnz m = nnz;
  er_cols : rep (e_cols m) (nnz * nrow) cf;
  er_vals : rep (e_vals m) (nnz * nrow) vf;
  er_cf : forall a, 0 <= a < nnz * nrow -> 0 <= cf a < nrow }.

Section Gen.
Context {T : Type} `{OT : Ops T}.

Lemma in_zero_stores nrow nnz a (v : T) : 0 <= nnz ->
  In (a, v) (zero_stores nrow nnz) -> 0 <= a < nnz * nrow /\ v = ofZ 0.
Proof.
  intros Hz. unfold zero_stores. rewrite in_flat_map. intros (i & Hi & H).
  apply in_map_iff in H. destruct H as (j & [= <- <-] & Hj).
  apply in_zrange in Hi. apply in_zrange in Hj. split; [nia|reflexivity].
Qed.

Lemma zero_stores_in nrow nnz a : 0 < nnz -> 0 <= a < nnz * nrow ->
  In (a, ofZ 0 : T) (zero_stores nrow nnz).
Proof.
  intros Hz Ha. unfold zero_stores. apply in_flat_map. exists (a / nnz).
  pose proof (Z.div_mod a nnz ltac:(lia)). pose proof (Z.mod_pos_bound a nnz ltac:(lia)).
  split.
  - apply in_zrange. split; [apply Z.div_pos; lia|]. apply Z.div_lt_upper_bound; lia.
  - apply in_map_iff. exists (a mod nnz). split; [f_equal; lia|]. now apply in_zrange.
Qed.

(** src/ell.cpp:40-46 never fails on an allocated matrix, whatever it contains,
    and leaves only zeros. *)
Lemma set_zero_ok (m : ell T) nrow nnz : e_nrow m = nrow -> e_nnz m = nnz -> 0 < nnz ->
  alen (e_vals m) = nnz * nrow ->
  exists v, ell_set_zero_mat m = Ok (set_vals m v) /\ rep v (nnz * nrow) (fun _ => ofZ 0).
Proof.
  intros Hr Hn Hz L. unfold ell_set_zero_mat. rewrite Hr, Hn.
  destruct (run_stores_ok (zero_stores nrow nnz) (e_vals m)) as (v & E & L' & G).
  { intros a x Hin. apply in_zero_stores in Hin; lia. }
  rewrite E. exists v. split; [reflexivity|]. split; [lia|].
  intros i Hi. rewrite G. rewrite (last_write_unique _ _ (ofZ 0)); [reflexivity| |].
  - now apply zero_stores_in.
  - intros v' H. apply in_zero_stores in H; [tauto|lia].
Qed.

Lemma mvp_row_ok (m : ell T) nrow nnz cf vf x xf i :
  ell_rep m nrow nnz cf vf -> rep x nrow xf -> 0 <= i < nrow ->
  mvp_row m x i = Ok (sumf (zrange 0 nnz)
     (fun j => omul (vf (i * nnz + j)) (xf (cf (i * nnz + j))))).
Proof.
  intros M X Hi. unfold mvp_row. rewrite (er_nnz _ _ _ _ _ M). apply sumM_ok.
  intros j Hj. apply in_zrange in Hj.
  assert (Ha : 0 <= i * nnz + j < nnz * nrow) by nia.
  rewrite (rep_rd _ _ _ _ (er_vals _ _ _ _ _ M) Ha). cbn [bind].
  rewrite (rep_rd _ _ _ _ (er_cols _ _ _ _ _ M) Ha). cbn [bind].
  rewrite (rep_rd _ _ _ _ X (er_cf _ _ _ _ _ M _ Ha)). reflexivity.
Qed.

Lemma mvp_ok (m : ell T) nrow nnz cf vf x xf y :
  ell_rep m nrow nnz cf vf -> rep x nrow xf -> alen y = nrow ->
  exists y', ell_mvp_2D m x y = Ok y' /\
    rep y' nrow (fun i => sumf (zrange 0 nnz)
     (fun j => omul (vf (i * nnz + j)) (xf (cf (i * nnz + j))))).
Proof.
  intros M X L. unfold ell_mvp_2D. rewrite (er_nrow _ _ _ _ _ M).
  apply upd_for_rep; [exact L|]. intros. eapply mvp_row_ok; eassumption.
Qed.

(** accumulations of a list of elements *)
Definition add_all {E} (npe nF nnz : Z) (cr : list (list Z)) (sn : E -> list Z)
  (Ae : E -> Z -> T) (els : list E) : list (Z * T) :=
  flat_map (fun e => add_struct npe nF nnz cr (sn e) (Ae e)) els.

Lemma run_adds_app (w1 w2 : list (Z * T)) a :
  run_adds (w1 ++ w2) a = (a' <- run_adds w1 a ;; run_adds w2 a').
Proof. apply foldM_app. Qed.

Lemma in_add_struct npe nF S cr sn (Ae : Z -> T) a v :
  In (a, v) (add_struct npe nF (S * nF) cr sn Ae) <->
  exists i n k j, 0 <= i < nF /\ 0 <= n < npe /\ 0 <= k < npe /\ 0 <= j < nF /\
    a = cell S nF (znth sn k) i (zznth cr k n) j /\
    v = Ae (k * (npe * nF * nF) + i * (npe * nF) + n * nF + j).
Proof.
  unfold add_struct. rewrite in_flat_map. split.
  - intros (i & Hi & H). apply in_flat_map in H. destruct H as (n & Hn & H).
    apply in_flat_map in H. destruct H as (k & Hk & H).
    apply in_map_iff in H. destruct H as (j & [= <- <-] & Hj).
    apply in_zrange in Hi, Hn, Hk, Hj. exists i, n, k, j. repeat split; try lia.
    unfold cell. ring.
  - intros (i & n & k & j & Hi & Hn & Hk & Hj & -> & ->).
    exists i. split; [now apply in_zrange|]. apply in_flat_map.
    exists n. split; [now apply in_zrange|]. apply in_flat_map.
    exists k. split; [now apply in_zrange|]. apply in_map_iff.
    exists j. split; [|now apply in_zrange]. f_equal. unfold cell. ring.
Qed.

Lemma add_all_range {E} npe nF S nn cr (sn : E -> list Z) (Ae : E -> Z -> T) els a v :
  (forall e k, In e els -> 0 <= k < npe -> 0 <= znth (sn e) k < nn) ->
  (forall k n, 0 <= k < npe -> 0 <= n < npe -> 0 <= zznth cr k n < S) ->
  In (a, v) (add_all npe nF (S * nF) cr sn Ae els) -> 0 <= a < (S * nF) * (nn * nF).
Proof.
  intros Hsn Hcr. unfold add_all. rewrite in_flat_map. intros (e & He & H).
  apply in_add_struct in H. destruct H as (i & n & k & j & Hi & Hn & Hk & Hj & -> & _).
  apply cell_range; auto.
Qed.

Lemma add_all_ok {E} npe nF S nn cr (sn : E -> list Z) (Ae : E -> Z -> T) els (v : arr T) f :
  (forall e k, In e els -> 0 <= k < npe -> 0 <= znth (sn e) k < nn) ->
  (forall k n, 0 <= k < npe -> 0 <= n < npe -> 0 <= zznth cr k n < S) ->
  rep v ((S * nF) * (nn * nF)) f ->
  exists v', run_adds (add_all npe nF (S * nF) cr sn Ae els) v = Ok v' /\
    rep v' ((S * nF) * (nn * nF))
      (fun a => fold_left oadd (deltas (add_all npe nF (S * nF) cr sn Ae els) a) (f a)).
Proof.
  intros Hsn Hcr R. apply run_adds_ok; [exact R|]. intros. eapply add_all_range; eauto.
Qed.

End Gen.

(** ** Corner and stencil tables *)
Definition tabs2_ok : bool :=
  forallb (fun k => forallb (fun n =>
    let s := zznth cols_row2 k n in
    (0 <=? s) && (s <? 9) && (off_x s =? cor_x n - cor_x k) && (off_y s =? cor_y n - cor_y k))
    (zrange 0 4)) (zrange 0 4).
Lemma tabs2_checked : tabs2_ok = true.
Proof. vm_compute. reflexivity. Qed.

Lemma cols_row2_spec k n : 0 <= k < 4 -> 0 <= n < 4 ->
  let s := zznth cols_row2 k n in
  0 <= s < 9 /\ off_x s = cor_x n - cor_x k /\ off_y s = cor_y n - cor_y k.
Proof.
  intros Hk Hn s. pose proof (proj1 (forallb_forall _ _) tabs2_checked k (proj2 (in_zrange _ _ _) Hk)) as C.
  cbv beta in C. pose proof (proj1 (forallb_forall _ _) C n (proj2 (in_zrange _ _ _) Hn)) as C2.
  cbv beta zeta in C2. fold s in C2. lia.
Qed.

Definition tabs3_ok : bool :=
  forallb (fun k => forallb (fun n =>
    let s := zznth cols_row3 k n in
    (0 <=? s) && (s <? 27) && (off_x s =? cor_x n - cor_x k) && (off_y s =? cor_y n - cor_y k)
    && (off_z s =? cor_z n - cor_z k))
    (zrange 0 8)) (zrange 0 8).
Lemma tabs3_checked : tabs3_ok = true.
Proof. vm_compute. reflexivity. Qed.

Lemma cols_row3_spec k n : 0 <= k < 8 -> 0 <= n < 8 ->
  let s := zznth cols_row3 k n in
  0 <= s < 27 /\ off_x s = cor_x n - cor_x k /\ off_y s = cor_y n - cor_y k /\
  off_z s = cor_z n - cor_z k.
Proof.
  intros Hk Hn s. pose proof (proj1 (forallb_forall _ _) tabs3_checked k (proj2 (in_zrange _ _ _) Hk)) as C.
  cbv beta in C. pose proof (proj1 (forallb_forall _ _) C n (proj2 (in_zrange _ _ _) Hn)) as C2.
  cbv beta zeta in C2. fold s in C2. lia.
Qed.

(** enumerate 0 <= k < n for a literal n *)
Ltac zcases k H :=
  repeat match type of H with
  | ?lo <= k < ?hi =>
      let lo' := eval vm_compute in lo in
      let b := eval vm_compute in (Z.ltb lo' hi) in
      match b with
      | true => let H' := fresh in
                assert (H' : k = lo' \/ lo' + 1 <= k < hi) by lia;
                clear H; destruct H' as [->|H]; [|simpl Z.add in H]
      | false => exfalso; lia
      end
  end.

Ltac cor_compute :=
  repeat match goal with
  | |- context [cor_x ?c] => let v := eval vm_compute in (cor_x c) in change (cor_x c) with v
  | |- context [cor_y ?c] => let v := eval vm_compute in (cor_y c) in change (cor_y c) with v
  | |- context [cor_z ?c] => let v := eval vm_compute in (cor_z c) in change (cor_z c) with v
  end.

Lemma sn2_corner nx ny ex ey k : 0 <= k < 4 -> znth (sn2 nx ex ey) k = corner2 nx ny ex ey k.
Proof.
  intros H. unfold corner2, node. zcases k H;
    cbv [znth sn2 nth Z.to_nat Pos.to_nat Pos.iter_op Nat.add]; cor_compute; ring.
Qed.

Lemma sn3_corner nx ny ex ey ez k : 0 <= k < 8 ->
  znth (sn3 nx ny ex ey ez) k = corner3 nx ny ex ey ez k.
Proof.
  intros H. unfold corner3, node. zcases k H;
    cbv [znth sn3 nth Z.to_nat Pos.to_nat Pos.iter_op Nat.add]; cor_compute; ring.
Qed.

Lemma cor_bound a : 0 <= a < 8 -> 0 <= cor_x a <= 1 /\ 0 <= cor_y a <= 1 /\ 0 <= cor_z a <= 1.
Proof. intros. unfold cor_x, cor_y, cor_z. repeat destruct (_ || _); lia. Qed.

Lemma corner2_range nx ny ex ey a : 0 <= ex < nx - 1 -> 0 <= ey < ny - 1 -> 0 <= a < 4 ->
  0 <= corner2 nx ny ex ey a < nx * ny.
Proof.
  intros. destruct (cor_bound a) as (? & ? & _); [lia|].
  pose proof (node_range nx ny 1 (ex + cor_x a) (ey + cor_y a) 0). unfold corner2. lia.
Qed.

Lemma corner3_range nx ny nz ex ey ez a :
  0 <= ex < nx - 1 -> 0 <= ey < ny - 1 -> 0 <= ez < nz - 1 -> 0 <= a < 8 ->
  0 <= corner3 nx ny ex ey ez a < nx * ny * nz.
Proof.
  intros. destruct (cor_bound a) as (? & ? & ?); [lia|].
  apply node_range; lia.
Qed.

(** the stencil slot used for corner n in a row of corner k is corner n *)
Lemma nbr2_corner nx ny ex ey k n :
  0 <= ex < nx - 1 -> 0 <= ey < ny - 1 -> 0 <= k < 4 -> 0 <= n < 4 ->
  nbr2 nx ny (ex + cor_x k) (ey + cor_y k) (zznth cols_row2 k n) = Some (corner2 nx ny ex ey n).
Proof.
  intros. destruct (cols_row2_spec k n) as (_ & Ex & Ey); try assumption.
  destruct (cor_bound n) as (? & ? & _); [lia|].
  unfold nbr2. rewrite Ex, Ey. unfold insideb.
  replace (ex + cor_x k + (cor_x n - cor_x k)) with (ex + cor_x n) by ring.
  replace (ey + cor_y k + (cor_y n - cor_y k)) with (ey + cor_y n) by ring.
  destruct (_ && _) eqn:E; [reflexivity|lia].
Qed.

Lemma nbr3_corner nx ny nz ex ey ez k n :
  0 <= ex < nx - 1 -> 0 <= ey < ny - 1 -> 0 <= ez < nz - 1 -> 0 <= k < 8 -> 0 <= n < 8 ->
  nbr3 nx ny nz (ex + cor_x k) (ey + cor_y k) (ez + cor_z k) (zznth cols_row3 k n)
  = Some (corner3 nx ny ex ey ez n).
Proof.
  intros. destruct (cols_row3_spec k n) as (_ & Ex & Ey & Ez); try assumption.
  destruct (cor_bound n) as (? & ? & ?); [lia|].
  unfold nbr3. rewrite Ex, Ey, Ez. unfold insideb.
  replace (ex + cor_x k + (cor_x n - cor_x k)) with (ex + cor_x n) by ring.
  replace (ey + cor_y k + (cor_y n - cor_y k)) with (ey + cor_y n) by ring.
  replace (ez + cor_z k + (cor_z n - cor_z k)) with (ez + cor_z n) by ring.
  destruct (_ && _) eqn:E; [reflexivity|lia].
Qed.

(** ** Exact arithmetic *)
Open Scope R_scope.

Lemma rsum_zrange_prod S nF f : (0 <= S)%Z -> (0 <= nF)%Z ->
  rsum (zrange 0 (S * nF)) f =
  rsum (zrange 0 S) (fun s => rsum (zrange 0 nF) (fun d => f (s * nF + d)%Z)).
Proof.
  intros HS HF. pattern S. apply natlike_ind; [reflexivity| |exact HS].
  intros x Hx IH. unfold Z.succ. rewrite rsum_zrange_snoc by exact Hx. rewrite <- IH.
  replace ((x + 1) * nF)%Z with (x * nF + nF)%Z by ring.
  rewrite (zrange_app 0 (x * nF)) by nia. rewrite rsum_app. f_equal.
  replace (zrange (x * nF) (x * nF + nF)) with (zrange (0 + x * nF) (nF + x * nF)) by (f_equal; ring).
  rewrite zrange_shift, rsum_map. apply rsum_ext. intros; f_equal; ring.
Qed.

(** an accumulation contributes to one coupling of one row *)
Lemma slot_pick S nF n d1 n' i s' j c g :
  (0 <= d1 < nF)%Z -> (0 <= i < nF)%Z -> (0 <= s' < S)%Z -> (0 <= j < nF)%Z ->
  rsum (zrange 0 S) (fun s => rsum (zrange 0 nF) (fun d2 =>
     (if (cell S nF n' i s' j =? cell S nF n d1 s d2)%Z then c else 0) * g (s * nF + d2)%Z))
  = if ((n' =? n) && (i =? d1))%Z then c * g (s' * nF + j)%Z else 0.
Proof.
  intros Hd Hi Hs Hj.
  destruct ((n' =? n) && (i =? d1))%Z eqn:B.
  - assert (n' = n /\ i = d1) as (-> & ->) by lia.
    rewrite (rsum_single _ _ s'); [|apply NoDup_zrange|now apply in_zrange|].
    + rewrite (rsum_single _ _ j); [|apply NoDup_zrange|now apply in_zrange|].
      * now rewrite Z.eqb_refl.
      * intros d2 H2 Ne. apply in_zrange in H2.
        destruct (Z.eqb_spec (cell S nF n d1 s' j) (cell S nF n d1 s' d2)) as [E|]; [|lra].
        apply cell_inj in E; try assumption. intuition congruence.
    + intros s H2 Ne. apply in_zrange in H2. apply rsum_zero. intros d2 H3. apply in_zrange in H3.
      destruct (Z.eqb_spec (cell S nF n d1 s' j) (cell S nF n d1 s d2)) as [E|]; [|lra].
      apply cell_inj in E; try assumption. intuition congruence.
  - apply rsum_zero. intros s H2. apply in_zrange in H2. apply rsum_zero. intros d2 H3.
    apply in_zrange in H3.
    destruct (Z.eqb_spec (cell S nF n' i s' j) (cell S nF n d1 s d2)) as [E|]; [|lra].
    apply cell_inj in E; try assumption. destruct E as (-> & -> & _). lia.
Qed.

(** entry (corner k field i, corner n field j) of a row-major element matrix *)
Definition Aentry (npe nF : Z) (Ae : Z -> R) (k i n j : Z) : R :=
  Ae ((k * nF + i) * (npe * nF) + (n * nF + j))%Z.

(** row (n,d1) of an assembled matrix against arbitrary slot weights g *)
Lemma asm_row {E} npe nF S cr (sn : E -> list Z) (Ae : E -> Z -> R) els n d1 g :
  (0 <= S)%Z -> (0 <= npe)%Z -> (0 <= d1 < nF)%Z ->
  (forall k m, 0 <= k < npe -> 0 <= m < npe -> 0 <= zznth cr k m < S)%Z ->
  rsum (zrange 0 (S * nF)) (fun q =>
     rsum (add_all npe nF (S * nF) cr sn Ae els)
       (fun w => if (fst w =? (n * nF + d1) * (S * nF) + q)%Z then snd w else 0) * g q)
  = rsum els (fun e => rsum (zrange 0 npe) (fun k =>
      if (znth (sn e) k =? n)%Z then
        rsum (zrange 0 npe) (fun m => rsum (zrange 0 nF) (fun j =>
          Aentry npe nF (Ae e) k d1 m j * g (zznth cr k m * nF + j)%Z))
      else 0)).
Proof.
  intros HS Hp Hd Hcr. rewrite rsum_zrange_prod by lia.
  (* bring the sum over accumulations outside *)
  transitivity (rsum (add_all npe nF (S * nF) cr sn Ae els) (fun w =>
     rsum (zrange 0 S) (fun s => rsum (zrange 0 nF) (fun d2 =>
       (if (fst w =? cell S nF n d1 s d2)%Z then snd w else 0) * g (s * nF + d2)%Z)))).
  { symmetry. rewrite rsum_swap. apply rsum_ext. intros s _. rewrite rsum_swap. apply rsum_ext. intros d2 _.
    rewrite rsum_scal_r. reflexivity. }
  unfold add_all. rewrite rsum_flat_map. apply rsum_ext. intros e _.
  unfold add_struct. rewrite rsum_flat_map.
  transitivity (rsum (zrange 0 nF) (fun i => rsum (zrange 0 npe) (fun m =>
     rsum (zrange 0 npe) (fun k => rsum (zrange 0 nF) (fun j =>
       if ((znth (sn e) k =? n) && (i =? d1))%Z
       then Aentry npe nF (Ae e) k i m j * g (zznth cr k m * nF + j)%Z else 0))))).
  { apply rsum_ext. intros i Hi. apply in_zrange in Hi. rewrite rsum_flat_map.
    apply rsum_ext. intros m Hm. apply in_zrange in Hm. rewrite rsum_flat_map.
    apply rsum_ext. intros k Hk. apply in_zrange in Hk. rewrite rsum_map.
    apply rsum_ext. intros j Hj. apply in_zrange in Hj. cbn [fst snd].
    rewrite <- slot_pick with (S := S) by auto.
    apply rsum_ext. intros s _. apply rsum_ext. intros d2 _.
    replace (znth (sn e) k * (nF * (S * nF)) + i * (S * nF) + zznth cr k m * nF + j)%Z
      with (cell S nF (znth (sn e) k) i (zznth cr k m) j) by (unfold cell; ring).
    unfold Aentry.
    replace (k * (npe * nF * nF) + i * (npe * nF) + m * nF + j)%Z
      with ((k * nF + i) * (npe * nF) + (m * nF + j))%Z by ring.
    reflexivity. }
  rewrite (rsum_single _ _ d1); [|apply NoDup_zrange|now apply in_zrange|].
  - rewrite rsum_swap. apply rsum_ext. intros k _. rewrite Z.eqb_refl.
    destruct (znth (sn e) k =? n)%Z; simpl; [reflexivity|].
    apply rsum_zero. intros. now apply rsum_zero.
  - intros i _ Ne. replace (i =? d1)%Z with false by lia.
    apply rsum_zero. intros. apply rsum_zero. intros. apply rsum_zero. intros.
    now rewrite andb_false_r.
Qed.

(** sum of element operators, restricted to row (n,d1):
    sum over the cells, over the corners k equal to n, of row (k,d1) of the
    element matrix times the nodal values of the cell *)
Definition elem_sum {E} (npe nF : Z) (corner : E -> Z -> Z) (Ae : E -> Z -> R)
  (els : list E) (x : Z -> R) (n d1 : Z) : R :=
  rsum els (fun e => rsum (zrange 0 npe) (fun k =>
    if (corner e k =? n)%Z then
      rsum (zrange 0 npe) (fun m => rsum (zrange 0 nF) (fun j =>
        Aentry npe nF (Ae e) k d1 m j * x (corner e m * nF + j)%Z))
    else 0)).
Close Scope R_scope.
