(** Statements about whole matrices built on the lemmas of the Ell* files. *)
From Coq Require Import ZifyBool Reals Lra.
From Coq Require Import ZArith List Lia FMapPositive.
Open Scope Z_scope.
From Verif Require Import Base Scalar InitTables EllModel EllSpec EllInit EllAsm EllOp EllBc EllBc2.
Ltac Zify.zify_post_hook ::= Z.div_mod_to_equations.

(** The dense matrix a packed matrix stands for: the coefficient of x[c] in
    entry r of the product.  Unwritten values count as 0. *)
Definition getR (v : arr R) (a : Z) : R := match aget v a with Some x => x | None => 0%R end.
Definition dense (m : ell R) (r c : Z) : R :=
  rsum (zrange 0 (e_nnz m)) (fun q =>
    if colsf m (r * e_nnz m + q) =? c then getR (e_vals m) (r * e_nnz m + q) else 0%R).

Definition kron (r c : Z) : R := if r =? c then 1%R else 0%R.

Lemma init3_set {T} nF nx ny nz (m : ell T) v : 2 <= nx -> 2 <= ny -> 2 <= nz -> 1 <= nF ->
  ell_init_3D nF nx ny nz = Ok m -> alen v = alen (e_vals m) ->
  struct3 (set_vals m v) nF nx ny nz.
Proof.
  intros Hx Hy Hz HF E L.
  destruct (init3_struct (T:=T) nF nx ny nz) as (m' & E' & S); try assumption.
  assert (m' = m) by congruence. subst m'.
  apply struct3_set; [exact S|]. rewrite L. now destruct S.
Qed.

Lemma init2_set {T} nF nx ny (m : ell T) v : 2 <= nx -> 2 <= ny -> 1 <= nF ->
  ell_init_2D nF nx ny = Ok m -> alen v = alen (e_vals m) ->
  struct2 (set_vals m v) nF nx ny.
Proof.
  intros Hx Hy HF E L.
  destruct (init2_struct (T:=T) nF nx ny) as (m' & E' & S); try assumption.
  assert (m' = m) by congruence. subst m'.
  apply struct2_set; [exact S|]. rewrite L. now destruct S.
Qed.

Lemma dense_slots (m : ell R) S nF n d1 c : e_nnz m = S * nF -> 0 <= S -> 0 <= nF ->
  dense m (n * nF + d1) c =
  rsum (zrange 0 S) (fun s => rsum (zrange 0 nF) (fun d2 =>
    if colsf m (cell S nF n d1 s d2) =? c then getR (e_vals m) (cell S nF n d1 s d2) else 0%R)).
Proof. intros E HS HF. unfold dense. rewrite E, rsum_zrange_prod by assumption. reflexivity. Qed.

Lemma nbr3_self nx ny nz i j k : 0 <= i < nx -> 0 <= j < ny -> 0 <= k < nz ->
  nbr3 nx ny nz i j k 13 = Some (node nx ny i j k).
Proof.
  intros. unfold nbr3, insideb, off_x, off_y, off_z. simpl.
  rewrite !Z.add_0_r. replace (_ && _ && _) with true by lia. reflexivity.
Qed.

Lemma nbr2_self nx ny i j : 0 <= i < nx -> 0 <= j < ny ->
  nbr2 nx ny i j 4 = Some (node nx ny i j 0).
Proof.
  intros. unfold nbr2, insideb, off_x, off_y. simpl.
  rewrite !Z.add_0_r. replace (_ && _) with true by lia. reflexivity.
Qed.

(** a row whose values are the identity pattern is an identity row *)
Lemma ident_dense (m : ell R) S nF slot n d1 c : e_nnz m = S * nF -> 0 <= slot < S ->
  0 <= d1 < nF ->
  colsf m (cell S nF n d1 slot d1) = n * nF + d1 ->
  (forall s d2, 0 <= s < S -> 0 <= d2 < nF -> aget (e_vals m) (cell S nF n d1 s d2) = Some (idv slot s d1 d2)) ->
  dense m (n * nF + d1) c = kron (n * nF + d1) c.
Proof.
  intros E Hs Hd C V. rewrite (dense_slots m S) by (assumption || lia).
  rewrite (rsum_single _ _ slot); [|apply NoDup_zrange|now apply in_zrange|].
  - rewrite (rsum_single _ _ d1); [|apply NoDup_zrange|now apply in_zrange|].
    + rewrite C. unfold kron, getR. rewrite V by assumption. unfold idv. rewrite !Z.eqb_refl. reflexivity.
    + intros d2 H2 N. apply in_zrange in H2. unfold getR. rewrite V by assumption. unfold idv.
      replace ((slot =? slot) && (d1 =? d2)) with false by lia. simpl. now destruct (_ =? c).
  - intros s H N. apply in_zrange in H. apply rsum_zero. intros d2 H2. apply in_zrange in H2.
    unfold getR. rewrite V by assumption. unfold idv.
    replace ((s =? slot) && (d1 =? d2)) with false by lia. simpl. now destruct (_ =? c).
Qed.

Theorem bc3_dense nF nx ny nz (m : ell R) m' :
  2 <= nx -> 2 <= ny -> 2 <= nz -> 1 <= nF -> struct3 m nF nx ny nz ->
  ell_set_bc_3D m nF nx ny nz = Ok m' ->
  forall i j k d1 i' j' k' d2, 0 <= i < nx -> 0 <= j < ny -> 0 <= k < nz -> 0 <= d1 < nF ->
    0 <= i' < nx -> 0 <= j' < ny -> 0 <= k' < nz -> 0 <= d2 < nF ->
    let r := node nx ny i j k * nF + d1 in
    let c := node nx ny i' j' k' * nF + d2 in
    (bnd3 nx ny nz i j k -> dense m' r c = kron r c) /\
    (~ bnd3 nx ny nz i j k -> bnd3 nx ny nz i' j' k' -> dense m' r c = 0%R) /\
    (~ bnd3 nx ny nz i j k -> ~ bnd3 nx ny nz i' j' k' -> dense m' r c = dense m r c).
Proof.
  intros Hx Hy Hz HF M E. destruct (set_bc_3D_ok m nF nx ny nz) as (v & E' & L & V); try assumption.
  assert (m' = set_vals m v) by congruence. subst m'. clear E E'.
  intros i j k d1 i' j' k' d2 Hi Hj Hk H1 Hi' Hj' Hk' H2 r c.
  pose proof (fun s e => V i j k d1 s e Hi Hj Hk H1) as W. clear V.
  assert (MN : e_nnz m = 27 * nF) by now destruct M.
  split; [|split].
  - intros B. apply (ident_dense _ 27 nF 13); auto; try lia.
    + rewrite colsf_set, (struct3_colsf m nF nx ny nz) by (assumption || lia).
      now rewrite nbr3_self.
    + intros s e Hs He. now apply (W s e).
  - intros NB B. unfold r. rewrite (dense_slots _ 27) by (assumption || lia).
    apply rsum_zero. intros s Hs. apply in_zrange in Hs.
    apply rsum_zero. intros e He. apply in_zrange in He.
    destruct (colsf _ _ =? c) eqn:C; [|reflexivity]. apply Z.eqb_eq in C.
    rewrite colsf_set, (struct3_colsf m nF nx ny nz) in C by assumption.
    destruct (W s e) as (_ & W'); try assumption. destruct (W' NB) as (W0 & _).
    unfold getR. cbn [set_vals e_vals]. rewrite W0; [reflexivity|].
    unfold nbr3 in C. 
    assert (Ins : insideb nx (i + off_x s) && insideb ny (j + off_y s) && insideb nz (k + off_z s) = true).
    { destruct (offs_bound s) as (? & ? & ?); [lia|]. unfold bnd3, on_bnd in NB. unfold insideb. lia. }
    rewrite Ins in C. unfold col_of, c in C. unfold insideb in Ins.
    destruct (radix_inj nF (node nx ny (i + off_x s) (j + off_y s) (k + off_z s)) e (node nx ny i' j' k') d2) as (C1 & C2); try lia.
    apply node_inj in C1; try lia. destruct C1 as (-> & -> & ->). exact B.
  - intros NB B. unfold r. rewrite !(dense_slots _ 27) by (assumption || lia).
    apply rsum_ext. intros s Hs. apply in_zrange in Hs.
    apply rsum_ext. intros e He. apply in_zrange in He. rewrite colsf_set.
    destruct (colsf _ _ =? c) eqn:C; [|reflexivity]. apply Z.eqb_eq in C.
    rewrite (struct3_colsf m nF nx ny nz) in C by assumption.
    destruct (W s e) as (_ & W'); try assumption. destruct (W' NB) as (_ & W0).
    unfold getR. cbn [set_vals e_vals]. rewrite W0; [reflexivity|].
    unfold nbr3 in C.
    assert (Ins : insideb nx (i + off_x s) && insideb ny (j + off_y s) && insideb nz (k + off_z s) = true).
    { destruct (offs_bound s) as (? & ? & ?); [lia|]. unfold bnd3, on_bnd in NB. unfold insideb. lia. }
    rewrite Ins in C. unfold col_of, c in C. unfold insideb in Ins.
    destruct (radix_inj nF (node nx ny (i + off_x s) (j + off_y s) (k + off_z s)) e (node nx ny i' j' k') d2) as (C1 & C2); try lia.
    apply node_inj in C1; try lia. destruct C1 as (-> & -> & ->). exact B.
Qed.

Lemma bnd3_dec nx ny nz i j k : {bnd3 nx ny nz i j k} + {~ bnd3 nx ny nz i j k}.
Proof.
  unfold bnd3, on_bnd.
  destruct (Z.eq_dec i 0), (Z.eq_dec i (nx-1)), (Z.eq_dec j 0), (Z.eq_dec j (ny-1)),
    (Z.eq_dec k 0), (Z.eq_dec k (nz-1)); (left; lia) || (right; lia).
Qed.

Theorem bc3_symm nF nx ny nz (m : ell R) m' :
  2 <= nx -> 2 <= ny -> 2 <= nz -> 1 <= nF -> struct3 m nF nx ny nz ->
  ell_set_bc_3D m nF nx ny nz = Ok m' ->
  (forall r c, 0 <= r < nx * ny * nz * nF -> 0 <= c < nx * ny * nz * nF -> dense m r c = dense m c r) ->
  (forall r c, 0 <= r < nx * ny * nz * nF -> 0 <= c < nx * ny * nz * nF -> dense m' r c = dense m' c r).
Proof.
  intros Hx Hy Hz HF M E Sy r c Hr Hc.
  assert (D : forall r, 0 <= r < nx * ny * nz * nF -> exists i j k d, 0 <= i < nx /\ 0 <= j < ny /\ 0 <= k < nz /\ 0 <= d < nF /\ node nx ny i j k * nF + d = r).
  { intros q Hq. destruct (node_surj nx ny nz (q / nF)) as (i & j & k & Hi & Hj & Hk & En); try lia.
    - split; [apply Z.div_pos; lia|apply Z.div_lt_upper_bound; lia].
    - exists i, j, k, (q mod nF). pose proof (Z.mod_pos_bound q nF ltac:(lia)).
      rewrite En. pose proof (Z.div_mod q nF ltac:(lia)). lia. }
  assert (K : kron r c = kron c r) by (unfold kron; now rewrite Z.eqb_sym).
  destruct (D r Hr) as (i & j & k & d & ? & ? & ? & ? & Er).
  destruct (D c Hc) as (i' & j' & k' & d' & ? & ? & ? & ? & Ec).
  destruct (bc3_dense nF nx ny nz m m' Hx Hy Hz HF M E i j k d i' j' k' d') as (A1 & A2 & A3); try assumption.
  destruct (bc3_dense nF nx ny nz m m' Hx Hy Hz HF M E i' j' k' d' i j k d) as (B1 & B2 & B3); try assumption.
  rewrite Er, Ec in *.
  assert (KN : (bnd3 nx ny nz i j k <-> ~ bnd3 nx ny nz i' j' k') -> kron r c = 0%R).
  { intros N. unfold kron. destruct (Z.eqb_spec r c) as [->|]; [|reflexivity]. exfalso.
    destruct (radix_inj nF (node nx ny i j k) d (node nx ny i' j' k') d') as (C1 & C2); try lia.
    apply node_inj in C1; try assumption. destruct C1 as (-> & -> & ->).
    destruct (bnd3_dec nx ny nz i' j' k'); tauto. }
  destruct (bnd3_dec nx ny nz i j k) as [P|P], (bnd3_dec nx ny nz i' j' k') as [Q|Q].
  - rewrite A1, B1; auto.
  - rewrite A1, B2; auto. apply KN. tauto.
  - rewrite A2, B1; auto. rewrite <- K. symmetry. apply KN. tauto.
  - rewrite A3, B3; auto.
Qed.

(** ** 2D *)
Lemma struct2_colsf_in (m : ell R) nF nx ny i j d1 s d2 : struct2 m nF nx ny ->
  0 <= i < nx -> 0 <= j < ny -> 0 <= d1 < nF -> 0 <= s < 9 -> 0 <= d2 < nF ->
  colsf m (cell 9 nF (node nx ny i j 0) d1 s d2) = col2_code nF nx ny i j s d2.
Proof. intros M; intros. unfold colsf. now rewrite (s2_cols _ _ _ _ M). Qed.

Lemma offs2_bound s : 0 <= s < 9 -> -1 <= off_x s <= 1 /\ -1 <= off_y s <= 1.
Proof. unfold off_x, off_y. lia. Qed.

Theorem bc2_dense nF nx ny (m : ell R) m' :
  2 <= nx -> 2 <= ny -> 1 <= nF -> struct2 m nF nx ny ->
  ell_set_bc_2D m nF nx ny = Ok m' ->
  forall i j d1 i' j' d2, 0 <= i < nx -> 0 <= j < ny -> 0 <= d1 < nF ->
    0 <= i' < nx -> 0 <= j' < ny -> 0 <= d2 < nF ->
    let r := node nx ny i j 0 * nF + d1 in
    let c := node nx ny i' j' 0 * nF + d2 in
    (bnd2 nx ny i j -> dense m' r c = kron r c) /\
    (~ bnd2 nx ny i j -> ~ bnd2 nx ny i' j' -> dense m' r c = dense m r c).
Proof.
  intros Hx Hy HF M E. destruct (set_bc_2D_ok m nF nx ny) as (v & E' & L & V); try assumption.
  assert (m' = set_vals m v) by congruence. subst m'. clear E E'.
  intros i j d1 i' j' d2 Hi Hj H1 Hi' Hj' H2 r c.
  pose proof (fun s e => V i j d1 s e Hi Hj H1) as W. clear V.
  assert (MN : e_nnz m = 9 * nF) by now destruct M.
  split.
  - intros B. apply (ident_dense _ 9 nF 4); auto; try lia.
    + rewrite colsf_set, (struct2_colsf_in m nF nx ny) by (assumption || lia).
      unfold col2_code. replace (4 =? 7) with false by reflexivity. rewrite andb_false_r.
      now rewrite nbr2_self.
    + intros s e Hs He. now apply (W s e).
  - intros NB B. unfold r. rewrite !(dense_slots _ 9) by (assumption || lia).
    apply rsum_ext. intros s Hs. apply in_zrange in Hs.
    apply rsum_ext. intros e He. apply in_zrange in He. rewrite colsf_set.
    destruct (colsf _ _ =? c) eqn:C; [|reflexivity]. apply Z.eqb_eq in C.
    rewrite (struct2_colsf_in m nF nx ny) in C by assumption.
    destruct (W s e) as (_ & W'); try assumption. destruct (W' NB) as (_ & W0).
    unfold getR. cbn [set_vals e_vals]. rewrite W0; [reflexivity|].
    intros Nr. apply near2_bnd in Nr; try assumption.
    unfold col2_code in C. replace (i =? nx - 1) with false in C by (unfold bnd2, on_bnd in NB; lia).
    cbn [andb] in C. unfold nbr2 in C.
    assert (Ins : insideb nx (i + off_x s) && insideb ny (j + off_y s) = true).
    { destruct (offs2_bound s) as (? & ?); [lia|]. unfold bnd2, on_bnd in NB. unfold insideb. lia. }
    rewrite Ins in C. unfold col_of, c in C. unfold insideb in Ins.
    destruct (radix_inj nF (node nx ny (i + off_x s) (j + off_y s) 0) e (node nx ny i' j' 0) d2) as (C1 & C2); try lia.
    apply node_inj in C1; try lia. destruct C1 as (E1 & E2 & _). rewrite E1, E2 in Nr. tauto.
Qed.

(** slot of the stencil offset (a,b) *)
Definition slot_of (a b : Z) : Z := (b + 1) * 3 + (a + 1).

(** ** A coupling that survives ell_set_bc_2D *)
Theorem bc2_keeps nF nx ny (m : ell R) m' :
  3 <= nx -> 3 <= ny -> ~ (nx = 3 /\ ny = 3) -> 1 <= nF -> struct2 m nF nx ny ->
  ell_set_bc_2D m nF nx ny = Ok m' ->
  exists i j i' j', (0 < i < nx - 1) /\ (0 < j < ny - 1) /\ 0 <= i' < nx /\ 0 <= j' < ny /\
    bnd2 nx ny i' j' /\ -1 <= i' - i <= 1 /\ -1 <= j' - j <= 1 /\
    forall d1 d2, 0 <= d1 < nF -> 0 <= d2 < nF ->
      dense m' (node nx ny i j 0 * nF + d1) (node nx ny i' j' 0 * nF + d2) =
      getR (e_vals m) (cell 9 nF (node nx ny i j 0) d1 (slot_of (i' - i) (j' - j)) d2).
Proof.
  intros Hx Hy N33 HF M E. destruct (set_bc_2D_ok m nF nx ny) as (v & E' & L & V); try assumption; try lia.
  assert (m' = set_vals m v) by congruence. subst m'. clear E E'.
  destruct (near2_gap nx ny) as (i & j & s0 & Hi & Hj & Hs0 & B & NN); try assumption.
  destruct (offs2_bound s0 Hs0) as (Ox & Oy).
  exists i, j, (i + off_x s0), (j + off_y s0).
  split; [lia|]. split; [lia|]. split; [lia|]. split; [lia|]. split; [exact B|].
  split; [lia|]. split; [lia|].
  intros d1 d2 H1 H2.
  assert (Hi' : 0 <= i < nx) by lia. assert (Hj' : 0 <= j < ny) by lia.
  pose proof (fun s e => V i j d1 s e Hi' Hj' H1) as W. clear V.
  assert (MN : e_nnz m = 9 * nF) by now destruct M.
  assert (NB : ~ bnd2 nx ny i j) by (unfold bnd2, on_bnd; lia).
  replace (slot_of _ _) with s0 by (unfold slot_of, off_x, off_y; lia).
  rewrite !(dense_slots _ 9) by (assumption || lia).
  assert (C : forall s e, 0 <= s < 9 -> 0 <= e < nF ->
    colsf (set_vals m v) (cell 9 nF (node nx ny i j 0) d1 s e)
    = node nx ny (i + off_x s) (j + off_y s) 0 * nF + e).
  { intros s e Hs He. rewrite colsf_set, (struct2_colsf_in m nF nx ny) by (assumption || lia).
    unfold col2_code. replace (i =? nx - 1) with false by lia.
    cbn [andb]. unfold nbr2. destruct (offs2_bound s) as (? & ?); [lia|].
    assert (Ins : insideb nx (i + off_x s) && insideb ny (j + off_y s) = true) by (unfold insideb; lia).
    now rewrite Ins. }
  rewrite (rsum_single _ _ s0); [|apply NoDup_zrange|now apply in_zrange|].
  - rewrite (rsum_single _ _ d2); [|apply NoDup_zrange|now apply in_zrange|].
    + rewrite C, Z.eqb_refl by assumption.
      destruct (W s0 d2) as (_ & W'); try assumption. destruct (W' NB) as (_ & W0).
      unfold getR. cbn [set_vals e_vals]. now rewrite W0.
    + intros e He N. apply in_zrange in He. rewrite C by assumption.
      destruct (Z.eqb_spec (node nx ny (i + off_x s0) (j + off_y s0) 0 * nF + e) (node nx ny (i + off_x s0) (j + off_y s0) 0 * nF + d2)); [lia|reflexivity].
  - intros s Hs N. apply in_zrange in Hs. apply rsum_zero. intros e He. apply in_zrange in He.
    rewrite C by assumption. destruct (Z.eqb_spec (node nx ny (i + off_x s) (j + off_y s) 0 * nF + e) (node nx ny (i + off_x s0) (j + off_y s0) 0 * nF + d2)) as [Q|]; [|reflexivity].
    exfalso. destruct (offs2_bound s) as (? & ?); [lia|].
    destruct (radix_inj nF (node nx ny (i + off_x s) (j + off_y s) 0) e (node nx ny (i + off_x s0) (j + off_y s0) 0) d2) as (C1 & C2); try lia.
    apply node_inj in C1; try lia. apply N. unfold off_x, off_y in C1. lia.
Qed.

Theorem bc2_33 nF (m : ell R) m' : 1 <= nF -> struct2 m nF 3 3 ->
  ell_set_bc_2D m nF 3 3 = Ok m' ->
  forall d1 c, 0 <= d1 < nF -> 0 <= c < 9 * nF -> ~ (4 * nF <= c < 5 * nF) ->
    dense m' (4 * nF + d1) c = 0%R.
Proof.
  intros HF M E. destruct (set_bc_2D_ok m nF 3 3) as (v & E' & L & V); try assumption; try lia.
  assert (m' = set_vals m v) by congruence. subst m'. clear E E'.
  intros d1 c H1 Hc Nc.
  assert (MN : e_nnz m = 9 * nF) by now destruct M.
  rewrite !(dense_slots _ 9) by (assumption || lia).
  apply rsum_zero. intros s Hs. apply in_zrange in Hs.
  apply rsum_zero. intros e He. apply in_zrange in He. rewrite colsf_set.
  destruct (colsf _ _ =? _) eqn:C; [|reflexivity]. apply Z.eqb_eq in C.
  change 4 with (node 3 3 1 1 0) in C.
  rewrite (struct2_colsf_in m nF 3 3) in C by (assumption || lia).
  destruct (V 1 1 d1 s e) as (_ & W'); try assumption; try lia.
  destruct W' as (W0 & _); [unfold bnd2, on_bnd; lia|].
  unfold getR. cbn [set_vals e_vals]. change (node 3 3 1 1 0) with 4 in W0. rewrite W0; [reflexivity|].
  apply near2_33; [lia|]. intros ->.
  unfold col2_code in C. change (1 =? 3 - 1) with false in C. cbn [andb] in C.
  rewrite nbr2_self in C by lia. unfold col_of, node in C. lia.
Qed.

(** ** Matrices as the class holds them: built by ell_init, any values *)
Definition matrix3 {T} (nF nx ny nz : Z) (m : ell T) : Prop :=
  exists m0 v, ell_init_3D nF nx ny nz = Ok m0 /\ alen v = alen (e_vals m0) /\ m = set_vals m0 v.
Definition matrix2 {T} (nF nx ny : Z) (m : ell T) : Prop :=
  exists m0 v, ell_init_2D nF nx ny = Ok m0 /\ alen v = alen (e_vals m0) /\ m = set_vals m0 v.

Lemma matrix3_struct {T} nF nx ny nz (m : ell T) : 2 <= nx -> 2 <= ny -> 2 <= nz -> 1 <= nF ->
  matrix3 nF nx ny nz m -> struct3 m nF nx ny nz.
Proof. intros ? ? ? ? (m0 & v & E & L & ->). now apply init3_set. Qed.
Lemma matrix2_struct {T} nF nx ny (m : ell T) : 2 <= nx -> 2 <= ny -> 1 <= nF ->
  matrix2 nF nx ny m -> struct2 m nF nx ny.
Proof. intros ? ? ? (m0 & v & E & L & ->). now apply init2_set. Qed.

Lemma matrix3_set {T} nF nx ny nz (m : ell T) v : matrix3 nF nx ny nz m ->
  alen v = alen (e_vals m) -> matrix3 nF nx ny nz (set_vals m v).
Proof. intros (m0 & v0 & E & L & ->) L'. exists m0, v. simpl in L'. repeat split; congruence. Qed.
Lemma matrix2_set {T} nF nx ny (m : ell T) v : matrix2 nF nx ny m ->
  alen v = alen (e_vals m) -> matrix2 nF nx ny (set_vals m v).
Proof. intros (m0 & v0 & E & L & ->) L'. exists m0, v. simpl in L'. repeat split; congruence. Qed.

(** constant array *)
Definition const_arr {T} (n : Z) (x : T) : arr T :=
  mkArr n (fold_left (fun a i => PositiveMap.add (key i) x a) (zrange 0 n) (PositiveMap.empty T)).
Lemma const_arr_rep {T} n (x : T) : rep (const_arr n x) n (fun _ => x).
Proof.
  split; [reflexivity|]. intros i Hi. unfold aget.
  replace (inb _ _) with true by (symmetry; apply inb_spec; exact Hi). unfold const_arr. cbn [acells].
  assert (G : forall l c, (In i l \/ PositiveMap.find (key i) c = Some x) ->
     PositiveMap.find (key i) (fold_left (fun a i => PositiveMap.add (key i) x a) l c) = Some x).
  { induction l as [|a l IH]; intros c [H|H]; simpl; [destruct H|exact H| |].
    - destruct H as [->|H]; apply IH; [right; apply PositiveMap.gss|now left].
    - apply IH. destruct (Pos.eq_dec (key i) (key a)) as [->|N];
        [right; apply PositiveMap.gss|right; rewrite PositiveMap.gso; auto]. }
  apply G. left. now apply in_zrange.
Qed.

(** *** Refutation of column elimination on every 2D grid with more than one interior node *)
Lemma bc2_cols_bad nF nx ny : 3 <= nx -> 3 <= ny -> ~ (nx = 3 /\ ny = 3) -> 1 <= nF ->
  exists (m m' : ell R) i j i' j', matrix2 nF nx ny m /\ ell_set_bc_2D m nF nx ny = Ok m' /\
    0 < i < nx - 1 /\ 0 < j < ny - 1 /\ 0 <= i' < nx /\ 0 <= j' < ny /\ bnd2 nx ny i' j' /\
    dense m' (node nx ny i j 0 * nF) (node nx ny i' j' 0 * nF) = 1%R.
Proof.
  intros Hx Hy N HF.
  destruct (init_2D_ok (T:=R) nF nx ny) as (m0 & E & Rw & _ & Nz & Lc & V & _); try lia.
  set (v := const_arr (9 * nF * (nx * ny * nF)) 1%R).
  assert (M : matrix2 nF nx ny (set_vals m0 v)).
  { exists m0, v. split; [exact E|]. split; [rewrite V; reflexivity|reflexivity]. }
  pose proof (matrix2_struct nF nx ny _ ltac:(lia) ltac:(lia) HF M) as S.
  destruct (set_bc_2D_ok (set_vals m0 v) nF nx ny) as (v' & Eb & _); try lia; try assumption.
  destruct (bc2_keeps nF nx ny _ _ Hx Hy N HF S Eb) as (i & j & i' & j' & Hi & Hj & Hi' & Hj' & B & Dx & Dy & D).
  eexists _, _, i, j, i', j'. split; [exact M|]. split; [exact Eb|].
  repeat (split; [assumption|]). rewrite <- (Z.add_0_r (node nx ny i j 0 * nF)), <- (Z.add_0_r (node nx ny i' j' 0 * nF)).
  rewrite D by lia. unfold getR. cbn [set_vals e_vals].
  destruct (const_arr_rep (9 * nF * (nx * ny * nF)) 1%R) as (_ & G). unfold v.
  rewrite G; [reflexivity|]. apply cell_range; try lia.
  - apply node2_range; lia.
  - unfold slot_of; lia.
Qed.

(** *** Right edge of 2D grids *)
Lemma cols2_right {T} nF nx ny : 2 <= nx -> 3 <= ny -> 1 <= nF ->
  exists m : ell T, ell_init_2D nF nx ny = Ok m /\
    forall j d1 d2, 0 < j < ny - 1 -> 0 <= d1 < nF -> 0 <= d2 < nF ->
      aget (e_cols m) (cell 9 nF (node nx ny (nx - 1) j 0) d1 7 d2)
        = Some (node nx ny (nx - 1) j 0 * nF + d2) /\
      col_of nF d2 (nbr2 nx ny (nx - 1) j 7) = node nx ny (nx - 1) (j + 1) 0 * nF + d2.
Proof.
  intros Hx Hy HF. destruct (init_2D_ok (T:=T) nF nx ny) as (m & E & _ & _ & _ & _ & _ & C); try lia.
  exists m. split; [exact E|]. intros j d1 d2 Hj H1 H2. split.
  - rewrite C by lia. unfold col2_code.
    replace ((nx - 1 =? nx - 1) && (0 <? j) && (j <? ny - 1) && (7 =? 7)) with true by lia. reflexivity.
  - unfold nbr2, insideb, off_x, off_y. change (7 mod 3 - 1) with 0. change ((7 / 3) mod 3 - 1) with 1.
    replace (_ && _) with true by lia. rewrite Z.add_0_r. reflexivity.
Qed.

Lemma asm2_right_bad nF nx ny els : 2 <= nx -> 3 <= ny -> 1 <= nF ->
  NoDup els -> (forall e, In e els -> in_cells2 nx ny e) -> In (nx - 2, 1) els ->
  exists (Ae : Z * Z -> Z -> R) (m : ell R) (x y : arr R) xf m' y',
    matrix2 nF nx ny m /\ rep x (nx * ny * nF) xf /\ alen y = nx * ny * nF /\
    assemble2 nF nx ny Ae els m = Ok m' /\ ell_mvp_2D m' x y = Ok y' /\
    let n := node nx ny (nx - 1) 1 0 in
    aget y' (n * nF + 0) = Some 0%R /\
    elem_sum 4 nF (corner2e nx ny) Ae els xf n 0 = 1%R.
Proof.
  intros Hx Hy HF ND He Hin.
  destruct (init_2D_ok (T:=R) nF nx ny) as (m0 & E & Rw & _ & Nz & Lc & V & _); try lia.
  set (N := nx * ny * nF) in *.
  set (Ae := fun (e : Z * Z) (a : Z) => if (fst e =? nx - 2) && (snd e =? 1) && (a =? nF * (4 * nF) + 2 * nF) then 1%R else 0%R).
  set (c := node nx ny (nx - 1) 2 0 * nF).
  assert (Hc : 0 <= c < N).
  { pose proof (node2_range nx ny (nx - 1) 2). unfold c, N. nia. }
  set (xf := fun i : Z => if i =? c then 1%R else 0%R).
  destruct (wr_ok (const_arr N 0%R) c 1%R Hc) as (x & _ & Lx & Gx).
  assert (X : rep x N xf).
  { destruct (const_arr_rep N 0%R) as (L0 & G0). split; [now rewrite Lx|].
    intros i Hi. rewrite Gx. unfold xf. destruct (i =? c); [reflexivity|now apply G0]. }
  assert (M : matrix2 nF nx ny m0).
  { exists m0, (e_vals m0). split; [exact E|]. split; [reflexivity|destruct m0; reflexivity]. }
  pose proof (matrix2_struct nF nx ny _ Hx ltac:(lia) HF M) as S.
  destruct (assemble2_ok nF nx ny Ae els m0 HF S He) as (v & Ea & M' & Rv).
  destruct (mvp_ok (set_vals m0 v) _ _ _ _ x xf (malloc N)
              (struct2_rep _ nF nx ny _ Hx ltac:(lia) HF M' Rv) X eq_refl) as (y' & Ey & Ry).
  exists Ae, m0, x, (malloc N), xf, (set_vals m0 v), y'.
  repeat (split; [assumption || reflexivity|]). cbv zeta.
  set (n := node nx ny (nx - 1) 1 0).
  assert (Hn : 0 <= n < nx * ny) by (apply node2_range; lia).
  (* the corner numbering of the offending element *)
  assert (K1 : corner2 nx ny (nx - 2) 1 1 = n).
  { unfold corner2, n. change (cor_x 1) with 1. change (cor_y 1) with 0. f_equal; lia. }
  assert (K2 : corner2 nx ny (nx - 2) 1 2 * nF = c).
  { unfold corner2, c. change (cor_x 2) with 1. change (cor_y 2) with 1. do 2 f_equal; lia. }
  assert (AE : forall e k m j, 0 <= k < 4 -> 0 <= m < 4 -> 0 <= j < nF ->
     Aentry 4 nF (Ae e) k 0 m j = if (fst e =? nx - 2) && (snd e =? 1) && (k =? 1) && (m =? 2) && (j =? 0) then 1%R else 0%R).
  { intros e k m j Hk Hm Hj. unfold Aentry, Ae.
    replace ((k * nF + 0) * (4 * nF) + (m * nF + j) =? nF * (4 * nF) + 2 * nF) with ((k =? 1) && (m =? 2) && (j =? 0)).
    - rewrite !andb_assoc. reflexivity.
    - destruct (Z.eqb_spec k 1) as [->|].
      + cbn [andb]. destruct (Z.eqb_spec m 2) as [->|]; cbn [andb].
        * destruct (Z.eqb_spec j 0); symmetry; [apply Z.eqb_eq|apply Z.eqb_neq]; lia.
        * symmetry. apply Z.eqb_neq. intros Q. destruct (radix_inj nF m j 2 0); lia.
      + cbn [andb]. symmetry. apply Z.eqb_neq. intros Q.
        destruct (radix_inj (4 * nF) (k * nF) (m * nF + j) nF (2 * nF)); nia. }
  assert (PICK : forall g : Z * Z -> Z -> Z -> Z -> R,
    rsum els (fun e => rsum (zrange 0 4) (fun k => if corner2e nx ny e k =? n then
       rsum (zrange 0 4) (fun m => rsum (zrange 0 nF) (fun j => (Aentry 4 nF (Ae e) k 0 m j * g e k m j)%R)) else 0%R))
    = g (nx - 2, 1) 1 2 0).
  { intros g. rewrite (rsum_single _ _ (nx - 2, 1)); [|exact ND|exact Hin|].
    - rewrite (rsum_single _ _ 1); [|apply NoDup_zrange|apply in_zrange; lia|].
      + cbn [corner2e]. rewrite K1, Z.eqb_refl.
        rewrite (rsum_single _ _ 2); [|apply NoDup_zrange|apply in_zrange; lia|].
        * rewrite (rsum_single _ _ 0); [|apply NoDup_zrange|apply in_zrange; lia|].
          -- rewrite AE by lia. cbn [fst snd]. rewrite !Z.eqb_refl. cbn [andb]. lra.
          -- intros j Hj Nj. apply in_zrange in Hj. rewrite AE by lia.
             replace (j =? 0) with false by lia. rewrite andb_false_r. lra.
        * intros m Hm Nm. apply in_zrange in Hm. apply rsum_zero. intros j Hj. apply in_zrange in Hj.
          rewrite AE by lia. replace (m =? 2) with false by lia. rewrite andb_false_r. cbn [andb]. lra.
      + intros k Hk Nk. apply in_zrange in Hk. destruct (_ =? n); [|reflexivity].
        apply rsum_zero. intros m Hm. apply in_zrange in Hm. apply rsum_zero. intros j Hj. apply in_zrange in Hj.
        rewrite AE by lia. replace (k =? 1) with false by lia. rewrite andb_false_r. cbn [andb]. lra.
    - intros [ex ey] He' Ne. apply rsum_zero. intros k Hk. apply in_zrange in Hk. destruct (_ =? n); [|reflexivity].
      apply rsum_zero. intros m Hm. apply in_zrange in Hm. apply rsum_zero. intros j Hj. apply in_zrange in Hj.
      rewrite AE by lia. cbn [fst snd].
      replace ((ex =? nx - 2) && (ey =? 1)) with false; [cbn [andb]; lra|].
      symmetry. apply andb_false_iff. destruct (Z.eqb_spec ex (nx - 2)), (Z.eqb_spec ey 1); try tauto. congruence. }
  split.
  - destruct Ry as (_ & Ry). rewrite Ry by nia. f_equal.
    pose proof (asm2_row nF nx ny Ae els (set_vals m0 v) xf n 0 Hx ltac:(lia) HF M' He Hn ltac:(lia)) as Q.
    rewrite sumf_R. etransitivity; [|etransitivity; [exact Q|]].
    + apply rsum_ext. intros q Hq. now rewrite asm_val_fold.
    + rewrite (PICK (fun e k m j => xf (code_corner2 nx ny e n k m * nF + j))).
      unfold xf. destruct (Z.eqb_spec (code_corner2 nx ny (nx - 2, 1) n 1 2 * nF + 0) c) as [Q2|]; [|reflexivity].
      exfalso. revert Q2. unfold code_corner2, c.
      destruct (node2_divmod nx ny (nx - 1) 1 ltac:(lia)) as (Dm & Dd). fold n in Dm, Dd.
      rewrite Dm, Dd. change (zznth cols_row2 1 2 =? 7) with true.
      replace ((nx - 1 =? nx - 1) && (0 <? 1) && (1 <? ny - 1) && true) with true by lia.
      intros Q2. destruct (radix_inj nF n 0 (node nx ny (nx - 1) 2 0) 0) as (C1 & _); try lia.
      unfold n in C1. apply node_inj in C1; lia.
  - unfold elem_sum. rewrite (PICK (fun e k m j => xf (corner2e nx ny e m * nF + j))).
    cbn [corner2e]. rewrite K2, Z.add_0_r. unfold xf. now rewrite Z.eqb_refl.
Qed.

(** ** Re-assembly *)
Lemma run_stores_same {T} (ws : list (Z * T)) a1 a2 b1 b2 :
  run_stores ws a1 = Ok b1 -> run_stores ws a2 = Ok b2 -> aeq a1 a2 -> aeq b1 b2.
Proof.
  intros E1 E2 (L & G). apply run_stores_inv in E1, E2.
  destruct E1 as (_ & L1 & G1), E2 as (_ & L2 & G2). split; [congruence|].
  intros i. rewrite G1, G2. now rewrite G.
Qed.

Lemma rep_aeq {T} (a b : arr T) n f : rep a n f -> rep b n f -> aeq a b.
Proof.
  intros (L1 & G1) (L2 & G2). split; [congruence|]. intros i.
  destruct (Z_lt_dec i 0); [|destruct (Z_lt_dec i n)].
  - rewrite !aget_out; auto; lia.
  - rewrite G1, G2; auto; lia.
  - rewrite !aget_out; auto; lia.
Qed.

Section Re.
Context {T : Type} `{OT : Ops T}.

Lemma reassemble3 nF nx ny nz (Ae1 Ae2 : Z * Z * Z -> Z -> T) els (m1 m2 : ell T) :
  2 <= nx -> 2 <= ny -> 2 <= nz -> 1 <= nF ->
  matrix3 nF nx ny nz m1 -> matrix3 nF nx ny nz m2 ->
  (forall e, In e els -> in_cells3 nx ny nz e) ->
  (forall e a, In e els -> Ae1 e a = Ae2 e a) ->
  exists m1' m2',
    (m <- assemble3 nF nx ny nz Ae1 els m1 ;; ell_set_bc_3D m nF nx ny nz) = Ok m1' /\
    (m <- assemble3 nF nx ny nz Ae2 els m2 ;; ell_set_bc_3D m nF nx ny nz) = Ok m2' /\
    matrix3 nF nx ny nz m1' /\ matrix3 nF nx ny nz m2' /\
    aeq (e_vals m1') (e_vals m2').
Proof.
  intros Hx Hy Hz HF M1 M2 He HA.
  pose proof (matrix3_struct _ _ _ _ _ Hx Hy Hz HF M1) as S1.
  pose proof (matrix3_struct _ _ _ _ _ Hx Hy Hz HF M2) as S2.
  destruct (assemble3_ok nF nx ny nz Ae1 els m1 HF S1 He) as (v1 & E1 & S1' & R1).
  destruct (assemble3_ok nF nx ny nz Ae2 els m2 HF S2 He) as (v2 & E2 & S2' & R2).
  rewrite E1, E2. cbn [bind].
  destruct (set_bc_3D_ok (set_vals m1 v1) nF nx ny nz) as (w1 & B1 & L1 & _); try assumption.
  destruct (set_bc_3D_ok (set_vals m2 v2) nF nx ny nz) as (w2 & B2 & L2 & _); try assumption.
  exists (set_vals (set_vals m1 v1) w1), (set_vals (set_vals m2 v2) w2).
  split; [exact B1|]. split; [exact B2|].
  assert (La1 : alen (e_vals m1) = 27 * nF * (nx * ny * nz * nF)) by now destruct S1.
  assert (La2 : alen (e_vals m2) = 27 * nF * (nx * ny * nz * nF)) by now destruct S2.
  split; [apply (matrix3_set nF nx ny nz m1); [assumption|simpl; congruence]|].
  split; [apply (matrix3_set nF nx ny nz m2); [assumption|simpl; congruence]|].
  unfold ell_set_bc_3D in B1, B2. cbn [set_vals e_vals e_nnz] in *.
  apply bind_ok in B1, B2. destruct B1 as (u1 & B1 & [= F1]), B2 as (u2 & B2 & [= F2]).
  subst u1 u2.
  assert (N1 : e_nnz m1 = e_nnz m2) by (rewrite (s3_nnz _ _ _ _ _ S1), (s3_nnz _ _ _ _ _ S2); reflexivity).
  rewrite N1 in B1.
  refine (run_stores_same _ _ _ _ _ B1 B2 _). eapply rep_aeq; [exact R1|].
  eapply rep_ext; [exact R2|]. intros i _. cbv beta. f_equal. f_equal.
  unfold add_all. rewrite !flat_map_concat_map. f_equal. apply map_ext_in. intros e Hin.
  unfold add_struct. apply flat_map_ext_in. intros; apply flat_map_ext_in; intros; apply flat_map_ext_in; intros.
  apply map_ext. intros. f_equal. symmetry. now apply HA.
Qed.
Lemma reassemble2 nF nx ny (Ae1 Ae2 : Z * Z -> Z -> T) els (m1 m2 : ell T) :
  2 <= nx -> 2 <= ny -> 1 <= nF ->
  matrix2 nF nx ny m1 -> matrix2 nF nx ny m2 ->
  (forall e, In e els -> in_cells2 nx ny e) ->
  (forall e a, In e els -> Ae1 e a = Ae2 e a) ->
  exists m1' m2',
    (m <- assemble2 nF nx ny Ae1 els m1 ;; ell_set_bc_2D m nF nx ny) = Ok m1' /\
    (m <- assemble2 nF nx ny Ae2 els m2 ;; ell_set_bc_2D m nF nx ny) = Ok m2' /\
    matrix2 nF nx ny m1' /\ matrix2 nF nx ny m2' /\
    aeq (e_vals m1') (e_vals m2').
Proof.
  intros Hx Hy HF M1 M2 He HA.
  pose proof (matrix2_struct _ _ _ _ Hx Hy HF M1) as S1.
  pose proof (matrix2_struct _ _ _ _ Hx Hy HF M2) as S2.
  destruct (assemble2_ok nF nx ny Ae1 els m1 HF S1 He) as (v1 & E1 & S1' & R1).
  destruct (assemble2_ok nF nx ny Ae2 els m2 HF S2 He) as (v2 & E2 & S2' & R2).
  rewrite E1, E2. cbn [bind].
  destruct (set_bc_2D_ok (set_vals m1 v1) nF nx ny) as (w1 & B1 & L1 & _); try assumption.
  destruct (set_bc_2D_ok (set_vals m2 v2) nF nx ny) as (w2 & B2 & L2 & _); try assumption.
  exists (set_vals (set_vals m1 v1) w1), (set_vals (set_vals m2 v2) w2).
  split; [exact B1|]. split; [exact B2|].
  assert (La1 : alen (e_vals m1) = 9 * nF * (nx * ny * nF)) by now destruct S1.
  assert (La2 : alen (e_vals m2) = 9 * nF * (nx * ny * nF)) by now destruct S2.
  split; [apply (matrix2_set nF nx ny m1); [assumption|simpl; congruence]|].
  split; [apply (matrix2_set nF nx ny m2); [assumption|simpl; congruence]|].
  unfold ell_set_bc_2D in B1, B2. cbn [set_vals e_vals e_nnz] in *.
  apply bind_ok in B1, B2. destruct B1 as (u1 & B1 & [= F1]), B2 as (u2 & B2 & [= F2]).
  subst u1 u2.
  assert (N1 : e_nnz m1 = e_nnz m2) by (rewrite (s2_nnz _ _ _ _ S1), (s2_nnz _ _ _ _ S2); reflexivity).
  rewrite N1 in B1.
  refine (run_stores_same _ _ _ _ _ B1 B2 _). eapply rep_aeq; [exact R1|].
  eapply rep_ext; [exact R2|]. intros i _. cbv beta. f_equal. f_equal.
  unfold add_all. rewrite !flat_map_concat_map. f_equal. apply map_ext_in. intros e Hin.
  unfold add_struct. apply flat_map_ext_in. intros; apply flat_map_ext_in; intros; apply flat_map_ext_in; intros.
  apply map_ext. intros. f_equal. symmetry. now apply HA.
Qed.

Lemma vals_total3 nF nx ny nz (m : ell T) : 1 <= nF -> struct3 m nF nx ny nz ->
  (forall a, 0 <= a < alen (e_vals m) -> exists v, aget (e_vals m) a = Some v) ->
  exists vf, rep (e_vals m) (27 * nF * (nx * ny * nz * nF)) vf.
Proof.
  intros HF S H. exists (fun a => match aget (e_vals m) a with Some v => v | None => ofZ 0 end).
  split; [now destruct S|]. intros i Hi. destruct (H i) as (v & E); [|now rewrite E].
  now rewrite (s3_vlen _ _ _ _ _ S).
Qed.
Lemma vals_total2 nF nx ny (m : ell T) : 1 <= nF -> struct2 m nF nx ny ->
  (forall a, 0 <= a < alen (e_vals m) -> exists v, aget (e_vals m) a = Some v) ->
  exists vf, rep (e_vals m) (9 * nF * (nx * ny * nF)) vf.
Proof.
  intros HF S H. exists (fun a => match aget (e_vals m) a with Some v => v | None => ofZ 0 end).
  split; [now destruct S|]. intros i Hi. destruct (H i) as (v & E); [|now rewrite E].
  now rewrite (s2_vlen _ _ _ _ S).
Qed.

Definition full (a : arr T) (n : Z) : Prop :=
  alen a = n /\ forall i, 0 <= i < n -> exists v, aget a i = Some v.
Lemma full_rep a n : full a n -> exists f, rep a n f.
Proof.
  intros (L & H). exists (fun i => match aget a i with Some v => v | None => ofZ 0 end).
  split; [exact L|]. intros i Hi. destruct (H i Hi) as (v & E). now rewrite E.
Qed.
Lemma rep_full a n f : rep a n f -> full a n.
Proof. intros (L & H). split; [exact L|]. intros i Hi. exists (f i). auto. Qed.

Lemma safe3 nF nx ny nz (m : ell T) : 2 <= nx -> 2 <= ny -> 2 <= nz -> 1 <= nF ->
  matrix3 nF nx ny nz m ->
  (exists m', ell_set_zero_mat m = Ok m' /\ matrix3 nF nx ny nz m' /\
     full (e_vals m') (27 * nF * (nx * ny * nz * nF))) /\
  (exists m', ell_set_bc_3D m nF nx ny nz = Ok m' /\ matrix3 nF nx ny nz m') /\
  (full (e_vals m) (27 * nF * (nx * ny * nz * nF)) ->
    (forall ex ey ez Ae, 0 <= ex < nx - 1 -> 0 <= ey < ny - 1 -> 0 <= ez < nz - 1 ->
       exists m', ell_add_struct3D m ex ey ez Ae nF nx ny nz = Ok m' /\ matrix3 nF nx ny nz m' /\
         full (e_vals m') (27 * nF * (nx * ny * nz * nF))) /\
    (forall x y, full x (nx * ny * nz * nF) -> alen y = nx * ny * nz * nF ->
       exists y', ell_mvp_2D m x y = Ok y' /\ full y' (nx * ny * nz * nF))).
Proof.
  intros Hx Hy Hz HF M. pose proof (matrix3_struct _ _ _ _ _ Hx Hy Hz HF M) as S.
  assert (La : alen (e_vals m) = 27 * nF * (nx * ny * nz * nF)) by now destruct S.
  split; [|split].
  - destruct (set_zero_ok m (nx * ny * nz * nF) (27 * nF)) as (v0 & E0 & R0); try (now destruct S); [lia|].
    exists (set_vals m v0). split; [exact E0|]. split; [apply matrix3_set; [exact M|]|].
    + destruct R0 as (R0 & _). now rewrite R0, La.
    + eapply rep_full. exact R0.
  - destruct (set_bc_3D_ok m nF nx ny nz) as (w1 & B1 & L1 & _); try assumption.
    exists (set_vals m w1). split; [exact B1|]. apply matrix3_set; [exact M|congruence].
  - intros F. destruct (full_rep _ _ F) as (vf & Rv). split.
    + intros ex ey ez Ae Hex Hey Hez. unfold ell_add_struct3D. rewrite (s3_nnz _ _ _ _ _ S).
      destruct (add_all_ok 8 nF 27 (nx * ny * nz) cols_row3 (sn3e nx ny) (fun _ => Ae) [(ex, ey, ez)] (e_vals m) vf)
        as (v & E & R).
      * apply sn3e_range. intros e [<-|[]]. simpl. lia.
      * apply cols_row3_range.
      * exact Rv.
      * unfold add_all in E. cbn [flat_map sn3e sn2e] in E. rewrite app_nil_r in E. rewrite E. cbn [bind].
        exists (set_vals m v). split; [reflexivity|]. split; [apply matrix3_set; [exact M|]|eapply rep_full; exact R].
        destruct R as (R & _). congruence.
    + intros x y X Ly. destruct (full_rep _ _ X) as (xf & RX).
      destruct (mvp_ok m _ _ _ _ x xf y (struct3_rep _ nF nx ny nz _ Hx Hy Hz HF S Rv) RX Ly) as (y' & E' & R').
      exists y'. split; [exact E'|]. eapply rep_full; exact R'.
Qed.

Lemma safe2 nF nx ny (m : ell T) : 2 <= nx -> 2 <= ny -> 1 <= nF ->
  matrix2 nF nx ny m ->
  (exists m', ell_set_zero_mat m = Ok m' /\ matrix2 nF nx ny m' /\
     full (e_vals m') (9 * nF * (nx * ny * nF))) /\
  (exists m', ell_set_bc_2D m nF nx ny = Ok m' /\ matrix2 nF nx ny m') /\
  (full (e_vals m) (9 * nF * (nx * ny * nF)) ->
    (forall ex ey Ae, 0 <= ex < nx - 1 -> 0 <= ey < ny - 1 ->
       exists m', ell_add_struct2D m ex ey Ae nF nx ny = Ok m' /\ matrix2 nF nx ny m' /\
         full (e_vals m') (9 * nF * (nx * ny * nF))) /\
    (forall x y, full x (nx * ny * nF) -> alen y = nx * ny * nF ->
       exists y', ell_mvp_2D m x y = Ok y' /\ full y' (nx * ny * nF))).
Proof.
  intros Hx Hy HF M. pose proof (matrix2_struct _ _ _ _ Hx Hy HF M) as S.
  assert (La : alen (e_vals m) = 9 * nF * (nx * ny * nF)) by now destruct S.
  split; [|split].
  - destruct (set_zero_ok m (nx * ny * nF) (9 * nF)) as (v0 & E0 & R0); try (now destruct S); [lia|].
    exists (set_vals m v0). split; [exact E0|]. split; [apply matrix2_set; [exact M|]|].
    + destruct R0 as (R0 & _). now rewrite R0, La.
    + eapply rep_full. exact R0.
  - destruct (set_bc_2D_ok m nF nx ny) as (w1 & B1 & L1 & _); try assumption.
    exists (set_vals m w1). split; [exact B1|]. apply matrix2_set; [exact M|congruence].
  - intros F. destruct (full_rep _ _ F) as (vf & Rv). split.
    + intros ex ey Ae Hex Hey. unfold ell_add_struct2D. rewrite (s2_nnz _ _ _ _ S).
      destruct (add_all_ok 4 nF 9 (nx * ny) cols_row2 (sn2e nx) (fun _ => Ae) [(ex, ey)] (e_vals m) vf)
        as (v & E & R).
      * apply (sn2e_range nx ny). intros e [<-|[]]. simpl. lia.
      * apply cols_row2_range.
      * exact Rv.
      * unfold add_all in E. cbn [flat_map sn3e sn2e] in E. rewrite app_nil_r in E. rewrite E. cbn [bind].
        exists (set_vals m v). split; [reflexivity|]. split; [apply matrix2_set; [exact M|]|eapply rep_full; exact R].
        destruct R as (R & _). congruence.
    + intros x y X Ly. destruct (full_rep _ _ X) as (xf & RX).
      destruct (mvp_ok m _ _ _ _ x xf y (struct2_rep _ nF nx ny _ Hx Hy HF S Rv) RX Ly) as (y' & E' & R').
      exists y'. split; [exact E'|]. eapply rep_full; exact R'.
Qed.
End Re.
