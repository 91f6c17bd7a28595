(** The lemmas behind Props_Ell.v, in the exact shape of the theorems there. *)
From Coq Require Import ZifyBool Reals Lra.
From Verif Require Import Base Scalar InitTables EllModel EllSpec EllInit EllAsm EllOp EllBc EllBc2 Grid EllFinal.
Open Scope Z_scope.
Ltac Zify.zify_post_hook ::= Z.div_mod_to_equations.

(** [f] numbers the box [0,a) x [0,b) x [0,c) with exactly the numbers [0,n) *)
Definition bijective3 (a b c : Z) (f : Z -> Z -> Z -> Z) (n : Z) : Prop :=
  (forall x y z, 0 <= x < a -> 0 <= y < b -> 0 <= z < c -> 0 <= f x y z < n) /\
  (forall x y z x' y' z', 0 <= x < a -> 0 <= y < b -> 0 <= z < c ->
     0 <= x' < a -> 0 <= y' < b -> 0 <= z' < c -> f x y z = f x' y' z' -> x = x' /\ y = y' /\ z = z') /\
  (forall m, 0 <= m < n -> exists x y z, 0 <= x < a /\ 0 <= y < b /\ 0 <= z < c /\ f x y z = m).

Lemma bij_node a b c : 0 <= a -> 0 <= b -> bijective3 a b c (node a b) (a * b * c).
Proof.
  intros Ha Hb. split; [|split].
  - intros. now apply node_range.
  - intros. now apply node_inj with (nx := a) (ny := b).
  - intros m Hm. destruct (Z.eq_dec a 0) as [->|]; [lia|]. destruct (Z.eq_dec b 0) as [->|]; [rewrite Z.mul_0_r in Hm; lia|].
    apply node_surj; lia.
Qed.

Lemma bij_ext a b c f g n n' : (forall x y z, f x y z = g x y z) -> n = n' ->
  bijective3 a b c g n -> bijective3 a b c f n'.
Proof.
  intros E <- (H1 & H2 & H3). split; [|split].
  - intros. rewrite E. auto.
  - intros until 6. rewrite !E. auto.
  - intros m Hm. destruct (H3 m Hm) as (x & y & z & ? & ? & ? & ?). exists x, y, z. rewrite E. auto.
Qed.

Lemma numbering nx ny nz N : 1 <= nx -> 1 <= ny -> 1 <= nz -> 0 <= N ->
  bijective3 nx ny nz (nod_index nx ny) (nx * ny * nz) /\
  bijective3 (nx - 1) (ny - 1) (nz - 1) (glo_elem3D nx ny) (nelem 3 nx ny nz) /\
  bijective3 (nx - 1) (ny - 1) 1 (glo_elem3D nx ny) (nelem 2 nx ny nz) /\
  bijective3 N 8 7 intvar_ix (N * 8 * 7).
Proof.
  intros Hx Hy Hz HN. split; [|split; [|split]].
  - eapply bij_ext; [|reflexivity|apply bij_node; lia]. apply nod_index_node.
  - eapply bij_ext; [apply glo_elem_node| |apply bij_node; lia]. reflexivity.
  - eapply bij_ext; [apply glo_elem_node| |apply bij_node; lia]. unfold nelem. simpl. lia.
  - split; [|split].
    + intros. apply intvar_range; assumption.
    + intros. now apply intvar_inj.
    + intros m Hm. now apply intvar_surj.
Qed.

Lemma structure_3D {T} nF nx ny nz : 2 <= nx -> 2 <= ny -> 2 <= nz -> 1 <= nF ->
  exists m : ell T, ell_init_3D nF nx ny nz = Ok m /\
    e_nrow m = nx * ny * nz * nF /\ e_ncol m = nx * ny * nz * nF /\ e_nnz m = 27 * nF /\
    forall i j k d1 s d2, 0 <= i < nx -> 0 <= j < ny -> 0 <= k < nz ->
      0 <= d1 < nF -> 0 <= s < 27 -> 0 <= d2 < nF ->
      exists c, aget (e_cols m) ((node nx ny i j k * nF + d1) * (27 * nF) + (s * nF + d2)) = Some c /\
        0 <= c < nx * ny * nz * nF /\
        (forall i' j' k', i' = i + s mod 3 - 1 -> j' = j + (s / 3) mod 3 - 1 -> k' = k + s / 9 - 1 ->
           c = if (0 <=? i') && (i' <? nx) && ((0 <=? j') && (j' <? ny)) && ((0 <=? k') && (k' <? nz))
               then node nx ny i' j' k' * nF + d2 else 0).
Proof.
  intros Hx Hy Hz HF. destruct (init_3D_ok (T:=T) nF nx ny nz) as (m & E & R & C & N & _ & _ & G); try assumption.
  exists m. repeat (split; [assumption|]). intros i j k d1 s d2 Hi Hj Hk H1 Hs H2.
  exists (col_of nF d2 (nbr3 nx ny nz i j k s)). split; [now apply G|]. split.
  - apply col_of_range; try assumption; [nia|]. apply nbr3_range.
  - intros i' j' k' -> -> ->. unfold nbr3, insideb, off_x, off_y, off_z, col_of.
    rewrite !Z.add_sub_assoc. now destruct (_ && _ && _ && _).
Qed.

Lemma structure_2D {T} nF nx ny : 2 <= nx -> 2 <= ny -> 1 <= nF ->
  exists m : ell T, ell_init_2D nF nx ny = Ok m /\
    e_nrow m = nx * ny * nF /\ e_ncol m = nx * ny * nF /\ e_nnz m = 9 * nF /\
    forall i j d1 s d2, 0 <= i < nx -> 0 <= j < ny ->
      0 <= d1 < nF -> 0 <= s < 9 -> 0 <= d2 < nF ->
      exists c, aget (e_cols m) ((node nx ny i j 0 * nF + d1) * (9 * nF) + (s * nF + d2)) = Some c /\
        0 <= c < nx * ny * nF /\
        (forall i' j', i' = i + s mod 3 - 1 -> j' = j + (s / 3) mod 3 - 1 ->
           ~ (i = nx - 1 /\ 0 < j < ny - 1 /\ s = 7) ->
           c = if (0 <=? i') && (i' <? nx) && ((0 <=? j') && (j' <? ny))
               then node nx ny i' j' 0 * nF + d2 else 0).
Proof.
  intros Hx Hy HF. destruct (init_2D_ok (T:=T) nF nx ny) as (m & E & R & C & N & _ & _ & G); try assumption.
  exists m. repeat (split; [assumption|]). intros i j d1 s d2 Hi Hj H1 Hs H2.
  exists (col2_code nF nx ny i j s d2). split; [now apply G|]. split.
  - unfold col2_code. destruct (_ && _) eqn:Q.
    + pose proof (node2_range nx ny i j Hi Hj). nia.
    + apply col_of_range; try assumption; [nia|]. apply nbr2_range.
  - intros i' j' -> -> NB. unfold col2_code. replace (_ && (s =? 7)) with false by lia.
    unfold nbr2, insideb, off_x, off_y, col_of.
    rewrite !Z.add_sub_assoc. now destruct (_ && _ && _).
Qed.

Lemma structure_2D_bad {T} nF nx ny : 2 <= nx -> 3 <= ny -> 1 <= nF ->
  exists m : ell T, ell_init_2D nF nx ny = Ok m /\
    forall j d1 d2, 0 < j < ny - 1 -> 0 <= d1 < nF -> 0 <= d2 < nF ->
      exists c, aget (e_cols m) ((node nx ny (nx - 1) j 0 * nF + d1) * (9 * nF) + (7 * nF + d2)) = Some c /\
        c = node nx ny (nx - 1) j 0 * nF + d2 /\
        c <> node nx ny (nx - 1) (j + 1) 0 * nF + d2.
Proof.
  intros Hx Hy HF. destruct (cols2_right (T:=T) nF nx ny) as (m & E & G); try assumption.
  exists m. split; [exact E|]. intros j d1 d2 Hj H1 H2. destruct (G j d1 d2) as (G1 & _); try assumption.
  eexists. split; [exact G1|]. split; [reflexivity|]. unfold node. nia.
Qed.

Lemma matrix3_inhabited {T} nF nx ny nz : 1 <= nF -> 2 <= nx -> 2 <= ny -> 2 <= nz ->
  exists m : ell T, matrix3 nF nx ny nz m.
Proof.
  intros. destruct (init_3D_ok (T:=T) nF nx ny nz) as (m & E & _); try assumption.
  exists m, m, (e_vals m). split; [exact E|]. split; [reflexivity|now destruct m].
Qed.
Lemma matrix2_inhabited {T} nF nx ny : 1 <= nF -> 2 <= nx -> 2 <= ny ->
  exists m : ell T, matrix2 nF nx ny m.
Proof.
  intros. destruct (init_2D_ok (T:=T) nF nx ny) as (m & E & _); try assumption.
  exists m, m, (e_vals m). split; [exact E|]. split; [reflexivity|now destruct m].
Qed.

Lemma matrix3_differ : exists m1 m2 : ell R, matrix3 3 4 4 4 m1 /\ matrix3 3 4 4 4 m2 /\
  aget (e_vals m1) 0 <> aget (e_vals m2) 0.
Proof.
  destruct (init_3D_ok (T:=R) 3 4 4 4) as (m & E & _ & _ & _ & _ & V & _); try lia.
  assert (P : forall x, matrix3 3 4 4 4 (set_vals m (const_arr (27 * 3 * (4 * 4 * 4 * 3)) x))).
  { intros x. exists m, (const_arr (27 * 3 * (4 * 4 * 4 * 3)) x). split; [exact E|]. split; [|reflexivity]. rewrite V. apply (proj1 (const_arr_rep (27 * 3 * (4 * 4 * 4 * 3)) x)). }
  exists (set_vals m (const_arr (27 * 3 * (4 * 4 * 4 * 3)) 1%R)), (set_vals m (const_arr (27 * 3 * (4 * 4 * 4 * 3)) 2%R)).
  split; [apply (P 1%R)|]. split; [apply (P 2%R)|]. cbn [set_vals e_vals].
  destruct (const_arr_rep (27 * 3 * (4 * 4 * 4 * 3)) 1%R) as (_ & G1).
  destruct (const_arr_rep (27 * 3 * (4 * 4 * 4 * 3)) 2%R) as (_ & G2).
  rewrite G1, G2 by lia. intros [= Q]. lra.
Qed.

Lemma operator_3D nF nx ny nz Ae els (m : ell R) x xf y :
  2 <= nx -> 2 <= ny -> 2 <= nz -> 1 <= nF -> matrix3 nF nx ny nz m ->
  (forall ex ey ez, In (ex, ey, ez) els -> 0 <= ex < nx - 1 /\ 0 <= ey < ny - 1 /\ 0 <= ez < nz - 1) ->
  rep x (nx * ny * nz * nF) xf -> alen y = nx * ny * nz * nF ->
  exists m0 m' y', ell_set_zero_mat m = Ok m0 /\
    foldM (fun m e => let '(ex, ey, ez) := e in
             ell_add_struct3D m ex ey ez (Ae (ex, ey, ez)) nF nx ny nz) els m0 = Ok m' /\
    ell_mvp_2D m' x y = Ok y' /\ alen y' = nx * ny * nz * nF /\
    forall n d1, 0 <= n < nx * ny * nz -> 0 <= d1 < nF ->
      aget y' (n * nF + d1) = Some
        (rsum els (fun e => let '(ex, ey, ez) := e in
           rsum (zrange 0 8) (fun k => if corner3 nx ny ex ey ez k =? n then
             rsum (zrange 0 8) (fun l => rsum (zrange 0 nF) (fun d2 =>
               (Ae e ((k * nF + d1) * (8 * nF) + (l * nF + d2))%Z
                * xf (corner3 nx ny ex ey ez l * nF + d2)%Z)%R)) else 0%R))).
Proof.
  intros Hx Hy Hz HF M He X L. apply matrix3_struct in M; try assumption.
  destruct (assemble3_mvp nF nx ny nz Ae els m x xf y) as (m' & y' & E1 & E2 & E3 & E4); try assumption.
  { intros [[ex ey] ez] H. apply He in H. exact H. }
  unfold assemble3 in E1. apply bind_ok in E1. destruct E1 as (m0 & E0 & E1).
  exists m0, m', y'. split; [exact E0|]. split.
  { rewrite <- E1. apply foldM_ext. now intros s [[ex ey] ez] _. }
  split; [exact E2|]. split; [exact E3|]. intros n d1 Hn H1. rewrite E4 by assumption. f_equal.
  unfold elem_sum. apply rsum_ext. intros [[ex ey] ez] _. reflexivity.
Qed.

Lemma operator_2D nF nx ny Ae els (m : ell R) x xf y :
  2 <= nx -> 2 <= ny -> 1 <= nF -> matrix2 nF nx ny m ->
  (forall ex ey, In (ex, ey) els -> 0 <= ex < nx - 1 /\ 0 <= ey < ny - 1) ->
  rep x (nx * ny * nF) xf -> alen y = nx * ny * nF ->
  exists m0 m' y', ell_set_zero_mat m = Ok m0 /\
    foldM (fun m e => let '(ex, ey) := e in
             ell_add_struct2D m ex ey (Ae (ex, ey)) nF nx ny) els m0 = Ok m' /\
    ell_mvp_2D m' x y = Ok y' /\ alen y' = nx * ny * nF /\
    forall n d1, 0 <= n < nx * ny -> 0 <= d1 < nF ->
      ~ (n mod nx = nx - 1 /\ 0 < n / nx < ny - 1) ->
      aget y' (n * nF + d1) = Some
        (rsum els (fun e => let '(ex, ey) := e in
           rsum (zrange 0 4) (fun k => if corner2 nx ny ex ey k =? n then
             rsum (zrange 0 4) (fun l => rsum (zrange 0 nF) (fun d2 =>
               (Ae e ((k * nF + d1) * (4 * nF) + (l * nF + d2))%Z
                * xf (corner2 nx ny ex ey l * nF + d2)%Z)%R)) else 0%R))).
Proof.
  intros Hx Hy HF M He X L. apply matrix2_struct in M; try assumption.
  destruct (assemble2_mvp nF nx ny Ae els m x xf y) as (m' & y' & E1 & E2 & E3 & E4); try assumption.
  { intros [ex ey] H. apply He in H. exact H. }
  unfold assemble2 in E1. apply bind_ok in E1. destruct E1 as (m0 & E0 & E1).
  exists m0, m', y'. split; [exact E0|]. split.
  { rewrite <- E1. apply foldM_ext. now intros s [ex ey] _. }
  split; [exact E2|]. split; [exact E3|]. intros n d1 Hn H1 NB. rewrite E4 by assumption. f_equal.
  unfold elem_sum. apply rsum_ext. intros [ex ey] _. reflexivity.
Qed.

Lemma operator_2D_bad nF nx ny els : 2 <= nx -> 3 <= ny -> 1 <= nF ->
  NoDup els -> (forall ex ey, In (ex, ey) els -> 0 <= ex < nx - 1 /\ 0 <= ey < ny - 1) ->
  In (nx - 2, 1) els ->
  exists (Ae : Z * Z -> Z -> R) (m : ell R) (x y : arr R) xf m0 m' y',
    matrix2 nF nx ny m /\ rep x (nx * ny * nF) xf /\ alen y = nx * ny * nF /\
    ell_set_zero_mat m = Ok m0 /\
    foldM (fun m e => let '(ex, ey) := e in
             ell_add_struct2D m ex ey (Ae (ex, ey)) nF nx ny) els m0 = Ok m' /\
    ell_mvp_2D m' x y = Ok y' /\
    let n := node nx ny (nx - 1) 1 0 in
    aget y' (n * nF + 0) = Some 0%R /\
    rsum els (fun e => let '(ex, ey) := e in
           rsum (zrange 0 4) (fun k => if corner2 nx ny ex ey k =? n then
             rsum (zrange 0 4) (fun l => rsum (zrange 0 nF) (fun d2 =>
               (Ae e ((k * nF + 0) * (4 * nF) + (l * nF + d2))%Z
                * xf (corner2 nx ny ex ey l * nF + d2)%Z)%R)) else 0%R)) = 1%R.
Proof.
  intros Hx Hy HF ND He Hin.
  destruct (asm2_right_bad nF nx ny els) as (Ae & m & x & y & xf & m' & y' & M & X & L & E1 & E2 & G1 & G2); try assumption.
  { intros [ex ey] H. apply He in H. exact H. }
  unfold assemble2 in E1. apply bind_ok in E1. destruct E1 as (m0 & E0 & E1).
  exists Ae, m, x, y, xf, m0, m', y'. repeat (split; [assumption|]). split.
  { rewrite <- E1. apply foldM_ext. now intros s [ex ey] _. }
  split; [exact E2|]. cbv zeta. split; [exact G1|]. rewrite <- G2.
  unfold elem_sum. apply rsum_ext. intros [ex ey] _. reflexivity.
Qed.

Lemma bc_3D nF nx ny nz (m : ell R) :
  2 <= nx -> 2 <= ny -> 2 <= nz -> 1 <= nF -> matrix3 nF nx ny nz m ->
  exists m', ell_set_bc_3D m nF nx ny nz = Ok m' /\ matrix3 nF nx ny nz m' /\
    (forall i j k d1 i' j' k' d2, 0 <= i < nx -> 0 <= j < ny -> 0 <= k < nz -> 0 <= d1 < nF ->
      0 <= i' < nx -> 0 <= j' < ny -> 0 <= k' < nz -> 0 <= d2 < nF ->
      let r := node nx ny i j k * nF + d1 in
      let c := node nx ny i' j' k' * nF + d2 in
      (bnd3 nx ny nz i j k -> dense m' r c = if r =? c then 1%R else 0%R) /\
      (~ bnd3 nx ny nz i j k -> bnd3 nx ny nz i' j' k' -> dense m' r c = 0%R) /\
      (~ bnd3 nx ny nz i j k -> ~ bnd3 nx ny nz i' j' k' -> dense m' r c = dense m r c)) /\
    (let N := nx * ny * nz * nF in
     (forall r c, 0 <= r < N -> 0 <= c < N -> dense m r c = dense m c r) ->
     (forall r c, 0 <= r < N -> 0 <= c < N -> dense m' r c = dense m' c r)).
Proof.
  intros Hx Hy Hz HF M. pose proof (matrix3_struct _ _ _ _ _ Hx Hy Hz HF M) as S.
  destruct (set_bc_3D_ok m nF nx ny nz) as (w & B & L & _); try assumption.
  exists (set_vals m w). split; [exact B|]. split; [apply matrix3_set; [exact M|now rewrite L, (s3_vlen _ _ _ _ _ S)]|].
  split; [now apply bc3_dense|]. cbv zeta. now apply bc3_symm.
Qed.

Lemma bc_3D_entries {T} {OT : Ops T} nF nx ny nz (m : ell T) :
  2 <= nx -> 2 <= ny -> 2 <= nz -> 1 <= nF -> matrix3 nF nx ny nz m ->
  exists m', ell_set_bc_3D m nF nx ny nz = Ok m' /\
    forall i j k d1 s d2, 0 <= i < nx -> 0 <= j < ny -> 0 <= k < nz ->
      0 <= d1 < nF -> 0 <= s < 27 -> 0 <= d2 < nF ->
      let a := (node nx ny i j k * nF + d1) * (27 * nF) + (s * nF + d2) in
      (bnd3 nx ny nz i j k ->
         aget (e_vals m') a = Some (if (s =? 13) && (d1 =? d2) then ofZ 1 else ofZ 0)) /\
      (~ bnd3 nx ny nz i j k ->
         (bnd3 nx ny nz (i + off_x s) (j + off_y s) (k + off_z s) -> aget (e_vals m') a = Some (ofZ 0)) /\
         (~ bnd3 nx ny nz (i + off_x s) (j + off_y s) (k + off_z s) ->
            aget (e_vals m') a = aget (e_vals m) a)).
Proof.
  intros Hx Hy Hz HF M. pose proof (matrix3_struct _ _ _ _ _ Hx Hy Hz HF M) as S.
  destruct (set_bc_3D_ok m nF nx ny nz) as (w & B & L & G); try assumption.
  exists (set_vals m w). split; [exact B|]. exact G.
Qed.

Lemma bc_2D nF nx ny (m : ell R) :
  2 <= nx -> 2 <= ny -> 1 <= nF -> matrix2 nF nx ny m ->
  exists m', ell_set_bc_2D m nF nx ny = Ok m' /\ matrix2 nF nx ny m' /\
    forall i j d1 i' j' d2, 0 <= i < nx -> 0 <= j < ny -> 0 <= d1 < nF ->
      0 <= i' < nx -> 0 <= j' < ny -> 0 <= d2 < nF ->
      let r := node nx ny i j 0 * nF + d1 in
      let c := node nx ny i' j' 0 * nF + d2 in
      (bnd2 nx ny i j -> dense m' r c = if r =? c then 1%R else 0%R) /\
      (~ bnd2 nx ny i j -> ~ bnd2 nx ny i' j' -> dense m' r c = dense m r c).
Proof.
  intros Hx Hy HF M. pose proof (matrix2_struct _ _ _ _ Hx Hy HF M) as S.
  destruct (set_bc_2D_ok m nF nx ny) as (w & B & L & _); try assumption.
  exists (set_vals m w). split; [exact B|]. split; [apply matrix2_set; [exact M|now rewrite L, (s2_vlen _ _ _ _ S)]|].
  now apply bc2_dense.
Qed.

Lemma bc_2D_33 nF (m : ell R) : 1 <= nF -> matrix2 nF 3 3 m ->
  exists m', ell_set_bc_2D m nF 3 3 = Ok m' /\
    forall i j d1 d2, 0 <= i < 3 -> 0 <= j < 3 -> 0 <= d1 < nF -> 0 <= d2 < nF -> bnd2 3 3 i j ->
      dense m' (node 3 3 1 1 0 * nF + d1) (node 3 3 i j 0 * nF + d2) = 0%R.
Proof.
  intros HF M. pose proof (matrix2_struct nF 3 3 m ltac:(lia) ltac:(lia) HF M) as S.
  destruct (set_bc_2D_ok m nF 3 3) as (w & B & L & _); try assumption; try lia.
  exists (set_vals m w). split; [exact B|]. intros i j d1 d2 Hi Hj H1 H2 Bn.
  change (node 3 3 1 1 0) with 4. pose proof (node2_range 3 3 i j Hi Hj).
  assert (node 3 3 i j 0 <> 4) by (unfold bnd2, on_bnd in Bn; unfold node; lia).
  apply (bc2_33 nF m); try assumption; nia.
Qed.

Lemma reassembly {T} {OT : Ops T} :
  (forall nF nx ny nz (Ae : Z * Z * Z -> Z -> T) els (m1 m2 : ell T),
    2 <= nx -> 2 <= ny -> 2 <= nz -> 1 <= nF ->
    matrix3 nF nx ny nz m1 -> matrix3 nF nx ny nz m2 ->
    (forall ex ey ez, In (ex, ey, ez) els -> 0 <= ex < nx - 1 /\ 0 <= ey < ny - 1 /\ 0 <= ez < nz - 1) ->
    let run m := m0 <- ell_set_zero_mat m ;;
      m1 <- foldM (fun m e => let '(ex, ey, ez) := e in
                     ell_add_struct3D m ex ey ez (Ae (ex, ey, ez)) nF nx ny nz) els m0 ;;
      ell_set_bc_3D m1 nF nx ny nz in
    exists m1' m2', run m1 = Ok m1' /\ run m2 = Ok m2' /\
      alen (e_vals m1') = alen (e_vals m2') /\ forall a, aget (e_vals m1') a = aget (e_vals m2') a) /\
  (forall nF nx ny (Ae : Z * Z -> Z -> T) els (m1 m2 : ell T),
    2 <= nx -> 2 <= ny -> 1 <= nF ->
    matrix2 nF nx ny m1 -> matrix2 nF nx ny m2 ->
    (forall ex ey, In (ex, ey) els -> 0 <= ex < nx - 1 /\ 0 <= ey < ny - 1) ->
    let run m := m0 <- ell_set_zero_mat m ;;
      m1 <- foldM (fun m e => let '(ex, ey) := e in
                     ell_add_struct2D m ex ey (Ae (ex, ey)) nF nx ny) els m0 ;;
      ell_set_bc_2D m1 nF nx ny in
    exists m1' m2', run m1 = Ok m1' /\ run m2 = Ok m2' /\
      alen (e_vals m1') = alen (e_vals m2') /\ forall a, aget (e_vals m1') a = aget (e_vals m2') a).
Proof.
  split.
  - intros nF nx ny nz Ae els m1 m2 Hx Hy Hz HF M1 M2 He run.
    destruct (reassemble3 nF nx ny nz Ae Ae els m1 m2) as (m1' & m2' & E1 & E2 & _ & _ & E); try assumption; auto.
    { intros [[ex ey] ez] H. apply He in H. exact H. }
    assert (RUN : forall m, run m = (m <- assemble3 nF nx ny nz Ae els m ;; ell_set_bc_3D m nF nx ny nz)).
    { intros m. unfold run, assemble3. destruct (ell_set_zero_mat m) as [m0|]; cbn [bind]; [|reflexivity].
      rewrite (foldM_ext _ (fun m e => let '(ex, ey, ez) := e in ell_add_struct3D m ex ey ez (Ae e) nF nx ny nz)); [reflexivity|].
      now intros s [[ex ey] ez] _. }
    exists m1', m2'. rewrite !RUN. split; [exact E1|]. split; [exact E2|exact E].
  - intros nF nx ny Ae els m1 m2 Hx Hy HF M1 M2 He run.
    destruct (reassemble2 nF nx ny Ae Ae els m1 m2) as (m1' & m2' & E1 & E2 & _ & _ & E); try assumption; auto.
    { intros [ex ey] H. apply He in H. exact H. }
    assert (RUN : forall m, run m = (m <- assemble2 nF nx ny Ae els m ;; ell_set_bc_2D m nF nx ny)).
    { intros m. unfold run, assemble2. destruct (ell_set_zero_mat m) as [m0|]; cbn [bind]; [|reflexivity].
      rewrite (foldM_ext _ (fun m e => let '(ex, ey) := e in ell_add_struct2D m ex ey (Ae e) nF nx ny)); [reflexivity|].
      now intros s [ex ey] _. }
    exists m1', m2'. rewrite !RUN. split; [exact E1|]. split; [exact E2|exact E].
Qed.
