(** Assembled matrix = sum of element operators. *)
From Coq Require Import Reals Lra ZifyBool.
From Verif Require Import Base Scalar InitTables EllModel EllSpec EllInit EllAsm.
Ltac Zify.zify_post_hook ::= Z.div_mod_to_equations.

(** matrix with the structure left by ell_init_*, any values *)
Record struct3 {T} (m : ell T) (nF nx ny nz : Z) : Prop := {
  s3_nrow : e_nrow m = nx * ny * nz * nF;
  s3_nnz : e_nnz m = 27 * nF;
  s3_clen : alen (e_cols m) = (27 * nF) * (nx * ny * nz * nF);
  s3_vlen : alen (e_vals m) = (27 * nF) * (nx * ny * nz * nF);
  s3_cols : forall i j k d1 s d2, 0 <= i < nx -> 0 <= j < ny -> 0 <= k < nz ->
      0 <= d1 < nF -> 0 <= s < 27 -> 0 <= d2 < nF ->
      aget (e_cols m) (cell 27 nF (node nx ny i j k) d1 s d2)
      = Some (col_of nF d2 (nbr3 nx ny nz i j k s)) }.

Record struct2 {T} (m : ell T) (nF nx ny : Z) : Prop := {
  s2_nrow : e_nrow m = nx * ny * nF;
  s2_nnz : e_nnz m = 9 * nF;
  s2_clen : alen (e_cols m) = (9 * nF) * (nx * ny * nF);
  s2_vlen : alen (e_vals m) = (9 * nF) * (nx * ny * nF);
  s2_cols : forall i j d1 s d2, 0 <= i < nx -> 0 <= j < ny ->
      0 <= d1 < nF -> 0 <= s < 9 -> 0 <= d2 < nF ->
      aget (e_cols m) (cell 9 nF (node nx ny i j 0) d1 s d2)
      = Some (col2_code nF nx ny i j s d2) }.

Lemma init3_struct {T} nF nx ny nz : 2 <= nx -> 2 <= ny -> 2 <= nz -> 1 <= nF ->
  exists m : ell T, ell_init_3D nF nx ny nz = Ok m /\ struct3 m nF nx ny nz.
Proof.
  intros. destruct (@init_3D_ok T nF nx ny nz) as (m & E & A1 & A2 & A3 & A4 & A5 & A6); try assumption.
  exists m. split; [exact E|]. constructor; try assumption. rewrite A5. reflexivity.
Qed.

Lemma init2_struct {T} nF nx ny : 2 <= nx -> 2 <= ny -> 1 <= nF ->
  exists m : ell T, ell_init_2D nF nx ny = Ok m /\ struct2 m nF nx ny.
Proof.
  intros. destruct (@init_2D_ok T nF nx ny) as (m & E & A1 & A2 & A3 & A4 & A5 & A6); try assumption.
  exists m. split; [exact E|]. constructor; try assumption. rewrite A5. reflexivity.
Qed.

Lemma struct3_set {T} (m : ell T) nF nx ny nz v :
  struct3 m nF nx ny nz -> alen v = (27 * nF) * (nx * ny * nz * nF) ->
  struct3 (set_vals m v) nF nx ny nz.
Proof. intros [] L. constructor; assumption. Qed.
Lemma struct2_set {T} (m : ell T) nF nx ny v :
  struct2 m nF nx ny -> alen v = (9 * nF) * (nx * ny * nF) ->
  struct2 (set_vals m v) nF nx ny.
Proof. intros [] L. constructor; assumption. Qed.

(** columns of an initialised structure, as a function *)
Definition colsf {T} (m : ell T) (a : Z) : Z :=
  match aget (e_cols m) a with Some c => c | None => 0 end.

Lemma colsf_set {T} (m : ell T) v : colsf (set_vals m v) = colsf m.
Proof. reflexivity. Qed.

Lemma struct3_colsf {T} (m : ell T) nF nx ny nz i j k d1 s d2 :
  struct3 m nF nx ny nz -> 0 <= i < nx -> 0 <= j < ny -> 0 <= k < nz ->
  0 <= d1 < nF -> 0 <= s < 27 -> 0 <= d2 < nF ->
  colsf m (cell 27 nF (node nx ny i j k) d1 s d2) = col_of nF d2 (nbr3 nx ny nz i j k s).
Proof. intros H; intros. unfold colsf. rewrite (s3_cols _ _ _ _ _ H) by assumption. reflexivity. Qed.

Lemma struct2_colsf {T} (m : ell T) nF nx ny i j d1 s d2 :
  struct2 m nF nx ny -> 0 <= i < nx -> 0 <= j < ny ->
  0 <= d1 < nF -> 0 <= s < 9 -> 0 <= d2 < nF ->
  colsf m (cell 9 nF (node nx ny i j 0) d1 s d2) = col2_code nF nx ny i j s d2.
Proof. intros H; intros. unfold colsf. rewrite (s2_cols _ _ _ _ H) by assumption. reflexivity. Qed.

Lemma node2_surj nx ny n : 0 < nx -> 0 < ny -> 0 <= n < nx * ny ->
  exists i j, 0 <= i < nx /\ 0 <= j < ny /\ node nx ny i j 0 = n.
Proof.
  intros. destruct (node_surj nx ny 1 n) as (i & j & k & ? & ? & ? & ?); try lia.
  exists i, j. replace k with 0 in * by lia. auto.
Qed.

Lemma node2_range nx ny i j : 0 <= i < nx -> 0 <= j < ny -> 0 <= node nx ny i j 0 < nx * ny.
Proof. intros. pose proof (node_range nx ny 1 i j 0). lia. Qed.

Lemma struct3_rep {T} (m : ell T) nF nx ny nz vf :
  2 <= nx -> 2 <= ny -> 2 <= nz -> 1 <= nF ->
  struct3 m nF nx ny nz -> rep (e_vals m) ((27 * nF) * (nx * ny * nz * nF)) vf ->
  ell_rep m (nx * ny * nz * nF) (27 * nF) (colsf m) vf.
Proof.
  intros Hx Hy Hz HF M V.
  assert (D : forall a, 0 <= a < 27 * nF * (nx * ny * nz * nF) ->
     exists c, aget (e_cols m) a = Some c /\ 0 <= c < nx * ny * nz * nF).
  { intros a Ha. destruct (cell_surj 27 nF (nx * ny * nz) a) as (n & d1 & s & d2 & Rn & R1 & Rs & R2 & ->);
      try lia.
    destruct (node_surj nx ny nz n) as (i & j & k & Ri & Rj & Rk & <-); try lia.
    eexists. split; [now apply (s3_cols _ _ _ _ _ M)|].
    apply col_of_range; try lia. intros n' E. eapply nbr3_range; eauto. }
  constructor; try (now destruct M); try assumption.
  - apply rep_of_total; [now destruct M|]. intros a Ha. destruct (D a Ha) as (c & E & _). eauto.
  - intros a Ha. unfold colsf. destruct (D a Ha) as (c & -> & H). exact H.
Qed.

Lemma struct2_rep {T} (m : ell T) nF nx ny vf :
  2 <= nx -> 2 <= ny -> 1 <= nF ->
  struct2 m nF nx ny -> rep (e_vals m) ((9 * nF) * (nx * ny * nF)) vf ->
  ell_rep m (nx * ny * nF) (9 * nF) (colsf m) vf.
Proof.
  intros Hx Hy HF M V.
  assert (D : forall a, 0 <= a < 9 * nF * (nx * ny * nF) ->
     exists c, aget (e_cols m) a = Some c /\ 0 <= c < nx * ny * nF).
  { intros a Ha. destruct (cell_surj 9 nF (nx * ny) a) as (n & d1 & s & d2 & Rn & R1 & Rs & R2 & ->);
      try lia.
    destruct (node2_surj nx ny n) as (i & j & Ri & Rj & <-); try lia.
    eexists. split; [now apply (s2_cols _ _ _ _ M)|].
    unfold col2_code. destruct (_ && _).
    - pose proof (node2_range nx ny i j Ri Rj). nia.
    - apply col_of_range; try lia. intros n' E. eapply nbr2_range; eauto. }
  constructor; try (now destruct M); try assumption.
  - apply rep_of_total; [now destruct M|]. intros a Ha. destruct (D a Ha) as (c & E & _). eauto.
  - intros a Ha. unfold colsf. destruct (D a Ha) as (c & -> & H). exact H.
Qed.

(** ** Resetting then adding a list of cells *)
Section Asm.
Context {T : Type} `{OT : Ops T}.

Definition sn3e (nx ny : Z) (e : Z * Z * Z) : list Z :=
  let '(ex, ey, ez) := e in sn3 nx ny ex ey ez.
Definition sn2e (nx : Z) (e : Z * Z) : list Z := let '(ex, ey) := e in sn2 nx ex ey.
Definition in_cells3 (nx ny nz : Z) (e : Z * Z * Z) : Prop :=
  let '(ex, ey, ez) := e in 0 <= ex < nx - 1 /\ 0 <= ey < ny - 1 /\ 0 <= ez < nz - 1.
Definition in_cells2 (nx ny : Z) (e : Z * Z) : Prop :=
  let '(ex, ey) := e in 0 <= ex < nx - 1 /\ 0 <= ey < ny - 1.

(** reset and assemble, the first two steps of assembly_mat *)
Definition assemble3 (nF nx ny nz : Z) (Ae : Z * Z * Z -> Z -> T) (els : list (Z * Z * Z))
  (m : ell T) : res (ell T) :=
  m <- ell_set_zero_mat m ;;
  foldM (fun m e => let '(ex, ey, ez) := e in
           ell_add_struct3D m ex ey ez (Ae e) nF nx ny nz) els m.
Definition assemble2 (nF nx ny : Z) (Ae : Z * Z -> Z -> T) (els : list (Z * Z))
  (m : ell T) : res (ell T) :=
  m <- ell_set_zero_mat m ;;
  foldM (fun m e => let '(ex, ey) := e in ell_add_struct2D m ex ey (Ae e) nF nx ny) els m.

Lemma fold_add3 nF nx ny nz Ae els (m : ell T) :
  foldM (fun m e => let '(ex, ey, ez) := e in
           ell_add_struct3D m ex ey ez (Ae e) nF nx ny nz) els m
  = (v <- run_adds (add_all 8 nF (e_nnz m) cols_row3 (sn3e nx ny) Ae els) (e_vals m) ;;
     Ok (set_vals m v)).
Proof.
  revert m. induction els as [|[[ex ey] ez] els IH]; intros m.
  - simpl. now destruct m.
  - cbn [foldM]. unfold add_all; cbn [flat_map]. rewrite run_adds_app.
    unfold ell_add_struct3D. cbn [sn3e].
    destruct (run_adds _ (e_vals m)); cbn [bind]; [|reflexivity].
    rewrite IH. reflexivity.
Qed.

Lemma fold_add2 nF nx ny Ae els (m : ell T) :
  foldM (fun m e => let '(ex, ey) := e in ell_add_struct2D m ex ey (Ae e) nF nx ny) els m
  = (v <- run_adds (add_all 4 nF (e_nnz m) cols_row2 (sn2e nx) Ae els) (e_vals m) ;;
     Ok (set_vals m v)).
Proof.
  revert m. induction els as [|[ex ey] els IH]; intros m.
  - simpl. now destruct m.
  - cbn [foldM]. unfold add_all; cbn [flat_map]. rewrite run_adds_app.
    unfold ell_add_struct2D. cbn [sn2e].
    destruct (run_adds _ (e_vals m)); cbn [bind]; [|reflexivity].
    rewrite IH. reflexivity.
Qed.

Lemma sn3e_range nx ny nz els : (forall e, In e els -> in_cells3 nx ny nz e) ->
  forall e k, In e els -> 0 <= k < 8 -> 0 <= znth (sn3e nx ny e) k < nx * ny * nz.
Proof.
  intros H [[ex ey] ez] k He Hk. specialize (H _ He). simpl in H |- *.
  rewrite sn3_corner by assumption. apply corner3_range; tauto.
Qed.
Lemma sn2e_range nx ny els : (forall e, In e els -> in_cells2 nx ny e) ->
  forall e k, In e els -> 0 <= k < 4 -> 0 <= znth (sn2e nx e) k < nx * ny.
Proof.
  intros H [ex ey] k He Hk. specialize (H _ He). simpl in H |- *.
  rewrite (sn2_corner nx ny) by assumption. apply corner2_range; tauto.
Qed.

Lemma cols_row3_range k n : 0 <= k < 8 -> 0 <= n < 8 -> 0 <= zznth cols_row3 k n < 27.
Proof. intros. now apply cols_row3_spec. Qed.
Lemma cols_row2_range k n : 0 <= k < 4 -> 0 <= n < 4 -> 0 <= zznth cols_row2 k n < 9.
Proof. intros. now apply cols_row2_spec. Qed.

(** values after reset + assembly, for every scalar type; note that the result
    does not mention the values stored before *)
Lemma assemble3_ok nF nx ny nz Ae els (m : ell T) :
  1 <= nF -> struct3 m nF nx ny nz -> (forall e, In e els -> in_cells3 nx ny nz e) ->
  exists v, assemble3 nF nx ny nz Ae els m = Ok (set_vals m v) /\
    struct3 (set_vals m v) nF nx ny nz /\
    rep v ((27 * nF) * (nx * ny * nz * nF))
      (fun a => fold_left oadd
         (deltas (add_all 8 nF (27 * nF) cols_row3 (sn3e nx ny) Ae els) a) (ofZ 0)).
Proof.
  intros HF M He. unfold assemble3.
  destruct (set_zero_ok m (nx * ny * nz * nF) (27 * nF)) as (v0 & E0 & R0); try (now destruct M); [lia|].
  rewrite E0. cbn [bind]. rewrite fold_add3. cbn [set_vals e_nnz e_vals].
  rewrite (s3_nnz _ _ _ _ _ M).
  destruct (add_all_ok 8 nF 27 (nx * ny * nz) cols_row3 (sn3e nx ny) Ae els v0 (fun _ => ofZ 0))
    as (v & E & R); [now apply sn3e_range|apply cols_row3_range|exact R0|].
  rewrite E. cbn [bind]. exists v. split; [reflexivity|].
  split; [apply struct3_set; [exact M|now destruct R]|exact R].
Qed.

Lemma assemble2_ok nF nx ny Ae els (m : ell T) :
  1 <= nF -> struct2 m nF nx ny -> (forall e, In e els -> in_cells2 nx ny e) ->
  exists v, assemble2 nF nx ny Ae els m = Ok (set_vals m v) /\
    struct2 (set_vals m v) nF nx ny /\
    rep v ((9 * nF) * (nx * ny * nF))
      (fun a => fold_left oadd
         (deltas (add_all 4 nF (9 * nF) cols_row2 (sn2e nx) Ae els) a) (ofZ 0)).
Proof.
  intros HF M He. unfold assemble2.
  destruct (set_zero_ok m (nx * ny * nF) (9 * nF)) as (v0 & E0 & R0); try (now destruct M); [lia|].
  rewrite E0. cbn [bind]. rewrite fold_add2. cbn [set_vals e_nnz e_vals].
  rewrite (s2_nnz _ _ _ _ M).
  destruct (add_all_ok 4 nF 9 (nx * ny) cols_row2 (sn2e nx) Ae els v0 (fun _ => ofZ 0))
    as (v & E & R); [now apply sn2e_range|apply cols_row2_range|exact R0|].
  rewrite E. cbn [bind]. exists v. split; [reflexivity|].
  split; [apply struct2_set; [exact M|now destruct R]|exact R].
Qed.
End Asm.

(** ** Exact arithmetic *)
Open Scope R_scope.

Definition corner3e (nx ny : Z) (e : Z * Z * Z) (k : Z) : Z :=
  let '(ex, ey, ez) := e in corner3 nx ny ex ey ez k.
Definition corner2e (nx ny : Z) (e : Z * Z) (k : Z) : Z :=
  let '(ex, ey) := e in corner2 nx ny ex ey k.

(** value of a coupling after assembly *)
Definition asm_val (ws : list (Z * R)) (a : Z) : R :=
  rsum ws (fun w => if (fst w =? a)%Z then snd w else 0).

Lemma asm_val_fold ws a : fold_left oadd (deltas ws a) (ofZ 0) = asm_val ws a.
Proof.
  change (fold_left Rplus (deltas ws a) 0 = asm_val ws a).
  rewrite fold_left_Rplus. rewrite rsum_deltas. unfold asm_val. lra.
Qed.

Lemma asm3_row nF nx ny nz Ae els (m : ell R) (x : Z -> R) n d1 :
  (2 <= nx)%Z -> (2 <= ny)%Z -> (2 <= nz)%Z -> (1 <= nF)%Z ->
  struct3 m nF nx ny nz -> (forall e, In e els -> in_cells3 nx ny nz e) ->
  (0 <= n < nx * ny * nz)%Z -> (0 <= d1 < nF)%Z ->
  rsum (zrange 0 (27 * nF)) (fun q =>
    asm_val (add_all 8 nF (27 * nF) cols_row3 (sn3e nx ny) Ae els) ((n * nF + d1) * (27 * nF) + q)%Z
    * x (colsf m ((n * nF + d1) * (27 * nF) + q)%Z))
  = elem_sum 8 nF (corner3e nx ny) Ae els x n d1.
Proof.
  intros Hx Hy Hz HF M He Hn Hd. unfold asm_val.
  rewrite (asm_row 8 nF 27 cols_row3 (sn3e nx ny) Ae els n d1
            (fun q => x (colsf m ((n * nF + d1) * (27 * nF) + q)%Z)));
    try lia; [|apply cols_row3_range].
  unfold elem_sum. apply rsum_ext. intros [[ex ey] ez] Hin. specialize (He _ Hin). simpl in He.
  apply rsum_ext. intros k Hk. apply in_zrange in Hk. cbn [sn3e corner3e].
  rewrite sn3_corner by exact Hk.
  destruct (Z.eqb_spec (corner3 nx ny ex ey ez k) n) as [En|]; [|reflexivity].
  apply rsum_ext. intros m' Hm. apply in_zrange in Hm.
  apply rsum_ext. intros j Hj. apply in_zrange in Hj. f_equal. f_equal.
  destruct (cor_bound k) as (? & ? & ?); [lia|].
  rewrite <- En. unfold corner3 at 1.
  change (colsf m (cell 27 nF (node nx ny (ex + cor_x k) (ey + cor_y k) (ez + cor_z k)) d1
            (zznth cols_row3 k m') j) = (corner3 nx ny ex ey ez m' * nF + j)%Z).
  rewrite (struct3_colsf m nF nx ny nz); try lia; [|exact M|now apply cols_row3_range].
  rewrite nbr3_corner by lia. reflexivity.
Qed.

(** as above in 2D, where the code's column for slot 7 of the right edge is the
    node itself *)
Definition code_corner2 (nx ny : Z) (e : Z * Z) (n k m : Z) : Z :=
  if ((n mod nx =? nx - 1) && (0 <? n / nx) && (n / nx <? ny - 1) && (zznth cols_row2 k m =? 7))%Z
  then n else corner2e nx ny e m.

Lemma node2_divmod nx ny i j : (0 <= i < nx)%Z ->
  (node nx ny i j 0 mod nx = i /\ node nx ny i j 0 / nx = j)%Z.
Proof.
  intros. unfold node. replace (i + nx * (j + ny * 0))%Z with (i + j * nx)%Z by ring.
  rewrite Z.mod_add, Z.div_add by lia. rewrite Z.mod_small, Z.div_small by lia. lia.
Qed.

Lemma asm2_row nF nx ny Ae els (m : ell R) (x : Z -> R) n d1 :
  (2 <= nx)%Z -> (2 <= ny)%Z -> (1 <= nF)%Z ->
  struct2 m nF nx ny -> (forall e, In e els -> in_cells2 nx ny e) ->
  (0 <= n < nx * ny)%Z -> (0 <= d1 < nF)%Z ->
  rsum (zrange 0 (9 * nF)) (fun q =>
    asm_val (add_all 4 nF (9 * nF) cols_row2 (sn2e nx) Ae els) ((n * nF + d1) * (9 * nF) + q)%Z
    * x (colsf m ((n * nF + d1) * (9 * nF) + q)%Z))
  = rsum els (fun e => rsum (zrange 0 4) (fun k =>
      if (corner2e nx ny e k =? n)%Z then
        rsum (zrange 0 4) (fun m' => rsum (zrange 0 nF) (fun j =>
          Aentry 4 nF (Ae e) k d1 m' j * x (code_corner2 nx ny e n k m' * nF + j)%Z))
      else 0)).
Proof.
  intros Hx Hy HF M He Hn Hd. unfold asm_val.
  rewrite (asm_row 4 nF 9 cols_row2 (sn2e nx) Ae els n d1
            (fun q => x (colsf m ((n * nF + d1) * (9 * nF) + q)%Z)));
    try lia; [|apply cols_row2_range].
  apply rsum_ext. intros [ex ey] Hin. specialize (He _ Hin). simpl in He.
  apply rsum_ext. intros k Hk. apply in_zrange in Hk. cbn [sn2e corner2e].
  rewrite (sn2_corner nx ny) by exact Hk.
  destruct (Z.eqb_spec (corner2 nx ny ex ey k) n) as [En|]; [|reflexivity].
  apply rsum_ext. intros m' Hm. apply in_zrange in Hm.
  apply rsum_ext. intros j Hj. apply in_zrange in Hj. f_equal. f_equal.
  destruct (cor_bound k) as (? & ? & _); [lia|].
  rewrite <- En. unfold corner2 at 1.
  change (colsf m (cell 9 nF (node nx ny (ex + cor_x k) (ey + cor_y k) 0) d1
            (zznth cols_row2 k m') j) = (code_corner2 nx ny (ex, ey) (corner2 nx ny ex ey k) k m' * nF + j)%Z).
  rewrite (struct2_colsf m nF nx ny); try lia; [|exact M|now apply cols_row2_range].
  unfold col2_code, code_corner2, corner2 at 1 2 3.
  destruct (node2_divmod nx ny (ex + cor_x k) (ey + cor_y k)) as (-> & ->); [lia|].
  rewrite nbr2_corner by lia.
  destruct (_ && _)%bool; reflexivity.
Qed.

Lemma code_corner2_ok nx ny e n k m :
  ~ (n mod nx = nx - 1 /\ 0 < n / nx < ny - 1)%Z -> code_corner2 nx ny e n k m = corner2e nx ny e m.
Proof. intros. unfold code_corner2. destruct (_ && _)%bool eqn:E; [lia|reflexivity]. Qed.

(** ** The theorems in API form *)
Theorem assemble3_mvp nF nx ny nz Ae els (m : ell R) x xf y :
  (2 <= nx)%Z -> (2 <= ny)%Z -> (2 <= nz)%Z -> (1 <= nF)%Z ->
  struct3 m nF nx ny nz -> (forall e, In e els -> in_cells3 nx ny nz e) ->
  rep x (nx * ny * nz * nF) xf -> alen y = (nx * ny * nz * nF)%Z ->
  exists m' y', assemble3 nF nx ny nz Ae els m = Ok m' /\ ell_mvp_2D m' x y = Ok y' /\
    alen y' = (nx * ny * nz * nF)%Z /\
    forall n d1, (0 <= n < nx * ny * nz)%Z -> (0 <= d1 < nF)%Z ->
      aget y' (n * nF + d1) = Some (elem_sum 8 nF (corner3e nx ny) Ae els xf n d1).
Proof.
  intros Hx Hy Hz HF M He X L.
  destruct (assemble3_ok nF nx ny nz Ae els m HF M He) as (v & E & M' & R).
  exists (set_vals m v).
  destruct (mvp_ok (set_vals m v) _ _ _ _ x xf y
              (struct3_rep _ nF nx ny nz _ Hx Hy Hz HF M' R) X L) as (y' & E' & R').
  exists y'. split; [exact E|]. split; [exact E'|]. split; [now destruct R'|].
  intros n d1 Hn Hd. destruct R' as (_ & G). rewrite G by nia. f_equal.
  rewrite sumf_R. rewrite <- (asm3_row nF nx ny nz Ae els (set_vals m v) xf n d1) by assumption.
  apply rsum_ext. intros q Hq. simpl. f_equal. apply asm_val_fold.
Qed.

Theorem assemble2_mvp nF nx ny Ae els (m : ell R) x xf y :
  (2 <= nx)%Z -> (2 <= ny)%Z -> (1 <= nF)%Z ->
  struct2 m nF nx ny -> (forall e, In e els -> in_cells2 nx ny e) ->
  rep x (nx * ny * nF) xf -> alen y = (nx * ny * nF)%Z ->
  exists m' y', assemble2 nF nx ny Ae els m = Ok m' /\ ell_mvp_2D m' x y = Ok y' /\
    alen y' = (nx * ny * nF)%Z /\
    forall n d1, (0 <= n < nx * ny)%Z -> (0 <= d1 < nF)%Z ->
      ~ (n mod nx = nx - 1 /\ 0 < n / nx < ny - 1)%Z ->
      aget y' (n * nF + d1) = Some (elem_sum 4 nF (corner2e nx ny) Ae els xf n d1).
Proof.
  intros Hx Hy HF M He X L.
  destruct (assemble2_ok nF nx ny Ae els m HF M He) as (v & E & M' & R).
  exists (set_vals m v).
  destruct (mvp_ok (set_vals m v) _ _ _ _ x xf y
              (struct2_rep _ nF nx ny _ Hx Hy HF M' R) X L) as (y' & E' & R').
  exists y'. split; [exact E|]. split; [exact E'|]. split; [now destruct R'|].
  intros n d1 Hn Hd Hr. destruct R' as (_ & G). rewrite G by nia. f_equal.
  rewrite sumf_R. unfold elem_sum.
  pose proof (asm2_row nF nx ny Ae els (set_vals m v) xf n d1 Hx Hy HF M' He Hn Hd) as A.
  etransitivity; [|etransitivity; [exact A|]].
  - apply rsum_ext. intros q Hq. simpl. f_equal. apply asm_val_fold.
  - apply rsum_ext. intros e _. apply rsum_ext. intros k _. destruct (_ =? _)%Z; [|reflexivity].
    apply rsum_ext. intros m' _. apply rsum_ext. intros j _. now rewrite code_corner2_ok.
Qed.
Close Scope R_scope.
