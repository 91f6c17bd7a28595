(** C01-C10: numbering and the packed matrix. *)
From Coq Require Import Reals.
From Verif Require Import Base Scalar EllModel EllSpec EllInit EllAsm EllOp EllBc EllBc2 Grid EllFinal EllProps.
Open Scope Z_scope.

(** C01.  Nodes, elements and internal variables are numbered bijectively. *)
Theorem C01_numbering : forall nx ny nz N, 1 <= nx -> 1 <= ny -> 1 <= nz -> 0 <= N ->
  bijective3 nx ny nz (nod_index nx ny) (nx * ny * nz) /\
  bijective3 (nx - 1) (ny - 1) (nz - 1) (glo_elem3D nx ny) (nelem 3 nx ny nz) /\
  bijective3 (nx - 1) (ny - 1) 1 (glo_elem3D nx ny) (nelem 2 nx ny nz) /\
  bijective3 N 8 7 intvar_ix (N * 8 * 7).
Proof. exact numbering. Qed.
Print Assumptions C01_numbering.
Example C01_example : nod_index 4 5 3 4 2 = 59 /\ 4 * 5 * 3 = 60 /\ intvar_ix 1 7 6 = 111.
Proof. repeat split. Qed.

(** C02.  The 3D structure: every slot is written and names the neighbour at
    its offset, or column 0 outside the grid; columns are valid. *)
Theorem C02_structure_3D : forall T nF nx ny nz, 2 <= nx -> 2 <= ny -> 2 <= nz -> 1 <= nF ->
  exists m : ell T, ell_init_3D nF nx ny nz = Ok m /\
    e_nrow m = nx * ny * nz * nF /\ e_ncol m = nx * ny * nz * nF /\ e_nnz m = 27 * nF /\
    forall i j k d1 s d2, 0 <= i < nx -> 0 <= j < ny -> 0 <= k < nz ->
      0 <= d1 < nF -> 0 <= s < 27 -> 0 <= d2 < nF ->
      exists c, aget (e_cols m) ((node nx ny i j k * nF + d1) * (27 * nF) + (s * nF + d2)) = Some c /\
        0 <= c < nx * ny * nz * nF /\
        (forall i' j' k', i' = i + s mod 3 - 1 -> j' = j + (s / 3) mod 3 - 1 -> k' = k + s / 9 - 1 ->
           c = if (0 <=? i') && (i' <? nx) && ((0 <=? j') && (j' <? ny)) && ((0 <=? k') && (k' <? nz))
               then node nx ny i' j' k' * nF + d2 else 0).
Proof. exact @structure_3D. Qed.
Print Assumptions C02_structure_3D.
Example C02_example : match ell_init_3D (T:=Z) 3 3 3 3 with
  | Ok m => aget (e_cols m) ((13 * 3 + 2) * 81 + (26 * 3 + 1)) = Some (26 * 3 + 1) /\
            aget (e_cols m) ((0 * 3 + 0) * 81 + (0 * 3 + 2)) = Some 0 | Err _ => False end.
Proof. vm_compute. split; reflexivity. Qed.

(** C03.  The 2D structure: the same, except that on the open right edge the
    slot of the upper neighbour names the node itself. *)
Theorem C03_structure_2D_partial : forall T nF nx ny, 2 <= nx -> 2 <= ny -> 1 <= nF ->
  exists m : ell T, ell_init_2D nF nx ny = Ok m /\
    e_nrow m = nx * ny * nF /\ e_ncol m = nx * ny * nF /\ e_nnz m = 9 * nF /\
    forall i j d1 s d2, 0 <= i < nx -> 0 <= j < ny ->
      0 <= d1 < nF -> 0 <= s < 9 -> 0 <= d2 < nF ->
      exists c, aget (e_cols m) ((node nx ny i j 0 * nF + d1) * (9 * nF) + (s * nF + d2)) = Some c /\
        0 <= c < nx * ny * nF /\
        (forall i' j', i' = i + s mod 3 - 1 -> j' = j + (s / 3) mod 3 - 1 ->
           ~ (i = nx - 1 /\ 0 < j < ny - 1 /\ s = 7) ->
           c = if (0 <=? i') && (i' <? nx) && ((0 <=? j') && (j' <? ny))
               then node nx ny i' j' 0 * nF + d2 else 0).
Proof. exact @structure_2D. Qed.
Print Assumptions C03_structure_2D_partial.
Example C03_example : match ell_init_2D (T:=Z) 2 3 3 with
  | Ok m => aget (e_cols m) ((4 * 2 + 1) * 18 + (8 * 2 + 0)) = Some (8 * 2 + 0) | Err _ => False end.
Proof. vm_compute. reflexivity. Qed.

(** On every grid with an open right edge the full statement is false there. *)
Theorem C03_structure_2D_refuted : forall T nF nx ny, 2 <= nx -> 3 <= ny -> 1 <= nF ->
  exists m : ell T, ell_init_2D nF nx ny = Ok m /\
    forall j d1 d2, 0 < j < ny - 1 -> 0 <= d1 < nF -> 0 <= d2 < nF ->
      exists c, aget (e_cols m) ((node nx ny (nx - 1) j 0 * nF + d1) * (9 * nF) + (7 * nF + d2)) = Some c /\
        c = node nx ny (nx - 1) j 0 * nF + d2 /\
        c <> node nx ny (nx - 1) (j + 1) 0 * nF + d2.
Proof. exact @structure_2D_bad. Qed.
Print Assumptions C03_structure_2D_refuted.

(** C04.  No access outside the allocations, no uninitialised read. *)
Theorem C04_matrix_memory_3D : forall T (OT : Ops T) nF nx ny nz (m : ell T),
  2 <= nx -> 2 <= ny -> 2 <= nz -> 1 <= nF -> matrix3 nF nx ny nz m ->
  (exists m', ell_set_zero_mat m = Ok m' /\ matrix3 nF nx ny nz m' /\
     full (e_vals m') (27 * nF * (nx * ny * nz * nF))) /\
  (exists m', ell_set_bc_3D m nF nx ny nz = Ok m' /\ matrix3 nF nx ny nz m') /\
  (full (e_vals m) (27 * nF * (nx * ny * nz * nF)) ->
    (forall ex ey ez Ae, 0 <= ex < nx - 1 -> 0 <= ey < ny - 1 -> 0 <= ez < nz - 1 ->
       exists m', ell_add_struct3D m ex ey ez Ae nF nx ny nz = Ok m' /\ matrix3 nF nx ny nz m' /\
         full (e_vals m') (27 * nF * (nx * ny * nz * nF))) /\
    (forall x y, full x (nx * ny * nz * nF) -> alen y = nx * ny * nz * nF ->
       exists y', ell_mvp_2D m x y = Ok y' /\ full y' (nx * ny * nz * nF))).
Proof. exact @safe3. Qed.
Print Assumptions C04_matrix_memory_3D.

Theorem C04_matrix_memory_2D : forall T (OT : Ops T) nF nx ny (m : ell T),
  2 <= nx -> 2 <= ny -> 1 <= nF -> matrix2 nF nx ny m ->
  (exists m', ell_set_zero_mat m = Ok m' /\ matrix2 nF nx ny m' /\
     full (e_vals m') (9 * nF * (nx * ny * nF))) /\
  (exists m', ell_set_bc_2D m nF nx ny = Ok m' /\ matrix2 nF nx ny m') /\
  (full (e_vals m) (9 * nF * (nx * ny * nF)) ->
    (forall ex ey Ae, 0 <= ex < nx - 1 -> 0 <= ey < ny - 1 ->
       exists m', ell_add_struct2D m ex ey Ae nF nx ny = Ok m' /\ matrix2 nF nx ny m' /\
         full (e_vals m') (9 * nF * (nx * ny * nF))) /\
    (forall x y, full x (nx * ny * nF) -> alen y = nx * ny * nF ->
       exists y', ell_mvp_2D m x y = Ok y' /\ full y' (nx * ny * nF))).
Proof. exact @safe2. Qed.
Print Assumptions C04_matrix_memory_2D.
Example C04_example : (exists m : ell R, matrix3 3 4 4 4 m) /\ (exists m : ell R, matrix2 2 5 4 m).
Proof. exact (conj (matrix3_inhabited 3 4 4 4 ltac:(lia) ltac:(lia) ltac:(lia) ltac:(lia))
                   (matrix2_inhabited 2 5 4 ltac:(lia) ltac:(lia) ltac:(lia))). Qed.

(** C05.  Reset, one element matrix per listed cell, product: the sum of the
    element operators. *)
Theorem C05_assembly_operator_3D : forall nF nx ny nz Ae els (m : ell R) x xf y,
  2 <= nx -> 2 <= ny -> 2 <= nz -> 1 <= nF -> matrix3 nF nx ny nz m ->
  (forall ex ey ez, In (ex, ey, ez) els -> 0 <= ex < nx - 1 /\ 0 <= ey < ny - 1 /\ 0 <= ez < nz - 1) ->
  rep x (nx * ny * nz * nF) xf -> alen y = nx * ny * nz * nF ->
  exists m0 m' y', ell_set_zero_mat m = Ok m0 /\
    foldM (fun m e => let '(ex, ey, ez) := e in
             ell_add_struct3D m ex ey ez (Ae (ex, ey, ez)) nF nx ny nz) els m0 = Ok m' /\
    ell_mvp_2D m' x y = Ok y' /\ alen y' = nx * ny * nz * nF /\
    forall n d1, 0 <= n < nx * ny * nz -> 0 <= d1 < nF ->
      aget y' (n * nF + d1) = Some
        (rsum els (fun e => let '(ex, ey, ez) := e in
           rsum (zrange 0 8) (fun k => if corner3 nx ny ex ey ez k =? n then
             rsum (zrange 0 8) (fun l => rsum (zrange 0 nF) (fun d2 =>
               (Ae e ((k * nF + d1) * (8 * nF) + (l * nF + d2))%Z
                * xf (corner3 nx ny ex ey ez l * nF + d2)%Z)%R)) else 0%R))).
Proof. exact operator_3D. Qed.
Print Assumptions C05_assembly_operator_3D.
Example C05_example : (exists m : ell R, matrix3 3 4 4 4 m) /\
  rep (const_arr (4 * 4 * 4 * 3) 2%R) (4 * 4 * 4 * 3) (fun _ => 2%R) /\
  corner3 4 4 1 2 0 6 = node 4 4 2 3 1.
Proof. exact (conj (matrix3_inhabited 3 4 4 4 ltac:(lia) ltac:(lia) ltac:(lia) ltac:(lia))
                   (conj (const_arr_rep _ _) eq_refl)). Qed.

(** C06.  The same in 2D, except for the rows of the open right edge. *)
Theorem C06_assembly_operator_2D_partial : forall nF nx ny Ae els (m : ell R) x xf y,
  2 <= nx -> 2 <= ny -> 1 <= nF -> matrix2 nF nx ny m ->
  (forall ex ey, In (ex, ey) els -> 0 <= ex < nx - 1 /\ 0 <= ey < ny - 1) ->
  rep x (nx * ny * nF) xf -> alen y = nx * ny * nF ->
  exists m0 m' y', ell_set_zero_mat m = Ok m0 /\
    foldM (fun m e => let '(ex, ey) := e in
             ell_add_struct2D m ex ey (Ae (ex, ey)) nF nx ny) els m0 = Ok m' /\
    ell_mvp_2D m' x y = Ok y' /\ alen y' = nx * ny * nF /\
    forall n d1, 0 <= n < nx * ny -> 0 <= d1 < nF ->
      ~ (n mod nx = nx - 1 /\ 0 < n / nx < ny - 1) ->
      aget y' (n * nF + d1) = Some
        (rsum els (fun e => let '(ex, ey) := e in
           rsum (zrange 0 4) (fun k => if corner2 nx ny ex ey k =? n then
             rsum (zrange 0 4) (fun l => rsum (zrange 0 nF) (fun d2 =>
               (Ae e ((k * nF + d1) * (4 * nF) + (l * nF + d2))%Z
                * xf (corner2 nx ny ex ey l * nF + d2)%Z)%R)) else 0%R))).
Proof. exact operator_2D. Qed.
Print Assumptions C06_assembly_operator_2D_partial.
Example C06_example : (exists m : ell R, matrix2 2 5 4 m) /\
  rep (const_arr (5 * 4 * 2) 2%R) (5 * 4 * 2) (fun _ => 2%R) /\ corner2 5 4 1 2 2 = 17.
Proof. exact (conj (matrix2_inhabited 2 5 4 ltac:(lia) ltac:(lia) ltac:(lia))
                   (conj (const_arr_rep _ _) eq_refl)). Qed.

(** On every grid with an open right edge and every list of cells containing
    the cell at its bottom, some assembled operator is wrong there. *)
Theorem C06_assembly_operator_2D_refuted : forall nF nx ny els, 2 <= nx -> 3 <= ny -> 1 <= nF ->
  NoDup els -> (forall ex ey, In (ex, ey) els -> 0 <= ex < nx - 1 /\ 0 <= ey < ny - 1) ->
  In (nx - 2, 1) els ->
  exists (Ae : Z * Z -> Z -> R) (m : ell R) (x y : arr R) xf m0 m' y',
    matrix2 nF nx ny m /\ rep x (nx * ny * nF) xf /\ alen y = nx * ny * nF /\
    ell_set_zero_mat m = Ok m0 /\
    foldM (fun m e => let '(ex, ey) := e in
             ell_add_struct2D m ex ey (Ae (ex, ey)) nF nx ny) els m0 = Ok m' /\
    ell_mvp_2D m' x y = Ok y' /\
    let n := node nx ny (nx - 1) 1 0 in
    aget y' (n * nF + 0) = Some 0%R /\
    rsum els (fun e => let '(ex, ey) := e in
           rsum (zrange 0 4) (fun k => if corner2 nx ny ex ey k =? n then
             rsum (zrange 0 4) (fun l => rsum (zrange 0 nF) (fun d2 =>
               (Ae e ((k * nF + 0) * (4 * nF) + (l * nF + d2))%Z
                * xf (corner2 nx ny ex ey l * nF + d2)%Z)%R)) else 0%R)) = 1%R.
Proof. exact operator_2D_bad. Qed.
Print Assumptions C06_assembly_operator_2D_refuted.

(** C07.  3D boundary conditions, as a dense matrix and entry by entry. *)
Theorem C07_bc_3D : forall nF nx ny nz (m : ell R),
  2 <= nx -> 2 <= ny -> 2 <= nz -> 1 <= nF -> matrix3 nF nx ny nz m ->
  exists m', ell_set_bc_3D m nF nx ny nz = Ok m' /\ matrix3 nF nx ny nz m' /\
    (forall i j k d1 i' j' k' d2, 0 <= i < nx -> 0 <= j < ny -> 0 <= k < nz -> 0 <= d1 < nF ->
      0 <= i' < nx -> 0 <= j' < ny -> 0 <= k' < nz -> 0 <= d2 < nF ->
      let r := node nx ny i j k * nF + d1 in
      let c := node nx ny i' j' k' * nF + d2 in
      (bnd3 nx ny nz i j k -> dense m' r c = if r =? c then 1%R else 0%R) /\
      (~ bnd3 nx ny nz i j k -> bnd3 nx ny nz i' j' k' -> dense m' r c = 0%R) /\
      (~ bnd3 nx ny nz i j k -> ~ bnd3 nx ny nz i' j' k' -> dense m' r c = dense m r c)) /\
    (let N := nx * ny * nz * nF in
     (forall r c, 0 <= r < N -> 0 <= c < N -> dense m r c = dense m c r) ->
     (forall r c, 0 <= r < N -> 0 <= c < N -> dense m' r c = dense m' c r)).
Proof. exact bc_3D. Qed.
Print Assumptions C07_bc_3D.

(** entry by entry, for every scalar type *)
Theorem C07_bc_3D_entries : forall T (OT : Ops T) nF nx ny nz (m : ell T),
  2 <= nx -> 2 <= ny -> 2 <= nz -> 1 <= nF -> matrix3 nF nx ny nz m ->
  exists m', ell_set_bc_3D m nF nx ny nz = Ok m' /\
    forall i j k d1 s d2, 0 <= i < nx -> 0 <= j < ny -> 0 <= k < nz ->
      0 <= d1 < nF -> 0 <= s < 27 -> 0 <= d2 < nF ->
      let a := (node nx ny i j k * nF + d1) * (27 * nF) + (s * nF + d2) in
      (bnd3 nx ny nz i j k ->
         aget (e_vals m') a = Some (if (s =? 13) && (d1 =? d2) then ofZ 1 else ofZ 0)) /\
      (~ bnd3 nx ny nz i j k ->
         (bnd3 nx ny nz (i + off_x s) (j + off_y s) (k + off_z s) -> aget (e_vals m') a = Some (ofZ 0)) /\
         (~ bnd3 nx ny nz (i + off_x s) (j + off_y s) (k + off_z s) ->
            aget (e_vals m') a = aget (e_vals m) a)).
Proof. exact @bc_3D_entries. Qed.
Print Assumptions C07_bc_3D_entries.
Example C07_example : (exists m : ell R, matrix3 3 4 4 4 m) /\
  ~ bnd3 4 4 4 1 2 1 /\ bnd3 4 4 4 1 3 1.
Proof. split; [exact (matrix3_inhabited 3 4 4 4 ltac:(lia) ltac:(lia) ltac:(lia) ltac:(lia))|].
  unfold bnd3, on_bnd; split; lia. Qed.

(** C08.  2D: identity rows on the boundary, interior block untouched. *)
Theorem C08_bc_2D : forall nF nx ny (m : ell R),
  2 <= nx -> 2 <= ny -> 1 <= nF -> matrix2 nF nx ny m ->
  exists m', ell_set_bc_2D m nF nx ny = Ok m' /\ matrix2 nF nx ny m' /\
    forall i j d1 i' j' d2, 0 <= i < nx -> 0 <= j < ny -> 0 <= d1 < nF ->
      0 <= i' < nx -> 0 <= j' < ny -> 0 <= d2 < nF ->
      let r := node nx ny i j 0 * nF + d1 in
      let c := node nx ny i' j' 0 * nF + d2 in
      (bnd2 nx ny i j -> dense m' r c = if r =? c then 1%R else 0%R) /\
      (~ bnd2 nx ny i j -> ~ bnd2 nx ny i' j' -> dense m' r c = dense m r c).
Proof. exact bc_2D. Qed.
Print Assumptions C08_bc_2D.
Example C08_example : (exists m : ell R, matrix2 2 5 4 m) /\ ~ bnd2 5 4 3 2 /\ bnd2 5 4 4 2.
Proof. split; [exact (matrix2_inhabited 2 5 4 ltac:(lia) ltac:(lia) ltac:(lia))|].
  unfold bnd2, on_bnd; split; lia. Qed.

(** C09.  On every 2D grid with more than one interior node some coupling of an
    interior node to a boundary node survives; on 3x3 none does. *)
Theorem C09_bc_2D_columns_refuted : forall nF nx ny,
  3 <= nx -> 3 <= ny -> ~ (nx = 3 /\ ny = 3) -> 1 <= nF ->
  exists (m m' : ell R) i j i' j', matrix2 nF nx ny m /\ ell_set_bc_2D m nF nx ny = Ok m' /\
    0 < i < nx - 1 /\ 0 < j < ny - 1 /\ 0 <= i' < nx /\ 0 <= j' < ny /\ bnd2 nx ny i' j' /\
    dense m' (node nx ny i j 0 * nF) (node nx ny i' j' 0 * nF) = 1%R.
Proof. exact bc2_cols_bad. Qed.
Print Assumptions C09_bc_2D_columns_refuted.

Theorem C09_bc_2D_columns_partial : forall nF (m : ell R), 1 <= nF -> matrix2 nF 3 3 m ->
  exists m', ell_set_bc_2D m nF 3 3 = Ok m' /\
    forall i j d1 d2, 0 <= i < 3 -> 0 <= j < 3 -> 0 <= d1 < nF -> 0 <= d2 < nF -> bnd2 3 3 i j ->
      dense m' (node 3 3 1 1 0 * nF + d1) (node 3 3 i j 0 * nF + d2) = 0%R.
Proof. exact bc_2D_33. Qed.
Print Assumptions C09_bc_2D_columns_partial.
Example C09_example : (exists m : ell R, matrix2 2 3 3 m) /\ bnd2 3 3 0 1.
Proof. split; [exact (matrix2_inhabited 2 3 3 ltac:(lia) ltac:(lia) ltac:(lia))|].
  unfold bnd2, on_bnd; lia. Qed.

(** C10.  Assembly forgets the previous contents, for every scalar type. *)
Theorem C10_reassembly : forall T (OT : Ops T),
  (forall nF nx ny nz (Ae : Z * Z * Z -> Z -> T) els (m1 m2 : ell T),
    2 <= nx -> 2 <= ny -> 2 <= nz -> 1 <= nF ->
    matrix3 nF nx ny nz m1 -> matrix3 nF nx ny nz m2 ->
    (forall ex ey ez, In (ex, ey, ez) els -> 0 <= ex < nx - 1 /\ 0 <= ey < ny - 1 /\ 0 <= ez < nz - 1) ->
    let run m := m0 <- ell_set_zero_mat m ;;
      m1 <- foldM (fun m e => let '(ex, ey, ez) := e in
                     ell_add_struct3D m ex ey ez (Ae (ex, ey, ez)) nF nx ny nz) els m0 ;;
      ell_set_bc_3D m1 nF nx ny nz in
    exists m1' m2', run m1 = Ok m1' /\ run m2 = Ok m2' /\
      alen (e_vals m1') = alen (e_vals m2') /\ forall a, aget (e_vals m1') a = aget (e_vals m2') a) /\
  (forall nF nx ny (Ae : Z * Z -> Z -> T) els (m1 m2 : ell T),
    2 <= nx -> 2 <= ny -> 1 <= nF ->
    matrix2 nF nx ny m1 -> matrix2 nF nx ny m2 ->
    (forall ex ey, In (ex, ey) els -> 0 <= ex < nx - 1 /\ 0 <= ey < ny - 1) ->
    let run m := m0 <- ell_set_zero_mat m ;;
      m1 <- foldM (fun m e => let '(ex, ey) := e in
                     ell_add_struct2D m ex ey (Ae (ex, ey)) nF nx ny) els m0 ;;
      ell_set_bc_2D m1 nF nx ny in
    exists m1' m2', run m1 = Ok m1' /\ run m2 = Ok m2' /\
      alen (e_vals m1') = alen (e_vals m2') /\ forall a, aget (e_vals m1') a = aget (e_vals m2') a).
Proof. exact @reassembly. Qed.
Print Assumptions C10_reassembly.
Example C10_example : exists m1 m2 : ell R, matrix3 3 4 4 4 m1 /\ matrix3 3 4 4 4 m2 /\
  aget (e_vals m1) 0 <> aget (e_vals m2) 0.
Proof. exact matrix3_differ. Qed.
