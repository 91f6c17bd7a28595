(** C60, C73: the [int] arithmetic of the matrix and of the class.  [ieval] evaluates a syntax tree
    of C [int] operations and is [None] as soon as any sub-expression leaves the range of a
    32-bit int.  [ieach], [ieach2] and [iboth] evaluate the expressions of a list of accesses:
    that they are [Some] the stores of the model means that no expression of the function
    overflows and that it addresses exactly what the model, whose integers are unbounded, does. *)
From Verif Require Import Base Scalar EllModel AssemblyModel IntModel IntProps.
Open Scope Z_scope.

(** Grids of the sizes the code is used with are far inside the range. *)
Example C60_example : 9 * 2 * (1000 * 1000 * 2) <= INT_MAX /\ 27 * 3 * (200 * 200 * 200 * 3) <= INT_MAX.
Proof. exact fits_ex. Qed.

(** C60.  2D: if the number of entries of the matrix fits in an int, nothing overflows. *)
Theorem C60_matrix_2d : forall (T : Type) (OT : Ops T) nF nx ny, 1 <= nF -> 2 <= nx -> 2 <= ny -> 9 * nF * (nx * ny * nF) <= 2147483647 ->
  ieval (i_nn2 nx ny) = Some (nx * ny) /\ ieval (i_nrow2 nF nx ny) = Some (nx * ny * nF) /\ ieval (i_size2 nF nx ny) = Some (9 * nF * (nx * ny * nF)) /\
  ieach2 (i_init2D nF nx ny) = Some (init2D_stores nF nx ny) /\
  (forall i, 0 <= i < nx * ny -> Forall (fun e => ieval e <> None) (i_tests2 nx ny i)) /\
  (forall i j, 0 <= i < nx * ny * nF -> 0 <= j < 9 * nF -> ieval (i_slot (9 * nF) i j) = Some (i * (9 * nF) + j)) /\
  (forall ex ey (Ae : Z -> T), 0 <= ex < nx - 1 -> 0 <= ey < ny - 1 ->
     exists l, iboth (i_add 4 nF (9 * nF) cols_row2 (i_sn2 nx ex ey)) = Some l /\
               add_struct 4 nF (9 * nF) cols_row2 (sn2 nx ex ey) Ae = map (fun p => (fst p, Ae (snd p))) l) /\
  ieach (i_bc2D (T := T) nF (9 * nF) nx ny) = Some (bc2D_stores nF (9 * nF) nx ny) /\
  Forall (fun e => ieval e <> None) (i_vars2 nx ny) /\
  (forall i d, 0 <= i < nx * ny -> 0 <= d < nF ->
     ieval (fst (i_diag nF (9 * nF) 4 i d)) = Some (i * nF * (9 * nF) + 4 * nF + d * (9 * nF) + d) /\ ieval (snd (i_diag nF (9 * nF) 4 i d)) = Some (i * nF + d)).
Proof. exact @matrix2_ok. Qed.
Print Assumptions C60_matrix_2d.
(** 3D. *)
Theorem C60_matrix_3d : forall (T : Type) (OT : Ops T) nF nx ny nz, 1 <= nF -> 2 <= nx -> 2 <= ny -> 2 <= nz -> 27 * nF * (nx * ny * nz * nF) <= 2147483647 ->
  ieval (i_nn3 nx ny nz) = Some (nx * ny * nz) /\ ieval (i_nrow3 nF nx ny nz) = Some (nx * ny * nz * nF) /\ ieval (i_size3 nF nx ny nz) = Some (27 * nF * (nx * ny * nz * nF)) /\
  ieach2 (i_init3D nF nx ny nz) = Some (init3D_stores nF nx ny nz) /\
  (forall i j k, 0 <= i < nx -> 0 <= j < ny -> 0 <= k < nz -> ieval (i_nod nx ny (V i) (V j) (V k)) = Some (nod_index nx ny i j k)) /\
  (forall i j, 0 <= i < nx * ny * nz * nF -> 0 <= j < 27 * nF -> ieval (i_slot (27 * nF) i j) = Some (i * (27 * nF) + j)) /\
  (forall ex ey ez (Ae : Z -> T), 0 <= ex < nx - 1 -> 0 <= ey < ny - 1 -> 0 <= ez < nz - 1 ->
     exists l, iboth (i_add 8 nF (27 * nF) cols_row3 (i_sn3 nx ny ex ey ez)) = Some l /\
               add_struct 8 nF (27 * nF) cols_row3 (sn3 nx ny ex ey ez) Ae = map (fun p => (fst p, Ae (snd p))) l) /\
  ieach (i_bc3D (T := T) nF (27 * nF) nx ny nz) = Some (bc3D_stores nF (27 * nF) nx ny nz) /\
  (forall i d, 0 <= i < nx * ny * nz -> 0 <= d < nF ->
     ieval (fst (i_diag nF (27 * nF) 13 i d)) = Some (i * nF * (27 * nF) + 13 * nF + d * (27 * nF) + d) /\ ieval (snd (i_diag nF (27 * nF) 13 i d)) = Some (i * nF + d)).
Proof. exact @matrix3_ok. Qed.
Print Assumptions C60_matrix_3d.
(** Conversely a matrix with more entries makes its own size overflow, whatever the dimensions. *)
Theorem C60_larger_matrices_overflow : forall nF nx ny nz,
  (2147483647 < 9 * nF * (nx * ny * nF) -> ieval (i_size2 nF nx ny) = None) /\
  (2147483647 < 27 * nF * (nx * ny * nz * nF) -> ieval (i_size3 nF nx ny nz) = None).
Proof. exact sizes_over. Qed.
Print Assumptions C60_larger_matrices_overflow.

(** C73.  The class in 3D: the same bound covers every buffer and every index. *)
Theorem C73_class_3d : forall nx ny nz, 2 <= nx -> 2 <= ny -> 2 <= nz -> 27 * 3 * (nx * ny * nz * 3) <= 2147483647 ->
  let ne := (nx - 1) * (ny - 1) * (nz - 1) in
  ieval (i_ndofs 3 nx ny nz) = Some (nx * ny * nz * 3) /\ ieval (i_fields 3 nx ny nz) = Some (ne * 6) /\ ieval (i_num_int_vars 3 nx ny nz) = Some (ne * 8 * 7) /\
  (forall ex ey ez, 0 <= ex < nx - 1 -> 0 <= ey < ny - 1 -> 0 <= ez < nz - 1 ->
     ieval (i_glo_elem nx ny ex ey ez) = Some (ez * (nx - 1) * (ny - 1) + ey * (nx - 1) + ex)) /\
  (forall e g v, 0 <= e < ne -> 0 <= g < 8 -> 0 <= v < 7 -> ieval (i_intvar e g v) = Some (e * 8 * 7 + g * 7 + v)) /\
  (forall n d, 0 <= n < nx * ny * nz -> 0 <= d < 3 -> ieval (i_dof 3 n d) = Some (n * 3 + d)) /\
  (forall e v, 0 <= e < ne -> 0 <= v < 6 -> ieval (i_dof 6 e v) = Some (e * 6 + v)).
Proof. exact class3_ok. Qed.
Print Assumptions C73_class_3d.
(** In 2D it covers everything but the internal variables, which are sized as in 3D. *)
Theorem C73_class_2d_partial : forall nx ny, 2 <= nx -> 2 <= ny -> 9 * 2 * (nx * ny * 2) <= 2147483647 ->
  let ne := (nx - 1) * (ny - 1) in
  ieval (i_ndofs 2 nx ny 1) = Some (nx * ny * 1 * 2) /\ ieval (i_fields 2 nx ny 1) = Some (ne * 3) /\
  (forall ex ey, 0 <= ex < nx - 1 -> 0 <= ey < ny - 1 -> ieval (i_glo_elem nx ny ex ey 0) = Some (0 * (nx - 1) * (ny - 1) + ey * (nx - 1) + ex)) /\
  (forall n d, 0 <= n < nx * ny -> 0 <= d < 2 -> ieval (i_dof 2 n d) = Some (n * 2 + d)) /\
  (forall e v, 0 <= e < ne -> 0 <= v < 3 -> ieval (i_dof 3 e v) = Some (e * 3 + v)) /\
  (56 * ne <= 2147483647 -> ieval (i_num_int_vars 2 nx ny 1) = Some (ne * 8 * 7) /\
     forall e g v, 0 <= e < ne -> 0 <= g < 8 -> 0 <= v < 7 -> ieval (i_intvar e g v) = Some (e * 8 * 7 + g * 7 + v)) /\
  (2147483647 < 56 * ne -> ieval (i_num_int_vars 2 nx ny 1) = None).
Proof. exact class2_ok. Qed.
Print Assumptions C73_class_2d_partial.
(** There are 2D grids whose matrix fits and whose num_int_vars overflows (src/micro.cpp:52). *)
Theorem C73_int_vars_2d_refuted : exists nx ny, 2 <= nx /\ 2 <= ny /\ ieval (i_size2 2 nx ny) = Some (9 * 2 * (nx * ny * 2)) /\ ieval (i_num_int_vars 2 nx ny 1) = None.
Proof. exact over2. Qed.
Print Assumptions C73_int_vars_2d_refuted.
