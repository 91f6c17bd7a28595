(** C55, C57, C61, C62, C65, C67: output, the log files, invariants, and what a commit publishes. *)
From Coq Require Import Reals String.
From Verif Require Import Base Scalar Grid EllSpec EllModel AssemblyModel AsmPure AsmSpec MicroModel OutputModel NewtonBase ApiBase ApiRun ApiHist Build ApiSpec ApiProps ApiCases ApiCommit OneCell PlastRef Tangent
  FieldsBase VtuProps VtuData OutProps LogProps Linear Untouched TwoCell OutFields BuildEx.
Open Scope string_scope.
Open Scope list_scope.
Open Scope Z_scope.

(** an output call after six calls on a 4x5x3 and on a 4x5 object *)
Example C55_example : exists j o0 o fs g o' fs' r, total_junk j /\ valid_args 3 4 5 3 0 mp5 [1; 2] ps20 /\ body_args 3 mp5 ps20 /\
  construct fuel40 (fun _ => counting) j 3 [4; 5; 3] 0 mp5 [1; 2] ps20 = Ok o0 /\ reaches o0 story o fs /\ lookup 7 (o_gps o) = Some g /\
  step (Output fuel40 counting 9 7) (o, fs) = Ok (o', fs', r).
Proof. exact shown. Qed.
Example C55_example_2d : exists j o0 o fs g o' fs' r, total_junk j /\ valid_args 2 4 5 1 1 mp5 [1; 0] ps20 /\ body_args 2 mp5 ps20 /\
  construct fuel40 (fun _ => counting) j 2 [4; 5; 1] 1 mp5 [1; 0] ps20 = Ok o0 /\ reaches o0 story o fs /\ lookup 7 (o_gps o) = Some g /\
  step (Output fuel40 counting 9 7) (o, fs) = Ok (o', fs', r).
Proof. exact shown2. Qed.
(** two records, the second with a Gauss point more *)
Example C57_example : exists o0 o fs rs, is_object o0 /\ v_dim (o_env o0) = 3 /\ run logged (o0, construct_files o0 no_files) = Ok (o, fs, rs) /\ List.length (infos [] logged) = 2%nat.
Proof. exact logged_ex. Qed.
Example C57_example_ids : first_use (set_ids story) = [7; 3] /\ map (fun a => first_use (set_ids a)) (infos [] logged) = [[7; 3]; [7; 3; 5]].
Proof. exact logged_ids. Qed.
(** shear strains up to 2 of one object are on the linear path; their combinations are *)
Example C62_example : exists o0 : obj R, is_object o0 /\ nvoi (o_env o0) = 6 /\ forall x, (Rabs x <= 2)%R -> exists o fs g o' fs' r,
  reaches o0 (pull x) o fs /\ lookup 1 (o_gps o) = Some g /\ g_n g = None /\ below o g /\ step hom (o, fs) = Ok (o', fs', r).
Proof. exact pulled. Qed.
Example C62_example_strains : forall x, last_set 1 (shear x) (pull x).
Proof. exact pull_set. Qed.
Example C62_example_combined : forall a b x y, combined 6 a b (shear x) (shear y) (shear (a * x + b * y)%R).
Proof. exact pull_comb. Qed.
Example C65_example : forall x : R, exists o, valid_args 3 2 3 2 1 tmp [0; 1] (cps 1 0) /\ total_junk (new_junk x) /\
  construct fuel40 (fun _ => counting) (new_junk x) 3 [2; 3; 2] 1 tmp [0; 1] (cps 1 0) = Ok o /\ ncells (o_env o) = 2 /\ plastic_at (o_env o) 1 = false /\ plastic_at (o_env o) 0 = true.
Proof. exact two_ex. Qed.

(** C55.  An output call for a known Gauss point adds one file: what write_vtu writes in the
    state after the solve and the cell fields.  output_state spells the solve out. *)
Theorem C55_output_adds_file : forall (T : Type) (OT : Ops T) (o0 : obj T) cs o fs fuel pk t id g o' fs' r,
  is_object o0 -> reaches o0 cs o fs -> lookup id (o_gps o) = Some g -> step (Output fuel pk t id) (o, fs) = Ok (o', fs', r) ->
  output_state fuel pk o g o' /\ exists f, write_vtu o' = Ok f /\
    fs' = mkFiles (f_mats fs) (f_conv fs) (f_esc fs) (f_vars fs) ((id, t, f) :: f_vtu fs).
Proof. exact @output_step. Qed.
Print Assumptions C55_output_adds_file.
(** What a reader finds in the file.  has f name n P: the first data array called name in f
    has n words, and P of them. *)
Theorem C55_contents_3d : forall (T : Type) (OT : Ops T) (o : obj T) f, write_vtu o = Ok f -> v_dim (o_env o) = 3%Z -> (2 <= v_nx (o_env o))%Z -> (2 <= v_ny (o_env o))%Z -> (2 <= v_nz (o_env o))%Z ->
  let V := o_env o in let nx := v_nx V in let ny := v_ny V in let nz := v_nz V in let vold := w_vold (o_work o) in
  let np := (nx * ny * nz)%Z in let nc := ((nx - 1) * (ny - 1) * (nz - 1))%Z in
  piece f = Some (np, nc) /\
  has f "Position" (3 * np) (fun t => forall i j k, (0 <= i < nx -> 0 <= j < ny -> 0 <= k < nz ->
    t (3 * node nx ny i j k) = TD (ofZ i * v_dx V)%num /\ t (3 * node nx ny i j k + 1) = TD (ofZ j * v_dy V)%num /\ t (3 * node nx ny i j k + 2) = TD (ofZ k * v_dz V)%num)%Z) /\
  has f "connectivity" (8 * nc) (fun t => forall ex ey ez c, (0 <= ex < nx - 1 -> 0 <= ey < ny - 1 -> 0 <= ez < nz - 1 -> 0 <= c < 8 ->
    t (8 * cell_no nx ny ex ey ez + c) = TI (node nx ny (ex + cor_x c) (ey + cor_y c) (ez + cor_z c)))%Z) /\
  has f "offsets" nc (fun t => forall e, (0 <= e < nc)%Z -> t e = TI (8 * (e + 1))) /\
  has f "types" nc (fun t => forall e, (0 <= e < nc)%Z -> t e = TS "12 ") /\
  has f "displ" (3 * np) (fun t => forall q, (0 <= q < 3 * np)%Z -> exists x, aget (w_u (o_work o)) q = Some x /\ t q = TD x) /\
  has f "b" (3 * np) (fun t => forall q, (0 <= q < 3 * np)%Z -> exists x, aget (w_b (o_work o)) q = Some x /\ t q = TD x) /\
  has f "strain" (6 * nc) (fun t => forall q, (0 <= q < 6 * nc)%Z -> exists x, aget (o_estrain o) q = Some x /\ t q = TD x) /\
  has f "stress" (6 * nc) (fun t => forall q, (0 <= q < 6 * nc)%Z -> exists x, aget (o_estress o) q = Some x /\ t q = TD x) /\
  has f "elem_type" nc (fun t => forall e, (0 <= e < nc)%Z -> exists z, aget (v_etype V) e = Some z /\ t e = TI z) /\
  has f "plasticity" nc (fun t => forall e, (0 <= e < nc)%Z -> t e = TD (sumf (zrange 0 8) (plastic_norm vold e) / ofZ 8)%num) /\
  has f "hardening" nc (fun t => forall e, (0 <= e < nc)%Z -> t e = TD (sumf (zrange 0 8) (fun g => oval vold (intvar_ix e g 6)) / ofZ 8)%num).
Proof. exact @vtu3. Qed.
Print Assumptions C55_contents_3d.
Theorem C55_contents_2d : forall (T : Type) (OT : Ops T) (o : obj T) f, write_vtu o = Ok f -> v_dim (o_env o) = 2%Z -> (2 <= v_nx (o_env o))%Z -> (2 <= v_ny (o_env o))%Z -> v_nz (o_env o) = 1%Z ->
  let V := o_env o in let nx := v_nx V in let ny := v_ny V in let np := (nx * ny)%Z in let nc := ((nx - 1) * (ny - 1))%Z in
  piece f = Some (np, nc) /\
  has f "Position" (3 * np) (fun t => forall i j, (0 <= i < nx -> 0 <= j < ny ->
    t (3 * node nx ny i j 0) = TD (ofZ i * v_dx V)%num /\ t (3 * node nx ny i j 0 + 1) = TD (ofZ j * v_dy V)%num /\ t (3 * node nx ny i j 0 + 2) = TS "0.0")%Z) /\
  has f "connectivity" (4 * nc) (fun t => forall ex ey c, (0 <= ex < nx - 1 -> 0 <= ey < ny - 1 -> 0 <= c < 4 ->
    t (4 * cell_no nx ny ex ey 0 + c) = TI (node nx ny (ex + cor_x c) (ey + cor_y c) 0))%Z) /\
  has f "offsets" nc (fun t => forall e, (0 <= e < nc)%Z -> t e = TI (4 * (e + 1))) /\
  has f "types" nc (fun t => forall e, (0 <= e < nc)%Z -> t e = TS "9 ") /\
  has f "displ" (3 * np) (fun t => forall p, (0 <= p < np)%Z -> exists x y, aget (w_u (o_work o)) (2 * p) = Some x /\ aget (w_u (o_work o)) (2 * p + 1) = Some y /\
    t (3 * p)%Z = TD x /\ t (3 * p + 1)%Z = TD y /\ t (3 * p + 2)%Z = TS " 0.0") /\
  has f "b" (3 * np) (fun t => forall p, (0 <= p < np)%Z -> exists x y, aget (w_b (o_work o)) (2 * p) = Some x /\ aget (w_b (o_work o)) (2 * p + 1) = Some y /\
    t (3 * p)%Z = TD x /\ t (3 * p + 1)%Z = TD y /\ t (3 * p + 2)%Z = TS " 0.0") /\
  has f "strain" (3 * nc) (fun t => forall q, (0 <= q < 3 * nc)%Z -> exists x, aget (o_estrain o) q = Some x /\ t q = TD x) /\
  has f "stress" (3 * nc) (fun t => forall q, (0 <= q < 3 * nc)%Z -> exists x, aget (o_estress o) q = Some x /\ t q = TD x) /\
  has f "elem_type" nc (fun t => forall e, (0 <= e < nc)%Z -> exists z, aget (v_etype V) e = Some z /\ t e = TI z) /\
  has f "plasticity" nc (fun t => forall e, (0 <= e < nc)%Z -> t e = TD (dec 0 1 / ofZ 8)%num) /\
  has f "hardening" nc (fun t => forall e, (0 <= e < nc)%Z -> t e = TD (dec 0 1 / ofZ 8)%num).
Proof. exact @vtu2. Qed.
Print Assumptions C55_contents_2d.
(** The corners listed for a cell are nodes of the grid, all different. *)
Theorem C55_corners_valid : forall nx ny nz ex ey ez c, 0 <= ex < nx - 1 -> 0 <= ey < ny - 1 -> 0 <= ez < nz - 1 -> 0 <= c < 8 ->
  0 <= node nx ny (ex + cor_x c) (ey + cor_y c) (ez + cor_z c) < nx * ny * nz.
Proof. exact corners_valid. Qed.
Print Assumptions C55_corners_valid.
Theorem C55_corners_distinct : forall nx ny nz ex ey ez c c', 0 <= ex < nx - 1 -> 0 <= ey < ny - 1 -> 0 <= ez < nz - 1 -> 0 <= c < 8 -> 0 <= c' < 8 -> c <> c' ->
  node nx ny (ex + cor_x c) (ey + cor_y c) (ez + cor_z c) <> node nx ny (ex + cor_x c') (ey + cor_y c') (ez + cor_z c').
Proof. exact corners_distinct. Qed.
Print Assumptions C55_corners_distinct.

(** C57.  infos [] cs: for each write_info_files of cs, the calls before it.  One record for
    each, after one header for the ids known at the first; every value printed was set. *)
Theorem C57_logs : forall (T : Type) (OT : Ops T) (o0 : obj T) cs o fs0 fs rs,
  is_object o0 -> run cs (o0, construct_files o0 fs0) = Ok (o, fs, rs) ->
  exists os, Forall2 (fun a oa => (exists fa, reaches o0 a oa fa) /\ map g_id (o_gps oa) = first_use (set_ids a) /\ forall g, In g (o_gps oa) -> printable (o_env o0) g) (infos [] cs) os /\
    f_conv fs = head_of (fun a => conv_header (first_use (set_ids a))) (infos [] cs) ++ flat_map (line (conv_group (o_env o0))) os /\
    f_esc fs = head_of (fun a => esc_header (first_use (set_ids a))) (infos [] cs) ++ flat_map (line esc_group) os /\
    f_vars fs = flat_map (line (vars_group (o_env o0))) os.
Proof. exact @logs. Qed.
Print Assumptions C57_logs.
(** It succeeds in 3D once every point has been homogenised ... *)
Theorem C57_works_3d : forall (T : Type) (OT : Ops T) (o0 : obj T) cs o fs,
  is_object o0 -> reaches o0 cs o fs -> v_dim (o_env o0) = 3 -> (forall id, In id (set_ids cs) -> homogenised id cs) ->
  exists o' fs', step WriteInfo (o, fs) = Ok (o', fs', RUnit).
Proof. exact @info_3d. Qed.
Print Assumptions C57_works_3d.
(** ... and in 2D it always reads uninitialised memory, if any Gauss point is known. *)
Theorem C57_2d_refuted : forall (T : Type) (OT : Ops T) (o0 : obj T) cs o fs id,
  is_object o0 -> reaches o0 cs o fs -> v_dim (o_env o0) = 2 -> In id (set_ids cs) -> step WriteInfo (o, fs) = Err Uninit.
Proof. exact @info_2d. Qed.
Print Assumptions C57_2d_refuted.

(** C61.  second_invariant a = (tr(a)^2 - tr(a a)) / 2 of the matrix sym3 t.  The shear terms
    have the wrong sign. *)
Theorem C61_second_invariant_refuted : exists (V : env R) t x, v_dim V = 3 /\ get_inv_2 V t = Some x /\ x <> second_invariant (sym3 t).
Proof. exact inv2_wrong. Qed.
Print Assumptions C61_second_invariant_refuted.
Theorem C61_exact_when_diagonal_partial : forall (V : env R) t, v_dim V = 3 ->
  (get_inv_2 V t = Some (second_invariant (sym3 t)) <-> lget t 3 = 0%R /\ lget t 4 = 0%R /\ lget t 5 = 0%R).
Proof. exact inv2_exact. Qed.
Print Assumptions C61_exact_when_diagonal_partial.
Theorem C61_first_invariant : forall (V : env R) t, v_dim V = 3 -> get_inv_1 V t = Ok (trace3 (sym3 t)).
Proof. exact inv1_trace. Qed.
Print Assumptions C61_first_invariant.

(** C62.  Three Gauss points of one object on the linear path, with strains e3 = a e1 + b e2:
    the stresses the calls return satisfy s3 = a s1 + b s2. *)
Theorem C62_superposition : forall (o0 o1 o2 o3 : obj R) cs1 cs2 cs3 fs1 fs2 fs3 i1 i2 i3 g1 g2 g3 e1 e2 e3 a b, is_object o0 ->
  reaches o0 cs1 o1 fs1 -> reaches o0 cs2 o2 fs2 -> reaches o0 cs3 o3 fs3 ->
  last_set i1 e1 cs1 -> last_set i2 e2 cs2 -> last_set i3 e3 cs3 ->
  lookup i1 (o_gps o1) = Some g1 -> lookup i2 (o_gps o2) = Some g2 -> lookup i3 (o_gps o3) = Some g3 ->
  (forall i, 0 <= i < nvoi (o_env o0) -> lget e3 i = (a * lget e1 i + b * lget e2 i)%R) ->
  forall f1 q1 o1' fs1' r1 f2 q2 o2' fs2' r2 f3 q3 o3' fs3' r3,
  step (Homogenize f1 q1) (o1, fs1) = Ok (o1', fs1', r1) -> step (Homogenize f2 q2) (o2, fs2) = Ok (o2', fs2', r2) -> step (Homogenize f3 q3) (o3, fs3) = Ok (o3', fs3', r3) ->
  g_n g1 = None -> g_n g2 = None -> g_n g3 = None -> below o1 g1 -> below o2 g2 -> below o3 g3 ->
  exists s1 s2 s3, step (GetStress i1) (o1', fs1') = Ok (o1', fs1', RBuf (Some s1)) /\ step (GetStress i2) (o2', fs2') = Ok (o2', fs2', RBuf (Some s2)) /\
    step (GetStress i3) (o3', fs3') = Ok (o3', fs3', RBuf (Some s3)) /\
    Z.of_nat (List.length s1) = nvoi (o_env o0) /\ Z.of_nat (List.length s2) = nvoi (o_env o0) /\ Z.of_nat (List.length s3) = nvoi (o_env o0) /\
    forall i, 0 <= i < nvoi (o_env o0) -> lget s3 i = (a * lget s1 i + b * lget s2 i)%R.
Proof. exact superposition. Qed.
Print Assumptions C62_superposition.
(** The linear path is closed under combinations with |a| + |b| <= 1. *)
Theorem C62_convex : forall (o0 o1 o2 o3 : obj R) cs1 cs2 cs3 fs1 fs2 fs3 i1 i2 i3 g1 g2 g3 e1 e2 e3 a b, is_object o0 ->
  reaches o0 cs1 o1 fs1 -> reaches o0 cs2 o2 fs2 -> reaches o0 cs3 o3 fs3 ->
  last_set i1 e1 cs1 -> last_set i2 e2 cs2 -> last_set i3 e3 cs3 ->
  lookup i1 (o_gps o1) = Some g1 -> lookup i2 (o_gps o2) = Some g2 -> lookup i3 (o_gps o3) = Some g3 ->
  (forall i, 0 <= i < nvoi (o_env o0) -> lget e3 i = (a * lget e1 i + b * lget e2 i)%R) ->
  (Rabs a + Rabs b <= 1)%R -> below o1 g1 -> below o2 g2 -> below o3 g3.
Proof. exact superpose_below. Qed.
Print Assumptions C62_convex.

(** C65.  A commit can publish whatever malloc returned: for every x there is a content of
    fresh memory, otherwise zero, with which x is committed. *)
Theorem C65_garbage_committed_refuted : exists dim nx ny nz mtype mp mt ps fuel orc cs id ix, valid_args dim nx ny nz mtype mp mt ps /\ (forall z, orc z = counting) /\
  forall x : R, exists j o0 o fs g n, total_junk j /\ (forall i, j_u j i = Some 0%R) /\ (forall i, j_vold j i = Some 0%R) /\ j_tol j = Some 0%R /\
    construct fuel orc j dim [nx; ny; nz] mtype mp mt ps = Ok o0 /\ reaches o0 cs o fs /\ lookup id (o_gps o) = Some g /\ g_n g = Some n /\
    0 <= ix < nvars (o_env o) /\ aget n ix = Some x.
Proof. exact garbage_commit. Qed.
Print Assumptions C65_garbage_committed_refuted.
(** For the cells of a material without plasticity this is so for every object and history. *)
Theorem C65_never_written : forall (T : Type) (OT : Ops T) fuel orc j dim nx ny nz mtype mp mt ps (o0 : obj T),
  valid_args dim nx ny nz mtype mp mt ps -> total_junk j -> construct fuel orc j dim [nx; ny; nz] mtype mp mt ps = Ok o0 ->
  forall cs fs0 o fs rs, run cs (o0, fs0) = Ok (o, fs, rs) ->
  forall c g i, 0 <= c < ncells (o_env o0) -> plastic_at (o_env o0) c = false -> 0 <= g < 8 -> 0 <= i < 7 ->
  aget (w_vnew (o_work o)) (intvar_ix c g i) = j_vnew j (intvar_ix c g i) /\
  (forall p, In p (o_gps o) -> (g_n p = None /\ g_k p = None) \/
    exists n k, g_n p = Some n /\ g_k p = Some k /\ aget k (intvar_ix c g i) = j_vnew j (intvar_ix c g i) /\
      (aget n (intvar_ix c g i) = Some (dec 0 1) \/ aget n (intvar_ix c g i) = j_vnew j (intvar_ix c g i))) /\
  (forall o' fs' r, step UpdateVars (o, fs) = Ok (o', fs', r) -> forall p n, In p (o_gps o') -> g_n p = Some n ->
    aget n (intvar_ix c g i) = j_vnew j (intvar_ix c g i)).
Proof. exact @never_written. Qed.
Print Assumptions C65_never_written.

(** C67.  calc_fields stores the means over the Gauss points of each cell. *)
Theorem C67_cell_means_3d : forall V u vold vnew es et, body3 V -> full u (ndofs V) -> vars_ok V vold vnew -> alen es = ncells V * 6 -> alen et = ncells V * 6 ->
  exists es' et' vn eps sig, calc_fields V u vold vnew es et = Ok (es', et', vn) /\ strain_field3 V u eps /\ stress_field3 V u vold vnew sig /\
    alen es' = ncells V * 6 /\ alen et' = ncells V * 6 /\
    forall ex ey ez v, is_cell3 V ex ey ez -> 0 <= v < 6 ->
       aget es' (cell3 V ex ey ez * 6 + v) = Some (rsum (zrange 0 8) (fun g => eps ex ey ez g v) / 8)%R /\
       aget et' (cell3 V ex ey ez * 6 + v) = Some (rsum (zrange 0 8) (fun g => sig ex ey ez g v) / 8)%R.
Proof. exact cell_means3. Qed.
Print Assumptions C67_cell_means_3d.
Theorem C67_cell_means_2d : forall V u vold vnew es et, body2 V -> full u (ndofs V) -> alen es = ncells V * 3 -> alen et = ncells V * 3 ->
  exists es' et' eps sig, calc_fields V u vold vnew es et = Ok (es', et', vnew) /\ strain_field2 V u eps /\ stress_field2 V u sig /\
    alen es' = ncells V * 3 /\ alen et' = ncells V * 3 /\
    forall ex ey v, is_cell2 V ex ey -> 0 <= v < 3 ->
       aget es' ((ey * (v_nx V - 1) + ex) * 3 + v) = Some (rsum (zrange 0 4) (fun g => eps ex ey g v) / 4)%R /\
       aget et' ((ey * (v_nx V - 1) + ex) * 3 + v) = Some (rsum (zrange 0 4) (fun g => sig ex ey g v) / 4)%R.
Proof. exact cell_means2. Qed.
Print Assumptions C67_cell_means_2d.
(** The file of an output call shows them for the state the call solved. *)
Theorem C67_output_means_3d : forall fuel0 orc j nx ny nz mtype mp mt ps (o0 : obj R), total_junk j -> valid_args 3 nx ny nz mtype mp mt ps -> body_args 3 mp ps ->
  construct fuel0 orc j 3 [nx; ny; nz] mtype mp mt ps = Ok o0 ->
  forall cs o fs fuel pk t id g o' fs' r, reaches o0 cs o fs -> lookup id (o_gps o) = Some g -> step (Output fuel pk t id) (o, fs) = Ok (o', fs', r) ->
  exists f eps sig, f_vtu fs' = (id, t, f) :: f_vtu fs /\ strain_field3 (o_env o0) (w_u (o_work o')) eps /\
  stress_field3 (o_env o0) (w_u (o_work o')) (w_vold (o_work o')) (w_vnew (o_work o')) sig /\
  has f "strain" (6 * ((nx - 1) * (ny - 1) * (nz - 1))) (fun w => forall ex ey ez v, is_cell3 (o_env o0) ex ey ez -> 0 <= v < 6 ->
     w (6 * (ex + (nx - 1) * (ey + (ny - 1) * ez)) + v) = TD (rsum (zrange 0 8) (fun g => eps ex ey ez g v) / 8)%R) /\
  has f "stress" (6 * ((nx - 1) * (ny - 1) * (nz - 1))) (fun w => forall ex ey ez v, is_cell3 (o_env o0) ex ey ez -> 0 <= v < 6 ->
     w (6 * (ex + (nx - 1) * (ey + (ny - 1) * ez)) + v) = TD (rsum (zrange 0 8) (fun g => sig ex ey ez g v) / 8)%R).
Proof. exact out_fields3. Qed.
Print Assumptions C67_output_means_3d.
Theorem C67_output_means_2d : forall fuel0 orc j nx ny nz mtype mp mt ps (o0 : obj R), total_junk j -> valid_args 2 nx ny nz mtype mp mt ps -> body_args 2 mp ps ->
  construct fuel0 orc j 2 [nx; ny; nz] mtype mp mt ps = Ok o0 ->
  forall cs o fs fuel pk t id g o' fs' r, reaches o0 cs o fs -> lookup id (o_gps o) = Some g -> step (Output fuel pk t id) (o, fs) = Ok (o', fs', r) ->
  exists f eps sig, f_vtu fs' = (id, t, f) :: f_vtu fs /\ strain_field2 (o_env o0) (w_u (o_work o')) eps /\ stress_field2 (o_env o0) (w_u (o_work o')) sig /\
  has f "strain" (3 * ((nx - 1) * (ny - 1))) (fun w => forall ex ey v, is_cell2 (o_env o0) ex ey -> 0 <= v < 3 ->
     w (3 * (ex + (nx - 1) * ey) + v) = TD (rsum (zrange 0 4) (fun g => eps ex ey g v) / 4)%R) /\
  has f "stress" (3 * ((nx - 1) * (ny - 1))) (fun w => forall ex ey v, is_cell2 (o_env o0) ex ey -> 0 <= v < 3 ->
     w (3 * (ex + (nx - 1) * ey) + v) = TD (rsum (zrange 0 4) (fun g => sig ex ey g v) / 4)%R).
Proof. exact out_fields2. Qed.
Print Assumptions C67_output_means_2d.
