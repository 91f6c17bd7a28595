(** C88: the second phase has E = 0 (as in test/test3d_8.cpp) and a node inside has only cells of it
    around it ([surrounded], VoidProps.v).  All in IEEE 754 doubles, for any number of nodes and
    whatever the stray reads of the Newton loop give.  [inner_dof] are the displacements of the nodes
    inside, [j_u j] is what the fresh memory held, [first_residual j o0 er] says that er is the
    residual of the first pass of the constructor's first Newton loop. *)
From Coq Require Import Floats.SpecFloat.
From Verif Require Import Base Scalar EllSpec EllModel Grid AssemblyModel MicroModel OutputModel NewtonBase ApiBase ApiRun ApiHist Build ApiSpec ApiCases FloatInst NanRun NanProps NanEx
  DriverModel DriverProps VoidProps.
Open Scope Z_scope.

Example C88_example_rows : forall ey, 1 - 1 <= ey <= 1 -> in_layer 17 ey.
Proof. exact layer_17. Qed.
Example C88_example_ends : exists fs out, test3d_8 fuel40 (fun _ => counting) (fun _ _ _ => counting) zero_v [4; 17; 3; 20] no_files = Ok (0, fs, out).
Proof. exact ends_8_17. Qed.

(** C88.  No load ever moves the nodes inside: after any calls their displacements are what the fresh
    memory held, or all NaN. *)
Theorem C88_inside_refuted : forall fuel orc (j : junk double) dim nx ny nz mtype mp mt ps o0, valid_args dim nx ny nz mtype mp mt ps -> total_junk j ->
  construct fuel orc j dim [nx; ny; nz] mtype mp mt ps = Ok o0 ->
  surrounded (o_env o0) -> (exists s, lget ps 10 = S754_zero s) -> (dim = 3 -> nth 1 mt 0 <> 1) ->
  forall cs o fs, reaches o0 cs o fs ->
  (forall a, inner_dof dim nx ny nz a -> aget (w_u (o_work o)) a = j_u j a) \/
  (forall a, inner_dof dim nx ny nz a -> aget (w_u (o_work o)) a = Some NaN).
Proof. exact void_inside. Qed.
Print Assumptions C88_inside_refuted.
(** What homogenize computes, without the linear shortcut, is NaN or belongs to a residual that was
    below the tolerance before anything was solved. *)
Theorem C88_answers_refuted : forall fuel orc (j : junk double) dim nx ny nz mtype mp mt ps o0, valid_args dim nx ny nz mtype mp mt ps -> total_junk j ->
  construct fuel orc j dim [nx; ny; nz] mtype mp mt ps = Ok o0 ->
  surrounded (o_env o0) -> (exists s, lget ps 10 = S754_zero s) -> (dim = 3 -> nth 1 mt 0 <> 1) ->
  forall cs o fs f q o' fs' r id g g', reaches o0 cs o fs -> step (Homogenize f q) (o, fs) = Ok (o', fs', r) ->
  lookup id (o_gps o) = Some g -> lookup id (o_gps o') = Some g' -> ~ (below o g /\ g_n g = None) ->
  (step (GetStress id) (o', fs') = Ok (o', fs', RBuf (Some (repeat NaN (Z.to_nat (nvoi (o_env o')))))) /\
   step (GetCtan id) (o', fs') = Ok (o', fs', RBuf (Some (repeat NaN (Z.to_nat (nvoi (o_env o') * nvoi (o_env o'))))))) \/
  exists er, aget (g_err g') 0 = Some er /\ oltb er (dec 1 5) = true.
Proof. exact void_answers. Qed.
Print Assumptions C88_answers_refuted.
(** If the first residual is not below the tolerance, every entry of the linear tangent is NaN and
    so is every answer, for the life of the object. *)
Theorem C88_nan_refuted : forall fuel orc (j : junk double) dim nx ny nz mtype mp mt ps o0, valid_args dim nx ny nz mtype mp mt ps -> total_junk j ->
  construct fuel orc j dim [nx; ny; nz] mtype mp mt ps = Ok o0 ->
  surrounded (o_env o0) -> (exists s, lget ps 10 = S754_zero s) -> (dim = 3 -> nth 1 mt 0 <> 1) ->
  forall er, first_residual j o0 er -> oltb er (dec 1 5) = false ->
  (forall i, 0 <= i < nvoi (o_env o0) * nvoi (o_env o0) -> aget (o_ctan o0) i = Some NaN) /\
  forall cs f q o fs id, reaches o0 (cs ++ [Homogenize f q]) o fs -> In id (set_ids cs) ->
  step (GetStress id) (o, fs) = Ok (o, fs, RBuf (Some (repeat NaN (Z.to_nat (nvoi (o_env o)))))) /\
  step (GetCtan id) (o, fs) = Ok (o, fs, RBuf (Some (repeat NaN (Z.to_nat (nvoi (o_env o) * nvoi (o_env o)))))).
Proof. exact void_nan. Qed.
Print Assumptions C88_nan_refuted.
(** Such an object exists: 3 x 5 nodes, E = 1e6 in the upper half and 0 in the lower half, zeros in
    the fresh memory. *)
Theorem C88_case_refuted : exists o0 : obj double, total_junk zero_v /\ valid_args 2 3 5 1 1 mp_v [0; 0] ps_v /\
  construct fuel40 (fun _ => counting) zero_v 2 [3; 5; 1] 1 mp_v [0; 0] ps_v = Ok o0 /\
  surrounded (o_env o0) /\ (exists s, lget ps_v 10 = S754_zero s) /\ (exists er, first_residual zero_v o0 er /\ oltb er (dec 1 5) = false) /\
  (exists o fs, reaches o0 ([SetStrain 2 no_strain] ++ [hom_f]) o fs) /\
  (forall i, 0 <= i < nvoi (o_env o0) * nvoi (o_env o0) -> aget (o_ctan o0) i = Some NaN) /\
  forall cs f q o fs id, reaches o0 (cs ++ [Homogenize f q]) o fs -> In id (set_ids cs) ->
  step (GetStress id) (o, fs) = Ok (o, fs, RBuf (Some (repeat NaN (Z.to_nat (nvoi (o_env o)))))) /\
  step (GetCtan id) (o, fs) = Ok (o, fs, RBuf (Some (repeat NaN (Z.to_nat (nvoi (o_env o) * nvoi (o_env o)))))).
Proof. exact void_case. Qed.
Print Assumptions C88_case_refuted.
(** test3d_8, once two rows of cells next to each other are in its layer: the nodes inside never
    move, and if the first residual is not below the tolerance all it prints as stress is NaN. *)
Theorem C88_test3d_8_refuted : forall fuel q0 orc (jk : junk double) nx ny nz j r fs0 code fs out, 3 <= nx -> 3 <= nz -> 0 < j < ny - 1 -> total_junk jk ->
  (forall ey, j - 1 <= ey <= j -> let dy : double := odiv (ofZ 1) (ofZ (ny - 1)) in oltb (oadd (omul (ofZ ey) dy) (odiv dy (ofZ 2))) (dec 1 1) = true) ->
  test3d_8 fuel q0 orc jk (nx :: ny :: nz :: r) fs0 = Ok (code, fs, out) ->
  exists o0 o, construct fuel q0 jk 3 [nx; ny; nz] 1 cell_params_8 [1; 0] mats_3d_8 = Ok o0 /\ reaches o0 (flat_map (turn8 fuel orc) (zrange 0 (steps_of r))) o fs /\
    ((forall a, inner_dof 3 nx ny nz a -> aget (w_u (o_work o)) a = j_u jk a) \/ (forall a, inner_dof 3 nx ny nz a -> aget (w_u (o_work o)) a = Some NaN)) /\
    forall er, first_residual jk o0 er -> oltb er (dec 1 5) = false ->
      out = flat_map (fun t => text8 t (strain 2 (S (Z.to_nat t))) (repeat NaN 6) (repeat NaN 6)) (zrange 0 (steps_of r)).
Proof. exact void_3d_8. Qed.
Print Assumptions C88_test3d_8_refuted.
