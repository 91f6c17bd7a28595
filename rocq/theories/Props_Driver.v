(** C83-C87: the test programs of test/ and ell_print.  The values of atoi, the contents of the
    memory the programs leave unset and what the stray reads of the Newton loop give are
    arbitrary.  [turn] and [turn8] list the calls of one time step, [strain d k] is the strain after k
    steps, [text], [text8] and [record] what a step prints and logs (all in DriverProps.v). *)
From Coq Require Import String Reals FSets.FMapPositive.
From Verif Require Import Base Scalar EllSpec EllModel Grid AssemblyModel MicroModel OutputModel NewtonBase ApiBase ApiRun ApiHist Build ApiSpec ApiCases LogProps DriverModel DriverProps DriverMore.
Open Scope string_scope.
Open Scope list_scope.
Open Scope Z_scope.

(** With the loop counter the programmer meant both programs end, e.g. on 3 x 4 x 5 nodes: *)
Example C83_example : total_junk zero_mem /\
  (exists fs out, test3d_1 fuel40 (fun _ => counting) (fun _ _ _ => counting) (fun _ => counting) zero_mem IZR [3; 4; 5; 1; 7] old_files = Ok (0, fs, out)) /\
  exists fs out, test3d_7 fuel40 (fun _ => counting) (fun _ _ _ => counting) (fun _ => counting) zero_mem IZR [3; 4; 5; 7] old_files = Ok (0, fs, out).
Proof. exact ex_3d. Qed.

(** C83.  test3d_1 and test3d_7 on at least two nodes in each direction only fail in a Newton loop.
    They make the listed calls, print and log the stress get_macro_stress gave them, log the strain
    they set and write one VTU file per step.  The material file of test3d_1 has two numbers it never set. *)
Theorem C83_test3d_1 : forall (T : Type) (OT : Ops T) fuel q0 orc pk (j : junk T) rest nx ny nz dir r fs0,
  2 <= nx -> 2 <= ny -> 2 <= nz -> 0 <= dir < 6 -> total_junk j ->
  match test3d_1 fuel q0 orc pk j rest (nx :: ny :: nz :: dir :: r) fs0 with
  | Err e => (exists i, nbad fuel (q0 i) e) \/ exists t, 0 <= t < hd 10 r /\ ((exists k i, nbad fuel (orc t k i) e) \/ nbad fuel (pk t) e)
  | Ok (code, fs, out) => code = 0 /\
      exists o0 o (sig : Z -> list T) (c : Z -> Z -> T),
        construct fuel q0 j 3 [nx; ny; nz] 1 [ofZ 1; ofZ 1; ofZ 1; odiv (ofZ 1) (ofZ 10); ofZ 0] [1; 0] (auto 20 mats_3d_1 rest) = Ok o0 /\
        run (flat_map (turn fuel orc pk dir) (zrange 0 (hd 10 r))) (o0, construct_files o0 fs0) =
          Ok (o, fs, flat_map (fun t => [RUnit; RUnit; RBuf (Some (sig t)); RUnit; RUnit; RUnit]) (zrange 0 (hd 10 r))) /\
        out = flat_map (fun t => text t (level (S (Z.to_nat t))) (lget (sig t))) (zrange 0 (hd 10 r)) /\
        f_esc fs = (if 0 <? hd 10 r then esc_header [1] else []) ++ flat_map (fun t => record (strain dir (S (Z.to_nat t))) (lget (sig t)) (c t)) (zrange 0 (hd 10 r)) /\
        f_mats fs = [TD (ofZ 1000000); TS " "; TD (odiv (ofZ 25) (ofZ 100)); TS " "; TD (ofZ 100); TS " "; TD (ofZ 200000); NL;
                     TD (ofZ 1000000); TS " "; TD (odiv (ofZ 25) (ofZ 100)); TS " "; TD (rest 12); TS " "; TD (rest 13); NL] /\
        map fst (f_vtu fs) = rev (map (fun t => (1, t)) (zrange 0 (hd 10 r))) ++ map fst (f_vtu fs0)
  end.
Proof. exact @run_3d_1. Qed.
Print Assumptions C83_test3d_1.
Theorem C83_test3d_7 : forall (T : Type) (OT : Ops T) fuel q0 orc pk (j : junk T) rest nx ny nz r fs0,
  2 <= nx -> 2 <= ny -> 2 <= nz -> total_junk j ->
  match test3d_7 fuel q0 orc pk j rest (nx :: ny :: nz :: r) fs0 with
  | Err e => (exists i, nbad fuel (q0 i) e) \/ exists t, 0 <= t < hd 10 r /\ ((exists k i, nbad fuel (orc t k i) e) \/ nbad fuel (pk t) e)
  | Ok (code, fs, out) => code = 0 /\
      exists o0 o (sig : Z -> list T) (c : Z -> Z -> T),
        construct fuel q0 j 3 [nx; ny; nz] 1 [ofZ 1; ofZ 1; ofZ 1; odiv (ofZ 1) (ofZ 10); ofZ 0] [1; 0] (auto 20 mats_3d_7 rest) = Ok o0 /\
        run (flat_map (turn fuel orc pk 2) (zrange 0 (hd 10 r))) (o0, construct_files o0 fs0) =
          Ok (o, fs, flat_map (fun t => [RUnit; RUnit; RBuf (Some (sig t)); RUnit; RUnit; RUnit]) (zrange 0 (hd 10 r))) /\
        out = flat_map (fun t => text t (level (S (Z.to_nat t))) (lget (sig t))) (zrange 0 (hd 10 r)) /\
        f_esc fs = (if 0 <? hd 10 r then esc_header [1] else []) ++ flat_map (fun t => record (strain 2 (S (Z.to_nat t))) (lget (sig t)) (c t)) (zrange 0 (hd 10 r)) /\
        f_mats fs = [TD (ofZ 1000000); TS " "; TD (odiv (ofZ 3) (ofZ 10)); TS " "; TD (ofZ 50000); TS " "; TD (ofZ 50000); NL;
                     TD (ofZ 1000000); TS " "; TD (odiv (ofZ 3) (ofZ 10)); TS " "; TD (ofZ 10000); TS " "; TD (ofZ 0); NL] /\
        map fst (f_vtu fs) = rev (map (fun t => (1, t)) (zrange 0 (hd 10 r))) ++ map fst (f_vtu fs0)
  end.
Proof. exact @run_3d_7. Qed.
Print Assumptions C83_test3d_7.
(** With the counter that was meant they end with 0. *)
Theorem C83_ends : forall (T : Type) (OT : Ops T) fuel (j : junk T) rest nx ny nz dir r fs0, (40 <= fuel)%nat -> 2 <= nx -> 2 <= ny -> 2 <= nz -> 0 <= dir < 6 -> total_junk j ->
  (exists fs out, test3d_1 fuel (fun _ => counting) (fun _ _ _ => counting) (fun _ => counting) j rest (nx :: ny :: nz :: dir :: r) fs0 = Ok (0, fs, out)) /\
  exists fs out, test3d_7 fuel (fun _ => counting) (fun _ _ _ => counting) (fun _ => counting) j rest (nx :: ny :: nz :: r) fs0 = Ok (0, fs, out).
Proof. exact @ends_3d. Qed.
Print Assumptions C83_ends.
(** The strain after k steps, in exact arithmetic. *)
Theorem C83_strain : forall k : nat, (level k : R) = (IZR (let n := Z.of_nat k in
  if n <=? 30 then n else if n <=? 80 then 60 - n else if n <=? 130 then n - 100 else if n <=? 250 then 160 - n else n - 340) / 100)%R.
Proof. exact level_value. Qed.
Print Assumptions C83_strain.
(** The direction is not checked: outside 0..5 test3d_1 never ends well, and with the counter that
    was meant it indexes eps out of bounds. *)
Theorem C83_direction_refuted : forall (T : Type) (OT : Ops T) fuel q0 orc pk (j : junk T) rest nx ny nz dir r fs0, ~ (0 <= dir < 6) -> 0 < hd 10 r ->
  forall code fs out, test3d_1 fuel q0 orc pk j rest (nx :: ny :: nz :: dir :: r) fs0 <> Ok (code, fs, out).
Proof. exact @bad_dir. Qed.
Print Assumptions C83_direction_refuted.
Theorem C83_direction_oob_refuted : forall (T : Type) (OT : Ops T) fuel (j : junk T) rest nx ny nz dir r fs0, (40 <= fuel)%nat -> 2 <= nx -> 2 <= ny -> 2 <= nz -> total_junk j ->
  ~ (0 <= dir < 6) -> 0 < hd 10 r ->
  test3d_1 fuel (fun _ => counting) (fun _ _ _ => counting) (fun _ => counting) j rest (nx :: ny :: nz :: dir :: r) fs0 = Err OOB.
Proof. exact @bad_dir_oob. Qed.
Print Assumptions C83_direction_oob_refuted.

(** C84.  test2d_1 never ends well once it takes a step: write_info_files reads entries of the 2D
    tangent that nobody set. *)
Theorem C84_test2d_1_refuted : forall (T : Type) (OT : Ops T) fuel q0 orc pk (j : junk T) z rest nx ny r fs0, 1 < nx -> 1 < ny -> 0 < hd 10 r -> total_junk j ->
  exists e, test2d_1 fuel q0 orc pk j z rest (nx :: ny :: r) fs0 = Err e /\ (e = Uninit \/ (exists i, nbad fuel (q0 i) e) \/ exists k i, nbad fuel (orc 0 k i) e).
Proof. exact @run_2d. Qed.
Print Assumptions C84_test2d_1_refuted.
Theorem C84_test2d_1_uninit_refuted : forall (T : Type) (OT : Ops T) fuel (j : junk T) z rest nx ny r fs0, (40 <= fuel)%nat -> 1 < nx -> 1 < ny -> 0 < hd 10 r -> total_junk j ->
  test2d_1 fuel (fun _ => counting) (fun _ _ _ => counting) (fun _ => counting) j z rest (nx :: ny :: r) fs0 = Err Uninit.
Proof. exact @run_2d_counting. Qed.
Print Assumptions C84_test2d_1_uninit_refuted.

(** C85.  The Fortran program hands the constructor four micro_params, which reads five. *)
Theorem C85_test3d_3_refuted : forall (T : Type) (OT : Ops T) fuel q0 orc (j : junk T) rest fs, total_junk j ->
  wrun (test3d_3_calls fuel q0 orc j rest) (None, fs) = Err OOB.
Proof. exact @run_f90. Qed.
Print Assumptions C85_test3d_3_refuted.

(** test3d_8 ends, and on 3 x 8 x 3 nodes the lowest row of elements is in the layer: *)
Example C86_example : (exists fs out, test3d_8 fuel40 (fun _ => counting) (fun _ _ _ => counting) zero_mem [3; 8; 3; 7] old_files = Ok (0, fs, out)) /\
  (exists o0, construct fuel40 (fun _ => counting) zero_mem 3 [3; 8; 3] 1 cell_params_8 [1; 0] mats_3d_8 = Ok o0) /\ ((0 + 1 / 2) / IZR (8 - 1) < 1 / 10)%R.
Proof. exact ex_8. Qed.

(** C86.  test3d_8 only fails in a Newton loop, makes the listed calls and prints the strain it set and the
    two stresses it got.  Its source gives the
    second material 1e6, 0.3, 1e4 and 0, but packs four numbers per material where the constructor takes
    ten: the material file says 0 0 0 0. *)
Theorem C86_test3d_8_refuted : forall (T : Type) (OT : Ops T) fuel q0 orc (j : junk T) nx ny nz r fs0, 1 < nx -> 1 < ny -> 1 < nz -> total_junk j ->
  match test3d_8 fuel q0 orc j (nx :: ny :: nz :: r) fs0 with
  | Err e => (exists i, nbad fuel (q0 i) e) \/ exists t k i, 0 <= t < hd 10 r /\ nbad fuel (orc t k i) e
  | Ok (code, fs, out) => code = 0 /\ f_vtu fs = f_vtu fs0 /\
      (exists o0 o (s0 s1 : Z -> list T), construct fuel q0 j 3 [nx; ny; nz] 1 [ofZ 1; ofZ 1; ofZ 1; odiv (ofZ 1) (ofZ 10); odiv (ofZ 1) (ofZ 100000)] [1; 0] mats_3d_8 = Ok o0 /\
        run (flat_map (turn8 fuel orc) (zrange 0 (hd 10 r))) (o0, construct_files o0 fs0) =
          Ok (o, fs, flat_map (fun t => [RUnit; RUnit; RUnit; RBuf (Some (s0 t)); RBuf (Some (s1 t)); RUnit; RUnit]) (zrange 0 (hd 10 r))) /\
        out = flat_map (fun t => text8 t (strain 2 (S (Z.to_nat t))) (s0 t) (s1 t)) (zrange 0 (hd 10 r))) /\
      f_mats fs = [TD (ofZ 1000000); TS " "; TD (odiv (ofZ 3) (ofZ 10)); TS " "; TD (ofZ 50000); TS " "; TD (ofZ 50000); NL;
                   TD (ofZ 0); TS " "; TD (ofZ 0); TS " "; TD (ofZ 0); TS " "; TD (ofZ 0); NL]
  end.
Proof. exact @run_3d_8. Qed.
Print Assumptions C86_test3d_8_refuted.
(** So the stress in the layer is zero whatever the strain, in exact arithmetic. *)
Theorem C86_layer_void_refuted : forall fuel q0 (j : junk R) nx ny nz o0 cs o fs ex ey ez gp eps vold vnew, 2 <= nx -> 2 <= ny -> 2 <= nz -> total_junk j ->
  construct fuel q0 j 3 [nx; ny; nz] 1 cell_params_8 [1; 0] mats_3d_8 = Ok o0 -> reaches o0 cs o fs ->
  0 <= ex < nx - 1 -> 0 <= ey < ny - 1 -> 0 <= ez < nz - 1 -> ((IZR ey + 1 / 2) / IZR (ny - 1) < 1 / 10)%R ->
  get_stress3D (o_env o) vold vnew ex ey ez gp eps = Ok (false, [0%R; 0%R; 0%R; 0%R; 0%R; 0%R], vnew).
Proof. exact layer_void. Qed.
Print Assumptions C86_layer_void_refuted.

Example C87_example : ell_print (Some (2, 1, Some (two Z 7 8), Some (two R 5%R 6%R))) =
  Ok (0, [TS "Cols = "; NL; TS "row= "; TI 0; TI 7; TS " "; NL; TS "row= "; TI 1; TI 8; TS " "; NL;
          TS "Vals = "; NL; TS "row= "; TI 0; TD 5%R; TS " "; NL; TS "row= "; TI 1; TD 6%R; TS " "; NL]).
Proof. exact ex_print. Qed.

(** C87.  ell_print prints the columns and then the values, row by row, *)
Theorem C87_print : forall (T : Type) nrow nnz (cols : arr Z) (vals : arr T) c v,
  (forall i j, 0 <= i < nrow -> 0 <= j < nnz -> aget cols (i * nnz + j) = Some (c i j) /\ aget vals (i * nnz + j) = Some (v i j)) ->
  ell_print (Some (nrow, nnz, Some cols, Some vals)) =
    Ok (0, [TS "Cols = "; NL] ++
           flat_map (fun i => [TS "row= "; TI i] ++ flat_map (fun j => [TI (c i j); TS " "]) (zrange 0 nnz) ++ [NL]) (zrange 0 nrow) ++
           [TS "Vals = "; NL] ++
           flat_map (fun i => [TS "row= "; TI i] ++ flat_map (fun j => [TD (v i j); TS " "]) (zrange 0 nnz) ++ [NL]) (zrange 0 nrow)).
Proof. exact @print_ok. Qed.
Print Assumptions C87_print.
(** prints nothing and returns 1 or 2 without a matrix or without its arrays, *)
Theorem C87_print_null : forall (T : Type) nrow nnz (cols : option (arr Z)) (vals : option (arr T)), cols = None \/ vals = None ->
  ell_print (None : option (Z * Z * option (arr Z) * option (arr T))) = Ok (1, []) /\
  ell_print (Some (nrow, nnz, cols, vals)) = Ok (2, []).
Proof. exact @print_null. Qed.
Print Assumptions C87_print_null.
(** but on a matrix as ell_init_3D leaves it, it reads values nobody set. *)
Theorem C87_print_fresh_refuted : forall (T : Type) nF nx ny nz (A : ell T), 2 <= nx -> 2 <= ny -> 2 <= nz -> 1 <= nF -> ell_init_3D nF nx ny nz = Ok A ->
  ell_print (Some (e_nrow A, e_nnz A, Some (e_cols A), Some (e_vals A))) = Err Uninit.
Proof. exact @print_fresh_3. Qed.
Print Assumptions C87_print_fresh_refuted.
