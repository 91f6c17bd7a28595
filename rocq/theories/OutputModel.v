(** Model of src/output.cpp and src/wrapper.cpp: the VTU and log files, and the calls
    of a host program. *)
From Coq Require Import String.
From Verif Require Import Base Scalar EllSpec Grid EllModel AssemblyModel MicroModel.
Open Scope string_scope.
Open Scope list_scope.

(** what is sent to a stream (src/output.cpp:60-219, 231-283, src/micro.cpp:113-114): strings, ints, doubles, endl.  The formatting of numbers
    (scientific, setw) is not modelled. *)
Inductive tok (T : Type) := TS (s : string) | TI (z : Z) | TD (x : T) | NL.
Arguments TS {T}. Arguments TI {T}. Arguments TD {T}. Arguments NL {T}.

(** contents of the files written (names at src/output.cpp:55, 230, 238, 274 and
    src/micro.cpp:87); VTU files by Gauss point and time step, the last
    written first *)
Record files (T : Type) := mkFiles {
  f_mats : list (tok T); f_conv : list (tok T); f_esc : list (tok T); f_vars : list (tok T);
  f_vtu : list (Z * Z * list (tok T)) }.
Arguments mkFiles {T}.
Arguments f_mats {T}. Arguments f_conv {T}. Arguments f_esc {T}. Arguments f_vars {T}. Arguments f_vtu {T}.

Section Out.
Context {T : Type} `{OT : Ops T}.
Local Open Scope num_scope.
Notation toks := (list (tok T)).

(** << " " of src/output.cpp *)
Definition sp : tok T := TS " ".
(** f(x) for x in l, one after the other: the for loops of src/output.cpp *)
Definition emit {A} (f : A -> res toks) (l : list A) : res toks :=
  ts <- mapM f l ;; Ok (List.concat ts).

(** ** write_vtu, src/output.cpp:52-222 *)
(** the escaped quote of the strings of src/output.cpp:60-204 *)
Definition quote : string := String (Ascii.ascii_of_nat 34) "".
(** the opening of a DataArray, e.g. src/output.cpp:64, 89, 139 *)
Definition tag_to (close ty name nc : string) : string :=
  "<DataArray type=" ++ quote ++ ty ++ quote ++ " Name=" ++ quote ++ name ++ quote
  ++ " NumberOfComponents=" ++ quote ++ nc ++ quote ++ " format=" ++ quote ++ "ascii" ++ quote ++ close.
(** src/output.cpp:64, 89, 120, 161, 169, 177, 183, 204 *)
Definition tag : string -> string -> string -> string := tag_to ">".
(** e.g. src/output.cpp:87 *)
Definition close_tag : string := "</DataArray>".

(** src/output.cpp:66-86 *)
Definition vtu_points (V : env T) : toks :=
  let nx := v_nx V in let ny := v_ny V in let nz := v_nz V in
  if (v_dim V =? 2)%Z then
    flat_map (fun j => flat_map (fun i =>
      [TD (ofZ i * v_dx V); sp; TD (ofZ j * v_dy V); sp; TS "0.0"; NL]) (zrange 0 nx)) (zrange 0 ny)
  else if (v_dim V =? 3)%Z then
    flat_map (fun k => flat_map (fun j => flat_map (fun i =>
      [TD (ofZ i * v_dx V); sp; TD (ofZ j * v_dy V); sp; TD (ofZ k * v_dz V); NL])
      (zrange 0 nx)) (zrange 0 ny)) (zrange 0 nz)
  else [].
(** the ends of src/output.cpp:97 and 112 *)
Definition ints (l : list Z) : toks := flat_map (fun n => [TI n; sp]) l.
(** src/output.cpp:90-116 *)
Definition vtu_conn (V : env T) : toks :=
  let nx := v_nx V in let ny := v_ny V in let nz := v_nz V in
  if (v_dim V =? 2)%Z then
    flat_map (fun ey => flat_map (fun ex =>
      ints [ey * nx + ex; ey * nx + ex + 1; (ey + 1) * nx + ex + 1; (ey + 1) * nx + ex]%Z ++ [NL])
      (zrange 0 (nx - 1))) (zrange 0 (ny - 1))
  else if (v_dim V =? 3)%Z then
    flat_map (fun ez => flat_map (fun ey => flat_map (fun ex =>
      let n0 := (ez * (nx * ny) + ey * nx + ex)%Z in
      let n1 := (ez * (nx * ny) + ey * nx + ex + 1)%Z in
      let n2 := (ez * (nx * ny) + (ey + 1) * nx + ex + 1)%Z in
      let n3 := (ez * (nx * ny) + (ey + 1) * nx + ex)%Z in
      ints [n0; n1; n2; n3; n0 + nx * ny; n1 + nx * ny; n2 + nx * ny; n3 + nx * ny]%Z ++ [NL])
      (zrange 0 (nx - 1))) (zrange 0 (ny - 1))) (zrange 0 (nz - 1))
  else [].
(** src/micro.cpp:49 *)
Definition vcells (V : env T) : Z := nelem (v_dim V) (v_nx V) (v_ny V) (v_nz V).
(** src/micro.cpp:47 *)
Definition npe (V : env T) : Z := if (v_dim V =? 2)%Z then 4 else 8.
(** src/output.cpp:119-125: ce starts at npe and grows by npe *)
Definition vtu_offsets (V : env T) : toks :=
  fst (fold_left (fun st e => (fst st ++ [TI (snd st); sp], (snd st + npe V)%Z)) (zrange 0 (vcells V)) ([], npe V))
  ++ [NL].
(** src/output.cpp:128-135 *)
Definition vtu_types (V : env T) : toks :=
  flat_map (fun _ => if (v_dim V =? 2)%Z then [TS "9 "] else if (v_dim V =? 3)%Z then [TS "12 "] else [])
    (zrange 0 (vcells V)) ++ [NL].
(** src/output.cpp:140-146 (u) and 149-155 (b) *)
Definition vtu_nodal (V : env T) (a : arr T) : res toks :=
  emit (fun n =>
    if (v_dim V =? 2)%Z then x <- rd a (n * 2) ;; y <- rd a (n * 2 + 1) ;; Ok [TD x; sp; TD y; TS " 0.0"; NL]
    else if (v_dim V =? 3)%Z then
      x <- rd a (n * 3) ;; y <- rd a (n * 3 + 1) ;; z <- rd a (n * 3 + 2) ;; Ok [TD x; sp; TD y; sp; TD z; NL]
    else Ok [])%Z (zrange 0 (nn V)).
(** src/output.cpp:162-166 (strain) and 170-174 (stress) *)
Definition vtu_cell (V : env T) (a : arr T) : res toks :=
  emit (fun e => t <- emit (fun v => x <- rd a (e * nvoi V + v)%Z ;; Ok [TD x; sp]) (zrange 0 (nvoi V)) ;;
    Ok (t ++ [NL])) (zrange 0 (vcells V)).
(** src/output.cpp:178-181 *)
Definition vtu_etype (V : env T) : res toks :=
  t <- emit (fun e => x <- rd (v_etype V) e ;; Ok [TI x; sp]) (zrange 0 (vcells V)) ;; Ok (t ++ [NL]).
(** src/output.cpp:184-202; vars_old is never NULL *)
Definition vtu_plast (V : env T) (vold : arr T) : res toks :=
  t <- emit (fun e =>
    p <- (if (v_dim V =? 3)%Z then sumM (zrange 0 8) (fun g =>
        l <- mapM (fun i => rd vold (intvar_ix e g i)) (zrange 0 6) ;;
        let q i := lget l i in
        Ok (osqrt (q 0%Z * q 0%Z + q 1%Z * q 1%Z + q 2%Z * q 2%Z + ofZ 2 * q 3%Z * q 3%Z
                   + ofZ 2 * q 4%Z * q 4%Z + ofZ 2 * q 5%Z * q 5%Z)))
      else Ok (dec 0 1)) ;;
    Ok [TD (p / ofZ 8); sp]) (zrange 0 (vcells V)) ;;
  Ok (t ++ [NL]).
(** src/output.cpp:205-216 *)
Definition vtu_hard (V : env T) (vold : arr T) : res toks :=
  t <- emit (fun e =>
    p <- (if (v_dim V =? 3)%Z then sumM (zrange 0 8) (fun g => rd vold (intvar_ix e g 6)) else Ok (dec 0 1)) ;;
    Ok [TD (p / ofZ 8); sp]) (zrange 0 (vcells V)) ;;
  Ok (t ++ [NL]).
(** << nvoi of src/output.cpp:161 and 169 *)
Definition nvoi_str (V : env T) : string := if (v_dim V =? 2)%Z then "3" else "6".

(** write_vtu, src/output.cpp:52-222.  The tag of points is written in pieces with the counts.  The header of each
    DataArray is one string here; those of strain and stress are three in the code
    (the number of components is printed). *)
Definition write_vtu (o : obj T) : res toks :=
  let V := o_env o in
  let w := o_work o in
  su <- vtu_nodal V (w_u w) ;;
  sb <- vtu_nodal V (w_b w) ;;
  se <- vtu_cell V (o_estrain o) ;;
  ss <- vtu_cell V (o_estress o) ;;
  st <- vtu_etype V ;;
  sq <- vtu_plast V (w_vold w) ;;
  sh <- vtu_hard V (w_vold w) ;;
  Ok ([TS ("<?xml version=" ++ quote ++ "1.0" ++ quote ++ "?>"); NL;
       TS ("<VTKFile type=" ++ quote ++ "UnstructuredGrid" ++ quote ++ " version=" ++ quote ++ "0.1" ++ quote
           ++ " byte_order=" ++ quote ++ "LittleEndian" ++ quote ++ ">"); NL; TS "<UnstructuredGrid>"; NL;
       TS ("<Piece NumberOfPoints=" ++ quote); TI (nn V); TS (quote ++ " NumberOfCells=" ++ quote); TI (vcells V);
       TS (quote ++ ">"); NL; TS "<Points>"; NL; TS (tag "Float32" "Position" "3"); NL]
      ++ vtu_points V ++ [TS close_tag; NL; TS "</Points>"; NL; TS "<Cells>"; NL;
       TS (tag "Int32" "connectivity" "1"); NL]
      ++ vtu_conn V ++ [TS close_tag; NL; TS (tag "Int32" "offsets" "1"); NL]
      ++ vtu_offsets V ++ [TS close_tag; NL;
       TS ("<DataArray type=" ++ quote ++ "UInt8" ++ quote ++ "  Name=" ++ quote ++ "types" ++ quote
           ++ " NumberOfComponents=" ++ quote ++ "1" ++ quote ++ " format=" ++ quote ++ "ascii" ++ quote ++ ">"); NL]
      ++ vtu_types V ++ [TS close_tag; NL; TS "</Cells>"; NL;
       TS ("<PointData Vectors=" ++ quote ++ "displ,b" ++ quote ++ " >>"); NL; TS (tag_to " >" "Float64" "displ" "3"); NL]
      ++ su ++ [TS close_tag; NL; TS (tag_to " >" "Float64" "b" "3"); NL]
      ++ sb ++ [TS close_tag; NL; TS "</PointData>"; NL; TS "<CellData>"; NL;
       TS (tag "Float64" "strain" (nvoi_str V)); NL]
      ++ se ++ [TS close_tag; TS (tag "Float64" "stress" (nvoi_str V)); NL]
      ++ ss ++ [TS close_tag; TS (tag "Int32" "elem_type" "1"); NL]
      ++ st ++ [TS close_tag; NL; TS (tag "Float64" "plasticity" "1"); NL]
      ++ sq ++ [TS close_tag; NL; TS (tag "Float64" "hardening" "1"); NL]
      ++ sh ++ [TS close_tag; NL; TS "</CellData>"; NL; TS "</Piece>"; NL; TS "</UnstructuredGrid>"; NL;
       TS "</VTKFile>"; NL]).

(** the object after stores through its buffers, src/output.cpp:43-46 *)
Definition with_work (o : obj T) (w : work T) (es et : arr T) : obj T :=
  mkObj (o_env o) w (o_params o) (o_ctan o) (o_gps o) es et (o_inv_max o) (o_header o).
(** output, src/output.cpp:29-50 *)
Definition output (fuel : nat) (pk : peek) (tstep id : Z) (o : obj T) (fs : files T) : res (obj T * files T) :=
  match lookup id (o_gps o) with
  | None => Ok (o, fs)
  | Some g =>
    let V := o_env o in
    vold <- load_vars V (g_n g) (w_vold (o_work o)) ;;
    eps <- rdl (g_strain g) (nvoi V) ;;
    u <- set_displ V eps (w_u (o_work o)) ;;
    ' r <- newton fuel pk V (set_u (set_vold (o_work o) vold) u) ;;
    let w := fst (fst (fst r)) in
    ' f <- calc_fields V (w_u w) (w_vold w) (w_vnew w) (o_estrain o) (o_estress o) ;;
    let o := with_work o (set_vnew w (snd f)) (fst (fst f)) (snd (fst f)) in
    t <- write_vtu o ;;
    Ok (o, mkFiles (f_mats fs) (f_conv fs) (f_esc fs) (f_vars fs) ((id, tstep, t) :: f_vtu fs))
  end.

(** ** write_info_files, src/output.cpp:224-285 *)
(** src/output.cpp:232-233 and 240-241 *)
Definition ids_toks (o : obj T) : toks := flat_map (fun g => [TI (g_id g); sp]) (o_gps o).
(** src/output.cpp:230-236 *)
Definition conv_head (o : obj T) : toks :=
  TS "# gp_id : " :: ids_toks o ++ [NL; TS "# nl_flag [1] # inv_max [2] # inv_tol [3]"; NL;
    TS "# nr_its  [4] # nr_tol  [5]"; NL].
(** src/output.cpp:238-244 *)
Definition esc_head (o : obj T) : toks :=
  TS "# gp_id : " :: ids_toks o ++ [TS "# epsxx [1] # epsyy [2] # epszz[3] # epsxy[4] # epsxz[5] # epsyz[6]";
    TS "# sigxx [7] # sigyy [2] # sigzz[3] # sigxy[4] # sigxz[5] # sigyz[6]"; NL; NL].
(** src/output.cpp:256, 269, 281 *)
Definition bar : tok T := TS " | ".
(** src/output.cpp:247-259 *)
Definition conv_line (V : env T) (l : list (gp T)) : res toks :=
  t <- emit (fun g =>
    t <- emit (fun i => n <- rd (g_its g) i ;; e <- rd (g_err g) i ;; Ok [TI n; sp; TD e; sp]) (zrange 0 (1 + nvoi V)) ;;
    Ok ([TI (match g_n g with None => 0 | Some _ => 1 end); sp; TD (g_inv g); sp] ++ t ++ [bar])%Z) l ;;
  Ok (t ++ [NL]).
(** src/output.cpp:261-272 *)
Definition esc_line (l : list (gp T)) : res toks :=
  t <- emit (fun g =>
    e <- rdl (g_strain g) 6 ;; s <- rdl (g_stress g) 6 ;; c <- rdl (g_ctan g) 36 ;;
    Ok (flat_map (fun x => [TD x; sp]) (e ++ s ++ c) ++ [bar])) l ;;
  Ok (t ++ [NL]).
(** src/output.cpp:274-284 *)
Definition vars_line (V : env T) (l : list (gp T)) : res toks :=
  t <- emit (fun g =>
    t <- emit (fun i => x <- match g_n g with Some n => rd n i | None => Ok (dec 0 1) end ;; Ok [TD x; sp])
           (zrange 0 (nvars V)) ;;
    Ok (t ++ [bar])) l ;;
  Ok (t ++ [NL]).
(** src/output.cpp:224-285 *)
Definition write_info_files (o : obj T) (fs : files T) : res (obj T * files T) :=
  let '(h1, h2) := if o_header o then ([], []) else (conv_head o, esc_head o) in
  l1 <- conv_line (o_env o) (o_gps o) ;;
  l2 <- esc_line (o_gps o) ;;
  l3 <- vars_line (o_env o) (o_gps o) ;;
  Ok (mkObj (o_env o) (o_work o) (o_params o) (o_ctan o) (o_gps o) (o_estrain o) (o_estress o) (o_inv_max o) true,
      mkFiles (f_mats fs) (f_conv fs ++ h1 ++ l1) (f_esc fs ++ h2 ++ l2) (f_vars fs ++ l3) (f_vtu fs)).

(** micropp_materials.dat, src/micro.cpp:86-116 *)
Definition mats_file (l : list (material T)) : toks :=
  flat_map (fun m => [TD (m_E m); sp; TD (m_nu m); sp; TD (m_Sy m); sp; TD (m_Ka m); NL]) l.
(** the files of the constructor, src/micro.cpp:86-116 and 140-145: the material list, and the
    three logs truncated *)
Definition construct_files (o : obj T) (fs : files T) : files T :=
  mkFiles (mats_file (v_mats (o_env o))) [] [] [] (f_vtu fs).

(** ** Calls on one object *)
(** the public methods a host calls, include/micro.hpp:109-115, 162, 164 *)
Inductive call :=
| SetStrain (id : Z) (eps : list T)
| GetStress (id : Z)
| GetCtan (id : Z)
| NlFlag (id : Z)
| Homogenize (fuel : nat) (orc : Z -> Z -> peek)
| UpdateVars
| Output (fuel : nat) (pk : peek) (tstep id : Z)
| WriteInfo.
(** what the caller gets: nothing, a buffer (or the caller's own untouched), a flag;
    include/micro.hpp:109-115 *)
Inductive reply := RUnit | RBuf (b : option (list T)) | RInt (z : Z).

(** one call, with the lengths of the caller's buffers: src/homogenize.cpp:90-217,
    src/micro.cpp:167-175, src/output.cpp:29-50 and 224-285 *)
Definition step (c : call) (s : obj T * files T) : res (obj T * files T * reply) :=
  let '(o, fs) := s in
  match c with
  | SetStrain id eps =>
    if (Z.of_nat (length eps) <? nvoi (o_env o))%Z then Err OOB else
    l <- set_strain (o_env o) id eps (o_gps o) ;; Ok (set_gps o l, fs, RUnit)
  | GetStress id => b <- get_macro_stress (o_env o) id (o_gps o) ;; Ok (o, fs, RBuf b)
  | GetCtan id => b <- get_macro_ctan (o_env o) id (o_gps o) ;; Ok (o, fs, RBuf b)
  | NlFlag id => Ok (o, fs, RInt (get_nl_flag id (o_gps o)))
  | Homogenize fuel orc => o <- homogenize fuel orc o ;; Ok (o, fs, RUnit)
  | UpdateVars => o <- update_vars o ;; Ok (o, fs, RUnit)
  | Output fuel pk t id => ' r <- output fuel pk t id o fs ;; Ok (r, RUnit)
  | WriteInfo => ' r <- write_info_files o fs ;; Ok (r, RUnit)
  end.
(** a sequence of calls with their replies: a host program such as test/test3d_1.cpp:77-108 *)
Fixpoint run (cs : list call) (s : obj T * files T) : res (obj T * files T * list reply) :=
  match cs with
  | [] => Ok (s, [])
  | c :: cs => ' r <- step c s ;; ' q <- run cs (fst r) ;; Ok (fst q, snd r :: snd q)
  end.

(** ** src/wrapper.cpp: one global pointer, NULL at start *)
(** src/wrapper.cpp:30-74 *)
Inductive wcall :=
| WConstruct (fuel : nat) (orc : Z -> peek) (j : junk T) (dim : Z) (size : list Z) (mtype : Z)
    (mp : list T) (mat_types : list Z) (params : list T)
| WCall (c : call).
(** src/wrapper.cpp:27-75 *)
Definition wstep (c : wcall) (s : option (obj T) * files T) : res (option (obj T) * files T * reply) :=
  match c, s with
  | WConstruct fuel orc j dim size mtype mp mt ps, (_, fs) =>
    o <- construct fuel orc j dim size mtype mp mt ps ;; Ok (Some o, construct_files o fs, RUnit)
  | WCall c, (Some o, fs) => ' r <- step c (o, fs) ;; Ok (Some (fst (fst r)), snd (fst r), snd r)
  | WCall c, (None, _) => Err NullDeref
  end.
(** a host program calling src/wrapper.cpp:30-74, such as test/test3d_3.f90 *)
Fixpoint wrun (cs : list wcall) (s : option (obj T) * files T) : res (option (obj T) * files T * list reply) :=
  match cs with
  | [] => Ok (s, [])
  | c :: cs => ' r <- wstep c s ;; ' q <- wrun cs (fst r) ;; Ok (fst q, snd r :: snd q)
  end.
End Out.
Arguments call : clear implicits.
Arguments reply : clear implicits.
Arguments wcall : clear implicits.
