(** C39, C53, C54, C58: the constructor and the C wrapper.  j is the content of fresh memory,
    fuel the bound on the Newton loop and orc the oracle for its loop counter: the statements
    hold for all of them. *)
From Coq Require Import Reals.
From Verif Require Import Base Scalar EllSpec EllModel AssemblyModel AsmSpec MicroModel OutputModel NewtonBase ApiBase ApiRun ApiHist Build Swap ApiSpec ApiCases ApiCommit OneCell Invalid Classify OutProps BuildEx.
Open Scope Z_scope.

(** a 4x5x3 object with a plastic and a damage material, and the same with a linear one *)
Example C39_example : exists o o', Forall2 alike [1; 2] [1; 0] /\ construct fuel40 (fun _ => counting) (flat_junk 1%R) 3 [4; 5; 3] 0 mp5 [1; 2] ps20 = Ok o /\
  construct fuel40 (fun _ => counting) (flat_junk 1%R) 3 [4; 5; 3] 0 mp5 [1; 0] ps20 = Ok o'.
Proof. exact damage_ex. Qed.
(** material type 7 for a material no cell has *)
Example C53_example : exists o, construct fuel40 (fun _ => counting) (flat_junk 1%R) 2 [4; 5; 1] 1 flat5 [0; 7] ps20 = Ok o.
Proof. exact unknown_unused. Qed.
Example C53_example_unused : forall j V, make_env j 2 [4; 5; 1] 1 flat5 = Ok V -> only_matrix V.
Proof. exact flat_only. Qed.
(** 3x3 cells: the middle one is in the disc of radius 1/5, a corner is not; 3x3x3 cells *)
Example C54_example_disc : exists o, construct fuel40 (fun _ => counting) (flat_junk 1%R) 2 [4; 4; 1] 0 mp5 [0; 1] ps20 = Ok o /\
  aget (v_etype (o_env o)) (1 * (4 - 1) + 1) = Some 1 /\ aget (v_etype (o_env o)) (0 * (4 - 1) + 0) = Some 0.
Proof. exact disc_ex. Qed.
Example C54_example_ball : exists o, construct fuel40 (fun _ => counting) (flat_junk 1%R) 3 [4; 4; 4] 0 mp5 [0; 1] ps20 = Ok o /\
  aget (v_etype (o_env o)) (1 * (4 - 1) * (4 - 1) + 1 * (4 - 1) + 1) = Some 1 /\ aget (v_etype (o_env o)) (0 * (4 - 1) * (4 - 1) + 1 * (4 - 1) + 1) = Some 0.
Proof. exact ball_ex. Qed.
(** three constructions and six calls through the wrapper *)
Example C58_example : exists (ws : list (wcall R)) o fs rs, wrun ws (None, no_files) = Ok ((Some o, fs), rs) /\ length ws = 9%nat /\
  exists a cs, ws = a ++ WConstruct fuel40 (fun _ => counting) (flat_junk 1%R) 3 [4; 5; 3] 0 mp5 [1; 2] ps20 :: map WCall cs /\ length a = 2%nat /\ cs = story.
Proof. exact wrapped. Qed.

(** C39.  alike: the same type, or both among linear (0) and damage (2).  Two lists of alike
    material types give the same outcome of the constructor, and objects that answer every
    call sequence alike and write the same files. *)
Theorem C39_damage_is_linear : forall (T : Type) (OT : Ops T) fuel orc (j : junk T) dim size mtype mp mt mt' ps,
  Forall2 (fun a b => a = b \/ (a = 0 \/ a = 2) /\ (b = 0 \/ b = 2)) mt mt' ->
  match construct fuel orc j dim size mtype mp mt ps, construct fuel orc j dim size mtype mp mt' ps with
  | Ok o, Ok o' =>
      (forall cs fs, rmap (fun r => (snd (fst r), snd r)) (run cs (o, fs)) = rmap (fun r => (snd (fst r), snd r)) (run cs (o', fs))) /\
      forall fs, construct_files o' fs = construct_files o fs
  | Err e, Err e' => e = e'
  | _, _ => False
  end.
Proof. exact @damage_linear. Qed.
Print Assumptions C39_damage_is_linear.

(** C53.  What a constructor that returns has been given; anything else is an exit or
    undefined.  mat_no: material 0 for cells of type 0, material 1 for the others. *)
Theorem C53_demands : forall (T : Type) (OT : Ops T) fuel orc (j : junk T) dim size mtype mp mt ps o,
  construct fuel orc j dim size mtype mp mt ps = Ok o ->
  (dim = 2 \/ dim = 3) /\ (mtype = 0 \/ mtype = 1) /\ (5 <= length mp)%nat /\ (2 <= length mt)%nat /\ (14 <= length ps)%nat /\
  ((if (dim =? 2)%Z then 2 else 3) <= length size)%nat /\ j_tol j <> None /\
  (dim = 2 -> forall ex ey, 0 <= ex < znth size 0 - 1 -> 0 <= ey < znth size 1 - 1 ->
     exists t ty, elem_type2D (o_env o) ex ey = Ok t /\ arg mt (mat_no t) = Ok ty /\ (ty = 0 \/ ty = 1 \/ ty = 2)) /\
  (dim = 3 -> forall ex ey ez, 0 <= ex < znth size 0 - 1 -> 0 <= ey < znth size 1 - 1 -> 0 <= ez < znth size 2 - 1 ->
     exists t ty, elem_type3D (o_env o) ex ey ez = Ok t /\ arg mt (mat_no t) = Ok ty /\ (ty = 0 \/ ty = 1 \/ ty = 2)).
Proof. exact @demands. Qed.
Print Assumptions C53_demands.
(** The type of a material no cell has is irrelevant, known or not. *)
Theorem C53_unused_type : forall (T : Type) (OT : Ops T) fuel orc (j : junk T) dim nx ny nz mtype mp t0 t t' r ps,
  2 <= nx -> 2 <= ny -> dim = 2 \/ 2 <= nz -> (14 <= length ps)%nat ->
  (forall V, make_env j dim [nx; ny; nz] mtype mp = Ok V -> only_matrix V) ->
  match construct fuel orc j dim [nx; ny; nz] mtype mp (t0 :: t :: r) ps, construct fuel orc j dim [nx; ny; nz] mtype mp (t0 :: t' :: r) ps with
  | Ok o, Ok o' => forall cs fs, rmap (fun r => (snd (fst r), snd r)) (run cs (o, fs)) = rmap (fun r => (snd (fst r), snd r)) (run cs (o', fs))
  | Err e, Err e' => e = e'
  | _, _ => False
  end.
Proof. exact @unused. Qed.
Print Assumptions C53_unused_type.

(** C54.  mid l n i is the middle of the i-th of n-1 equal parts of [0, l]. *)
Theorem C54_cells_2d : forall fuel orc (j : junk R) mtype mp mt ps o nx ny nz ex ey,
  construct fuel orc j 2 [nx; ny; nz] mtype mp mt ps = Ok o -> 0 <= ex < nx - 1 -> 0 <= ey < ny - 1 ->
  let mid l n i := ((IZR i + / 2) * l / IZR (n - 1))%R in
  let x := mid (lget mp 0) nx ex in let y := mid (lget mp 1) ny ey in
  let inside := if mtype =? 0 then ((x - lget mp 0 / 2) * (x - lget mp 0 / 2) + (y - lget mp 1 / 2) * (y - lget mp 1 / 2) < lget mp 3 * lget mp 3)%R else (y < lget mp 3)%R in
  (aget (v_etype (o_env o)) (ey * (nx - 1) + ex) = Some 1 <-> inside) /\ (aget (v_etype (o_env o)) (ey * (nx - 1) + ex) = Some 0 <-> ~ inside).
Proof. exact cells2. Qed.
Print Assumptions C54_cells_2d.
Theorem C54_cells_3d : forall fuel orc (j : junk R) mtype mp mt ps o nx ny nz ex ey ez,
  construct fuel orc j 3 [nx; ny; nz] mtype mp mt ps = Ok o -> 0 <= ex < nx - 1 -> 0 <= ey < ny - 1 -> 0 <= ez < nz - 1 ->
  let mid l n i := ((IZR i + / 2) * l / IZR (n - 1))%R in
  let x := mid (lget mp 0) nx ex in let y := mid (lget mp 1) ny ey in let z := mid (lget mp 2) nz ez in
  let inside := if mtype =? 0 then ((x - lget mp 0 / 2) * (x - lget mp 0 / 2) + (y - lget mp 1 / 2) * (y - lget mp 1 / 2) + (z - lget mp 2 / 2) * (z - lget mp 2 / 2) < lget mp 3 * lget mp 3)%R
                else (y < lget mp 3)%R in
  let t := aget (v_etype (o_env o)) (ez * (nx - 1) * (ny - 1) + ey * (nx - 1) + ex) in
  (t = Some 1 <-> inside) /\ (t = Some 0 <-> ~ inside).
Proof. exact cells3. Qed.
Print Assumptions C54_cells_3d.
(** The disc and the ball have all mirror symmetries of the box, the layer all but one. *)
Theorem C54_mirror_2d : forall fuel orc (j : junk R) mtype mp mt ps o nx ny nz ex ey,
  construct fuel orc j 2 [nx; ny; nz] mtype mp mt ps = Ok o -> 0 <= ex < nx - 1 -> 0 <= ey < ny - 1 ->
  let t ex ey := aget (v_etype (o_env o)) (ey * (nx - 1) + ex) in
  t (nx - 2 - ex) ey = t ex ey /\ (mtype = 0 -> t ex (ny - 2 - ey) = t ex ey).
Proof. exact mirror2. Qed.
Print Assumptions C54_mirror_2d.
Theorem C54_mirror_3d : forall fuel orc (j : junk R) mtype mp mt ps o nx ny nz ex ey ez,
  construct fuel orc j 3 [nx; ny; nz] mtype mp mt ps = Ok o -> 0 <= ex < nx - 1 -> 0 <= ey < ny - 1 -> 0 <= ez < nz - 1 ->
  let t ex ey ez := aget (v_etype (o_env o)) (ez * (nx - 1) * (ny - 1) + ey * (nx - 1) + ex) in
  t (nx - 2 - ex) ey ez = t ex ey ez /\ t ex ey (nz - 2 - ez) = t ex ey ez /\ (mtype = 0 -> t ex (ny - 2 - ey) ez = t ex ey ez).
Proof. exact mirror3. Qed.
Print Assumptions C54_mirror_3d.

(** C58.  A wrapper call before any construction dereferences the null pointer. *)
Theorem C58_null_before_construct : forall (T : Type) (OT : Ops T) (c : call T) ws fs, wrun (WCall c :: ws) (None, fs) = Err NullDeref.
Proof. exact @wrapper_null. Qed.
Print Assumptions C58_null_before_construct.
(** After any wrapper calls a that completed, a construction followed by the calls cs is the
    construction and the calls on the new object. *)
Theorem C58_latest_object : forall (T : Type) (OT : Ops T) (a : list (wcall T)) fuel orc j dim size mtype mp mt ps cs s s1 r1,
  wrun a s = Ok (s1, r1) ->
  wrun (a ++ WConstruct fuel orc j dim size mtype mp mt ps :: map WCall cs) s =
  o <- construct fuel orc j dim size mtype mp mt ps ;; ' r <- run cs (o, construct_files o (snd s1)) ;;
  Ok (Some (fst (fst r)), snd (fst r), r1 ++ RUnit :: snd r).
Proof. exact @wrapper_object. Qed.
Print Assumptions C58_latest_object.
