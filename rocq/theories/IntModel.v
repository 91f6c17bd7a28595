(** The [int] expressions of /repo/src/ell.cpp and of the class as syntax trees.  [ieval]
    evaluates a tree as a 32-bit machine does and returns [None] as soon as any
    sub-expression leaves the range, which is undefined behaviour in C++.  A tree has the
    shape of the source: same operators, same association, same parentheses; its leaves are
    the values of the variables at that point. *)
From Verif Require Import Base Scalar InitTables EllModel AssemblyModel.
Open Scope Z_scope.

(** the largest int of a 32-bit machine *)
Definition INT_MAX : Z := 2147483647.
(** int expressions: a value, +, -, *, e.g. src/ell.cpp:355 *)
Inductive ix := V (z : Z) | A (a b : ix) | D (a b : ix) | M (a b : ix).
(** a result outside the range of int is undefined *)
Definition in_int (z : Z) : option Z := if (- INT_MAX - 1 <=? z) && (z <=? INT_MAX) then Some z else None.
(** both operands, then the result *)
Definition ibin (f : Z -> Z -> Z) (a b : option Z) : option Z :=
  match a, b with Some x, Some y => in_int (f x y) | _, _ => None end.
(** the value of an int expression *)
Fixpoint ieval (e : ix) : option Z :=
  match e with
  | V z => in_int z
  | A a b => ibin Z.add (ieval a) (ieval b)
  | D a b => ibin Z.sub (ieval a) (ieval b)
  | M a b => ibin Z.mul (ieval a) (ieval b)
  end.
Declare Scope ix_scope.
Delimit Scope ix_scope with ix.
Infix "+" := A : ix_scope.
Infix "-" := D : ix_scope.
Infix "*" := M : ix_scope.
Coercion V : Z >-> ix.

(** evaluate the address of every store, e.g. src/ell.cpp:412 *)
Fixpoint ieach {X} (l : list (ix * X)) : option (list (Z * X)) :=
  match l with
  | [] => Some []
  | (e, x) :: l => match ieval e, ieach l with Some a, Some r => Some ((a, x) :: r) | _, _ => None end
  end.
(** stores of an int through a pointer (mcols of src/ell.cpp:720-861 and 877-1875): base, offset and value are int expressions, the sum of
    base and offset is address arithmetic *)
Fixpoint ieach2 (l : list (ix * ix * ix)) : option (list (Z * Z)) :=
  match l with
  | [] => Some []
  | (b, e, v) :: l => match ieval b, ieval e, ieval v, ieach2 l with
    | Some p, Some a, Some x, Some r => Some ((p + a, x) :: r)
    | _, _, _, _ => None
    end
  end.

Local Open Scope ix_scope.

(** ** Sizes *)
(** src/ell.cpp:709 *)
Definition i_nn2 (nx ny : Z) : ix := nx * ny.
(** src/ell.cpp:710 *)
Definition i_nnz2 (nF : Z) : ix := 9%Z * nF.
(** src/ell.cpp:711 *)
Definition i_nrow2 (nF nx ny : Z) : ix := i_nn2 nx ny * nF.
(** src/ell.cpp:716-717 *)
Definition i_size2 (nF nx ny : Z) : ix := i_nnz2 nF * i_nrow2 nF nx ny.
(** src/ell.cpp:867 *)
Definition i_nn3 (nx ny nz : Z) : ix := nx * ny * nz.
(** src/ell.cpp:868 *)
Definition i_nnz3 (nF : Z) : ix := 27%Z * nF.
(** src/ell.cpp:869 *)
Definition i_nrow3 (nF nx ny nz : Z) : ix := i_nn3 nx ny nz * nF.
(** src/ell.cpp:875-876 *)
Definition i_size3 (nF nx ny nz : Z) : ix := i_nnz3 nF * i_nrow3 nF nx ny nz.

(** src/ell.cpp:28 *)
Definition i_nod (nx ny : Z) (i j k : ix) : ix := k * nx * ny + j * nx + i.

(** ** Initialisation *)
(** one of the terms +- e of a column, src/ell.cpp:720-861 and 877-1875 *)
Definition i_off (n : ix) (c : Z) (e : ix) : ix := if (c =? 1)%Z then n + e else if (c =? -1)%Z then n - e else n.
(** [(nn + (nx * ny) - nx + 1) * nFields + d2] and its 26 siblings, e.g. src/ell.cpp:896-909 *)
Definition i_entry (nF nx ny n d2 : Z) (e : entry) : ix :=
  match e with
  | None => V 0
  | Some (a, b, c) => i_off (i_off (i_off n c (nx * ny)) b nx) a 1%Z * nF + d2
  end.
(** the stores of one block, e.g. src/ell.cpp:725-737 and 881-911 *)
Definition i_init_node (nF nnz nx ny : Z) (t : list entry) (n : Z) : list (ix * ix * ix) :=
  flat_map (fun d1 : Z =>
    flat_map (fun d2 : Z =>
      map (fun se => (n * nF * nnz, V (fst se) * nF + nnz * V d1 + d2, i_entry nF nx ny n d2 (snd se)))
          (combine (zrange 0 (Z.of_nat (length t))) t))
      (zrange 0 nF)) (zrange 0 nF).
(** src/ell.cpp:720-861 *)
Definition i_init2D (nF nx ny : Z) : list (ix * ix * ix) :=
  flat_map (fun i : Z => i_init_node nF (9 * nF)%Z nx ny (table2D nx ny i) i) (zrange 0 (nx * ny)%Z).
(** the conditions of the chain, src/ell.cpp:723-848: [i % nx] cannot overflow *)
Definition i_tests2 (nx ny i : Z) : list ix :=
  [nx - 1%Z; nx * ny - 1%Z; (ny - 1%Z) * nx; i + 1%Z].
(** src/ell.cpp:878-1875 *)
Definition i_init3D (nF nx ny nz : Z) : list (ix * ix * ix) :=
  flat_map (fun blk : (axcls * axcls * axcls) * list entry =>
    let '((cx, cy, cz), t) := blk in
    flat_map (fun i : Z => flat_map (fun j : Z => flat_map (fun k : Z =>
        i_init_node nF (27 * nF)%Z nx ny t (nod_index nx ny i j k))
      (ax_range cz nz)) (ax_range cy ny)) (ax_range cx nx))
    t3_blocks.

(** ** Reset and product *)
(** src/ell.cpp:44 and 54 *)
Definition i_slot (nnz i j : Z) : ix := i * nnz + j.

(** ** Assembly *)
(** src/ell.cpp:342-345 *)
Definition i_sn2 (nx ex ey : Z) : list ix :=
  [ey * nx + ex; ey * nx + ex + 1%Z; (ey + 1%Z) * nx + ex + 1%Z; (ey + 1%Z) * nx + ex].
(** src/ell.cpp:378-387 *)
Definition i_sn3 (nx ny ex ey ez : Z) : list ix :=
  let n0 := V ez * (nx * ny) + ey * nx + ex in
  let n1 := V ez * (nx * ny) + ey * nx + ex + 1%Z in
  let n2 := V ez * (nx * ny) + (ey + 1%Z) * nx + ex + 1%Z in
  let n3 := V ez * (nx * ny) + (ey + 1%Z) * nx + ex in
  [n0; n1; n2; n3; n0 + nx * ny; n1 + nx * ny; n2 + nx * ny; n3 + nx * ny].
(** sn[k], src/ell.cpp:355 and 397 *)
Definition inth (l : list ix) (k : Z) : ix := nth (Z.to_nat k) l (V 0).
(** src/ell.cpp:351-356 and 393-398: the index of m->vals and that of Ae *)
Definition i_add (npe nF nnz : Z) (cr : list (list Z)) (sn : list ix) : list (ix * ix) :=
  flat_map (fun i : Z => flat_map (fun n : Z => flat_map (fun k : Z => map (fun j : Z =>
      (inth sn k * (nF * nnz) + i * nnz + V (zznth cr k n) * nF + j,
       k * (npe * nF * nF) + V i * (npe * nF) + n * nF + j))
    (zrange 0 nF)) (zrange 0 npe)) (zrange 0 npe)) (zrange 0 nF).
(** evaluate both indices of every accumulation, src/ell.cpp:355-356 and 397-398 *)
Fixpoint iboth (l : list (ix * ix)) : option (list (Z * Z)) :=
  match l with
  | [] => Some []
  | (a, b) :: l => match ieval a, ieval b, iboth l with Some x, Some y, Some r => Some ((x, y) :: r) | _, _, _ => None end
  end.

(** ** Boundary rows *)
Section Bc.
Context {T : Type} `{OT : Ops T}.
(** e.g. src/ell.cpp:411-414 *)
Definition i_ident (nF nnz slot : Z) (n : ix) (d : Z) : list (ix * T) :=
  map (fun j : Z => (n * nF * nnz + d * nnz + V j, ofZ 0)) (zrange 0 nnz)
  ++ [ (n * nF * nnz + d * nnz + slot * nF + d, ofZ 1) ].
(** e.g. src/ell.cpp:451-453 *)
Definition i_zero (nF nnz : Z) (slots : list Z) (n : ix) (d1 : Z) : list (ix * T) :=
  flat_map (fun l : Z => map (fun d2 : Z => (n * nF * nnz + d1 * nnz + V l * nF + V d2, ofZ 0)) (zrange 0 nF)) slots.
(** src/ell.cpp:401-535; [n] in the lines is a variable: initialised by an expression, then increased *)
Definition i_bc2D (nF nnz nx ny : Z) : list (ix * T) :=
  let rows (g : Z -> ix) (cnt : Z) :=
    flat_map (fun d : Z => flat_map (fun n : Z => i_ident nF nnz 4 (g n) d) (zrange 0 cnt)) (zrange 0 nF) in
  let line (n0 step cnt : Z) (slots : list Z) :=
    flat_map (fun d1 : Z => flat_map (fun i : Z => i_zero nF nnz slots (V (n0 + i * step)%Z) d1) (zrange 0 cnt)) (zrange 0 nF) in
  let corner (n : Z) (slots : list Z) := flat_map (fun d1 : Z => i_zero nF nnz slots (V n) d1) (zrange 0 nF) in
  rows (fun n : Z => V n) nx
  ++ rows (fun n : Z => n + (ny - 1%Z) * nx) nx
  ++ rows (fun n : Z => (n + 1%Z) * nx) (ny - 2)%Z
  ++ rows (fun n : Z => (n + 2%Z) * nx - 1%Z) (ny - 2)%Z
  ++ line (nx + 2)%Z 1 (nx - 4)%Z [0; 1; 2]%Z
  ++ line ((ny - 2) * nx + 2)%Z 1 (nx - 4)%Z (map (fun _ => 6%Z) (zrange 6 9))
  ++ line (2 * nx + 1)%Z nx (ny - 4)%Z [0; 3; 6]%Z
  ++ line (4 * nx - 1)%Z nx (ny - 4)%Z [2; 5; 8]%Z
  ++ corner (nx + 1)%Z [0; 1; 2; 3; 6]%Z
  ++ corner (2 * nx - 2)%Z [0; 1; 2; 5; 8]%Z
  ++ corner ((ny - 1) * nx - 1)%Z [2; 5; 6; 7; 8]%Z
  ++ corner ((ny - 2) * nx + 1)%Z [0; 3; 6; 7; 8]%Z.
(** the initial values of those variables (src/ell.cpp:449, 460, 472, 485, 498, 509, 519, 529),
    their last values after the loops, and the loop bounds *)
Definition i_vars2 (nx ny : Z) : list ix :=
  [nx + 2%Z; (ny - 2%Z) * nx + 2%Z; 2%Z * nx + 1%Z; 4%Z * nx - 1%Z; nx + 1%Z; 2%Z * nx - 2%Z; (ny - 1%Z) * nx - 1%Z; (ny - 2%Z) * nx + 1%Z;
   V (nx + 2 + Z.max 0 (nx - 4))%Z; V ((ny - 2) * nx + 2 + Z.max 0 (nx - 4))%Z; V (2 * nx + 1 + Z.max 0 (ny - 4) * nx)%Z; V (4 * nx - 1 + Z.max 0 (ny - 4) * nx)%Z;
   nx - 4%Z; ny - 4%Z; ny - 2%Z].
(** src/ell.cpp:537-705 *)
Definition i_bc3D (nF nnz nx ny nz : Z) : list (ix * T) :=
  let face (la lb : list Z) (nd : Z -> Z -> ix) :=
    flat_map (fun d : Z => flat_map (fun a : Z => flat_map (fun b : Z => i_ident nF nnz 13 (nd a b) d) lb) la) (zrange 0 nF) in
  let near (la lb : list Z) (nd : Z -> Z -> ix) (slots : list Z) :=
    flat_map (fun d1 : Z => flat_map (fun a : Z => flat_map (fun b : Z => i_zero nF nnz slots (nd a b) d1) lb) la) (zrange 0 nF) in
  let N := i_nod nx ny in
  let full n := zrange 0 n in
  let inner n := zrange 1 (n - 1)%Z in
  face (full nx) (full ny) (fun i j : Z => N i j 0%Z)
  ++ face (full nx) (full ny) (fun i j : Z => N i j (nz - 1%Z))
  ++ face (full nx) (full nz) (fun i k : Z => N i 0%Z k)
  ++ face (full nx) (full nz) (fun i k : Z => N i (ny - 1%Z) k)
  ++ face (full ny) (full nz) (fun j k : Z => N 0%Z j k)
  ++ face (full ny) (full nz) (fun j k : Z => N (nx - 1%Z) j k)
  ++ (if (2 <? nz)%Z then near (inner nx) (inner ny) (fun i j : Z => N i j 1%Z) (zrange 0 9) else [])
  ++ (if (2 <? nz)%Z then near (inner nx) (inner ny) (fun i j : Z => N i j (nz - 2%Z)) (zrange 18 27) else [])
  ++ (if (2 <? ny)%Z then near (inner nx) (inner nz) (fun i k : Z => N i 1%Z k) [0; 1; 2; 9; 10; 11; 18; 19; 20]%Z else [])
  ++ near (inner nx) (inner nz) (fun i k : Z => N i (ny - 2%Z) k) [6; 7; 8; 15; 16; 17; 24; 25; 26]%Z
  ++ (if (2 <? nx)%Z then near (inner ny) (inner nz) (fun j k : Z => N 1%Z j k) [0; 3; 6; 9; 12; 15; 18; 21; 24]%Z else [])
  ++ (if (2 <? nx)%Z then near (inner ny) (inner nz) (fun j k : Z => N (nx - 2%Z) j k) [2; 5; 8; 11; 14; 17; 20; 23; 26]%Z else []).
End Bc.

(** ** Diagonal *)
(** src/ell.cpp:74, 144, 234, 240 *)
Definition i_diag (nF nnz slot i d : Z) : ix * ix := (i * nF * nnz + slot * nF + d * nnz + V d, i * nF + d).

(** ** The class *)
(** src/micro.cpp:49 *)
Definition i_nelem (dim nx ny nz : Z) : ix :=
  if (dim =? 2)%Z then (nx - 1%Z) * (ny - 1%Z) else (nx - 1%Z) * (ny - 1%Z) * (nz - 1%Z).
(** src/micro.cpp:52 *)
Definition i_num_int_vars (dim nx ny nz : Z) : ix := i_nelem dim nx ny nz * 8%Z * 7%Z.
(** src/micro.cpp:58-60 *)
Definition i_ndofs (dim nx ny nz : Z) : ix := i_nn3 nx ny nz * dim.
(** src/micro.cpp:61-62 *)
Definition i_fields (dim nx ny nz : Z) : ix := i_nelem dim nx ny nz * (if (dim =? 2)%Z then 3 else 6)%Z.
(** include/micro.hpp:37 *)
Definition i_glo_elem (nx ny ex ey ez : Z) : ix := ez * (nx - 1%Z) * (ny - 1%Z) + ey * (nx - 1%Z) + ex.
(** include/micro.hpp:38 *)
Definition i_intvar (e gp v : Z) : ix := e * 8%Z * 7%Z + gp * 7%Z + v.
(** e.g. src/assembly.cpp:39-40, 82-84, 215, 276 *)
Definition i_dof (dim : Z) (n : ix) (d : Z) : ix := n * dim + d.
