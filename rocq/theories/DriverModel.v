(** Model of the test programs test/test2d_1.cpp, test3d_1.cpp, test3d_7.cpp, test3d_8.cpp and
    test3d_3.f90, and of ell_print.  test/ell_solvers.cpp calls functions that no longer exist.
    Left out: the text printed to cerr, and the destructor that runs when main returns. *)
From Coq Require Import String.
From Verif Require Import Base Scalar EllSpec Grid EllModel AssemblyModel MicroModel OutputModel.
Open Scope string_scope.
Open Scope list_scope.
Open Scope Z_scope.

Section Driver.
Context {T : Type} `{OT : Ops T}.
Local Open Scope num_scope.
Notation toks := (list (tok T)).

(** ** ell_print, src/ell.cpp:302-327 *)
(** the rows of cols (src/ell.cpp:310-316) or of vals (src/ell.cpp:319-325) *)
Definition print_rows (nrow nnz : Z) (f : Z -> res (tok T)) : res toks :=
  emit (fun i => t <- emit (fun j => x <- f (i * nnz + j)%Z ;; Ok [x; sp]) (zrange 0 nnz) ;;
    Ok ([TS "row= "; TI i] ++ t ++ [NL])) (zrange 0 nrow).
(** src/ell.cpp:302-327; the pointer, and in the struct it points to nrow, nnz, cols and vals,
    where a NULL pointer is None.  The result and what is sent to cout. *)
Definition ell_print (m : option (Z * Z * option (arr Z) * option (arr T))) : res (Z * toks) :=
  match m with
  | None => Ok (1%Z, [])
  | Some (nrow, nnz, Some cols, Some vals) =>
    c <- print_rows nrow nnz (fun k => x <- rd cols k ;; Ok (TI x)) ;;
    v <- print_rows nrow nnz (fun k => x <- rd vals k ;; Ok (TD x)) ;;
    Ok (0%Z, [TS "Cols = "; NL] ++ c ++ [TS "Vals = "; NL] ++ v)
  | Some _ => Ok (2%Z, [])
  end.

(** ** What the test programs share *)
(** an automatic array of n doubles of which some were assigned; rest is what the memory of the
    others holds, e.g. test/test3d_1.cpp:62-69 *)
Definition auto (n : Z) (given : Z -> option T) (rest : Z -> T) : list T :=
  map (fun i => match given i with Some x => x | None => rest i end) (zrange 0 n).
(** the micro_params of test/test3d_1.cpp:51-56, test3d_7.cpp:51-56 and test2d_1.cpp:51-56 *)
Definition cell_params : list T := [ofZ 1; ofZ 1; ofZ 1; dec 1 1; ofZ 0].
(** eps[dir] += d_eps or -= d_eps, test/test3d_1.cpp:80-89, test3d_7.cpp:83-92, test3d_8.cpp:84-93,
    test2d_1.cpp:83-92 *)
Definition load (t : Z) (x : T) : T :=
  if (t <? 30)%Z then x + dec 1 2 else if (t <? 80)%Z then x - dec 1 2 else if (t <? 130)%Z then x + dec 1 2
  else if (t <? 250)%Z then x - dec 1 2 else x + dec 1 2.
(** the same on the array eps *)
Definition load_at (dir t : Z) (eps : list T) : res (list T) :=
  _ <- arg eps dir ;;
  Ok (map (fun i => if (i =? dir)%Z then load t (lget eps i) else lget eps i) (zrange 0 (Z.of_nat (length eps)))).
(** the array get_macro_stress wrote; that it was left alone never happens here,
    test/test3d_1.cpp:94 *)
Definition received (r : list (reply T)) : res (list T) :=
  match r with [RUnit; RUnit; RBuf (Some b)] => Ok b | _ => Err Uninit end.
(** sig[0] << " " << sig[1] ..., test/test3d_1.cpp:100-104 *)
Definition spaced (l : list T) : toks :=
  match l with [] => [] | x :: l => TD x :: flat_map (fun y => [sp; TD y]) l end.
(** one turn of the time loop, test/test3d_1.cpp:77-108, test3d_7.cpp:80-111, test2d_1.cpp:80-110;
    [name] and [n] are the label and the number of stress components printed *)
Definition time_step (fuel : nat) (orc : Z -> Z -> Z -> peek) (pk : Z -> peek) (name : string) (n dir : Z)
  (st : obj T * files T * list T * toks) (t : Z) : res (obj T * files T * list T * toks) :=
  let '(s, eps, out) := st in
  eps <- load_at dir t eps ;;
  ' r <- run [SetStrain 1 eps; Homogenize fuel (orc t); GetStress 1] s ;;
  sig <- received (snd r) ;;
  ' r <- run [UpdateVars; WriteInfo] (fst r) ;;
  x <- arg eps dir ;;
  s <- mapM (fun i => of_option Uninit (nth_error sig (Z.to_nat i))) (zrange 0 n) ;;
  ' r <- run [Output fuel (pk t) t 1] (fst r) ;;
  Ok (fst r, eps, out ++ [TS "time step = "; TI t; NL; TS "eps = "; TD x; NL; TS name] ++ spaced s ++ [NL; NL]).
(** the time loop on a new object *)
Definition drive (fuel : nat) (orc : Z -> Z -> Z -> peek) (pk : Z -> peek) (name : string) (n dir steps : Z)
  (s : obj T * files T) : res (obj T * files T * list T * toks) :=
  foldM (time_step fuel orc pk name n dir) (zrange 0 steps) (s, ltab 6 (fun _ => ofZ 0), []).
(** argv[k] if it is there, 10 otherwise, e.g. test/test3d_1.cpp:44 *)
Definition steps_of (r : list Z) : Z := match r with s :: _ => s | [] => 10%Z end.

(** ** The programs: what main returns, the files and the standard output.  argv holds the
    values of atoi. *)
(** test/test3d_1.cpp:62-69 *)
Definition mats_3d_1 (i : Z) : option T :=
  match i with 0 => Some (ofZ 1000000) | 1 => Some (dec 25 2) | 2 => Some (ofZ 100) | 3 => Some (ofZ 200000)
             | 10 => Some (ofZ 1000000) | 11 => Some (dec 25 2) | _ => None end%Z.
(** test/test3d_1.cpp:32-110 *)
Definition test3d_1 (fuel : nat) (q0 : Z -> peek) (orc : Z -> Z -> Z -> peek) (pk : Z -> peek) (j : junk T) (rest : Z -> T)
  (argv : list Z) (fs : files T) : res (Z * files T * toks) :=
  match argv with
  | nx :: ny :: nz :: dir :: r =>
    o <- construct fuel q0 j 3 [nx; ny; nz] 1 cell_params [1; 0]%Z (auto 20 mats_3d_1 rest) ;;
    ' s <- drive fuel orc pk "sig = " 6 dir (steps_of r) (o, construct_files o fs) ;;
    Ok (0%Z, snd (fst (fst s)), snd s)
  | _ => Ok (1%Z, fs, [])
  end.
(** test/test3d_7.cpp:62-71 and test2d_1.cpp:62-71 *)
Definition mats_3d_7 (i : Z) : option T :=
  match i with 0 => Some (ofZ 1000000) | 1 => Some (dec 3 1) | 2 => Some (ofZ 50000) | 3 => Some (ofZ 50000)
             | 10 => Some (ofZ 1000000) | 11 => Some (dec 3 1) | 12 => Some (ofZ 10000) | 13 => Some (ofZ 0) | _ => None end%Z.
(** test/test3d_7.cpp:32-113 *)
Definition test3d_7 (fuel : nat) (q0 : Z -> peek) (orc : Z -> Z -> Z -> peek) (pk : Z -> peek) (j : junk T) (rest : Z -> T)
  (argv : list Z) (fs : files T) : res (Z * files T * toks) :=
  match argv with
  | nx :: ny :: nz :: r =>
    o <- construct fuel q0 j 3 [nx; ny; nz] 1 cell_params [1; 0]%Z (auto 20 mats_3d_7 rest) ;;
    ' s <- drive fuel orc pk "sig = " 6 2 (steps_of r) (o, construct_files o fs) ;;
    Ok (0%Z, snd (fst (fst s)), snd s)
  | _ => Ok (1%Z, fs, [])
  end.
(** test/test2d_1.cpp:32-112; [z] is what the unset size[2] holds *)
Definition test2d_1 (fuel : nat) (q0 : Z -> peek) (orc : Z -> Z -> Z -> peek) (pk : Z -> peek) (j : junk T) (z : Z) (rest : Z -> T)
  (argv : list Z) (fs : files T) : res (Z * files T * toks) :=
  match argv with
  | nx :: ny :: r =>
    if negb ((1 <? nx) && (1 <? ny))%Z then Err Abort else
    o <- construct fuel q0 j 2 [nx; ny; z] 1 cell_params [0; 0]%Z (auto 20 mats_3d_7 rest) ;;
    ' s <- drive fuel orc pk "MacroStress = " 3 2 (steps_of r) (o, construct_files o fs) ;;
    Ok (0%Z, snd (fst (fst s)), snd s)
  | _ => Ok (1%Z, fs, [])
  end.

(** the micro_params of test/test3d_8.cpp:54-58 *)
Definition cell_params_8 : list T := [ofZ 1; ofZ 1; ofZ 1; dec 1 1; dec 1 5].
(** test/test3d_8.cpp:63-73: the eight given numbers come first, the rest of the array is 0 *)
Definition mats_3d_8 : list T :=
  [ofZ 1000000; dec 3 1; ofZ 50000; ofZ 50000; ofZ 1000000; dec 3 1; ofZ 10000; ofZ 0] ++ repeat (ofZ 0) 12.
(** the wide columns of test/test3d_8.cpp:101-103 and 116-118 *)
Definition columns (l : list T) : toks := flat_map (fun x => [TD x; sp]) l ++ [NL].
(** test/test3d_8.cpp:96-104: for gp in 0, 1 *)
Definition set_both (eps : list T) (out : toks) (s : obj T * files T) : res (obj T * files T * toks) :=
  foldM (fun st g =>
    ' r <- run [SetStrain g eps] (fst st) ;;
    Ok (fst r, snd st ++ [TS "gp = "; TI g; TS " eps = "] ++ columns eps)) [0; 1]%Z (s, out).
(** test/test3d_8.cpp:111-119 *)
Definition get_both (out : toks) (s : obj T * files T) : res (obj T * files T * toks) :=
  foldM (fun st g =>
    ' r <- run [GetStress g] (fst st) ;;
    b <- received (RUnit :: RUnit :: snd r) ;;
    l <- mapM (fun i => of_option Uninit (nth_error b (Z.to_nat i))) (zrange 0 6) ;;
    Ok (fst r, snd st ++ [TS "gp = "; TI g; TS " sig = "] ++ columns l)) [0; 1]%Z (s, out).
(** test/test3d_8.cpp:82-124 *)
Definition time_step_8 (fuel : nat) (orc : Z -> Z -> Z -> peek) (st : obj T * files T * list T * toks) (t : Z)
  : res (obj T * files T * list T * toks) :=
  let '(s, eps, out) := st in
  eps <- load_at 2 t eps ;;
  ' r <- set_both eps (out ++ [TS "Time step = "; TI t; NL; TS "setting strains ..."; NL]) s ;;
  ' q <- run [Homogenize fuel (orc t)] (fst r) ;;
  ' r <- get_both (snd r ++ [TS "Homogenizing ..."; NL; TS "Getting stresses ..."; NL]) (fst q) ;;
  ' q <- run [UpdateVars; WriteInfo] (fst r) ;;
  Ok (fst q, eps, snd r ++ [NL]).
(** test/test3d_8.cpp:35-126 *)
Definition test3d_8 (fuel : nat) (q0 : Z -> peek) (orc : Z -> Z -> Z -> peek) (j : junk T)
  (argv : list Z) (fs : files T) : res (Z * files T * toks) :=
  match argv with
  | nx :: ny :: nz :: r =>
    if negb ((1 <? nx) && (1 <? ny) && (1 <? nz))%Z then Err Abort else
    o <- construct fuel q0 j 3 [nx; ny; nz] 1 cell_params_8 [1; 0]%Z mats_3d_8 ;;
    ' s <- foldM (time_step_8 fuel orc) (zrange 0 (steps_of r)) (o, construct_files o fs, ltab 6 (fun _ => ofZ 0), []) ;;
    Ok (0%Z, snd (fst (fst s)), snd s)
  | _ => Ok (1%Z, fs, [])
  end.

(** the calls of test/test3d_3.f90:53-65; micro_params has four entries, the fourth is assigned
    twice (test/test3d_3.f90:43-44), and params only has E and nu *)
Definition test3d_3_calls (fuel : nat) (q0 : Z -> peek) (orc : Z -> Z -> peek) (j : junk T) (rest : Z -> T) : list (wcall T) :=
  [WConstruct fuel q0 j 2 [10; 10; 1] 0 [ofZ 1; ofZ 1; ofZ 1; dec 0 1] [0; 0]
     (auto 20 (fun i => match i with 0 => Some (ofZ 1000000) | 1 => Some (dec 3 1) | 10 => Some (ofZ 10000000) | 11 => Some (dec 3 1) | _ => None end) rest);
   WCall (SetStrain 69 [dec 5 3; ofZ 0; ofZ 0]); WCall (Homogenize fuel orc); WCall (GetStress 69); WCall (GetCtan 69)]%Z.
End Driver.
