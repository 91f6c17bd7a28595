(** C59, C18 and C72: the allocation ledger.  A heap is the list of live blocks; freeing a
    block that is not live is an error.  [l_construct], [l_run], [l_destroy] and [l_wrun] are
    the constructor, the calls, the destructor and the wrapper with every malloc, calloc, new,
    free and delete of the code. *)
From Coq Require Import Reals Permutation.
From Verif Require Import Base Scalar EllSpec EllModel AssemblyModel MicroModel OutputModel ApiBase ApiRun ApiHist Build ApiSpec ApiProps ApiCases ApiCommit OneCell ApiEx Invalid BuildEx LedgerModel LedgerProps MemEx.
Open Scope Z_scope.

(** A 3D object in a heap with two live blocks, and calls with two points. *)
Example C59_example : heap_ok (mkHeap 5 [4; 2]) /\ exists o o' fs rs,
  construct fuel40 (fun _ => counting) (flat_junk 1%R) 3 [4; 5; 3] 0 mp5 [1; 2] ps20 = Ok o /\ run story (o, no_files) = Ok (o', fs, rs) /\ length (o_gps o') = 2%nat.
Proof. exact ledger_ex. Qed.

(** C59.  The ledger does not change what the program computes, nothing is freed twice, at any
    time the object holds its ten blocks and two for each point that was ever non-linear, and
    the destructor leaves exactly the blocks that were live before the construction. *)
Theorem C59_object_releases_everything : forall (T : Type) (OT : Ops T) fuel orc (j : junk T) dim size mtype mp mt ps h0 cs fs,
  NoDup (h_live h0) -> (forall b, In b (h_live h0) -> b < h_next h0) ->
  match construct fuel orc j dim size mtype mp mt ps with
  | Err e => l_construct fuel orc j dim size mtype mp mt ps h0 = Err e
  | Ok o => exists p h, l_construct fuel orc j dim size mtype mp mt ps h0 = Ok (o, p, h) /\
      match run cs (o, fs) with
      | Err e => l_run cs (o, fs) p h = Err e
      | Ok (o', fs', rs) => exists p' h' h'', l_run cs (o, fs) p h = Ok (o', fs', rs, p', h') /\
          length (h_live h') = (length (h_live h0) + 10 + 2 * length (filter (fun g => match g_n g with Some _ => true | None => false end) (o_gps o')))%nat /\
          l_destroy p' h' = Ok h'' /\ Permutation (h_live h'') (h_live h0)
      end
  end.
Proof. exact @ledger_all. Qed.
Print Assumptions C59_object_releases_everything.

(** The conjugate-gradient solvers release their workspace. *)
Theorem C59_cg_releases_workspace : forall (T : Type) (OT : Ops T) slot (s : solver T) m nF nn b x h r h',
  NoDup (h_live h) -> (forall k, In k (h_live h) -> k < h_next h) -> l_cg slot s m nF nn b x h = Ok (r, h') ->
  cgpd slot s m nF nn b x = Ok r /\ Permutation (h_live h') (h_live h).
Proof. exact @cg_releases_all. Qed.
Print Assumptions C59_cg_releases_workspace.

(** A run of the relaxation solver. *)
Example C18_leak_example : exists (m : ell R) sv b x r h', l_jacobi sv m 2 4 4 b x (mkHeap 0 []) = Ok (r, h').
Proof. exact jacobi_ex. Qed.
(** C18.  Every call of the relaxation solver leaves its two blocks behind (src/ell.cpp:68-69). *)
Theorem C18_jacobi_leaks_refuted : forall (T : Type) (OT : Ops T) (s : solver T) m nF nx ny b x h r h',
  NoDup (h_live h) -> (forall k, In k (h_live h) -> k < h_next h) -> l_jacobi s m nF nx ny b x h = Ok (r, h') ->
  ell_solve_jacobi_2D s m nF nx ny b x = Ok r /\ exists k e, ~ In k (h_live h) /\ ~ In e (h_live h) /\ k <> e /\ h_live h' = k :: e :: h_live h.
Proof. exact @jacobi_leaks_all. Qed.
Print Assumptions C18_jacobi_leaks_refuted.

(** Nine wrapper calls with three constructions. *)
Example C72_example : exists (ws : list (wcall R)) s rs, wrun ws (None, no_files) = Ok (s, rs) /\
  length (filter (fun c => match c with WConstruct _ _ _ _ _ _ _ _ _ => true | _ => false end) ws) = 3%nat.
Proof. exact wrapper_ex. Qed.
(** C72.  Constructing again through the wrapper drops the previous object: each construction
    leaves at least eleven live blocks, its own and the object itself, whatever follows. *)
Theorem C72_wrapper_leaks_refuted : forall (T : Type) (OT : Ops T) (ws : list (wcall T)) fs h0,
  NoDup (h_live h0) -> (forall b, In b (h_live h0) -> b < h_next h0) ->
  match wrun ws (None, fs) with
  | Ok (s', rs) => exists p' h', l_wrun ws (None, fs) (mkPtrs [] []) h0 = Ok (s', rs, p', h') /\
      (length (h_live h0) + 11 * length (filter (fun c => match c with WConstruct _ _ _ _ _ _ _ _ _ => true | _ => false end) ws) <= length (h_live h'))%nat
  | Err e => l_wrun ws (None, fs) (mkPtrs [] []) h0 = Err e
  end.
Proof. exact @wrapper_leaks_all. Qed.
Print Assumptions C72_wrapper_leaks_refuted.
