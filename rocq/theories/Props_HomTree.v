(** C135-C136: the program text of calc_ctan_lin, is_linear, get_inv_1 and get_inv_2 of src/homogenize.cpp (the syntax trees of
    HomAst.v, under the semantics of Clite.v), in every arithmetic. *)
From Coq Require Import String.
From Verif Require Import Base Scalar MicroModel Clite AsmAst HomAst Sym EllModel AssemblyModel Build AsmLit AsmLit2 AsmLit9 AsmLit14 AsmLit15 AsmLit16 AsmLit17 AsmLit18 AsmLit22
  FixInst HomLit HomLit2 HomLit3 HomLit4.
Local Open Scope string_scope.
Local Open Scope Z_scope.

Example C135_example : dec 0 1 = (ofZ 0 : fx) /\ valid_args 2 2 2 1 0 ex_mp [0; 0] ex_ps /\ total_junk ex_junk /\
  exists o, construct 5 (fun _ => alone) ex_junk 2 [2; 2; 1] 0 ex_mp [0; 0] ex_ps = Ok o /\ option_map micro (aget (o_ctan o) 1) = Some 115384615 /\
  forall w, let h := lin_mem (o_env o) w (malloc 36) (malloc 6) (ofZ 0) in
    whole (o_env o) home 14 15 w h /\ h 0 = Some (OS (lin_flds (o_env o) (ofZ 0))) /\ fget (lin_flds (o_env o) (ofZ 0)) "ctan_lin" = Some (ptr 16) /\
    h 16 = Some (OD (malloc 36)) /\ blank_from h 18 /\
    NoDup (whole_addrs home 14 15 ++ [16])%list /\ Forall (fun a => a < 18) (whole_addrs home 14 15 ++ [16])%list.
Proof. exact built_case. Qed.
(** C135.  Where the model's calc_ctan_lin ends without reading an int behind a local, so does the text, with the same
    working arrays and the same tangent, and it changes nothing else. *)
Theorem C135_linear_tangent_refines : forall T (OT : Ops T) (V : env T) P bc bv cl k h fs,
  v_dim V = 2 \/ v_dim V = 3 -> dec 0 1 = (ofZ 0 : T) ->
  NoDup (whole_addrs P bc bv ++ [cl])%list -> Forall (fun a => a < k) (whole_addrs P bc bv ++ [cl])%list ->
  h (a_this P) = Some (OS fs) -> fget fs "ctan_lin" = Some (ptr cl) ->
  forall fuel w c w' c', blank_from h k -> whole V P bc bv w h -> h cl = Some (OD c) ->
  calc_ctan_lin fuel (fun _ => alone) V w c = Ok (w', c') ->
  exists st, calls hom_prog "calc_ctan_lin" [VP (a_this P) 0] h k (Ok (st, Nrm)) /\
    whole V P bc bv w' (mem st) /\ mem st cl = Some (OD c') /\
    frame h (mem st) k [a_vn P; a_u P; bv; a_b P; a_du P; cl] /\ blank_from (mem st) (nxt st) /\ k <= nxt st.
Proof. exact @ctan_lin_text. Qed.
Print Assumptions C135_linear_tangent_refines.
(** Run on the arrays the constructor has just allocated, the text leaves the tangent and the arrays of the built object. *)
Theorem C135_built_text : forall T (OT : Ops T) fuel (j : junk T) dim nx ny nz mtype mp mt ps (o : MicroModel.obj T), dec 0 1 = (ofZ 0 : T) ->
  valid_args dim nx ny nz mtype mp mt ps -> total_junk j ->
  construct fuel (fun _ => alone) j dim [nx; ny; nz] mtype mp mt ps = Ok o ->
  exists A, (if dim =? 2 then ell_init_2D 2 nx ny else ell_init_3D 3 nx ny nz) = Ok A /\
  forall P bc bv cl k h fs, NoDup (whole_addrs P bc bv ++ [cl])%list -> Forall (fun a => a < k) (whole_addrs P bc bv ++ [cl])%list ->
  h (a_this P) = Some (OS fs) -> fget fs "ctan_lin" = Some (ptr cl) -> blank_from h k ->
  whole (o_env o) P bc bv (mkWork (MicroModel.alloc (j_u j) (ndofs (o_env o))) (malloc (ndofs (o_env o))) (malloc (ndofs (o_env o))) A
    (MicroModel.alloc (j_vold j) (nvars (o_env o))) (MicroModel.alloc (j_vnew j) (nvars (o_env o)))) h ->
  h cl = Some (OD (malloc 36)) ->
  exists st, calls hom_prog "calc_ctan_lin" [VP (a_this P) 0] h k (Ok (st, Nrm)) /\
    whole (o_env o) P bc bv (o_work o) (mem st) /\ mem st cl = Some (OD (o_ctan o)) /\
    frame h (mem st) k [a_vn P; a_u P; bv; a_b P; a_du P; cl] /\ blank_from (mem st) (nxt st) /\ k <= nxt st.
Proof. exact @built_text. Qed.
Print Assumptions C135_built_text.

Example C136_example : exists o b1 m1 b2 m2, v_dim (o_env o) = 2 /\ is_linear (o_env o) (o_ctan o) (strain3 1) (ofZ 0) = Ok (b1, m1) /\
    is_linear (o_env o) (o_ctan o) (strain3 1000) (ofZ 0) = Ok (b2, m2) /\ b1 = true /\ b2 = false /\
  forall w e, let h := lin_mem (o_env o) w (o_ctan o) e (ofZ 0) in let fs := lin_flds (o_env o) (ofZ 0) in
    h (a_this home) = Some (OS fs) /\ this_in fs (o_env o) home /\ h 16 = Some (OD (o_ctan o)) /\ h 17 = Some (OD e) /\
    fget fs "ctan_lin" = Some (ptr 16) /\ fget fs "inv_max" = Some (Some (VD (ofZ 0))) /\ fget fs "inv_tol" = Some (Some (VD (v_inv_tol (o_env o)))).
Proof. exact linear_case. Qed.
(** C136.  The text of is_linear answers as the model does, raises inv_max as the model does and changes nothing else. *)
Theorem C136_is_linear_refines : forall T (OT : Ops T) (V : env T) P k h fs,
  v_dim V = 2 \/ v_dim V = 3 -> h (a_this P) = Some (OS fs) -> this_in fs V P ->
  forall cl ec (c e : arr T) m, a_this P < k /\ cl < k /\ ec < k ->
  fget fs "ctan_lin" = Some (ptr cl) -> fget fs "inv_max" = Some (Some (VD m)) -> fget fs "inv_tol" = Some (Some (VD (v_inv_tol V))) ->
  h cl = Some (OD c) -> h ec = Some (OD e) ->
  forall b m', is_linear V c e m = Ok (b, m') ->
  exists st fs', calls hom_prog "is_linear" [VP (a_this P) 0; VP ec 0] h k (Ok (st, Ret (VI (if b : bool then 1 else 0)))) /\
    mem st (a_this P) = Some (OS fs') /\ fget fs' "inv_max" = Some (Some (VD m')) /\ (forall f, f <> "inv_max" -> fget fs' f = fget fs f) /\
    (forall d, d < k -> d <> a_this P -> mem st d = h d).
Proof. exact @is_linear_text. Qed.
Print Assumptions C136_is_linear_refines.
(** The invariants of a tensor: the texts store nothing and return the model's values, 0.0 / 0.0 for the second one in the plane. *)
Theorem C136_invariants_refine : forall T (OT : Ops T) (V : env T) P k h fs,
  v_dim V = 2 \/ v_dim V = 3 -> h (a_this P) = Some (OS fs) -> this_in fs V P ->
  forall ta a t, h ta = Some (OD a) -> pvec (nvoi V) a t ->
  (forall x, get_inv_1 V t = Ok x ->
     exists st, calls hom_prog "get_inv_1" [VP (a_this P) 0; VP ta 0] h k (Ok (st, Ret (VD x))) /\ mem st = h /\ nxt st = k) /\
  exists st, calls hom_prog "get_inv_2" [VP (a_this P) 0; VP ta 0] h k
    (Ok (st, Ret (VD (match get_inv_2 V t with Some x => x | None => odiv (ofZ 0) (ofZ 0) end)))) /\ mem st = h /\ nxt st = k.
Proof. exact @invariants_text. Qed.
Print Assumptions C136_invariants_refine.
