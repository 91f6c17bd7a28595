(** C137-C138: the program text of one pass of the loops of homogenize and of update_vars of src/homogenize.cpp (the syntax
    trees of GpAst.v, under the semantics of Clite.v), in every arithmetic. *)
From Coq Require Import String FMapPositive.
From Verif Require Import Base Scalar EllSpec EllModel MicroModel Clite GpAst Sym AssemblyModel AsmPure NewtonBase ApiBase ApiRun ApiHist ApiExact Build AsmLit AsmLit2 AsmLit9 AsmLit14 AsmLit15
  AsmLit16 AsmLit17 AsmLit18 FixInst HomLit HomLit2 HomLit4 GpLit GpLit2 GetLit UpdLit HomList.
Local Open Scope string_scope.
Local Open Scope Z_scope.

Example C137_example : exists o inv w' g', v_dim (o_env o) = 2 /\ sane (o_env o) /\ dec 0 1 = (ofZ 0 : fx) /\ wfull (o_env o) (o_work o) /\
  pfull (o_ctan o) (nvoi (o_env o) * nvoi (o_env o)) /\ gp_ok (o_env o) fx_gp /\
  is_linear (o_env o) (o_ctan o) (g_strain fx_gp) inv_min = Ok (true, inv) /\ micro inv = 3 /\
  homog_gp 5 (fun _ => alone) (o_env o) (o_ctan o) (o_work o) fx_gp = Ok (w', inv, g') /\
  let h := gp_mem (o_env o) (o_work o) (o_ctan o) fx_gp (Some VNull) (Some VNull) (malloc 0) (malloc 0) (ofZ 0) in
  let fs := obj_flds (o_env o) (ofZ 0) in
  NoDup [a_this home; a_vo home; p_gp gp_home; 16; p_eps gp_home; p_ctan gp_home; p_sig gp_home; p_its gp_home; p_err gp_home] /\
  h (a_this home) = Some (OS fs) /\ this_in fs (o_env o) home /\ fget fs "ctan_lin" = Some (ptr 16) /\ fget fs "num_int_vars" = Some (Some (VI (nvars (o_env o)))) /\
  fget fs "inv_max" = Some (Some (VD (ofZ 0))) /\ fget fs "inv_tol" = Some (Some (VD (v_inv_tol (o_env o)))) /\
  gp_lin fx_gp gp_home (gp_flds fx_gp (Some VNull) (Some VNull)) h /\ h 16 = Some (OD (o_ctan o)) /\ h (a_vo home) = Some (OD (w_vold (o_work o))).
Proof. exact gp_linear_case. Qed.
(** C137.  At a point in the linear range the text ends, and leaves the stress, tangent, counts, errors and invariant of the
    model's point and the old variables of the model's work space; it changes nothing else. *)
Theorem C137_linear_point_refines : forall T (OT : Ops T) (V : env T) P G cl k (h : Z -> option (@Clite.obj T)) fs gs c w g fuel orc w' inv inv' g' i0,
  sane V -> dec 0 1 = (ofZ 0 : T) -> wfull V w -> pfull c (nvoi V * nvoi V) -> gp_ok V g ->
  NoDup [a_this P; a_vo P; p_gp G; cl; p_eps G; p_ctan G; p_sig G; p_its G; p_err G] ->
  Forall (fun a => a < k) [a_this P; a_vo P; p_gp G; cl; p_eps G; p_ctan G; p_sig G; p_its G; p_err G] ->
  h (a_this P) = Some (OS fs) -> this_in fs V P -> fget fs "ctan_lin" = Some (ptr cl) -> fget fs "num_int_vars" = Some (Some (VI (nvars V))) ->
  fget fs "inv_max" = Some i0 -> fget fs "inv_tol" = Some (Some (VD (v_inv_tol V))) ->
  gp_lin g G gs h -> h cl = Some (OD c) -> h (a_vo P) = Some (OD (w_vold w)) ->
  is_linear V c (g_strain g) inv_min = Ok (true, inv) -> g_n g = None ->
  homog_gp fuel orc V c w g = Ok (w', inv', g') ->
  exists st fs' gs' vo ct sb zi zr, calls gp_prog "homogenize_gp" [VP (a_this P) 0; VP (p_gp G) 0] h k (Ok (st, Nrm)) /\
    mem st (a_this P) = Some (OS fs') /\ fget fs' "inv_max" = Some (Some (VD inv')) /\ (forall f, f <> "inv_max" -> fget fs' f = fget fs f) /\
    mem st (p_gp G) = Some (OS gs') /\ fget gs' "inv_max" = Some (Some (VD (g_inv g'))) /\ (forall f, f <> "inv_max" -> fget gs' f = fget gs f) /\
    mem st (a_vo P) = Some (OD vo) /\ (forall i, 0 <= i < nvars V -> aget vo i = aget (w_vold w') i) /\
    mem st (p_sig G) = Some (OD sb) /\ (forall i, 0 <= i < nvoi V -> aget sb i = aget (g_stress g') i) /\
    mem st (p_ctan G) = Some (OD ct) /\ (forall i, 0 <= i < nvoi V * nvoi V -> aget ct i = aget (g_ctan g') i) /\
    mem st (p_its G) = Some (OI zi) /\ mem st (p_err G) = Some (OD zr) /\
    (forall i, 0 <= i <= nvoi V -> aget zi i = aget (g_its g') i /\ aget zr i = aget (g_err g') i) /\
    (forall d, d < k -> ~ In d [a_this P; p_gp G; a_vo P; p_sig G; p_ctan G; p_its G; p_err G] -> mem st d = h d).
Proof. exact @gp_linear_refines. Qed.
Print Assumptions C137_linear_point_refines.

Example C137_list_example : exists o w' inv' l', let l := [fx_gp; fx_gp2] in let V := o_env o in
  let h := hl_mem V (o_work o) (o_ctan o) fx_gp fx_gp2 (ofZ 0) in let fs := obj_flds V (ofZ 0) in
  sane V /\ dec 0 1 = (ofZ 0 : fx) /\ pfull (o_ctan o) (nvoi V * nvoi V) /\ wfull V (o_work o) /\ Forall (gp_ok V) l /\
  Forall (fun g => g_n g = None /\ exists inv, is_linear V (o_ctan o) (g_strain g) inv_min = Ok (true, inv)) l /\
  NoDup (a_this home :: a_vo home :: 16 :: flat_map gaddrs [gp_home; hl_home]) /\
  h (a_this home) = Some (OS fs) /\ this_in fs V home /\ fget fs "ctan_lin" = Some (ptr 16) /\ fget fs "num_int_vars" = Some (Some (VI (nvars V))) /\
  fget fs "inv_max" = Some (Some (VD (ofZ 0))) /\ fget fs "inv_tol" = Some (Some (VD (v_inv_tol V))) /\
  h 16 = Some (OD (o_ctan o)) /\ h (a_vo home) = Some (OD (w_vold (o_work o))) /\ Forall2 (gp_start h) l [gp_home; hl_home] /\
  homog_list 5 (fun _ _ => alone) V (o_ctan o) l (o_work o) None = Ok (w', inv', l', 2).
Proof. exact homog_list_case. Qed.
(** Over a whole list of points in the linear range: the loop of homogenize leaves in memory the answers of the model's list, and
    changes nothing but the points, the old variables and inv_max of the object. *)
Theorem C137_linear_list_refines : forall T (OT : Ops T) (V : env T) P cl c fuel orc l Gl w inv0 w' inv' l' j' k (h : Z -> option (@Clite.obj T)) fs i0,
  sane V -> dec 0 1 = (ofZ 0 : T) -> pfull c (nvoi V * nvoi V) -> wfull V w ->
  Forall (gp_ok V) l -> Forall (fun g => g_n g = None /\ exists inv, is_linear V c (g_strain g) inv_min = Ok (true, inv)) l ->
  NoDup (a_this P :: a_vo P :: cl :: flat_map gaddrs Gl) -> Forall (fun a => a < k) (a_this P :: a_vo P :: cl :: flat_map gaddrs Gl) ->
  h (a_this P) = Some (OS fs) -> this_in fs V P -> fget fs "ctan_lin" = Some (ptr cl) -> fget fs "num_int_vars" = Some (Some (VI (nvars V))) ->
  fget fs "inv_max" = Some i0 -> fget fs "inv_tol" = Some (Some (VD (v_inv_tol V))) ->
  h cl = Some (OD c) -> h (a_vo P) = Some (OD (w_vold w)) -> Forall2 (gp_start h) l Gl ->
  homog_list fuel orc V c l w inv0 = Ok (w', inv', l', j') ->
  exists h' k', walk gp_prog "homogenize_gp" (a_this P) [] (map p_gp Gl) h k h' k' /\ Forall2 (gp_out V h') l' Gl /\
    (exists fs', h' (a_this P) = Some (OS fs') /\ forall f, f <> "inv_max" -> fget fs' f = fget fs f) /\
    (forall d, d < k -> ~ In d (a_this P :: a_vo P :: flat_map gaddrs Gl) -> h' d = h d).
Proof. exact @homog_linear_text. Qed.
Print Assumptions C137_linear_list_refines.

Example C138_example : sane fx_env3 /\ nvars fx_env3 = 56 /\ exists e n k g', let g := var_gp e n k in gp_ok fx_env3 g /\
  (forall i, 0 <= i < 56 -> aget n i = Some (ofZ 0) /\ aget k i = Some (ofZ 1)) /\ update_gp fx_env3 g = Ok g' /\
  let h := gp_mem fx_env3 (mkWork (malloc 0) (malloc 0) (malloc 0) (EllModel.mkEll 0 0 0 (malloc 0) (malloc 0)) (malloc 0) (malloc 0)) (malloc 0) g (ptr 23) (ptr 24) n k (ofZ 0) in
  a_this home <> 17 /\ h (a_this home) = Some (OS (obj_flds fx_env3 (ofZ 0))) /\ fget (obj_flds fx_env3 (ofZ 0)) "num_int_vars" = Some (Some (VI (nvars fx_env3))) /\
  h 17 = Some (OS (gp_flds g (ptr 23) (ptr 24))) /\ fget (gp_flds g (ptr 23) (ptr 24)) "int_vars_n" = Some (ptr 23) /\ fget (gp_flds g (ptr 23) (ptr 24)) "int_vars_k" = Some (ptr 24) /\
  h 23 = Some (OD n) /\ h 24 = Some (OD k).
Proof. exact gp_update_case. Qed.
(** C138.  The text of update_vars copies the trial variables of a point over its old ones as the model does and changes
    nothing else; a point without variables is left alone. *)
Theorem C138_update_refines : forall T (OT : Ops T) (V : env T) P ga k (h : Z -> option (@Clite.obj T)) fs gs g g',
  sane V -> gp_ok V g -> a_this P <> ga ->
  h (a_this P) = Some (OS fs) -> fget fs "num_int_vars" = Some (Some (VI (nvars V))) -> h ga = Some (OS gs) ->
  update_gp V g = Ok g' ->
  match g_n g, g_k g with
  | None, None => fget gs "int_vars_n" = Some (Some VNull) ->
      exists st, calls gp_prog "update_gp" [VP (a_this P) 0; VP ga 0] h k (Ok (st, Nrm)) /\ g' = g /\ mem st = h /\ nxt st = k
  | Some n, Some kk => forall bn bk, fget gs "int_vars_n" = Some (ptr bn) -> fget gs "int_vars_k" = Some (ptr bk) ->
      h bn = Some (OD n) -> h bk = Some (OD kk) -> bn <> bk ->
      exists st n1 n2, calls gp_prog "update_gp" [VP (a_this P) 0; VP ga 0] h k (Ok (st, Nrm)) /\
        g_n g' = Some n2 /\ mem st bn = Some (OD n1) /\ alen n1 = alen n2 /\ (forall i, aget n1 i = aget n2 i) /\
        (forall d, d <> bn -> mem st d = h d) /\ nxt st = k
  | _, _ => True
  end.
Proof. exact @gp_update_refines. Qed.
Print Assumptions C138_update_refines.

Example C138_list_example : exists e n k l', let l := [upd_pt 3 e None None; upd_pt 7 e (Some n) (Some k)] in let h := upd_mem n k in
  sane fx_env3 /\ Forall (gp_ok fx_env3) l /\ h (a_this home) = Some (OS (obj_flds fx_env3 (ofZ 0))) /\
  fget (obj_flds fx_env3 (ofZ 0)) "num_int_vars" = Some (Some (VI (nvars fx_env3))) /\
  NoDup (a_this home :: flat_map vaddrs [mkVplace 17 18 19; mkVplace 20 21 22]) /\ Forall2 (vars_at h) l [mkVplace 17 18 19; mkVplace 20 21 22] /\
  (forall i, 0 <= i < 56 -> aget n i = Some (ofZ 0) /\ aget k i = Some (ofZ 1)) /\ mapM (update_gp fx_env3) l = Ok l'.
Proof. exact update_case. Qed.
(** Over the whole list: the loop of update_vars leaves in memory the variables of the model's list, and changes nothing but the
    old variables of the points. *)
Theorem C138_update_list_refines : forall T (OT : Ops T) (V : env T) P k fs,
  sane V ->
  forall l tl l' (h : Z -> option (@Clite.obj T)), Forall (gp_ok V) l -> h (a_this P) = Some (OS fs) -> fget fs "num_int_vars" = Some (Some (VI (nvars V))) ->
  NoDup (a_this P :: flat_map vaddrs tl) -> Forall2 (vars_at h) l tl -> mapM (update_gp V) l = Ok l' ->
  exists h', walk gp_prog "update_gp" (a_this P) [] (map q_gp tl) h k h' k /\ Forall2 (vars_at h') l' tl /\
    (forall d, ~ In d (map q_n tl) -> h' d = h d).
Proof. exact @update_text. Qed.
Print Assumptions C138_update_list_refines.
