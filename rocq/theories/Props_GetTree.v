(** C139: the program text of get_macro_stress and get_macro_ctan of src/homogenize.cpp (the syntax trees of GetAst.v, under the
    semantics of Clite.v, run over the list of Gauss points), in every arithmetic. *)
From Coq Require Import String FMapPositive.
From Verif Require Import Base Scalar EllSpec EllModel MicroModel Clite GetAst Sym AssemblyModel AsmPure NewtonBase ApiBase AsmLit AsmLit2 AsmLit9 AsmLit14 AsmLit15
  FixInst HomLit4 GpLit GpLit2 GetLit.
Local Open Scope string_scope.
Local Open Scope Z_scope.

Example C139_example : exists s c rs rc, let l := [get_pt 3 (malloc 6) (malloc 36); get_pt 7 s c] in let h := get_mem s c in let fs := obj_flds fx_env3 (ofZ 0) in
  v_dim fx_env3 = 3 /\ h (a_this home) = Some (OS fs) /\ this_in fs fx_env3 home /\ a_this home <> 30 /\ h 30 = Some (OD (malloc 36)) /\
  Forall2 (gp_in "macro_stress" g_stress 30 h) l [17; 20] /\ Forall2 (gp_in "macro_ctan" g_ctan 30 h) l [17; 20] /\
  (forall i, 0 <= i < 6 -> aget s i = Some (ofZ i)) /\ get_macro_stress fx_env3 7 l = Ok (Some rs) /\ get_macro_ctan fx_env3 7 l = Ok (Some rc) /\
  get_macro_stress fx_env3 8 l = Ok None.
Proof. exact get_case. Qed.
(** C139.  The text walks the list as far as the first point with the id, copies its stress to the caller's buffer as the model
    answers, and changes nothing else; without such a point it changes nothing. *)
Theorem C139_get_stress_refines : forall T (OT : Ops T) (V : env T) P id oa k (h : Z -> option (@Clite.obj T)) fs out l al r,
  v_dim V = 2 \/ v_dim V = 3 ->
  h (a_this P) = Some (OS fs) -> this_in fs V P -> a_this P <> oa -> h oa = Some (OD out) -> nvoi V <= alen out ->
  Forall2 (gp_in "macro_stress" g_stress oa h) l al -> get_macro_stress V id l = Ok r ->
  exists h', walk get_prog "get_stress_gp" (a_this P) [VI id; VP oa 0] al h k h' k /\
  match r with
  | None => h' = h
  | Some s => exists out', h' oa = Some (OD out') /\ alen out' = alen out /\ (forall i, 0 <= i < nvoi V -> aget out' i = Some (lget s i)) /\
      (forall i, ~ 0 <= i < nvoi V -> aget out' i = aget out i) /\ (forall d, d <> oa -> h' d = h d)
  end.
Proof. exact @get_stress_text. Qed.
Print Assumptions C139_get_stress_refines.
(** The same of the tangent. *)
Theorem C139_get_ctan_refines : forall T (OT : Ops T) (V : env T) P id oa k (h : Z -> option (@Clite.obj T)) fs out l al r,
  v_dim V = 2 \/ v_dim V = 3 ->
  h (a_this P) = Some (OS fs) -> this_in fs V P -> a_this P <> oa -> h oa = Some (OD out) -> nvoi V * nvoi V <= alen out ->
  Forall2 (gp_in "macro_ctan" g_ctan oa h) l al -> get_macro_ctan V id l = Ok r ->
  exists h', walk get_prog "get_ctan_gp" (a_this P) [VI id; VP oa 0] al h k h' k /\
  match r with
  | None => h' = h
  | Some s => exists out', h' oa = Some (OD out') /\ alen out' = alen out /\ (forall i, 0 <= i < nvoi V * nvoi V -> aget out' i = Some (lget s i)) /\
      (forall i, ~ 0 <= i < nvoi V * nvoi V -> aget out' i = aget out i) /\ (forall d, d <> oa -> h' d = h d)
  end.
Proof. exact @get_ctan_text. Qed.
Print Assumptions C139_get_ctan_refines.
