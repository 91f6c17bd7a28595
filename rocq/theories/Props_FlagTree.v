(** C140: the program text of get_nl_flag of src/micro.cpp (the syntax trees of FlagAst.v, under the semantics of Clite.v, the
    range-for being the relation walk of GetLit.v), in every arithmetic. *)
From Coq Require Import String FMapPositive.
From Verif Require Import Base Scalar MicroModel Clite FlagAst AsmCalls FixInst GetLit FlagLit.
Local Open Scope string_scope.
Local Open Scope Z_scope.

Example C140_example : exists l : list (gp fx), flag_mem 20 = Some (OI (malloc 1)) /\ 1 <= alen (malloc (T := Z) 1) /\ Forall2 (gp_has 20 flag_mem) l [17; 18; 19] /\
  get_nl_flag 3 l = 0 /\ get_nl_flag 7 l = 1 /\ get_nl_flag 9 l = 0 /\ get_nl_flag 8 l = 0.
Proof. exact flag_case. Qed.
(** C140.  Whatever the caller's variable held, the text leaves in it 1 if the first point with the id has old variables and 0
    otherwise, as the model answers, and changes nothing else. *)
Theorem C140_flag_refines : forall T (OT : Ops T) this id oa k (h : Z -> option (@Clite.obj T)) z l al,
  h oa = Some (OI z) -> 1 <= alen z -> Forall2 (gp_has oa h) l al ->
  exists st h', calls flag_prog "flag_head" [VP this 0; VI id; VP oa 0] h k (Ok (st, Nrm)) /\
    walk flag_prog "flag_gp" this [VI id; VP oa 0] al (mem st) (nxt st) h' k /\
    (exists z', h' oa = Some (OI z') /\ aget z' 0 = Some (get_nl_flag id l)) /\ (forall d, d <> oa -> h' d = h d).
Proof. exact @flag_text. Qed.
Print Assumptions C140_flag_refines.
