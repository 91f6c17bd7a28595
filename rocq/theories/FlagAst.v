(** Syntax trees of get_nl_flag of /repo/src/micro.cpp (the cited lines), in the language of Clite.v.
    Generated by tools/gen_ast_flag.py from the source text; do not edit. *)
From Coq Require Import String.
From Verif Require Import Base Clite EllAst AsmAst HomAst.
Local Open Scope string_scope.
Local Open Scope Z_scope.

(** src/micro.cpp:169-169, before the loop *)
Definition ast_flag_head : fdef := mkFun ["this"; "gp_id"; "non_linear"]
 (SStore (EV "non_linear") (EI 0) (EI 0)).

(** src/micro.cpp:171-174, the body of the loop *)
Definition ast_flag_gp : fdef := mkFun ["this"; "gp"; "gp_id"; "non_linear"]
 (SIf (EBin Eq (EFld (EV "gp") "id") (EV "gp_id")) (block [(SStore (EV "non_linear") (EI 0) (EBin Ne (EFld (EV "gp") "int_vars_n") ENull));
 SBreak]) SSkip).

(** the functions by name *)
Definition flag_prog (f : string) : option fdef :=
  if String.eqb f "flag_head" then Some ast_flag_head else
  if String.eqb f "flag_gp" then Some ast_flag_gp else
  None.
