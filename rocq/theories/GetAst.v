(** Syntax trees of the bodies of the loops of get_macro_stress and get_macro_ctan of
    /repo/src/homogenize.cpp (the cited lines), in the language of Clite.v.  Generated by
    tools/gen_ast_get.py from the source text; do not edit. *)
From Coq Require Import String.
From Verif Require Import Base Clite EllAst AsmAst HomAst.
Local Open Scope string_scope.
Local Open Scope Z_scope.

(** src/homogenize.cpp:115-119, the body of the loop *)
Definition ast_get_stress_gp : fdef := mkFun ["this"; "gp"; "gp_id"; "macro_stress"]
 (SIf (EBin Eq (EFld (EV "gp") "id") (EV "gp_id")) (block [(SFor "i" (EI 0) (EBin Lt (EV "i") (EFld (EV "this") "nvoi")) (SStore (EV "macro_stress") (EV "i") (EIdx (EFld (EV "gp") "macro_stress") (EV "i"))));
 SBreak]) SSkip).

(** src/homogenize.cpp:125-129, the body of the loop *)
Definition ast_get_ctan_gp : fdef := mkFun ["this"; "gp"; "gp_id"; "macro_ctan"]
 (SIf (EBin Eq (EFld (EV "gp") "id") (EV "gp_id")) (block [(SFor "i" (EI 0) (EBin Lt (EV "i") (EBin Mul (EFld (EV "this") "nvoi") (EFld (EV "this") "nvoi"))) (SStore (EV "macro_ctan") (EV "i") (EIdx (EFld (EV "gp") "macro_ctan") (EV "i"))));
 SBreak]) SSkip).

(** the functions by name *)
Definition get_prog (f : string) : option fdef :=
  if String.eqb f "get_stress_gp" then Some ast_get_stress_gp else
  if String.eqb f "get_ctan_gp" then Some ast_get_ctan_gp else
  None.
