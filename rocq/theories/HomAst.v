(** Syntax trees of functions of /repo/src/homogenize.cpp (the cited lines), in the language
    of Clite.v.  Generated by tools/gen_ast_hom.py from the source text; do not edit. *)
From Coq Require Import String.
From Verif Require Import Base Clite EllAst AsmAst.
Local Open Scope string_scope.
Local Open Scope Z_scope.

(** src/homogenize.cpp:26-47 *)
Definition ast_calc_ctan_lin : fdef := mkFun ["this"]
 (block [(SMalloc "sig_1" TDbl (EI 6));
 (SMalloc "eps_1" TDbl (EI 6));
 (SSet "d_eps" (EDec 1 8));
 (SFor "i" (EI 0) (EBin Lt (EV "i") (EFld (EV "this") "nvoi")) (block [(SFor "v" (EI 0) (EBin Lt (EV "v") (EFld (EV "this") "nvoi")) (SStore (EV "eps_1") (EV "v") (EDbl (EI 0))));
 (SStore (EV "eps_1") (EV "i") (EBin Add (EIdx (EV "eps_1") (EV "i")) (EV "d_eps")));
 (SMalloc "nr_its" TInt (EI 1));
 (SMalloc "nl_flag" TInt (EI 1));
 (SMalloc "nr_err" TDbl (EI 1));
 (SCall "set_displ" [(EV "this"); (EV "eps_1")]);
 (SCall "newton_raphson" [(EV "this"); (EV "nl_flag"); (EV "nr_its"); (EV "nr_err")]);
 (SCall "calc_ave_stress" [(EV "this"); (EV "sig_1")]);
 (SFor "v" (EI 0) (EBin Lt (EV "v") (EFld (EV "this") "nvoi")) (SStore (EFld (EV "this") "ctan_lin") (EBin Add (EBin Mul (EV "v") (EFld (EV "this") "nvoi")) (EV "i")) (EBin Div (EIdx (EV "sig_1") (EV "v")) (EV "d_eps"))))]))]).

(** src/homogenize.cpp:49-63 *)
Definition ast_is_linear : fdef := mkFun ["this"; "macro_strain"]
 (block [(SMalloc "macro_stress" TDbl (EI 6));
 (SFor "i" (EI 0) (EBin Lt (EV "i") (EFld (EV "this") "nvoi")) (block [(SStore (EV "macro_stress") (EV "i") (EDbl (EI 0)));
 (SFor "j" (EI 0) (EBin Lt (EV "j") (EFld (EV "this") "nvoi")) (SStore (EV "macro_stress") (EV "i") (EBin Add (EIdx (EV "macro_stress") (EV "i")) (EBin Mul (EIdx (EFld (EV "this") "ctan_lin") (EBin Add (EBin Mul (EV "i") (EFld (EV "this") "nvoi")) (EV "j"))) (EIdx (EV "macro_strain") (EV "j"))))))]));
 (SCallR "inv" "get_inv_1" [(EV "this"); (EV "macro_stress")]);
 (SIf (EBin Gt (EFabs (EV "inv")) (EFld (EV "this") "inv_max")) (SFld (EV "this") "inv_max" (EFabs (EV "inv"))) SSkip);
 (SIf (EBin Lt (EFabs (EV "inv")) (EFld (EV "this") "inv_tol")) (SRet (EI 1)) (SRet (EI 0)))]).

(** src/homogenize.cpp:65-75 *)
Definition ast_get_inv_1 : fdef := mkFun ["this"; "tensor"]
 (block [(SIf (EOr (EBin Eq (EFld (EV "this") "dim") (EI 2)) (EBin Eq (EFld (EV "this") "dim") (EI 3))) SSkip (SSet "assert" (EBin Div (EI 1) (EI 0))));
 (SIf (EBin Eq (EFld (EV "this") "dim") (EI 2)) (SRet (EBin Add (EIdx (EV "tensor") (EI 0)) (EIdx (EV "tensor") (EI 1)))) (SIf (EBin Eq (EFld (EV "this") "dim") (EI 3)) (SRet (EBin Add (EBin Add (EIdx (EV "tensor") (EI 0)) (EIdx (EV "tensor") (EI 1))) (EIdx (EV "tensor") (EI 2)))) SSkip));
 (SRet (EBin Div (EDbl (EI 0)) (EDbl (EI 0))))]).

(** src/homogenize.cpp:77-88 *)
Definition ast_get_inv_2 : fdef := mkFun ["this"; "tensor"]
 (block [(SIf (EBin Eq (EFld (EV "this") "dim") (EI 3)) (SRet (EBin Add (EBin Add (EBin Add (EBin Add (EBin Add (EBin Mul (EIdx (EV "tensor") (EI 0)) (EIdx (EV "tensor") (EI 1))) (EBin Mul (EIdx (EV "tensor") (EI 0)) (EIdx (EV "tensor") (EI 2)))) (EBin Mul (EIdx (EV "tensor") (EI 1)) (EIdx (EV "tensor") (EI 2)))) (EBin Mul (EIdx (EV "tensor") (EI 3)) (EIdx (EV "tensor") (EI 3)))) (EBin Mul (EIdx (EV "tensor") (EI 4)) (EIdx (EV "tensor") (EI 4)))) (EBin Mul (EIdx (EV "tensor") (EI 5)) (EIdx (EV "tensor") (EI 5))))) SSkip);
 (SRet (EBin Div (EDbl (EI 0)) (EDbl (EI 0))))]).

(** the functions by name, with those of assembly.cpp, solve.cpp and ell.cpp *)
Definition hom_prog (f : string) : option fdef :=
  if String.eqb f "calc_ctan_lin" then Some ast_calc_ctan_lin else
  if String.eqb f "is_linear" then Some ast_is_linear else
  if String.eqb f "get_inv_1" then Some ast_get_inv_1 else
  if String.eqb f "get_inv_2" then Some ast_get_inv_2 else
  asm_prog f.
