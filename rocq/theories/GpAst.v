(** Syntax trees of the bodies of the loops over the Gauss points of /repo/src/homogenize.cpp (the
    cited lines), in the language of Clite.v.  Generated by tools/gen_ast_gp.py from the source
    text; do not edit. *)
From Coq Require Import String.
From Verif Require Import Base Clite EllAst AsmAst HomAst.
Local Open Scope string_scope.
Local Open Scope Z_scope.

(** src/homogenize.cpp:134-208, the body of the loop *)
Definition ast_homogenize_gp : fdef := mkFun ["this"; "gp"]
 (block [(SIf (EBin Eq (EFld (EV "gp") "int_vars_n") ENull) (SFor "i" (EI 0) (EBin Lt (EV "i") (EFld (EV "this") "num_int_vars")) (SStore (EFld (EV "this") "vars_old") (EV "i") (EDbl (EI 0)))) (SFor "i" (EI 0) (EBin Lt (EV "i") (EFld (EV "this") "num_int_vars")) (SStore (EFld (EV "this") "vars_old") (EV "i") (EIdx (EFld (EV "gp") "int_vars_n") (EV "i")))));
 (SFld (EV "this") "inv_max" (ENeg (EDbl (EI 10000000000))));
 (SCallR "ret" "is_linear" [(EV "this"); (EFld (EV "gp") "macro_strain")]);
 (SIf (EAnd (EBin Eq (EV "ret") (EI 1)) (EBin Eq (EFld (EV "gp") "int_vars_n") ENull)) (block [(SFor "i" (EI 0) (EBin Lt (EV "i") (EFld (EV "this") "nvoi")) (block [(SStore (EFld (EV "gp") "macro_stress") (EV "i") (EDbl (EI 0)));
 (SFor "j" (EI 0) (EBin Lt (EV "j") (EFld (EV "this") "nvoi")) (SStore (EFld (EV "gp") "macro_stress") (EV "i") (EBin Add (EIdx (EFld (EV "gp") "macro_stress") (EV "i")) (EBin Mul (EIdx (EFld (EV "this") "ctan_lin") (EBin Add (EBin Mul (EV "i") (EFld (EV "this") "nvoi")) (EV "j"))) (EIdx (EFld (EV "gp") "macro_strain") (EV "j"))))))]));
 (SFor "i" (EI 0) (EBin Lt (EV "i") (EFld (EV "this") "nvoi")) (SFor "j" (EI 0) (EBin Lt (EV "j") (EFld (EV "this") "nvoi")) (SStore (EFld (EV "gp") "macro_ctan") (EBin Add (EBin Mul (EV "i") (EFld (EV "this") "nvoi")) (EV "j")) (EIdx (EFld (EV "this") "ctan_lin") (EBin Add (EBin Mul (EV "i") (EFld (EV "this") "nvoi")) (EV "j"))))));
 (SFor "i" (EI 0) (EBin Lt (EV "i") (EBin Add (EI 1) (EFld (EV "this") "nvoi"))) (block [(SStore (EFld (EV "gp") "nr_its") (EV "i") (EI 0));
 (SStore (EFld (EV "gp") "nr_err") (EV "i") (EDbl (EI 0)))]))]) (block [(SMalloc "nr_its" TInt (EI 1));
 (SMalloc "nl_flag" TInt (EI 1));
 (SMalloc "nr_err" TDbl (EI 1));
 (SCall "set_displ" [(EV "this"); (EFld (EV "gp") "macro_strain")]);
 (SCall "newton_raphson" [(EV "this"); (EV "nl_flag"); (EV "nr_its"); (EV "nr_err")]);
 (SCall "calc_ave_stress" [(EV "this"); (EFld (EV "gp") "macro_stress")]);
 (SIf (EBin Eq (EIdx (EV "nl_flag") (EI 0)) (EI 1)) (block [(SIf (EBin Eq (EFld (EV "gp") "int_vars_n") ENull) (block [(SMalloc "new_int_vars_k" TDbl (EFld (EV "this") "num_int_vars"));
 (SFld (EV "gp") "int_vars_k" (EV "new_int_vars_k"));
 (SMalloc "new_int_vars_n" TDbl (EFld (EV "this") "num_int_vars"));
 (SFld (EV "gp") "int_vars_n" (EV "new_int_vars_n"));
 (SFor "i" (EI 0) (EBin Lt (EV "i") (EFld (EV "this") "num_int_vars")) (SStore (EFld (EV "gp") "int_vars_n") (EV "i") (EDbl (EI 0))))]) SSkip);
 (SFor "i" (EI 0) (EBin Lt (EV "i") (EFld (EV "this") "num_int_vars")) (SStore (EFld (EV "gp") "int_vars_k") (EV "i") (EIdx (EFld (EV "this") "vars_new") (EV "i"))))]) SSkip);
 (SStore (EFld (EV "gp") "nr_its") (EI 0) (EIdx (EV "nr_its") (EI 0)));
 (SStore (EFld (EV "gp") "nr_err") (EI 0) (EIdx (EV "nr_err") (EI 0)));
 (SMalloc "eps_1" TDbl (EI 6));
 (SMalloc "sig_0" TDbl (EI 6));
 (SMalloc "sig_1" TDbl (EI 6));
 (SSet "dEps" (EDec 1 8));
 (SFor "v" (EI 0) (EBin Lt (EV "v") (EFld (EV "this") "nvoi")) (SStore (EV "sig_0") (EV "v") (EIdx (EFld (EV "gp") "macro_stress") (EV "v"))));
 (SFor "i" (EI 0) (EBin Lt (EV "i") (EFld (EV "this") "nvoi")) (block [(SFor "v" (EI 0) (EBin Lt (EV "v") (EFld (EV "this") "nvoi")) (SStore (EV "eps_1") (EV "v") (EIdx (EFld (EV "gp") "macro_strain") (EV "v"))));
 (SStore (EV "eps_1") (EV "i") (EBin Add (EIdx (EV "eps_1") (EV "i")) (EV "dEps")));
 (SCall "set_displ" [(EV "this"); (EV "eps_1")]);
 (SCall "newton_raphson" [(EV "this"); (EV "nl_flag"); (EV "nr_its"); (EV "nr_err")]);
 (SCall "calc_ave_stress" [(EV "this"); (EV "sig_1")]);
 (SFor "v" (EI 0) (EBin Lt (EV "v") (EFld (EV "this") "nvoi")) (SStore (EFld (EV "gp") "macro_ctan") (EBin Add (EBin Mul (EV "v") (EFld (EV "this") "nvoi")) (EV "i")) (EBin Div (EBin Sub (EIdx (EV "sig_1") (EV "v")) (EIdx (EV "sig_0") (EV "v"))) (EV "dEps"))));
 (SStore (EFld (EV "gp") "nr_its") (EBin Add (EI 1) (EV "i")) (EIdx (EV "nr_its") (EI 0)));
 (SStore (EFld (EV "gp") "nr_err") (EBin Add (EI 1) (EV "i")) (EIdx (EV "nr_err") (EI 0)))]))]));
 (SFld (EV "gp") "inv_max" (EFld (EV "this") "inv_max"))]).

(** src/homogenize.cpp:214-216, the body of the loop *)
Definition ast_update_gp : fdef := mkFun ["this"; "gp"]
 (SIf (EBin Ne (EFld (EV "gp") "int_vars_n") ENull) (SFor "i" (EI 0) (EBin Lt (EV "i") (EFld (EV "this") "num_int_vars")) (SStore (EFld (EV "gp") "int_vars_n") (EV "i") (EIdx (EFld (EV "gp") "int_vars_k") (EV "i")))) SSkip).

(** the functions by name, with those they call *)
Definition gp_prog (f : string) : option fdef :=
  if String.eqb f "homogenize_gp" then Some ast_homogenize_gp else
  if String.eqb f "update_gp" then Some ast_update_gp else
  hom_prog f.
